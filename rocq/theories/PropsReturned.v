(** * What the programs return (C95). *)
From Coq Require Import String.
From Verif Require Export Returned ManagerFacts.
From Verif Require Import BytesFacts Inv Scenario.
Import ListNotations.
Local Open Scope Z_scope.

(** What the interface declares: ts/idl/3_0_0/json/example_native_token_transfers.json:213, 911; ntt_transceiver.json:9. *)
Inductive rtype := RString | RBool.
Definition declared (g : gcall) : option rtype := match g with GVersion | GTransceiverType => Some RString | GMark => Some RBool | _ => None end.
Inductive rval := Text (b : bytes) | Flag (r : bool).
(** How a caller reads return data of a declared type. *)
Definition understood (t : rtype) (b : bytes) : option rval :=
  match t with RString => option_map Text (string_of b) | RBool => option_map Flag (bool_of b) end.

Lemma string_of_borsh b : Z.of_nat (List.length b) <= u32_max -> string_of (borsh_string b) = Some b.
Proof.
  intros L. unfold string_of, borsh_string.
  rewrite (rbind_step _ _ _ _ _ (le_u_app 4 (Z.of_nat (List.length b)) b ltac:(rewrite pow256_4; unfold u32_max in L; lia))).
  rewrite <- (app_nil_r b) at 2. rewrite (take_app (Z.to_nat (Z.of_nat (List.length b))) b [] (eq_sym (Nat2Z.id _))). reflexivity.
Qed.

(** A function returns something exactly when the interface declares it, of the declared type. *)
Theorem C95_declared : forall g r,
  match declared g, returned g r with
  | Some t, Some b => exists v, understood t b = Some v /\
      match g with GVersion => v = Text (str "3.0.0") | GTransceiverType => v = Text (str "wormhole") | _ => v = Flag r end
  | None, None => True
  | _, _ => False
  end.
Proof.
  intros g r. destruct g; cbn [declared returned]; try exact I; cbn [understood].
  - rewrite string_of_borsh by (vm_compute; discriminate). eexists. split; reflexivity.
  - exists (Flag r). split; [|reflexivity]. destruct r; reflexivity.
  - rewrite string_of_borsh by (vm_compute; discriminate). eexists. split; reflexivity.
Qed.
Print Assumptions C95_declared.

(** What marking returns: yes exactly when the item is now marked for the transceiver, which it was not before; otherwise nothing has changed, because it
    is not yet time. *)
Theorem C95_mark : forall s sg sn cfg item tr s' b, mark_outbox_item_as_released s sg sn cfg item tr = Ok (s', b) ->
  exists o rt, st_accts s item = Some (Acct PManager (DOutboxItem o)) /\ st_accts s tr = Some (Acct PManager (DReg rt)) /\
    bm_get (ob_released o) (rt_id rt) = Ok false /\
    if b then ob_release o <= st_now s /\ exists o', st_accts s' item = Some (Acct PManager (DOutboxItem o')) /\ bm_set (ob_released o) (rt_id rt) true = Ok (ob_released o') /\
                (forall a, a <> item -> st_accts s' a = st_accts s a)
    else st_now s < ob_release o /\ forall a, st_accts s' a = st_accts s a.
Proof.
  intros s sg sn cfg item tr s' b E. apply mark_ok in E. destruct E as (c & o & rt & p & F & _ & _ & _ & B). destruct F as [_ _ Hi Ht Hs _].
  exists o, rt. split; [exact Hi|]. split; [exact Ht|]. split; [exact Hs|].
  destruct B as [(-> & T & ->)|(-> & T & r & R & ->)].
  - split; [exact T|]. intros a. cbn. unfold upd. destruct (addr_eqb a item) eqn:Q; [|reflexivity]. apply addr_eqb_eq in Q. subst a. symmetry. exact Hi.
  - split; [exact T|]. exists (set_sent o r). split; [apply get_put_same|]. split; [exact R|].
    intros a N. cbn. unfold upd. destruct (addr_eqb a item) eqn:Q; [|reflexivity]. apply addr_eqb_eq in Q. subst a. contradiction.
Qed.
Print Assumptions C95_mark.

(** The client chooses the interface that describes these programs. *)
Theorem C95_version : forall r b, returned GVersion r = Some b -> c_idl b = Some (str "3.0.0").
Proof. intros r b E. cbn [returned] in E. injection E as <-. vm_compute. reflexivity. Qed.
Print Assumptions C95_version.

(** It does so for every version of the generations 1, 2 and 3, and for no other text: digits, a dot, digits, a dot, anything; the number before the first dot decides. *)
Definition numeral (l : bytes) : Z := fold_left (fun a b => 10 * a + (Z_of_byte b - 48)) l 0.
Definition is_numeral (l : bytes) : Prop := l <> [] /\ Forall (fun b => In b (str "0123456789")) l.
Definition dot : byte := x2e.
Lemma digit_iff b : is_digit b = true <-> In b (str "0123456789").
Proof.
  split.
  - intros D. destruct b; try (vm_compute in D; discriminate D); vm_compute; tauto.
  - intros I. vm_compute in I. repeat (destruct I as [<-|I]; [reflexivity|]). destruct I.
Qed.
Definition horner (acc : Z) (l : bytes) : Z := fold_left (fun a b => 10 * a + (Z_of_byte b - 48)) l acc.
Lemma digits_iff acc m b z r : digits acc m b = Some (z, r) <-> exists l, b = l ++ r /\ Forall (fun b => is_digit b = true) l /\ (m = true \/ l <> []) /\
  (match r with [] => True | c :: _ => is_digit c = false end) /\ z = horner acc l.
Proof.
  revert acc m. induction b as [|c b IH]; intros acc m; cbn [digits].
  - split.
    + destruct m; [|discriminate]. intros E. injection E as <- <-. exists []. auto.
    + intros (l & E & _ & M & _ & ->). symmetry in E. apply app_eq_nil in E as (-> & ->). destruct M as [->|[]]; reflexivity.
  - destruct (is_digit c) eqn:D.
    + rewrite IH. split; intros (l & E & F & M & R & Z).
      * exists (c :: l). subst b. split; [reflexivity|]. split; [constructor; assumption|]. split; [right; discriminate|]. split; [exact R|exact Z].
      * destruct l as [|c' l]; [cbn in E; subst r; congruence|]. injection E as <- E. inversion F; subst. exists l. auto.
    + split.
      * destruct m; [|discriminate]. intros E. injection E as <- <-. exists []. repeat split; auto.
      * intros (l & E & F & M & R & Z). destruct l as [|c' l]; [|injection E as <- _; inversion F; congruence]. cbn in E. subst r. destruct M as [->|[]]; [|reflexivity]. cbn in Z. subst z. reflexivity.
Qed.
Lemma numeral_iff l : is_numeral l <-> l <> [] /\ Forall (fun b => is_digit b = true) l.
Proof. unfold is_numeral. split; intros (A & B); (split; [exact A|]); (eapply Forall_impl; [|exact B]); intros b; apply digit_iff. Qed.
Lemma version_iff v a b : parse_version v = Some (a, b) <-> exists ds ms rest, v = ds ++ [dot] ++ ms ++ [dot] ++ rest /\ is_numeral ds /\ is_numeral ms /\ a = numeral ds /\ b = numeral ms.
Proof.
  unfold parse_version. split.
  - destruct (digits 0 false v) as [[ma r]|] eqn:E1; [|discriminate]. apply digits_iff in E1 as (ds & -> & F1 & M1 & _ & ->). destruct M1 as [|M1]; [discriminate|].
    destruct r as [|c r]; [discriminate|]. destruct c; try discriminate. destruct (digits 0 false r) as [[mi r2]|] eqn:E2; [|discriminate]. apply digits_iff in E2 as (ms & -> & F2 & M2 & _ & ->). destruct M2 as [|M2]; [discriminate|].
    destruct r2 as [|c r2]; [discriminate|]. destruct c; try discriminate. intros E. injection E as <- <-. exists ds, ms, r2. split; [reflexivity|]. split; [apply numeral_iff; auto|]. split; [apply numeral_iff; auto|]. split; reflexivity.
  - intros (ds & ms & rest & -> & N1 & N2 & -> & ->). apply numeral_iff in N1 as (M1 & F1). apply numeral_iff in N2 as (M2 & F2).
    assert (E1 : digits 0 false (ds ++ [dot] ++ ms ++ [dot] ++ rest) = Some (numeral ds, dot :: ms ++ [dot] ++ rest)) by (apply digits_iff; exists ds; repeat split; auto).
    assert (E2 : digits 0 false (ms ++ [dot] ++ rest) = Some (numeral ms, dot :: rest)) by (apply digits_iff; exists ms; repeat split; auto).
    rewrite E1. unfold dot. unfold dot in E2. rewrite E2. reflexivity.
Qed.
Lemma numeral_pos l : is_numeral l -> 0 <= numeral l.
Proof.
  intros (_ & F). unfold numeral. assert (G : forall l acc, Forall (fun b => In b (str "0123456789")) l -> 0 <= acc -> 0 <= fold_left (fun a b => 10 * a + (Z_of_byte b - 48)) l acc).
  { clear. induction l as [|b l IH]; intros acc F A; cbn [fold_left]; [exact A|]. inversion F; subst. apply IH; [assumption|]. apply digit_iff in H1. unfold is_digit in H1. apply andb_prop in H1 as [Q _]. apply Z.leb_le in Q. lia. }
  apply G; [exact F|lia].
Qed.
Theorem C95_generation : forall v w, choose IdlVersions v = Some w <->
  exists ds ms rest, v = ds ++ [dot] ++ ms ++ [dot] ++ rest /\ is_numeral ds /\ is_numeral ms /\
    (numeral ds = 1 /\ w = str "1.0.0" \/ numeral ds = 2 /\ w = str "2.0.0" \/ numeral ds = 3 /\ w = str "3.0.0").
Proof.
  intros v w. unfold IdlVersions. cbn [choose]. unfold abi_matches.
  change (parse_version (str "3.0.0")) with (Some (3, 0)). change (parse_version (str "2.0.0")) with (Some (2, 0)). change (parse_version (str "1.0.0")) with (Some (1, 0)).
  split.
  - destruct (parse_version v) as [[a b]|] eqn:P; [|discriminate]. apply version_iff in P as (ds & ms & rest & -> & N1 & N2 & -> & ->). intros E. exists ds, ms, rest. split; [reflexivity|]. split; [exact N1|]. split; [exact N2|].
    destruct (numeral ds =? 3) eqn:G3; [apply Z.eqb_eq in G3|]; [|destruct (numeral ds =? 2) eqn:G2; [apply Z.eqb_eq in G2|]; [|destruct (numeral ds =? 1) eqn:G1; [apply Z.eqb_eq in G1|]]];
      rewrite ?G3, ?G2, ?G1 in E; cbn [Z.eqb Pos.eqb andb] in E; destruct (0 <=? numeral ms); try discriminate E; injection E as <-; auto.
  - intros (ds & ms & rest & -> & N1 & N2 & G). rewrite (proj2 (version_iff _ (numeral ds) (numeral ms))) by (exists ds, ms, rest; auto).
    rewrite (proj2 (Z.leb_le 0 (numeral ms)) (numeral_pos ms N2)). destruct G as [(G & ->)|[(G & ->)|(G & ->)]]; rewrite G; reflexivity.
Qed.
Print Assumptions C95_generation.

Example C95_case :
  returned GVersion false = Some [x05; x00; x00; x00; x33; x2e; x30; x2e; x30]%byte /\ returned GMark true = Some [x01] /\ bool_of [x02] = None /\
  choose IdlVersions (str "3.12.1-rc") = Some (str "3.0.0") /\ choose IdlVersions (str "4.0.0") = None /\ choose IdlVersions (str "3.0") = None /\
  choose IdlVersions (str "03.0.x") = Some (str "3.0.0") /\ choose IdlVersions (str "3.a.0") = None.
Proof. repeat split; vm_compute; reflexivity. Qed.

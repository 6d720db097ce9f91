(** * From the bytes of a transaction to the new state (C109). *)
From Coq Require Import String.
From Verif Require Export SubmitFacts.
From Verif Require Import BytesFacts UpkeepFacts Scenario PropsEntry PropsTx PropsLut PropsCompress.
From Verif Require Import Submit.
Import ListNotations.
Local Open Scope Z_scope.
Local Open Scope list_scope.

(** Whatever packets arrive, the states are those of all other properties. *)
Theorem C109_reachable : forall ed hn nm H s l s', reachable H s -> chain ed hn nm H s l s' -> reachable H s'.
Proof. intros ed hn nm H s l s'. apply chain_reachable. Qed.
Print Assumptions C109_reachable.

(** All that happens is a history of calls. Apart from the clock each belongs to a packet, and every signature the call was made with is, checked over the bytes of that packet,
    in the packet, or is a third-party program's own. *)
Theorem C109_history : forall ed hn nm H s l s', chain ed hn nm H s l s' -> exists tr, run H s tr s' /\
  forall e, In e tr -> (exists t, e_call e = Call [] (EClock t)) \/
    exists b, In b l /\ (forall t, ins (e_call e) <> EClock t) /\ forall a, In a (signers (e_call e)) -> agreed ed hn b a \/ third_party a.
Proof. intros ed hn nm H s l s' C. destruct (chain_history _ _ _ _ _ _ _ C) as (tr & R & F). exists tr. split; [exact R|]. exact (proj1 (Forall_forall _ _) F). Qed.
Print Assumptions C109_history.

(** No packets but those signed by the owner or the named successor change any setting. *)
Theorem C109_settings : forall ed hn nm H s l s' a c, reachable H s -> config_at s a c -> chain ed hn nm H s l s' ->
  (forall o, o = cf_owner c \/ cf_pending c = Some o -> ~ third_party o /\ forall b, In b l -> ~ agreed ed hn b o) ->
  forall x, settings (st_accts s' x) = settings (st_accts s x).
Proof.
  intros ed hn nm H s l s' a c Hr Hc C A. destruct (chain_history _ _ _ _ _ _ _ C) as (tr & R & F). apply (quiet_settings H s tr s' a c Hr R Hc). eapply Forall_impl; [|exact F].
  assert (Q : forall e o, (exists t, e_call e = Call [] (EClock t)) \/ (exists b, In b l /\ backed ed hn b (e_call e)) -> o = cf_owner c \/ cf_pending c = Some o -> ~ In o (signers (e_call e))).
  { intros e o X Ho Hin. destruct (A o Ho) as (N & Ag). destruct X as [(t & E)|(b & Hb & _ & B)]; [rewrite E in Hin; exact Hin|]. destruct (B o Hin) as [Y|Y]; [exact (Ag b Hb Y)|exact (N Y)]. }
  intros e X. split; [|intros n Hn]; apply (Q e _ X); auto.
Qed.
Print Assumptions C109_settings.

(** No packets but those signed by the owner of a token account without delegate lessen what is in it, or change its owner, its mint or its delegate. *)
Theorem C109_tokens : forall ed hn nm H s l s' a t, reachable H s -> chain ed hn nm H s l s' -> private a -> st_toks s a = Some t -> tk_delegate t = None ->
  ~ third_party (tk_owner t) -> (forall b, In b l -> ~ agreed ed hn b (tk_owner t)) ->
  exists t', st_toks s' a = Some t' /\ tk_owner t' = tk_owner t /\ tk_delegate t' = None /\ tk_mint t' = tk_mint t /\ tk_amount t <= tk_amount t'.
Proof.
  intros ed hn nm H s l s' a t Hr C P Ea D N Ag. destruct (chain_history _ _ _ _ _ _ _ C) as (tr & R & F). apply (quiet_tokens H s tr s' a t Hr R P Ea D). eapply Forall_impl; [|exact F].
  intros e [(x & E)|(b & Hb & _ & B)] Hin; [rewrite E in Hin; exact Hin|]. destruct (B _ Hin) as [Y|Y]; [exact (Ag b Hb Y)|exact (N Y)].
Qed.
Print Assumptions C109_tokens.

(** No packets but those signed by the upgrade authority set a deployed program up. *)
Theorem C109_deployment : forall ed hn nm H s l s' d, reachable H s -> chain ed hn nm H s l s' -> (forall a c, ~ config_at s a c) -> st_uauth s = Some d ->
  ~ third_party d -> (forall b, In b l -> ~ agreed ed hn b d) -> (forall a c, ~ config_at s' a c) /\ st_uauth s' = Some d.
Proof.
  intros ed hn nm H s l s' d Hr C Hn Hu N Ag. destruct (chain_history _ _ _ _ _ _ _ C) as (tr & R & F). apply (quiet_deployment H s tr s' d Hr R Hn Hu). eapply Forall_impl; [|exact F].
  intros e [(x & E)|(b & Hb & _ & B)] Hin; [rewrite E in Hin; exact Hin|]. destruct (B _ Hin) as [Y|Y]; [exact (Ag b Hb Y)|exact (N Y)].
Qed.
Print Assumptions C109_deployment.

(** The library's transfers and redemptions of C97, C101 and C107: if the accounts it names are known by their keys, and every key signs the bytes of the message, then the packet
    is accepted and run to the state that [submit] says. *)
Definition known (hn : bytes -> handle) (key : handle -> bytes) (payer : addr) (items : list tx_item) (tables : list (handle * list handle)) : Prop :=
  forall k, In k (keys_of (HA payer) (map to_cix items) ++ map fst tables) -> hn (key k) = k.
Theorem C109_transfer : forall ed hn key nm H hl l0 cs l c tp sender amount ch to q item x items hash oks s', l_reachable H l0 -> l_run H l0 cs l ->
  cf_paused c = false -> cf_token_program c = AProg tp -> can_sign sender = true -> can_sign item = true -> (forall p, sender <> AProg p) -> is_ntt_prog x = true -> is32 to ->
  client_transfer nm H sender amount ch to q item c x = Some items -> known hn key sender items (luts hl l0) -> (forall k, List.length (key k) = 32%nat) -> List.length hash = 32%nat ->
  List.length oks = List.length items -> submit nm H sender (l_world l) (combine items oks) = Ok s' ->
  exists g, pack sender items (luts hl l0) = Some g /\ forall sigs, List.length sigs = mg_signatures g -> Forall (fun s => List.length s = 64%nat) sigs ->
    (forall m k sig, w_message hash true (render key g) = Some m -> In (k, sig) (combine (map key (mg_static g)) sigs) -> ed k m sig = true) ->
    exists b, serialize (Tx sigs hash true (render key g)) = Some b /\ lands ed hn nm H (fun k => option_map (map key) (tables_in hl l (hn k))) b (l_world l) s'.
Proof.
  intros ed hn key nm H hl l0 cs l c tp sender amount ch to q item x items hash oks s' R0 Rn P T C1 C2 NP X T32 CT Kn K32 H32 Lo E.
  destruct (transfer_packed nm H hl l0 cs l c tp sender amount ch to q item x items R0 Rn P T C1 C2 NP X T32 CT) as (g & Pk & Sz & Sd). exists g. split; [exact Pk|]. intros sigs N S64 Acc.
  assert (Fs : map fst (combine items oks) = items) by (apply combine_fst; auto).
  apply (library_lands ed hn nm H key hl l sender (combine items oks) (luts hl l0)); rewrite ?Fs; try assumption.
  - exact (proj1 (luts_later H hl l0 cs l R0 Rn)).
  - exact (transfer_apart nm H c tp sender amount ch to q item x items T NP CT).
  - intros m Em k sig. exact (Acc m k sig Em).
  - rewrite (Sd oks Lo). exact E.
Qed.
Print Assumptions C109_transfer.
Theorem C109_redeem : forall ed hn key nm H hl l0 cs l c tp payer vaa ch msg x items hash oks s', l_reachable H l0 -> l_run H l0 cs l ->
  cf_paused c = false -> cf_token_program c = AProg tp -> can_sign payer = true -> (forall p, payer <> AProg p) -> is_ntt_prog x = true ->
  client_redeem H payer vaa ch msg c x = Some items -> known hn key payer items (luts hl l0) -> (forall k, List.length (key k) = 32%nat) -> List.length hash = 32%nat ->
  List.length oks = List.length items -> submit nm H payer (l_world l) (combine items oks) = Ok s' ->
  exists g, pack payer items (luts hl l0) = Some g /\ forall sigs, List.length sigs = mg_signatures g -> Forall (fun s => List.length s = 64%nat) sigs ->
    (forall m k sig, w_message hash true (render key g) = Some m -> In (k, sig) (combine (map key (mg_static g)) sigs) -> ed k m sig = true) ->
    exists b, serialize (Tx sigs hash true (render key g)) = Some b /\ lands ed hn nm H (fun k => option_map (map key) (tables_in hl l (hn k))) b (l_world l) s'.
Proof.
  intros ed hn key nm H hl l0 cs l c tp payer vaa ch msg x items hash oks s' R0 Rn P T C1 NP X CT Kn K32 H32 Lo E.
  destruct (redeem_packed nm H hl l0 cs l c tp payer vaa ch msg x items R0 Rn P T C1 NP X CT) as (g & Pk & Sz & Sd). exists g. split; [exact Pk|]. intros sigs N S64 Acc.
  assert (Fs : map fst (combine items oks) = items) by (apply combine_fst; auto).
  apply (library_lands ed hn nm H key hl l payer (combine items oks) (luts hl l0)); rewrite ?Fs; try assumption.
  - exact (proj1 (luts_later H hl l0 cs l R0 Rn)).
  - exact (redeem_apart H payer vaa ch msg c x items NP CT).
  - intros m Em k sig. exact (Acc m k sig Em).
  - rewrite (Sd oks Lo). exact E.
Qed.
Print Assumptions C109_redeem.

(** ** A case: the owner pauses the worked deployment *)

(** Packets of instructions of our programs alone, run. *)
Fixpoint run_ours (hn : bytes -> handle) (nm : bytes -> addr) (H : hashes) (l : list (cix bytes)) (s : state) : option state :=
  match l with
  | [] => Some s
  | x :: l => match program_at hn (cx_program x) with
              | Some p => match entry nm true H s p (metas_in hn x) (cx_data x) with Ok s1 => run_ours hn nm H l s1 | Err _ => None end
              | None => None
              end
  end.
Definition land_ours (ed : bytes -> bytes -> bytes -> bool) (hn : bytes -> handle) (nm : bytes -> addr) (H : hashes) (b : bytes) (s : state) : option state :=
  match receive b with
  | Some t => if genuine ed t then match Compress.load bytes_dec (tx_message t) (fun _ => None) with Some (_, l) => run_ours hn nm H l s | None => None end else None
  | None => None
  end.
Lemma land_ours_lands ed hn nm H b s s' : land_ours ed hn nm H b s = Some s' -> lands ed hn nm H (fun _ => None) b s s'.
Proof.
  unfold land_ours. destruct (receive b) as [t|] eqn:R; [|discriminate]. destruct (genuine ed t) eqn:G; [|discriminate].
  destruct (Compress.load bytes_dec (tx_message t) (fun _ => None)) as [(p & l)|] eqn:L; [|discriminate]. intros E. exists t, p, l. repeat split; try assumption.
  clear R G L. revert s E. induction l as [|x l IH]; cbn [run_ours]; intros s E; [injection E as ->; constructor|].
  destruct (program_at hn (cx_program x)) as [q|] eqn:Q; [|discriminate]. destruct (entry nm true H s q (metas_in hn x) (cx_data x)) as [s1|] eqn:E1; [|discriminate].
  econstructor; [eapply ix_ours; eassumption|exact (IH _ E)].
Qed.

(** A stand-in for ed25519: the signature is the key and the first half of the message. *)
Definition toy (k m sig : bytes) : bool := if bytes_dec sig (k ++ firstn 32 m) then true else false.
Definition k32 (n : nat) : bytes := repeat (b8 n) 32.
Definition names (b : bytes) : handle :=
  if bytes_dec b (k32 1) then HA DEPLOYER else if bytes_dec b (k32 2) then HA USER else if bytes_dec b (k32 3) then HA pda_config else if bytes_dec b (k32 4) then HA (AProg PManager) else HOther 9.
Definition pause_ix (who : bytes) : cix bytes := Cix (k32 4) [Account who true false; Account (k32 3) false true] (ftag "set_paused" ++ [b8 1]).
Definition pause_packet (payer who by_ : bytes) : bytes :=
  match Compress.compile bytes_dec payer [pause_ix who] [] with
  | Some g => match w_message (k32 99) true g with
              | Some m => match serialize (Tx (map (fun k => (if bytes_dec k who then by_ else k) ++ firstn 32 m) (firstn (mg_signatures g) (mg_static g))) (k32 99) true g) with Some b => b | None => [] end
              | None => [] end
  | None => []
  end.
Definition paused_after (b : bytes) : option bool := option_map (fun s => cf_paused (config_of s)) (land_ours toy names nm0 H0 b (at_ Locking 5)).
(** The owner's packet lands, its own or paid for by another; not with another's signature in place of theirs, nor with another's name in place of theirs. *)
Example C109_case :
  map paused_after [pause_packet (k32 1) (k32 1) (k32 1); pause_packet (k32 2) (k32 1) (k32 1); pause_packet (k32 2) (k32 1) (k32 2); pause_packet (k32 2) (k32 2) (k32 2)]
  = [Some true; Some true; None; None] /\
  cf_paused (config_of (at_ Locking 5)) = false /\ List.length (pause_packet (k32 2) (k32 1) (k32 1)) = 310%nat.
Proof. vm_compute. repeat split. Qed.
Example C109_landed : exists s', lands toy names nm0 H0 (fun _ => None) (pause_packet (k32 2) (k32 1) (k32 1)) (at_ Locking 5) s' /\ cf_paused (config_of s') = true.
Proof.
  assert (E : paused_after (pause_packet (k32 2) (k32 1) (k32 1)) = Some true) by exact (f_equal (fun l => nth 1 l None) (proj1 C109_case)).
  unfold paused_after in E. destruct (land_ours toy names nm0 H0 (pause_packet (k32 2) (k32 1) (k32 1)) (at_ Locking 5)) as [s'|] eqn:L; [|discriminate].
  exists s'. split; [exact (land_ours_lands _ _ _ _ _ _ _ L)|]. cbn [option_map] in E. congruence.
Qed.

(** Keys for the accounts of the worked deployment's transfer, with its table: each is known. *)
Definition needed : list handle := keys_of (HA USER) (map to_cix (the_transfer Locking PManager)) ++ map fst (luts name_key l_with).
Definition accounts : list handle := Eval vm_compute in nodup handle_eq_dec needed.
Fixpoint place (k : handle) (l : list handle) : nat := match l with [] => 0 | x :: l => if handle_eq_dec k x then 0%nat else S (place k l) end.
Definition keyed_by (k : handle) : bytes := k32 (place k accounts).
Definition account_of (b : bytes) : handle := match b with x :: _ => nth (Z.to_nat (Z_of_byte x)) accounts (HOther 9) | [] => HOther 9 end.
Example C109_known : known account_of keyed_by USER (the_transfer Locking PManager) (luts name_key l_with) /\ List.length accounts = 24%nat.
Proof.
  split; [|vm_compute; reflexivity]. intros k Hk.
  assert (A : forallb (fun k => handle_eqb (account_of (keyed_by k)) k) needed = true) by (vm_compute; reflexivity).
  pose proof (proj1 (forallb_forall _ _) A k Hk) as Q. cbv beta in Q. unfold handle_eqb in Q. destruct (handle_eq_dec (account_of (keyed_by k)) k) as [E|]; [exact E|discriminate].
Qed.

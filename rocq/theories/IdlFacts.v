(** * Proofs about the published interface (C75). *)
From Coq Require Import String.
From Verif Require Export SpecIdl EntryFacts.
From Verif Require Import ChainFacts Lut DispatchFacts.
Import ListNotations.
Local Open Scope Z_scope.
Local Open Scope list_scope.
Local Strategy 1000 [sha256].

Lemma at_key_some ms n a : at_key ms n = Some a -> exists m, nth_error ms n = Some m /\ me_key m = HA a.
Proof. unfold at_key. destruct (nth_error ms n) as [m|]; [|discriminate]. destruct (me_key m) eqn:K; try discriminate. intros E. injection E as <-. eauto. Qed.
Lemma at_token_some ms n p : at_token_program ms n = Some p -> at_key ms n = Some (AProg p).
Proof.
  unfold at_token_program. destruct (at_key ms n) as [a|]; [|discriminate]. destruct a; try discriminate. destruct (is_token_prog _); [|discriminate]. congruence.
Qed.
Lemma passed_at p g ms k f a : at_key ms k = Some a -> nth_error (interface p g) k = Some f -> passed p g ms (fl_name f) (HA a).
Proof. intros A F. destruct (at_key_some _ _ _ A) as (m & M & K). exists k, f, m. auto. Qed.

Ltac here := match goal with
  | R : at_key ?ms ?k = Some ?a |- passed ?p ?g ?ms _ (HA ?a) => exact (passed_at p g ms k _ a R eq_refl) end.
Lemma instr_asked nm ok p q g ms i : prog_of p = Some q -> instr_of nm ok q g ms = Some i -> asked nm ok p g ms i.
Proof.
  intros P I. assert (Me : match q with PManager => p = AManager | PTransceiver => p = ATransceiver | _ => False end) by (destruct p; try discriminate P; injection P as <-; reflexivity).
  unfold instr_of in I. cbv zeta in I. destruct g; try discriminate I.
  all: repeat match type of I with (match ?r with _ => _ end) = Some _ => let R := fresh "R" in destruct r eqn:R; try discriminate I end.
  all: injection I as <-; repeat match goal with R : at_token_program _ _ = Some _ |- _ => apply at_token_some in R end.
  2: match goal with R : addr_eqb _ _ = true |- _ => apply addr_eqb_eq in R; subst end.
  all: cbv beta zeta delta [asked]; cbn [interface].
  all: repeat match goal with |- exists _, _ => eexists end; repeat split; try exact Me; try here; reflexivity.
Qed.

(** The privileges that the model demands are those of the interface. *)
Definition flags_of (n : need) := (ne_signer n, ne_writable n).
Definition flags_in (f : field) := (fl_signer f, fl_writable f).
Ltac call_cases I := unfold instr_of in I; cbv zeta in I;
  match type of I with (match ?g with _ => _ end) = _ => destruct g; try discriminate I end;
  repeat match type of I with (match ?r with _ => _ end) = Some _ => let R := fresh "R" in destruct r eqn:R; try discriminate I end;
  injection I as <-.
Ltac layout_cases Y := cbn [layout] in Y;
  repeat match type of Y with bind ?r _ = Ok _ => let R := fresh "R" in destruct r eqn:R; cbn [bind] in Y; [|discriminate Y] end;
  repeat match goal with p : (_ * _)%type |- _ => destruct p end;
  try match type of Y with (match ?d with _ => _ end) = Ok _ => destruct d as [ | | | | | | | | | | ? ? [?|] | | ]; try discriminate Y end;
  injection Y as <-.
Lemma layout_flags nm ok H s p q g ms i ns : prog_of p = Some q -> instr_of nm ok q g ms = Some i -> layout H s i = Ok ns ->
  map flags_of ns = map flags_in (interface p g).
Proof.
  intros P I Y. destruct p; try discriminate P; injection P as <-; call_cases I; layout_cases Y; reflexivity.
Qed.

Lemma meet_at ns : forall ms k n, meet ns ms = true -> nth_error ns k = Some n -> exists m, nth_error ms k = Some m /\ meets n m = true.
Proof.
  induction ns as [|n0 ns IH]; intros [|m ms] [|k] n M E; cbn [nth_error meet] in *; try discriminate; apply andb_prop in M; destruct M as [M1 M].
  - injection E as <-. eauto.
  - eapply IH; eassumption.
Qed.
Lemma flags_at ns fs k f : map flags_of ns = map flags_in fs -> nth_error fs k = Some f -> exists n, nth_error ns k = Some n /\ flags_of n = flags_in f.
Proof.
  intros E F. apply (map_nth_error flags_in) in F. rewrite <- E in F. revert k F. clear. induction ns as [|n ns IH]; intros [|k] F; cbn [map nth_error] in *; try discriminate F.
  - exists n. split; [reflexivity|]. congruence.
  - apply IH, F.
Qed.

Lemma constant_empty p g : constant g -> interface p g = [].
Proof. intros [->| ->]; reflexivity. Qed.

(** A call that succeeds is the one its data ask for. *)
Lemma entry_call nm ok H s p ms data s' g : entry nm ok H s p ms data = Ok s' -> dispatch p data = Some g ->
  (constant g /\ s' = s) \/
  exists q i ns, prog_of p = Some q /\ instr_of nm ok q g ms = Some i /\ layout H s i = Ok ns /\ meet ns ms = true /\ step H s (Call (signers_of ms) i) = Ok s' /\ ~ constant g.
Proof.
  intros E D. unfold entry in E. destruct (prog_of p) as [q|] eqn:P; cbn [ok_or bind] in E; [|discriminate E]. rewrite D in E. cbn [ok_or bind] in E.
  destruct (match g with GVersion | GTransceiverType => true | _ => false end) eqn:G.
  { left. unfold constant. destruct g; try discriminate G; injection E as <-; auto. }
  right. assert (E' : (let? i := ok_or (instr_of nm ok q g ms) Constraint in
    let? ns := layout H s i in let? _ := require (meet ns ms) Constraint in step H s (Call (signers_of ms) i)) = Ok s') by (destruct g; try discriminate G; exact E).
  clear E. destruct (instr_of nm ok q g ms) as [i|] eqn:I; cbn [ok_or bind] in E'; [|discriminate E'].
  destruct (layout H s i) as [ns|] eqn:Y; cbn [bind] in E'; [|discriminate E']. destruct (meet ns ms) eqn:M; cbn [require bind] in E'; [|discriminate E'].
  exists q, i, ns. repeat (split; [first [reflexivity | exact I | exact Y | exact M | exact E']|]). intros [->| ->]; discriminate G.
Qed.

Theorem entry_meaning nm ok H s p ms data s' : entry nm ok H s p ms data = Ok s' ->
  exists g, offered p g /\ wf_call g /\ data_of g data /\
    (constant g /\ s' = s \/ exists i sg, asked nm ok p g ms i /\ (forall a, In a sg <-> given_signer ms a) /\ step H s (Call sg i) = Ok s').
Proof.
  intros E. assert (D : exists g, dispatch p data = Some g).
  { unfold entry in E. destruct (prog_of p); cbn [ok_or bind] in E; [|discriminate E]. destruct (dispatch p data) as [g|]; cbn [ok_or bind] in E; [eauto|discriminate E]. }
  destruct D as [g D]. exists g. pose proof D as D'. apply dispatch_exact in D'. destruct D' as (O & Wf & Da). split; [exact O|]. split; [exact Wf|]. split; [exact Da|].
  destruct (entry_call _ _ _ _ _ _ _ _ _ E D) as [C|(q & i & ns & P & I & Y & M & S & _)]; [left; exact C|]. right.
  exists i, (signers_of ms). split; [eapply instr_asked; eassumption|]. split; [intros a; apply signers_of_in|exact S].
Qed.

Theorem entry_privileges nm ok H s p ms data s' g k f : entry nm ok H s p ms data = Ok s' -> offered p g -> wf_call g -> data_of g data ->
  nth_error (interface p g) k = Some f ->
  exists m, nth_error ms k = Some m /\ (fl_signer f = true -> me_signer m = true) /\ (fl_writable f = true -> me_writable m = true).
Proof.
  intros E O Wf Da F. assert (D : dispatch p data = Some g) by (apply dispatch_exact; auto).
  destruct (entry_call _ _ _ _ _ _ _ _ _ E D) as [[C _]|(q & i & ns & P & I & Y & M & S & _)].
  { rewrite (constant_empty p g C) in F. destruct k; discriminate F. }
  destruct (flags_at _ _ _ _ (layout_flags _ _ _ _ _ _ _ _ _ _ P I Y) F) as (n & N & Fl). unfold flags_of, flags_in in Fl. injection Fl as F1 F2.
  destruct (meet_at _ _ _ _ M N) as (m & Mm & E'). apply meets_spec in E'. destruct E' as (_ & S1 & W1). exists m. rewrite <- F1, <- F2. auto.
Qed.

(** Accounts with a fixed address. *)
Lemma layout_fixed nm ok H s p q g ms i ns : prog_of p = Some q -> instr_of nm ok q g ms = Some i -> layout H s i = Ok ns ->
  Forall2 (fun f n => Forall (fun x => String.eqb (fst x) (fl_name f) = true -> ne_key n = Some (snd x)) (fixed q)) (interface p g) ns.
Proof.
  intros P I Y. destruct p; try discriminate P; injection P as <-; call_cases I; layout_cases Y.
  all: cbn [interface app wormhole_accounts]; repeat (apply Forall2_cons; [unfold fixed; repeat (apply Forall_cons; [cbn [fst snd fl_name]; intros Q; first [discriminate Q|reflexivity]|]); apply Forall_nil|]); apply Forall2_nil.
Qed.
Lemma Forall2_at {A B} (R : A -> B -> Prop) l l' k x : Forall2 R l l' -> nth_error l k = Some x -> exists y, nth_error l' k = Some y /\ R x y.
Proof. intros F. revert k. induction F as [|a b l l' Rab F IH]; intros [|k] E; cbn [nth_error] in *; try discriminate E; [injection E as <-; eauto|apply IH, E]. Qed.
Theorem entry_fixed nm ok H s p q ms data s' g n h h' : entry nm ok H s p ms data = Ok s' -> offered p g -> wf_call g -> data_of g data -> prog_of p = Some q ->
  passed p g ms n h -> In (n, h') (fixed q) -> h = h'.
Proof.
  intros E O Wf Da P (k & f & m & F & <- & Mk & <-) X. assert (D : dispatch p data = Some g) by (apply dispatch_exact; auto).
  destruct (entry_call _ _ _ _ _ _ _ _ _ E D) as [[C _]|(q' & i & ns & P' & I & Y & M & S & _)].
  { rewrite (constant_empty p g C) in F. destruct k; discriminate F. }
  assert (q' = q) by congruence. subst q'.
  destruct (Forall2_at _ _ _ _ _ (layout_fixed _ _ _ _ _ _ _ _ _ _ P I Y) F) as (d & N & Fx). rewrite Forall_forall in Fx. specialize (Fx _ X). cbn [fst snd] in Fx.
  rewrite String.eqb_refl in Fx. specialize (Fx eq_refl). destruct (meet_at _ _ _ _ M N) as (m' & Mm & E'). assert (m' = m) by congruence. subst m'.
  apply meets_spec in E'. destruct E' as (K & _). apply K, Fx.
Qed.

(** The privileges of the interface are enough. *)
Lemma least_at fs : forall ms k, (k < List.length fs)%nat -> at_key (least fs ms) k = at_key ms k.
Proof.
  unfold at_key. induction fs as [|f fs IH]; intros ms k L; cbn [List.length] in L; [lia|]. destruct ms as [|m ms]; cbn [least]; [reflexivity|].
  destruct k as [|k]; cbn [nth_error]; [reflexivity|]. apply IH. lia.
Qed.
Lemma least_instr nm ok p q g ms : prog_of p = Some q -> ~ constant g -> instr_of nm ok q g (least (interface p g) ms) = instr_of nm ok q g ms.
Proof.
  intros P C. unfold instr_of, at_token_program. cbv zeta. destruct p; try discriminate P; destruct g; try reflexivity;
  try (exfalso; apply C; unfold constant; auto; fail); rewrite !least_at by (cbn [interface app List.length]; lia); reflexivity.
Qed.
Lemma least_meet : forall ns fs ms, map flags_of ns = map flags_in fs -> meet ns ms = true -> meet ns (least fs ms) = true.
Proof.
  induction ns as [|n ns IH]; intros [|f fs] [|m ms] F M; cbn [map meet least] in *; try discriminate; try reflexivity.
  injection F as F1 F2 F. apply andb_prop in M. destruct M as [M1 M]. rewrite (IH fs ms F M), andb_true_r. unfold meets in *. cbn [me_key me_signer me_writable].
  rewrite !andb_true_iff in M1. destruct M1 as [[K _] _]. rewrite K, F1, F2. destruct (fl_signer f), (fl_writable f); reflexivity.
Qed.
Lemma least_signers : forall ns fs ms a, map flags_of ns = map flags_in fs -> meet ns ms = true -> given_signer (least fs ms) a -> given_signer ms a.
Proof.
  induction ns as [|n ns IH]; intros [|f fs] [|m ms] a F M (x & I & K & S); cbn [map meet least In] in *; try discriminate; try contradiction.
  injection F as F1 F2 F. apply andb_prop in M. destruct M as [M1 M]. destruct I as [<-|I].
  - cbn [me_key me_signer] in K, S. exists m. split; [left; reflexivity|]. split; [exact K|]. apply meets_spec in M1. apply M1. congruence.
  - destruct (IH fs ms a F M) as (y & Y1 & Y2); [exists x; auto|]. exists y. cbn [In]. auto.
Qed.
Theorem entry_least nm ok H s p ms data s' g : entry nm ok H s p ms data = Ok s' -> offered p g -> wf_call g -> data_of g data ->
  entry nm ok H s p (least (interface p g) ms) data = Ok s'.
Proof.
  intros E O Wf Da. assert (D : dispatch p data = Some g) by (apply dispatch_exact; auto).
  destruct (entry_call _ _ _ _ _ _ _ _ _ E D) as [[C ->]|(q & i & ns & P & I & Y & M & S & C)].
  { unfold entry in *. destruct (prog_of p); cbn [ok_or bind] in *; [|discriminate E]. rewrite D. cbn [ok_or bind]. destruct C as [->| ->]; reflexivity. }
  pose proof (layout_flags _ _ _ _ _ _ _ _ _ _ P I Y) as F.
  assert (E' : (let? i := ok_or (instr_of nm ok q g (least (interface p g) ms)) Constraint in
    let? ns := layout H s i in let? _ := require (meet ns (least (interface p g) ms)) Constraint in step H s (Call (signers_of (least (interface p g) ms)) i)) = Ok s').
  { rewrite (least_instr _ _ _ _ _ _ P C), I. cbn [ok_or bind]. rewrite Y. cbn [bind]. rewrite (least_meet _ _ _ F M). cbn [require bind].
    unfold step in *. cbn [signers ins] in *. destruct (forallb can_sign (signers_of ms) && typed i) eqn:G; cbn [require bind] in S; [|discriminate S].
    apply andb_prop in G. destruct G as [G T].
    replace (forallb can_sign (signers_of (least (interface p g) ms))) with true.
    2: { symmetry. apply forallb_forall. intros a Ha. rewrite forallb_forall in G. apply G, signers_of_in. eapply least_signers; [exact F|exact M|apply signers_of_in, Ha]. }
    rewrite T. cbn [andb require bind]. rewrite <- S. eapply sig_exec; [exact Y|]. intros n a In_ Sn Kn.
    rewrite (demanded_signed _ _ _ _ M In_ Sn Kn), (demanded_signed _ _ _ _ (least_meet _ _ _ F M) In_ Sn Kn). reflexivity. }
  unfold entry. rewrite P. cbn [ok_or bind]. rewrite D. cbn [ok_or bind]. unfold constant in C. destruct g; try (exfalso; apply C; auto; fail); exact E'.
Qed.

(** No name stands twice in an interface, so a name stands for one account. *)
Lemma names_distinct p g : NoDup (map fl_name (interface p g)).
Proof.
  assert (X : forall l : list string, (fix d l := match l with [] => true | x :: l => negb (existsb (String.eqb x) l) && d l end) l = true -> NoDup l).
  { induction l as [|x l IH]; intros E; [constructor|]. apply andb_prop in E. destruct E as [E1 E2]. constructor; [|apply IH, E2].
    intros I. apply negb_true_iff in E1. rewrite <- not_true_iff_false in E1. apply E1, existsb_exists. exists x. split; [exact I|apply String.eqb_refl]. }
  apply X. destruct g; try reflexivity; destruct p; reflexivity.
Qed.
Lemma passed_here p g ms n h k f : passed p g ms n h -> nth_error (interface p g) k = Some f -> fl_name f = n -> exists m, nth_error ms k = Some m /\ me_key m = h.
Proof.
  intros (k' & f' & m & F & N & M & K) F' N'. assert (k' = k); [|subst; eauto].
  pose proof (names_distinct p g) as D. rewrite NoDup_nth_error in D. apply D.
  - rewrite map_length. apply nth_error_Some. congruence.
  - rewrite (map_nth_error fl_name k' _ F), (map_nth_error fl_name k _ F'). congruence.
Qed.
Theorem passed_once p g ms n h h' : passed p g ms n h -> passed p g ms n h' -> h = h'.
Proof. intros A (k & f & m & F & N & M & K). destruct (passed_here _ _ _ _ _ _ _ A F N) as (m' & M' & K'). congruence. Qed.

(** The account that acts for the sender. *)
Theorem entry_session nm ok H s p ms data s' g a ch to q f h : entry nm ok H s p ms data = Ok s' -> g = GTransferLock a ch to q \/ g = GTransferBurn a ch to q ->
  offered p g -> wf_call g -> data_of g data -> passed p g ms "common.from" (HA f) -> passed p g ms "sessionAuthority" h ->
  exists t, st_toks s f = Some t /\ h = HA (pda_session (tk_owner t) (h_args H (TransferArgs a ch (nm to) q))).
Proof.
  intros E G O Wf Da A B. assert (D : dispatch p data = Some g) by (apply dispatch_exact; auto).
  destruct (entry_call _ _ _ _ _ _ _ _ _ E D) as [[C _]|(q0 & i & ns & P & I & Y & M & S & _)]; [destruct G as [->| ->]; destruct C; discriminate|].
  assert (X : exists m m', nth_error ms 3 = Some m /\ me_key m = HA f /\ nth_error ms 11 = Some m' /\ me_key m' = h).
  { destruct G as [->| ->]; destruct (passed_here _ _ _ _ _ 3 _ A eq_refl eq_refl) as (m & ? & ?), (passed_here _ _ _ _ _ 11 _ B eq_refl eq_refl) as (m' & ? & ?); eauto 8. }
  destruct X as (m & m' & M3 & K3 & M11 & K11). assert (A3 : at_key ms 3 = Some f) by (unfold at_key; rewrite M3, K3; reflexivity).
  assert (L : exists c, layout H s i = (let? c := get_config s c in let? t := any_tok s f in layout H s i) /\
    forall t, any_tok s f = Ok t -> exists n, nth_error ns 11 = Some n /\ ne_key n = Some (HA (pda_session (tk_owner t) (h_args H (TransferArgs a ch (nm to) q))))).
  { destruct G as [->| ->]; cbn [instr_of] in I; repeat match type of I with (match ?r with _ => _ end) = Some _ => let R := fresh "R" in destruct r eqn:R; try discriminate I end;
    injection I as <-; assert (a1 = f) by congruence; subst a1; exists a0; cbn [layout xa_config xa_from ar_chain] in *;
    destruct (get_config s a0) as [c|]; cbn [bind] in *; try discriminate Y; destruct (any_tok s f) as [t|]; cbn [bind] in *; try discriminate Y;
    injection Y as <-; (split; [reflexivity|]); intros t0 Et; injection Et as <-; eexists; split; reflexivity. }
  destruct L as (c0 & L & N). rewrite Y in L. destruct (get_config s c0); cbn [bind] in L; [|discriminate L]. destruct (any_tok s f) as [t|] eqn:T; cbn [bind] in L; [|discriminate L].
  destruct (N t eq_refl) as (n & N11 & Kn). destruct (meet_at _ _ _ _ M N11) as (m2 & M2 & E2). apply meets_spec in E2. destruct E2 as (K & _). specialize (K _ Kn).
  exists t. unfold any_tok, ok_or in T. destruct (st_toks s f); [|discriminate T]. injection T as ->. split; [reflexivity|]. congruence.
Qed.

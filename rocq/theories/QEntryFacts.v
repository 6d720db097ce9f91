(** * Proofs about the quoter's entry point (C81) and published interface (C82). *)
From Coq Require Import String.
From Verif Require Import QuoterFacts QEffectFacts DispatchFacts.
From Verif Require EntryFacts.
From Verif Require Export SpecQEffect SpecQEntry.
Import ListNotations.
Local Open Scope Z_scope.
Local Open Scope list_scope.
Local Strategy 1000 [sha256].

(** ** Relating two runs. [L] are the accounts both may read, [W] those they may change. *)
Section Local.
  Context (I : qids) (L W : qaddr -> Prop) (WL : forall a, W a -> L a).

  Definition qagr (q t : qstate) : Prop := (forall a, L a -> q_same_at q t a) /\ (L (QExt (qd_data I)) -> q_uauth q = q_uauth t).
  Definition qfrm (q t : qstate) : Prop :=
    (forall a, ~ W a -> q_lamports q a = q_lamports t a /\ q_accts q a = q_accts t a) /\ q_world q = q_world t /\ q_uauth q = q_uauth t.
  Definition qrel (q t : qstate) (r u : result qstate) : Prop :=
    match r, u with
    | Ok q', Ok t' => qagr q' t' /\ qfrm q q' /\ qfrm t t'
    | Err e, Err e' => e = e'
    | _, _ => False
    end.

  Lemma qfrm_trans q t u : qfrm q t -> qfrm t u -> qfrm q u.
  Proof.
    intros (A & B & C) (A' & B' & C'). split; [|split; congruence]. intros a N. destruct (A a N), (A' a N). split; congruence.
  Qed.
  Lemma qrel_id q t : qagr q t -> qrel q t (Ok q) (Ok t).
  Proof. intros A. split; [exact A|]. split; repeat split. Qed.
  Lemma qrel_bind q t r u f g : qrel q t r u -> (forall q' t', qagr q' t' -> qrel q' t' (f q') (g t')) -> qrel q t (bind r f) (bind u g).
  Proof.
    destruct r as [q'|e], u as [t'|e']; cbn [qrel bind]; try contradiction; [|auto]. intros (A & F & F') K. specialize (K q' t' A).
    destruct (f q') as [q2|], (g t') as [t2|]; cbn [qrel] in *; try contradiction; [|assumption]. destruct K as (A2 & F2 & F2').
    split; [exact A2|]. split; eapply qfrm_trans; eassumption.
  Qed.
  Lemma qrel_pure {A} q t (r : result A) f g : (forall x, r = Ok x -> qrel q t (f x) (g x)) -> qrel q t (bind r f) (bind r g).
  Proof. destruct r; cbn [bind]; [auto|]. intros _. reflexivity. Qed.

  Lemma qa_inst q t a : qagr q t -> L a -> q_instance t a = q_instance q a. Proof. intros A La. unfold q_instance. destruct (proj1 A a La) as (_ & -> & _). reflexivity. Qed.
  Lemma qa_chain q t a : qagr q t -> L a -> q_chain t a = q_chain q a. Proof. intros A La. unfold q_chain. destruct (proj1 A a La) as (_ & -> & _). reflexivity. Qed.
  Lemma qa_ntt q t a : qagr q t -> L a -> q_ntt t a = q_ntt q a. Proof. intros A La. unfold q_ntt. destruct (proj1 A a La) as (_ & -> & _). reflexivity. Qed.
  Lemma qa_req q t a : qagr q t -> L a -> q_request t a = q_request q a. Proof. intros A La. unfold q_request. destruct (proj1 A a La) as (_ & -> & _). reflexivity. Qed.
  Lemma qa_lam q t a : qagr q t -> L a -> q_lamports t a = q_lamports q a. Proof. intros A La. symmetry. apply (proj1 A a La). Qed.
  Lemma qa_acct q t a : qagr q t -> L a -> q_accts t a = q_accts q a. Proof. intros A La. symmetry. apply (proj1 A a La). Qed.
  Lemma qa_view q t a : qagr q t -> L (QExt a) -> outbox_view (q_world t) a = outbox_view (q_world q) a.
  Proof. intros A La. unfold outbox_view. destruct (proj1 A _ La) as (_ & _ & E). rewrite (proj1 E). reflexivity. Qed.
  Lemma qa_auth q t sg i au : qagr q t -> L i -> authorized t sg i au = authorized q sg i au. Proof. intros A Li. unfold authorized. rewrite (qa_inst _ _ _ A Li). reflexivity. Qed.
  Lemma qa_owned q t sg i au : qagr q t -> L i -> owned t sg i au = owned q sg i au. Proof. intros A Li. unfold owned. rewrite (qa_inst _ _ _ A Li). reflexivity. Qed.

  Lemma qr_put q t a d : qagr q t -> W a -> qrel q t (Ok (q_put a d q)) (Ok (q_put a d t)).
  Proof.
    intros A Wa. split; [split|split]; [intros b Lb|apply A| |].
    - destruct (proj1 A b Lb) as (E1 & E2 & E3). unfold q_same_at. cbn. split; [exact E1|]. split; [|exact E3]. unfold qupd. destruct (qaddr_eqb b a); [reflexivity|exact E2].
    - split; [|split; reflexivity]. intros b N. cbn. split; [reflexivity|]. symmetry. apply qupd_other. congruence.
    - split; [|split; reflexivity]. intros b N. cbn. split; [reflexivity|]. symmetry. apply qupd_other. congruence.
  Qed.
  Lemma qr_set q t a x : qagr q t -> W a -> qrel q t (Ok (q_set a x q)) (Ok (q_set a x t)).
  Proof.
    intros A Wa. split; [split|split]; [intros b Lb|apply A| |].
    - destruct (proj1 A b Lb) as (E1 & E2 & E3). unfold q_same_at. cbn. split; [|split; assumption]. unfold qupd. destruct (qaddr_eqb b a); [reflexivity|exact E1].
    - split; [|split; reflexivity]. intros b N. cbn. split; [|reflexivity]. symmetry. apply qupd_other. congruence.
    - split; [|split; reflexivity]. intros b N. cbn. split; [|reflexivity]. symmetry. apply qupd_other. congruence.
  Qed.
  Lemma qrel_then q t q1 t1 r u : qrel q t (Ok q1) (Ok t1) -> (qagr q1 t1 -> qrel q1 t1 r u) -> qrel q t r u.
  Proof.
    intros R K. assert (X : qrel q t (bind (Ok q1) (fun _ => r)) (bind (Ok t1) (fun _ => u))); [|exact X].
    cbn [qrel] in R. destruct R as (A & F & F'). specialize (K A). cbn [bind]. destruct r, u; cbn [qrel] in *; try contradiction; [|assumption].
    destruct K as (A2 & F2 & F2'). split; [exact A2|]. split; eapply qfrm_trans; eassumption.
  Qed.
  Lemma qr_lamport q t a b x : qagr q t -> W a -> W b -> qrel q t (lamport_transfer q a b x) (lamport_transfer t a b x).
  Proof.
    intros A Wa Wb. unfold lamport_transfer. rewrite (qa_lam _ _ a A) by auto. apply qrel_pure. intros _ _. cbv zeta.
    eapply qrel_then; [apply (qr_set q t a (q_lamports q a - x) A Wa)|]. intros A1. rewrite (qa_lam _ _ b A1) by auto. apply qrel_pure. intros y _. apply qr_set; assumption.
  Qed.
  Lemma qr_init E q t p a n d : qagr q t -> W p -> W a -> qrel q t (q_init E q p a n d) (q_init E t p a n d).
  Proof.
    intros A Wp Wa. unfold q_init. rewrite (qa_acct _ _ a A) by auto. apply qrel_pure. intros _ _. rewrite (qa_lam _ _ a A) by auto.
    apply qrel_bind; [apply qr_lamport; assumption|]. intros q' t' A'. apply qr_put; assumption.
  Qed.
  Lemma qr_close q t a b : qagr q t -> W a -> W b -> qrel q t (q_close q a b) (q_close t a b).
  Proof.
    intros A Wa Wb. unfold q_close. apply qrel_pure. intros _ _. rewrite (qa_lam _ _ a A), (qa_lam _ _ b A) by auto. apply qrel_pure. intros y _.
    eapply qrel_then; [apply (qr_set q t b y A Wb)|]. intros A1. eapply qrel_then; [apply (qr_set _ _ a 0 A1 Wa)|]. intros A2. apply qr_put; assumption.
  Qed.

  Definition qneeds (n : qmeta) : Prop := L (qm_key n) /\ (qm_writable n = true -> W (qm_key n)).
  Lemma local_q_layout q t i ns : qagr q t -> q_layout I q i = Ok ns -> Forall qneeds ns -> q_layout I t i = Ok ns.
  Proof.
    intros A Y F. destruct i; try discriminate Y; try exact Y. cbn [q_layout] in *. destruct (outbox_view (q_world q) item) as [po|] eqn:V; cbn [bind] in Y; [|discriminate Y].
    assert (Ns := Y). injection Ns as <-. cbv beta zeta in F. assert (Li : L (QExt item)) by (do 4 apply Forall_inv_tail in F; apply Forall_inv in F; apply F).
    rewrite (qa_view _ _ _ A Li), V. exact Y.
  Qed.
  Ltac uncons F := repeat match type of F with Forall _ (_ :: _) => let N := fresh "N" in pose proof (Forall_inv F) as N; apply Forall_inv_tail in F; destruct N as [? N]; cbn [qm_key qm_writable] in *; try specialize (N eq_refl); try clear N end.
  Theorem local_q_exec E q t sg i ns : qagr q t -> q_layout I q i = Ok ns -> Forall qneeds ns -> qrel q t (q_exec E q sg i) (q_exec E t sg i).
  Proof.
    intros A Y F. destruct i; try discriminate Y; cbn [q_layout q_exec] in *.
    10: { destruct (outbox_view (q_world q) item) as [po|] eqn:V; cbn [bind] in Y; [|discriminate Y]. injection Y as <-.
      pose proof (Forall_inv F) as [P1 P2]. apply Forall_inv_tail in F. pose proof (Forall_inv F) as [P3 _]. apply Forall_inv_tail in F. pose proof (Forall_inv F) as [P4 _]. apply Forall_inv_tail in F.
      pose proof (Forall_inv F) as [P5 _]. apply Forall_inv_tail in F. pose proof (Forall_inv F) as [P6 _]. apply Forall_inv_tail in F. pose proof (Forall_inv F) as [P7 P8]. clear F.
      cbn [qm_key qm_writable] in *. specialize (P2 eq_refl). specialize (P8 eq_refl).
      unfold qi_request_relay. apply qrel_pure. intros _ _. rewrite (qa_inst _ _ _ A P3). apply qrel_pure. intros x _. apply qrel_pure. intros _ _.
      rewrite (qa_view _ _ _ A P6), V. cbn [bind]. rewrite (qa_ntt _ _ _ A P5). apply qrel_pure. intros n _. apply qrel_pure. intros r _. apply qrel_pure. intros _ _.
      rewrite (qa_chain _ _ _ A P4). apply qrel_pure. intros c _. apply qrel_pure. intros _ _. apply qrel_bind; [apply qr_init; assumption|].
      intros q1 t1 A1. apply qrel_pure. intros _ _. apply qrel_pure. intros fee _. cbv zeta. apply qrel_pure. intros tot _. apply qrel_pure. intros _ _.
      destruct (0 <? _); [|apply qr_put; assumption].
      eapply qrel_then; [apply (qr_put q1 t1 (QReq item) (Some (QDRequest (RelayRequest dropoff))) A1 P8)|]. intros A2. apply qr_lamport; assumption. }
    all: injection Y as <-; repeat match type of F with Forall _ (_ :: _) => let N := fresh "N" in let M := fresh "M" in pose proof (Forall_inv F) as [N M]; apply Forall_inv_tail in F; cbn [qm_key qm_writable] in N, M; try specialize (M eq_refl) end; clear F.
    - unfold qi_initialize. rewrite <- (proj2 A) by assumption. repeat (apply qrel_pure; intros _ _). apply qr_init; assumption.
    - unfold qi_set_fee_recipient. rewrite (qa_owned _ _ _ _ _ A N0). apply qrel_pure. intros x _. apply qrel_pure. intros _ _. apply qr_put; assumption.
    - unfold qi_set_assistant. rewrite (qa_owned _ _ _ _ _ A N0). apply qrel_pure. intros x _. apply qr_put; assumption.
    - unfold qi_register_chain. rewrite (qa_auth _ _ _ _ _ A N0). apply qrel_pure. intros x _. apply qr_init; assumption.
    - unfold qi_register_ntt. rewrite (qa_auth _ _ _ _ _ A N0). apply qrel_pure. intros x _. apply qr_init; assumption.
    - unfold qi_deregister_ntt. rewrite (qa_auth _ _ _ _ _ A N0). apply qrel_pure. intros x _. rewrite (qa_ntt _ _ _ A N1). apply qrel_pure. intros y _. apply qr_close; assumption.
    - unfold qi_update_sol_price. rewrite (qa_auth _ _ _ _ _ A N0). apply qrel_pure. intros x _. apply qrel_pure. intros _ _. apply qr_put; assumption.
    - unfold qi_update_chain_prices. rewrite (qa_auth _ _ _ _ _ A N0). apply qrel_pure. intros x _. rewrite (qa_chain _ _ _ A N1). apply qrel_pure. intros c _. apply qr_put; assumption.
    - unfold qi_update_chain_params. rewrite (qa_auth _ _ _ _ _ A N0). apply qrel_pure. intros x _. rewrite (qa_chain _ _ _ A N1). apply qrel_pure. intros c _. apply qr_put; assumption.
    - unfold qi_close_relay. rewrite (qa_auth _ _ _ _ _ A N0). apply qrel_pure. intros x _. apply qrel_pure. intros _ _. rewrite (qa_req _ _ _ A N2). apply qrel_pure. intros y _. apply qr_close; assumption.
  Qed.
End Local.

(** ** The entry point. *)
Lemma q_meets_spec n m : q_meets n m = true ->
  qm_key m = qm_key n /\ (qm_signer n = true -> qm_signer m = true) /\ (qm_writable n = true -> qm_writable m = true).
Proof.
  unfold q_meets. rewrite !andb_true_iff. intros [[K S] W]. apply qaddr_eqb_eq in K. split; [congruence|]. split; intros E; rewrite E in *; assumption.
Qed.
Lemma q_meet_at ns : forall ms k n, q_meet ns ms = true -> nth_error ns k = Some n -> exists m, nth_error ms k = Some m /\ q_meets n m = true.
Proof.
  induction ns as [|n0 ns IH]; intros [|m ms] [|k] n M E; cbn [nth_error q_meet] in *; try discriminate; apply andb_prop in M; destruct M as [M1 M].
  - injection E as <-. eauto.
  - eapply IH; eassumption.
Qed.
Lemma q_meet_in ns ms n : q_meet ns ms = true -> In n ns -> exists m, In m ms /\ q_meets n m = true.
Proof. intros M Hn. apply In_nth_error in Hn. destruct Hn as (k & Hk). destruct (q_meet_at _ _ _ _ M Hk) as (m & Hm & E). apply nth_error_In in Hm. eauto. Qed.
Lemma q_meet_needs ns ms : q_meet ns ms = true -> Forall (qneeds (q_given ms) (q_given_writable ms)) ns.
Proof.
  intros M. apply Forall_forall. intros n Hn. destruct (q_meet_in _ _ _ M Hn) as (m & Im & E). apply q_meets_spec in E. destruct E as (K & _ & W).
  split; [exists m; auto|]. intros Hw. exists m. auto.
Qed.
Lemma q_writable_given ms a : q_given_writable ms a -> q_given ms a.
Proof. intros (m & A & B & _). exists m. auto. Qed.

Lemma q_entry_inv I nm E q ms data q' : q_entry I nm E q ms data = Ok q' ->
  exists g i ns, dispatch AQuoter data = Some g /\ q_instr_of I nm g ms = Some i /\ q_layout I q i = Ok ns /\ q_meet ns ms = true /\ q_step E q (QCall (q_signers_of ms) i) = Ok q'.
Proof.
  unfold q_entry. destruct (dispatch AQuoter data) as [g|]; cbn [ok_or bind]; [|discriminate]. destruct (q_instr_of I nm g ms) as [i|] eqn:Hi; cbn [ok_or bind]; [|discriminate].
  destruct (q_layout I q i) as [ns|] eqn:Y; cbn [bind]; [|discriminate]. destruct (q_meet ns ms) eqn:M; cbn [require bind]; [|discriminate]. intros S. exists g, i, ns. auto.
Qed.
Lemma q_entry_of I nm E q ms data g i ns : dispatch AQuoter data = Some g -> q_instr_of I nm g ms = Some i -> q_layout I q i = Ok ns -> q_meet ns ms = true ->
  q_entry I nm E q ms data = q_step E q (QCall (q_signers_of ms) i).
Proof. intros D Hi Y M. unfold q_entry. rewrite D. cbn [ok_or bind]. rewrite Hi. cbn [ok_or bind]. rewrite Y. cbn [bind]. rewrite M. reflexivity. Qed.

Theorem q_entry_reads I nm E q t ms data q' : q_agree_on I ms q t -> q_entry I nm E q ms data = Ok q' ->
  exists t', q_entry I nm E t ms data = Ok t' /\ q_agree_on I ms q' t' /\ q_changes_within ms q q' /\ q_changes_within ms t t'.
Proof.
  intros A H. destruct (q_entry_inv _ _ _ _ _ _ _ H) as (g & i & ns & D & Hi & Y & M & S). pose proof (q_meet_needs _ _ M) as N.
  pose proof (local_q_layout I _ _ q t i ns A Y N) as Y'. rewrite (q_entry_of _ _ _ _ _ _ _ _ _ D Hi Y' M).
  apply q_step_inv in S. cbn [q_signers q_ins] in S. destruct S as (S1 & S2 & S3).
  rewrite q_step_of by assumption. pose proof (local_q_exec I _ _ (q_writable_given ms) E q t (q_signers_of ms) i ns A Y N) as R. rewrite S3 in R.
  destruct (q_exec E t (q_signers_of ms) i) as [t'|]; cbn [qrel] in R; [|contradiction]. exists t'. split; [reflexivity|]. exact R.
Qed.
Lemma q_agree_refl I ms q : q_agree_on I ms q q.
Proof. split; [|reflexivity]. intros a _. split; [reflexivity|]. split; [reflexivity|]. destruct a; try exact Logic.I. repeat split. Qed.
Theorem q_entry_writes I nm E q ms data q' : q_entry I nm E q ms data = Ok q' -> q_changes_within ms q q'.
Proof. intros H. destruct (q_entry_reads I nm E q q ms data q' (q_agree_refl I ms q) H) as (t' & _ & _ & C & _). exact C. Qed.

(** ** Signatures. *)
Lemma q_signers_of_in ms a : In a (q_signers_of ms) <-> q_given_signer ms a.
Proof.
  unfold q_signers_of, q_given_signer. rewrite in_flat_map. split; intros (m & Hm & H); exists m; split; auto.
  - destruct (qm_key m); try contradiction. destruct (qm_signer m); [|contradiction]. destruct H as [<-|[]]. auto.
  - destruct H as [-> ->]. cbn. auto.
Qed.
Lemma q_sig_exec I E q sg sg' i ns : q_layout I q i = Ok ns ->
  (forall n a, In n ns -> qm_signer n = true -> qm_key n = QExt a -> signed sg a = signed sg' a) -> q_exec E q sg i = q_exec E q sg' i.
Proof.
  intros Y K. destruct i; try discriminate Y; cbn [q_layout q_exec] in *.
  10: destruct (outbox_view (q_world q) item) as [po|] eqn:V; cbn [bind] in Y; [|discriminate Y].
  all: injection Y as <-; (let T := fresh in pose proof (fun a => K _ a (or_introl eq_refl) eq_refl) as T; cbn [qm_key] in T; specialize (T _ eq_refl); clear K).
  all: unfold qi_initialize, qi_set_fee_recipient, qi_set_assistant, qi_register_chain, qi_register_ntt, qi_deregister_ntt, qi_update_sol_price, qi_update_chain_prices,
       qi_update_chain_params, qi_request_relay, qi_close_relay, authorized, owned; rewrite H; reflexivity.
Qed.
(** An account that a successful instruction needs as signer has signed. *)
Lemma q_exec_signed I E q sg i q' ns n a : q_exec E q sg i = Ok q' -> q_layout I q i = Ok ns -> In n ns -> qm_signer n = true -> qm_key n = QExt a -> signed sg a = true.
Proof.
  intros X Y Hn S K. destruct i; try discriminate Y; cbn [q_layout q_exec] in *.
  10: destruct (outbox_view (q_world q) item) as [po|] eqn:V; cbn [bind] in Y; [|discriminate Y].
  all: injection Y as <-; cbn [In] in Hn; repeat match type of Hn with _ \/ _ => destruct Hn as [Hn|Hn] end; try contradiction; subst n; cbn [qm_signer qm_key] in S, K; try discriminate S; injection K as ->.
  all: destruct (signed sg a) eqn:Sa; [reflexivity|exfalso].
  all: unfold qi_initialize, qi_set_fee_recipient, qi_set_assistant, qi_register_chain, qi_register_ntt, qi_deregister_ntt, qi_update_sol_price, qi_update_chain_prices,
       qi_update_chain_params, qi_request_relay, qi_close_relay, authorized, owned in X; rewrite Sa in X; cbn [andb require bind] in X; try discriminate X.
  all: match type of X with context [q_instance ?y ?x] => destruct (q_instance y x); cbn [bind] in X; discriminate X end.
Qed.
Lemma q_fewer_at ms ms' : q_fewer_signers ms ms' -> forall n, q_key ms' n = q_key ms n.
Proof. unfold q_key. induction 1 as [|m m' ms ms' (K & _) F IH]; intros [|n]; cbn [nth_error option_map]; try reflexivity; [rewrite K; reflexivity|apply IH]. Qed.
Lemma q_fewer_instr I nm g ms ms' : q_fewer_signers ms ms' -> q_instr_of I nm g ms' = q_instr_of I nm g ms.
Proof. intros F. assert (A := q_fewer_at _ _ F). unfold q_instr_of, q_ext. destruct g; cbv zeta; rewrite ?A; reflexivity. Qed.
Lemma q_fewer_given ms ms' a : q_fewer_signers ms ms' -> q_given_signer ms' a -> q_given_signer ms a.
Proof.
  intros F (m' & Hm & K & S). revert Hm. induction F as [|m n ms ms' (K1 & _ & S1) F IH]; [intros []|]. intros [<-|Hm].
  - exists m. cbn. split; [auto|]. split; [congruence|]. auto.
  - destruct (IH Hm) as (x & X & X'). exists x. cbn. auto.
Qed.
Lemma q_demanded ns ms n a : q_meet ns ms = true -> In n ns -> qm_signer n = true -> qm_key n = QExt a -> signed (q_signers_of ms) a = true.
Proof.
  intros M Hn S K. destruct (q_meet_in _ _ _ M Hn) as (m & Im & H). apply q_meets_spec in H. destruct H as (K' & S' & _).
  apply EntryFacts.signed_in, q_signers_of_in. exists m. split; [exact Im|]. split; [congruence|auto].
Qed.
Theorem q_entry_signers I nm E q ms ms' data q' : q_fewer_signers ms ms' -> q_entry I nm E q ms data = Ok q' ->
  q_entry I nm E q ms' data = Ok q' \/ q_entry I nm E q ms' data = Err Constraint.
Proof.
  intros F H. destruct (q_entry_inv _ _ _ _ _ _ _ H) as (g & i & ns & D & Hi & Y & M & S).
  destruct (q_meet ns ms') eqn:M'.
  2: { right. unfold q_entry. rewrite D. cbn [ok_or bind]. rewrite (q_fewer_instr _ _ _ _ _ F), Hi. cbn [ok_or bind]. rewrite Y. cbn [bind]. rewrite M'. reflexivity. }
  left. rewrite (q_entry_of I nm E q ms' data g i ns); [|exact D|rewrite (q_fewer_instr _ _ _ _ _ F); exact Hi|exact Y|exact M'].
  apply q_step_inv in S. cbn [q_signers q_ins] in S. destruct S as (S1 & S2 & S3).
  rewrite q_step_of; [|apply forallb_forall; intros a Ha; rewrite forallb_forall in S1; apply S1, q_signers_of_in, (q_fewer_given _ _ _ F), q_signers_of_in, Ha|exact S2].
  rewrite <- S3. eapply q_sig_exec; [exact Y|]. intros n a Hn Sn Kn. rewrite (q_demanded _ _ _ _ M' Hn Sn Kn), (q_demanded _ _ _ _ M Hn Sn Kn). reflexivity.
Qed.

(** ** The instructions of Quoter.v and no others. *)
Lemma q_entry_callable I nm g ms i : q_instr_of I nm g ms = Some i -> q_callable I i.
Proof.
  intros Hi. unfold q_instr_of in Hi. cbv zeta in Hi. destruct g; try discriminate Hi;
  repeat match type of Hi with (match ?r with _ => _ end) = Some _ => let R := fresh "R" in destruct r eqn:R; try discriminate Hi end; injection Hi as <-; cbn [q_callable]; try exact Logic.I.
  match goal with |- (if ?b then _ else _) <> _ => destruct b eqn:B end; [discriminate|]. apply qaddr_eqb_neq in B. congruence.
Qed.
Theorem q_entry_step I nm E q ms data q' : q_entry I nm E q ms data = Ok q' ->
  exists i sg, q_callable I i /\ (forall a, In a sg <-> q_given_signer ms a) /\ q_step E q (QCall sg i) = Ok q'.
Proof.
  intros H. destruct (q_entry_inv _ _ _ _ _ _ _ H) as (g & i & ns & D & Hi & Y & M & S). exists i, (q_signers_of ms).
  split; [eapply q_entry_callable; exact Hi|]. split; [intros a; apply q_signers_of_in|exact S].
Qed.
Lemma q_meet_self ns : q_meet ns ns = true.
Proof.
  induction ns as [|n ns IH]; [reflexivity|]. cbn [q_meet]. rewrite IH, andb_true_r. unfold q_meets. rewrite (proj2 (qaddr_eqb_eq _ _) eq_refl).
  destruct (qm_signer n), (qm_writable n); reflexivity.
Qed.
Lemma q_typed_call I nm q i ns : q_named nm i -> q_callable I i -> q_typed i = true -> q_layout I q i = Ok ns ->
  exists g, offered AQuoter g /\ wf_call g /\ q_instr_of I nm g ns = Some i.
Proof.
  intros Nm C T Y. destruct i; cbn [q_callable] in C; try contradiction; cbn [q_layout] in Y.
  10: destruct (outbox_view (q_world q) item) as [po|] eqn:V; cbn [bind] in Y; [|discriminate Y].
  all: injection Y as <-; cbn [q_typed q_named] in *; rewrite ?andb_true_iff, ?fits_iff in T.
  - exists Dispatch.QInitialize. repeat split.
  - exists Dispatch.QSetFeeRecipient. repeat split.
  - exists Dispatch.QSetAssistant. split; [reflexivity|]. split; [exact Logic.I|]. cbn [q_instr_of q_ext q_key nth_error option_map qm_key]. cbv zeta. cbn [q_instr_of q_ext q_key nth_error option_map qm_key].
    destruct assistant as [a|]; [|rewrite (proj2 (qaddr_eqb_eq _ _) eq_refl); reflexivity]. rewrite (proj2 (qaddr_eqb_neq _ _)) by congruence. reflexivity.
  - exists (Dispatch.QRegisterChain chain). split; [reflexivity|]. split; [exact T|reflexivity].
  - destruct Nm as (b & B & <-). exists (Dispatch.QRegisterNtt b index gas_cost). split; [reflexivity|]. split; [split; [exact B|split; [exact (proj1 T)|unfold SpecDispatch.is_u32; ilia]]|reflexivity].
  - destruct Nm as (b & B & <-). exists (Dispatch.QDeregisterNtt b). split; [reflexivity|]. split; [exact B|reflexivity].
  - exists (Dispatch.QUpdateSolPrice price). split; [reflexivity|]. split; [exact T|reflexivity].
  - exists (Dispatch.QUpdateChainPrices native gas). split; [reflexivity|]. split; [exact T|reflexivity].
  - exists (Dispatch.QUpdateChainParams dropoff base). split; [reflexivity|]. split; [exact T|reflexivity].
  - exists (Dispatch.QRequestRelay dropoff max_fee). split; [reflexivity|]. split; [exact T|reflexivity].
  - exists Dispatch.QCloseRelay. repeat split.
Qed.
Lemma q_exec_layout I E q sg i q' : q_callable I i -> q_exec E q sg i = Ok q' -> exists ns, q_layout I q i = Ok ns.
Proof.
  intros C X. destruct i; cbn [q_callable] in C; try contradiction; cbn [q_layout q_exec] in *; try (eexists; reflexivity).
  apply relay_inv in X. destruct X as (x & p & o & n & c & q1 & fee & _ & _ & _ & V & _). unfold outbox_view. rewrite V. cbn [bind]. eexists. reflexivity.
Qed.
Theorem q_entry_complete I nm E q sg i q' : q_named nm i -> q_callable I i -> q_step E q (QCall sg i) = Ok q' ->
  exists ms data, q_entry I nm E q ms data = Ok q' /\ (forall a, q_given_signer ms a -> In a sg).
Proof.
  intros Nm C S. apply q_step_inv in S. cbn [q_signers q_ins] in S. destruct S as (S1 & S2 & S3).
  destruct (q_exec_layout I _ _ _ _ _ C S3) as (ns & Y). destruct (q_typed_call I nm q i ns Nm C S2 Y) as (g & O & Wf & Hi).
  assert (Sg : forall a, q_given_signer ns a -> In a sg) by (intros a (m & Im & K & Sm); apply EntryFacts.signed_in; eapply q_exec_signed; eassumption).
  exists ns, (ftag (name_of g) ++ args_of g ++ []). split; [|exact Sg].
  assert (D : dispatch AQuoter (ftag (name_of g) ++ args_of g ++ []) = Some g).
  { apply dispatch_exact. split; [exact O|]. split; [exact Wf|]. exists (ftag (name_of g)), []. split; [left; reflexivity|reflexivity]. }
  rewrite (q_entry_of I nm E q ns _ g i ns D Hi Y (q_meet_self ns)).
  rewrite q_step_of; [|apply forallb_forall; intros a Ha; rewrite forallb_forall in S1; apply S1, Sg, q_signers_of_in, Ha|exact S2].
  rewrite <- S3. eapply q_sig_exec; [exact Y|]. intros n a Hn Sn Kn. rewrite (q_exec_signed _ _ _ _ _ _ _ _ _ S3 Y Hn Sn Kn). eapply q_demanded; [apply q_meet_self|exact Hn|exact Sn|exact Kn].
Qed.

(** ** Order. *)
Lemma q_given_writable_dec ms a : q_given_writable ms a \/ ~ q_given_writable ms a.
Proof.
  induction ms as [|m ms [IH|IH]].
  - right. intros (m & [] & _).
  - left. destruct IH as (m' & A & B). exists m'. cbn; auto.
  - destruct (qaddr_eq_dec (qm_key m) a) as [E|E].
    + destruct (qm_writable m) eqn:Wm; [left; exists m; cbn; auto|]. right. intros (m' & [<-|A] & B & C); [congruence|]. apply IH. exists m'. auto.
    + right. intros (m' & [<-|A] & B & C); [congruence|]. apply IH. exists m'. auto.
Qed.
Lemma same_refl s : same s s. Proof. repeat split. Qed.
Lemma q_changes_agree I ms ms' q t : q_changes_within ms q t -> (forall a, q_given_writable ms a -> ~ q_given ms' a) -> q_agree_on I ms' q t /\ q_agree_on I ms' t q.
Proof.
  intros (A & W & U) D. split; (split; [|intros _; congruence]); intros a Ha; (destruct (A a) as [B C]; [intros Hw; exact (D _ Hw Ha)|]); unfold q_same_at; rewrite B, C, W; repeat split; destruct a; repeat split.
Qed.
Theorem q_independent_commute I nm E q ms ms' data data' q1 q2 : q_independent ms ms' ->
  q_entry I nm E q ms data = Ok q1 -> q_entry I nm E q1 ms' data' = Ok q2 ->
  exists t1 t2, q_entry I nm E q ms' data' = Ok t1 /\ q_entry I nm E t1 ms data = Ok t2 /\ q_same q2 t2.
Proof.
  intros [D D'] EA EB. pose proof (q_entry_writes _ _ _ _ _ _ _ EA) as WA.
  destruct (q_entry_reads _ _ _ _ _ _ _ _ (proj2 (q_changes_agree I ms ms' q q1 WA D)) EB) as (t1 & E1 & G1 & F1 & F1').
  destruct (q_entry_reads _ _ _ _ _ _ _ _ (proj1 (q_changes_agree I ms' ms q t1 F1' D')) EA) as (t2 & E2 & G2 & F2 & F2').
  exists t1, t2. split; [exact E1|]. split; [exact E2|]. destruct F1 as (S1 & W1 & U1), F1' as (S1' & W1' & U1'), F2 as (S2 & W2 & U2), F2' as (S2' & W2' & U2').
  split; [|split; [replace (q_world t2) with (q_world q2) by congruence; apply same_refl|congruence]].
  intros a. destruct (q_given_writable_dec ms a) as [Wa|Na].
  - assert (Nb : ~ q_given_writable ms' a) by (intros Hw; apply (D _ Wa), q_writable_given, Hw). destruct (S1 a Nb). destruct (proj1 G2 a (q_writable_given _ _ Wa)) as (? & ? & _). split; congruence.
  - destruct (q_given_writable_dec ms' a) as [Wb|Nb].
    + destruct (S2' a Na). destruct (proj1 G1 a (q_writable_given _ _ Wb)) as (? & ? & _). split; congruence.
    + destruct (S1 a Nb), (S2 a Na), (S1' a Nb), (S2' a Na). split; congruence.
Qed.

(** A call to the manager or the transceiver next to one to the quoter. *)
Theorem q_beside I nm nm' ok E q p ms data qms data' w1 q2 :
  (forall a, given_writable ms (HA a) -> ~ q_given qms (QExt a)) ->
  entry nm' ok (qe_hashes E) (q_world q) p ms data = Ok w1 ->
  q_entry I nm E (QState w1 (q_accts q) (q_lamports q) (q_uauth q)) qms data' = Ok q2 ->
  exists t1, q_entry I nm E q qms data' = Ok t1 /\ entry nm' ok (qe_hashes E) (q_world t1) p ms data = Ok (q_world q2) /\
    (forall a, q_given qms a -> q_lamports q2 a = q_lamports t1 a /\ q_accts q2 a = q_accts t1 a) /\
    (forall a, ~ q_given_writable qms a -> q_lamports q2 a = q_lamports t1 a /\ q_accts q2 a = q_accts t1 a) /\ q_uauth q2 = q_uauth t1.
Proof.
  intros D EM EQ. assert (A : q_agree_on I qms (QState w1 (q_accts q) (q_lamports q) (q_uauth q)) q).
  { split; [|reflexivity]. intros a Ha. split; [reflexivity|]. split; [reflexivity|]. destruct a as [| | | |b]; try exact Logic.I. cbn [q_world].
    apply EntryFacts.same_at_sym. apply (EntryFacts.entry_writes _ _ _ _ _ _ _ _ EM). intros Hw. exact (D _ Hw Ha). }
  destruct (q_entry_reads _ _ _ _ _ _ _ _ A EQ) as (t1 & E1 & G & (F & W & U) & (F' & W' & U')). cbn in F, W, U. exists t1. split; [exact E1|].
  split; [rewrite <- W', <- W; exact EM|]. split; [intros a Ha; destruct (proj1 G a Ha) as (? & ? & _); auto|].
  split; [intros a Na; destruct (F a Na), (F' a Na); split; congruence|congruence].
Qed.

(** ** The published interface. *)
Lemma q_key_some ms n a : q_key ms n = Some a -> exists m, nth_error ms n = Some m /\ qm_key m = a.
Proof. unfold q_key. destruct (nth_error ms n) as [m|]; [|discriminate]. intros H. injection H as <-. eauto. Qed.
Lemma q_ext_key ms n a : q_ext ms n = Some a -> q_key ms n = Some (QExt a).
Proof. unfold q_ext. destruct (q_key ms n) as [[]|]; try discriminate. congruence. Qed.
Lemma q_passed_at g ms k f a : q_key ms k = Some a -> nth_error (q_interface g) k = Some f -> q_passed g ms (qf_name f) a.
Proof. intros A F. destruct (q_key_some _ _ _ A) as (m & M & K). exists k, f, m. auto. Qed.
Ltac q_here := match goal with R : q_key ?ms ?k = Some ?a |- q_passed ?g ?ms _ ?a => exact (q_passed_at g ms k _ a R eq_refl) end.
Lemma q_instr_asked I nm g ms i : q_instr_of I nm g ms = Some i -> q_asked I nm g ms i.
Proof.
  intros H. unfold q_instr_of in H. cbv zeta in H. destruct g; try discriminate H.
  all: repeat match type of H with (match ?r with _ => _ end) = Some _ => let R := fresh "R" in destruct r eqn:R; try discriminate H end.
  all: injection H as <-; repeat match goal with R : q_ext _ _ = Some _ |- _ => apply q_ext_key in R end; cbv beta iota zeta delta [q_asked].
  4: { match goal with R : q_key _ 0 = Some (QExt ?o), R1 : q_key _ 1 = Some ?x, R2 : q_key _ 2 = Some ?a |- _ => exists o, x, a end.
       split; [q_here|]. split; [q_here|]. split; [q_here|]. match goal with |- context [qaddr_eqb ?x ?y] => destruct (qaddr_eqb x y) eqn:B end;
       [apply qaddr_eqb_eq in B; left; auto|apply qaddr_eqb_neq in B; right; auto]. }
  all: repeat match goal with |- exists _, _ => eexists end; repeat split; try q_here; reflexivity.
Qed.
Definition q_flags (n : qmeta) := (qm_signer n, qm_writable n).
Definition q_flags_in (f : q_field) := (qf_signer f, qf_writable f).
Ltac q_cases H Y := unfold q_instr_of in H; cbv zeta in H;
  match type of H with (match ?g with _ => _ end) = _ => destruct g; try discriminate H end;
  repeat match type of H with (match ?r with _ => _ end) = Some _ => let R := fresh "R" in destruct r eqn:R; try discriminate H end;
  injection H as <-; cbn [q_layout] in Y;
  repeat match type of Y with bind ?r _ = Ok _ => let R := fresh "R" in destruct r eqn:R; cbn [bind] in Y; [|discriminate Y] end; injection Y as <-.
Lemma q_layout_flags I nm q g ms i ns : q_instr_of I nm g ms = Some i -> q_layout I q i = Ok ns -> map q_flags ns = map q_flags_in (q_interface g).
Proof. intros H Y. q_cases H Y; reflexivity. Qed.
Lemma q_flags_at ns fs k f : map q_flags ns = map q_flags_in fs -> nth_error fs k = Some f -> exists n, nth_error ns k = Some n /\ q_flags n = q_flags_in f.
Proof.
  intros E F. apply (map_nth_error q_flags_in) in F. rewrite <- E in F. revert k F. clear. induction ns as [|n ns IH]; intros [|k] F; cbn [map nth_error] in *; try discriminate F.
  - exists n. split; [reflexivity|]. congruence.
  - apply IH, F.
Qed.
Lemma q_entry_call I nm E q ms data q' g : q_entry I nm E q ms data = Ok q' -> offered AQuoter g -> wf_call g -> data_of g data ->
  exists i ns, q_instr_of I nm g ms = Some i /\ q_layout I q i = Ok ns /\ q_meet ns ms = true /\ q_step E q (QCall (q_signers_of ms) i) = Ok q' /\ dispatch AQuoter data = Some g.
Proof.
  intros H O Wf Da. assert (D : dispatch AQuoter data = Some g) by (apply dispatch_exact; auto).
  destruct (q_entry_inv _ _ _ _ _ _ _ H) as (g' & i & ns & D' & Hi & Y & M & S). assert (g' = g) by congruence. subst g'. exists i, ns. auto.
Qed.

Theorem q_entry_meaning I nm E q ms data q' : q_entry I nm E q ms data = Ok q' ->
  exists g i sg, offered AQuoter g /\ wf_call g /\ data_of g data /\ q_asked I nm g ms i /\ (forall a, In a sg <-> q_given_signer ms a) /\ q_step E q (QCall sg i) = Ok q'.
Proof.
  intros H. destruct (q_entry_inv _ _ _ _ _ _ _ H) as (g & i & ns & D & Hi & Y & M & S). apply dispatch_exact in D. destruct D as (O & Wf & Da).
  exists g, i, (q_signers_of ms). split; [exact O|]. split; [exact Wf|]. split; [exact Da|]. split; [eapply q_instr_asked; exact Hi|]. split; [intros a; apply q_signers_of_in|exact S].
Qed.
Theorem q_entry_privileges I nm E q ms data q' g k f : q_entry I nm E q ms data = Ok q' -> offered AQuoter g -> wf_call g -> data_of g data ->
  nth_error (q_interface g) k = Some f ->
  exists m, nth_error ms k = Some m /\ (qf_signer f = true -> qm_signer m = true) /\ (qf_writable f = true -> qm_writable m = true).
Proof.
  intros H O Wf Da F. destruct (q_entry_call _ _ _ _ _ _ _ _ H O Wf Da) as (i & ns & Hi & Y & M & S & _).
  destruct (q_flags_at _ _ _ _ (q_layout_flags _ _ _ _ _ _ _ Hi Y) F) as (n & N & Fl). unfold q_flags, q_flags_in in Fl. injection Fl as F1 F2.
  destruct (q_meet_at _ _ _ _ M N) as (m & Mm & E'). apply q_meets_spec in E'. destruct E' as (_ & S1 & W1). exists m. rewrite <- F1, <- F2. auto.
Qed.
Theorem q_passed_once g ms n a a' : q_passed g ms n a -> q_passed g ms n a' -> a = a'.
Proof.
  intros (k & f & m & F & Nf & M & K) (k' & f' & m' & F' & Nf' & M' & K').
  assert (k = k'); [|subst k'; congruence].
  assert (ND : NoDup (map qf_name (q_interface g))) by (destruct g; cbn [q_interface map qf_name]; repeat constructor; cbn [In]; intuition discriminate).
  rewrite NoDup_nth_error in ND. apply ND.
  - apply nth_error_Some. rewrite (map_nth_error qf_name _ _ F). discriminate.
  - rewrite (map_nth_error qf_name _ _ F), (map_nth_error qf_name _ _ F'). congruence.
Qed.

(** The least call. *)
Lemma q_least_at fs : forall ms k f m, nth_error fs k = Some f -> nth_error ms k = Some m -> nth_error (q_least fs ms) k = Some (QMeta (qm_key m) (qf_signer f) (qf_writable f)).
Proof. induction fs as [|f0 fs IH]; intros [|m0 ms] [|k] f m F M; cbn [nth_error q_least] in *; try discriminate; [congruence|]. apply IH; assumption. Qed.
Lemma q_least_of ns : forall fs ms, map q_flags ns = map q_flags_in fs -> q_meet ns ms = true -> q_least fs ms = ns.
Proof.
  induction ns as [|n ns IH]; intros [|f fs] [|m ms] Fl M; cbn [map q_meet q_least] in *; try discriminate; try reflexivity.
  apply andb_prop in M. destruct M as [M1 M]. apply q_meets_spec in M1. destruct M1 as (K & _ & _). injection Fl as F1 F2 Fl. rewrite (IH _ _ Fl M), <- F1, <- F2, K. destruct n; reflexivity.
Qed.
Lemma q_layout_instr I nm q g ms i ns : q_instr_of I nm g ms = Some i -> q_layout I q i = Ok ns -> q_meet ns ms = true -> q_instr_of I nm g ns = Some i.
Proof.
  intros H Y M. q_cases H Y; try reflexivity. cbn [q_instr_of q_ext q_key nth_error option_map qm_key]. cbv zeta. cbn [q_instr_of q_ext q_key nth_error option_map qm_key].
  match goal with |- _ = Some (QSetAssistant _ _ (if ?b then _ else _)) => destruct b eqn:B end.
  - rewrite (proj2 (qaddr_eqb_eq _ _) eq_refl). reflexivity.
  - rewrite B. reflexivity.
Qed.
Theorem q_entry_least I nm E q ms data q' g : q_entry I nm E q ms data = Ok q' -> offered AQuoter g -> wf_call g -> data_of g data ->
  q_entry I nm E q (q_least (q_interface g) ms) data = Ok q'.
Proof.
  intros H O Wf Da. destruct (q_entry_call _ _ _ _ _ _ _ _ H O Wf Da) as (i & ns & Hi & Y & M & S & D).
  rewrite (q_least_of ns _ _ (q_layout_flags _ _ _ _ _ _ _ Hi Y) M). rewrite (q_entry_of I nm E q ns data g i ns D (q_layout_instr _ _ _ _ _ _ _ Hi Y M) Y (q_meet_self ns)).
  apply q_step_inv in S. cbn [q_signers q_ins] in S. destruct S as (S1 & S2 & S3).
  assert (Sg : forall a, In a (q_signers_of ns) -> In a (q_signers_of ms)).
  { intros a Ha. apply q_signers_of_in in Ha. destruct Ha as (n & Hn & K & Sn). apply EntryFacts.signed_in. eapply q_demanded; eassumption. }
  rewrite q_step_of; [|apply forallb_forall; intros a Ha; rewrite forallb_forall in S1; apply S1, Sg, Ha|exact S2].
  rewrite <- S3. eapply q_sig_exec; [exact Y|]. intros n a Hn Sn Kn. rewrite (q_demanded _ _ _ _ M Hn Sn Kn). eapply q_demanded; [apply q_meet_self|exact Hn|exact Sn|exact Kn].
Qed.

(** Names that are settled. *)
Definition inst_of (i : qinstr) : option qaddr :=
  match i with
  | QSetFeeRecipient a _ _ | QSetAssistant a _ _ | QRegisterChain a _ _ | QRegisterNtt a _ _ _ _ | QDeregisterNtt a _ _ | QUpdateSolPrice a _ _
  | QUpdateChainPrices a _ _ _ _ | QUpdateChainParams a _ _ _ _ | QRequestRelay _ a _ _ _ | QCloseRelay a _ _ _ => Some a
  | _ => None
  end.
Lemma step_inst E q sg i q' a : q_reachable E q -> q_step E q (QCall sg i) = Ok q' -> inst_of i = Some a -> a = QInst.
Proof.
  intros Hr S K. apply q_step_inv in S. cbn [q_signers q_ins] in S. destruct S as (_ & _ & X).
  destruct i; try discriminate K; injection K as ->; cbn [q_exec] in X.
  9: { apply relay_inv in X. destruct X as (x & p & o & n & c & q1 & fee & _ & V & _). eapply only_instance; eassumption. }
  all: unfold qi_set_fee_recipient, qi_set_assistant, qi_register_chain, qi_register_ntt, qi_deregister_ntt, qi_update_sol_price, qi_update_chain_prices, qi_update_chain_params, qi_close_relay in X.
  all: match type of X with
    | bind (owned ?q ?s ?a ?o) _ = _ => destruct (owned q s a o) as [x|] eqn:O; [|discriminate X]; apply owned_ok in O
    | bind (authorized ?q ?s ?a ?o) _ = _ => destruct (authorized q s a o) as [x|] eqn:O; [|discriminate X]; apply authorized_ok in O end;
    destruct O as (O & _); eapply only_instance; eassumption.
Qed.
Lemma close_recipient E q sg a o r x q' : q_reachable E q -> q_step E q (QCall sg (QCloseRelay a o r x)) = Ok q' -> forall i, q_accts q QInst = Some (QDInstance i) -> r = in_fee_recipient i.
Proof.
  intros Hr S i Hi. pose proof (step_inst _ _ _ _ _ _ Hr S eq_refl) as ->. apply q_step_inv in S. destruct S as (_ & _ & X). cbn [q_ins q_signers q_exec] in X. unfold qi_close_relay in X.
  destruct (authorized q sg QInst o) as [y|] eqn:O; cbn [bind] in X; [|discriminate X]. apply authorized_ok in O. destruct O as (O & _). rewrite Hi in O. injection O as ->.
  destruct (qaddr_eqb r (in_fee_recipient y)) eqn:B; [|discriminate X]. apply qaddr_eqb_eq in B. exact B.
Qed.
Theorem q_entry_settled I nm E q ms data q' g n a b : q_reachable E q -> q_entry I nm E q ms data = Ok q' -> offered AQuoter g -> wf_call g -> data_of g data ->
  q_passed g ms n a -> q_settled I nm g q ms n b -> a = b.
Proof.
  intros Hr H O Wf Da P St. destruct (q_entry_call _ _ _ _ _ _ _ _ H O Wf Da) as (i & ns & Hi & Y & M & S & _).
  assert (Ps := P). destruct P as (k & f & m & F & <- & Hm & <-).
  destruct (q_flags_at _ _ _ _ (q_layout_flags _ _ _ _ _ _ _ Hi Y) F) as (nn & N & _). destruct (q_meet_at _ _ _ _ M N) as (m' & Mm & E'). apply q_meets_spec in E'.
  assert (m' = m) by congruence. subst m'. destruct E' as (-> & _). clear Hm Mm H Da O Wf M.
  assert (In_ : forall x, inst_of i = Some x -> x = QInst) by (intros x; exact (step_inst _ _ _ _ _ _ Hr S)).
  assert (As := q_instr_asked _ _ _ _ _ Hi).
  q_cases Hi Y; cbn [inst_of] in In_; try specialize (In_ _ eq_refl).
  all: do 8 (try destruct k as [|k]); cbn [nth_error q_interface] in F, N; try discriminate F; injection F as <-; injection N as <-; cbn [qm_key qf_name] in *.
  all: destruct St as [(? & ->)|[(? & ->)|[(? & ->)|[(? & Cr & x & Hx & ->)|[(? & ch & Eg & ->)|[(? & p & Eg & ->)|(d & fe & it & p & o & Eg & Pi & V & Cn)]]]]]];
    try discriminate; try assumption; try reflexivity.
  all: try (injection Eg as <-; reflexivity).
  all: try (destruct Eg as [Eg|(x & c & Eg)]; try discriminate Eg; injection Eg as <-; reflexivity).
  all: try (eapply close_recipient; eassumption).
  all: destruct Cn as [(Cn & ->)|[(Cn & ->)|(Cn & ->)]]; try discriminate Cn.
  all: destruct As as (p' & inst' & it' & _ & _ & Pi' & Ei); injection Ei as <- <- <-; pose proof (q_passed_once _ _ _ _ _ Pi Pi') as Q; injection Q as ->.
  all: try reflexivity; match goal with R : outbox_view _ _ = Ok _ |- _ => unfold outbox_view in R; rewrite V in R; injection R as <- end; reflexivity.
Qed.

(** The optional account. *)
Theorem q_entry_assistant I nm E q ms data q' a : q_reachable E q -> q_entry I nm E q ms data = Ok q' -> data_of Dispatch.QSetAssistant data ->
  q_passed Dispatch.QSetAssistant ms "assistant" a ->
  exists i, instance_at q i /\ stored q q' QInst (QDInstance (Instance (in_owner i) (if qaddr_eqb a (QExt (qd_self I)) then QExt ANull else a) (in_fee_recipient i) (in_sol_price i))).
Proof.
  intros Hr H Da P. destruct (q_entry_call _ _ _ _ _ _ _ Dispatch.QSetAssistant H) as (i & ns & Hi & Y & M & S & _); [reflexivity|exact Logic.I|exact Da|].
  pose proof (q_instr_asked _ _ _ _ _ Hi) as As. cbv beta iota zeta delta [q_asked] in As. destruct As as (o & inst & a' & _ & _ & P' & Ei).
  pose proof (q_passed_once _ _ _ _ _ P P') as <-. pose proof S as S'. apply q_step_inv in S'. cbn [q_signers q_ins] in S'. destruct S' as (S1 & _).
  destruct Ei as [(-> & ->)|(Na & ->)].
  - rewrite (proj2 (qaddr_eqb_eq _ _) eq_refl). destruct (q_assistant_effect E q _ Hr S1 inst o None) as (_ & K). destruct (K _ S) as (x & (_ & Hx & _) & St). exists x. split; assumption.
  - rewrite (proj2 (qaddr_eqb_neq _ _) Na). destruct (q_assistant_effect E q _ Hr S1 inst o (Some a)) as (_ & K). destruct (K _ S) as (x & (_ & Hx & _) & St). exists x. split; assumption.
Qed.

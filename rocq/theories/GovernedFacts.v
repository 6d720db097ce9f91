(** * Proofs about governed deployments. *)
From Coq Require Import String.
From Verif Require Export Governed GovFacts AuthorityFacts.
From Verif Require Import LogFacts FlowFacts Transact SpecEffect EffectFacts.
Import ListNotations.
Local Open Scope list_scope.
Local Open Scope Z_scope.

Definition setting_eq_dec (x y : option setting) : {x = y} + {x <> y}.
Proof. repeat first [apply addr_eq_dec|apply Z.eq_dec|apply Bool.bool_dec|decide equality]. Defined.

Lemma governed_step H s c s' G : reachable H s -> step H s c = Ok s' -> can_sign G = true -> governed G s -> ~ In G (signers c) ->
  (forall a, settings (st_accts s' a) = settings (st_accts s a)) /\ governed G s'.
Proof.
  intros Hr S Hg (a & cf & Hc & Ho & Hp & Hu) N.
  assert (One : forall b d, config_at s b d -> d = cf).
  { intros b d Hb. apply (config_at_pda _ _ _ _ Hr) in Hb. pose proof (config_at_pda _ _ _ _ Hr Hc) as Ha. unfold config_at in *. congruence. }
  assert (Same : forall b, settings (st_accts s' b) = settings (st_accts s b)).
  { intros b. destruct (setting_eq_dec (settings (st_accts s' b)) (settings (st_accts s b))) as [|D]; [assumption|]. exfalso.
    destruct (settings_owner _ _ _ _ _ Hr S D) as [(x & d & o & Hx & _ & Hin & [->|(_ & Hpe)])|(d & m & tp & ch & l & md & No & _)].
    - apply One in Hx. subst. auto.
    - apply One in Hx. subst. congruence.
    - exact (No _ _ Hc). }
  split; [exact Same|]. destruct (ownership_step _ _ _ _ _ _ Hr S Hc) as (cf' & Hc' & _).
  exists a, cf'. split; [exact Hc'|]. specialize (Same a). unfold config_at in Hc, Hc'. rewrite Hc, Hc' in Same. cbn [settings] in Same. injection Same as S1 S2 _ _ _.
  split; [congruence|]. split; [congruence|].
  assert (NS : signed (signers c) G = true -> False) by (intros K; apply signed_In in K; auto).
  pose proof (step_rest _ _ _ _ S) as R. rewrite <- Hu. remember (st_uauth s') as u'. clear Hequ'. remember (st_now s') as nw. clear Heqnw. remember (st_posted s') as ps. clear Heqps.
  destruct R as [| |cfg o n d _ _ Hs E|cfg o n d _ _ Hs E|cfg n d _ _ _ E|new cur E Hs| | | |]; try reflexivity.
  - rewrite Hu in E. injection E as <-. destruct (NS Hs).
  - rewrite Hu in E. injection E as <-. destruct (NS Hs).
  - rewrite Hu in E. injection E as ->. discriminate.
  - rewrite Hu in E. injection E as <-. destruct (NS Hs).
Qed.

Definition kept (G : addr) (s s' : state) : Prop := (forall a, settings (st_accts s' a) = settings (st_accts s a)) /\ governed G s'.

Lemma governed_run H s tr s' G : reachable H s -> run H s tr s' -> can_sign G = true -> governed G s ->
  (forall e, In e tr -> ~ In G (signers (e_call e))) -> kept G s s'.
Proof.
  intros Hr R Hg Gv. induction R as [|tr s1 c s2 R IH S]; intros N; [split; auto|].
  assert (K : kept G s s1) by (apply IH; intros e He; apply N; now right). destruct K as (K1 & K2).
  destruct (governed_step H s1 c s2 G) as (J1 & J2); try assumption; [eapply run_reachable; eassumption|apply (N (Ev s1 c s2)); now left|].
  split; [intros a; rewrite J1; apply K1|exact J2].
Qed.

Lemma effects_run H E G w l w' : linked H E G -> reachable H w -> effects E w l w' -> reachable H w'.
Proof.
  intros L Hr F. induction F as [|l w1 w2 e F IH Ew [(_ & ->)|(_ & C)]]; auto. apply L in C as (tr & R & _). eapply run_reachable; eassumption.
Qed.
Lemma effects_kept H E G w l w' : linked H E G -> reachable H w -> can_sign G = true -> governed G w -> effects E w l w' ->
  (forall e, In e l -> ~ asks E (gv_ix e)) -> kept G w w'.
Proof.
  intros L Hr Hg Gv F. induction F as [|l w1 w2 e F IH Ew C]; intros N; [split; auto|].
  assert (K : kept G w w1) by (apply IH; intros e0 He; apply N; now right). destruct C as [(_ & ->)|(_ & C)]; [exact K|]. destruct K as (K1 & K2).
  apply L in C as (tr & R & A). destruct (governed_run H w1 tr w2 G) as (J1 & J2); try assumption.
  - eapply effects_run; eassumption.
  - intros e0 He Hin. apply (N e); [now left|]. eapply A; eassumption.
  - split; [intros a; rewrite J1; apply K1|exact J2].
Qed.

Lemma gm_step_g H E G st st' : gm_step H E G st st' -> g_step E st st'.
Proof. intros [? ctx data ? F S|? c w _ _]; [eapply g_submit; eassumption|constructor]. Qed.
Lemma gm_steps_g H E G st st' : gm_steps H E G st st' -> g_steps E st st'.
Proof. intros S. induction S as [|st1 st2 S IH K]; [constructor|]. econstructor; [exact IH|]. eapply gm_step_g. exact K. Qed.
Lemma gm_reachable_g H E G st : gm_reachable H E G st -> g_reachable E st.
Proof. intros (st0 & I & _ & S). exists st0. split; [exact I|]. eapply gm_steps_g. exact S. Qed.
Lemma gm_steps_reachable H E G st st' : linked H E G -> g_inv E st -> reachable H (gs_world st) -> gm_steps H E G st st' ->
  g_inv E st' /\ reachable H (gs_world st').
Proof.
  intros L I Hr S. induction S as [|st1 st2 S (I1 & R1) K]; [auto|]. destruct K as [st1 ctx data st2 F K|st1 c w N K].
  - destruct (g_exec_keeps E _ _ _ _ _ I1 K) as (I2 & new & _ & F2 & _). split; [exact I2|]. eapply effects_run; eassumption.
  - split; [destruct I1; constructor; assumption|]. eapply step_reachable; eassumption.
Qed.
Lemma gm_reachable_world H E G st : linked H E G -> gm_reachable H E G st -> reachable H (gs_world st).
Proof.
  intros L (st0 & (I1 & I2) & Hr & S). eapply gm_steps_reachable; [exact L| |exact Hr|exact S]. constructor; rewrite I2; constructor.
Qed.

Lemma governed_steps H E G st st' : linked H E G -> can_sign G = true -> gm_reachable H E G st -> gm_steps H E G st st' -> governed G (gs_world st) ->
  exists new, gs_log st' = new ++ gs_log st /\ (forall e, In e new -> authorised E e) /\
    ((forall e, In e new -> ~ asks E (gv_ix e)) -> kept G (gs_world st) (gs_world st')).
Proof.
  intros L Hg Hr S Gv. pose proof (gm_reachable_world _ _ _ _ L Hr) as Rw. pose proof (g_reachable_inv _ _ (gm_reachable_g _ _ _ _ Hr)) as I.
  assert (X : g_inv E st' /\ reachable H (gs_world st') /\ exists new, gs_log st' = new ++ gs_log st /\
    ((forall e, In e new -> ~ asks E (gv_ix e)) -> kept G (gs_world st) (gs_world st'))).
  { induction S as [|st1 st2 S IH K].
    - split; [exact I|]. split; [exact Rw|]. exists []. split; [reflexivity|]. intros _. split; auto.
    - destruct IH as (I1 & R1 & new & El & IH). destruct K as [st1 ctx data st2 F K|st1 c w N K].
      + destruct (g_exec_keeps E _ _ _ _ _ I1 K) as (I2 & new2 & El2 & F2 & _). split; [exact I2|]. split; [eapply effects_run; eassumption|].
        exists (new2 ++ new). split; [rewrite El2, El; apply app_assoc|]. intros Na. destruct IH as (K1 & K2); [intros e He; apply Na, in_or_app; now right|].
        destruct (effects_kept _ _ _ _ _ _ L R1 Hg K2 F2) as (J1 & J2); [intros e He; apply Na, in_or_app; now left|]. split; [intros a; rewrite J1; apply K1|exact J2].
      + split; [destruct I1; constructor; assumption|]. split; [eapply step_reachable; eassumption|]. exists new. split; [exact El|]. intros Na. destruct (IH Na) as (K1 & K2).
        destruct (governed_step _ _ _ _ _ R1 K Hg K2 N) as (J1 & J2). split; [intros a; cbn [gs_world]; rewrite J1; apply K1|exact J2]. }
  destruct X as (I' & _ & new & El & K). exists new. split; [exact El|]. split; [|exact K].
  intros e He. destruct I' as [A _ _ _]. rewrite Forall_forall in A. apply A. rewrite El. apply in_or_app. now left.
Qed.

(** The message behind a call that carries the signature marks an account as signer: the governance address, by itself or through a
    placeholder. *)
Lemma asks_message E (e : gev state) payer m : call_of (ge_addr E SGovernance) payer m (gv_ix e) -> asks E (gv_ix e) ->
  exists a, In a (g_accounts m) /\ ac_signer a = true /\ key_for (ge_addr E SGovernance) payer (ac_key a) = ge_addr E SGovernance.
Proof.
  intros (_ & _ & F) (b & Hin & Hs & Hk). remember (ix_accounts (gv_ix e)) as l eqn:El. clear El. induction F as [|a b' la lb (F1 & F2 & F3) F IH]; [destruct Hin|].
  destruct Hin as [->|Hin]; [exists a; split; [now left|]; split; congruence|]. destruct (IH Hin) as (x & X & Y). exists x. split; [now right|exact Y].
Qed.

(** Whoever submits it, a posted and unused message that pauses the deployment does so. *)
Lemma governed_pause H E G st ctx data payer v m ix b : gm_reachable H E G st -> linked H E G -> can_sign G = true -> governed G (gs_world st) ->
  submittable E st ctx data payer v m ix -> g_program m <> GOV_ID ->
  ge_call E (gs_world st) ix = step H (gs_world st) (Call [G] (ISetPaused pda_config G b)) ->
  exists st' c, g_exec E DEPTH st ctx data = Ok st' /\ config_at (gs_world st') pda_config c /\ cf_paused c = b.
Proof.
  intros Hr L Hg (a & cf & Hc & Ho & _) S Hp Hk. pose proof (gm_reachable_world _ _ _ _ L Hr) as Rw. apply (config_at_pda _ _ _ _ Rw) in Hc.
  assert (Hsg : forallb can_sign [G] = true) by (cbn [forallb]; rewrite Hg; reflexivity).
  destruct (paused_effect H (gs_world st) [G] pda_config G b Rw Hsg) as (P1 & P2). destruct (proj2 P1) as (w & Ew).
  { exists cf. unfold by_owner. split; [exact Hc|]. split; [now symmetry|now left]. }
  rewrite Ew in Hk. destruct (P2 _ Ew) as (c & c' & _ & Hc' & _ & _ & _ & _ & Hb & _). unfold DEPTH.
  rewrite (g_exec_step E 4 _ _ _ _ _ _ _ S), Hk. destruct (bytes_eqb (g_program m) GOV_ID) eqn:EP; [apply bytes_eqb_eq in EP; contradiction|].
  cbn [bind]. eexists; exists c'. split; [reflexivity|]. cbn [gs_world]. auto.
Qed.

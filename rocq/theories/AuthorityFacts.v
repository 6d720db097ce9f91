(** * Upgrade authority, transceiver registry, pause. *)
From Verif Require Export AdminFacts Flow.
Local Open Scope Z_scope.


(** ** Upgrade authority *)
Lemma offer_exec H s sg a o n s' : step H s (Call sg (ITransferOwnership a o n)) = Ok s' ->
  exists c, config_at s a c /\ cf_owner c = o /\ In o sg /\ st_uauth s = Some o /\ st_uauth s' = Some upgrade_lock /\
    config_at s' a (with_owner c o (Some n)).
Proof.
  intros E. apply step_inv in E. destruct E as (_ & _ & E). cbn [exec ins signers] in E. unfold transfer_ownership in E.
  binds E. gets. apply loader_ok in E. destruct E as (Hu & ->). exists v. subst o. rewrite <- signed_In.
  repeat (split; [assumption || reflexivity|]). apply get_put_same.
Qed.
Lemma give_exec H s sg a o n s' : step H s (Call sg (ITransferOwnershipOneStep a o n)) = Ok s' ->
  exists c, config_at s a c /\ cf_owner c = o /\ In o sg /\ st_uauth s = Some o /\ st_uauth s' = Some n /\
    config_at s' a (with_owner c n None).
Proof.
  intros E. apply step_inv in E. destruct E as (_ & _ & E). cbn [exec ins signers] in E. unfold transfer_ownership_one_step_unchecked in E.
  binds E. gets. apply loader_ok in E. destruct E as (Hu & ->). exists v. subst o. rewrite <- signed_In.
  repeat (split; [assumption || reflexivity|]). apply get_put_same.
Qed.
Lemma claim_exec H s sg a n s' : step H s (Call sg (IClaimOwnership a n)) = Ok s' ->
  exists c, config_at s a c /\ (cf_pending c = Some n \/ cf_owner c = n) /\ In n sg /\ st_uauth s = Some upgrade_lock /\ st_uauth s' = Some n /\
    config_at s' a (with_owner c n None).
Proof.
  intros E. apply step_inv in E. destruct E as (_ & _ & E). cbn [exec ins signers] in E. unfold claim_ownership in E.
  binds E. gets. bools. apply loader_ok in E. destruct E as (Hu & ->). exists v. rewrite <- signed_In.
  split; [assumption|]. split; [apply orb_true_iff in E1; destruct E1; bools; auto|].
  repeat (split; [assumption || reflexivity|]). apply get_put_same.
Qed.

Definition authority_ok (s : state) (c : config addr) : Prop :=
  match cf_pending c with None => st_uauth s = Some (cf_owner c) | Some _ => st_uauth s = Some upgrade_lock end.

Lemma authority_step H s cl s' a c : reachable H s -> step H s cl = Ok s' -> config_at s a c -> authority_ok s c ->
  (forall n, ins cl <> ESetUpgradeAuthority n) -> exists c', config_at s' a c' /\ authority_ok s' c'.
Proof.
  intros Hr Hs E Ho Hn. pose proof (step_inv _ _ _ _ Hs) as (Hsg & _ & _). destruct cl as [sg i]. cbn [signers ins] in *.
  assert (Hlock : In upgrade_lock sg -> False).
  { intros Q. apply signed_In in Q. apply (signed_can _ _ Hsg) in Q. discriminate. }
  destruct (is_ownership i) eqn:Hi.
  - destruct i; try discriminate.
    + destruct (offer_exec _ _ _ _ _ _ _ Hs) as (c1 & E1 & Eo & Hin & Hu & Hu' & E'). pose proof (config_one _ _ _ _ _ _ Hr E E1) as (<- & <-).
      eexists. split; [exact E'|]. exact Hu'.
    + destruct (give_exec _ _ _ _ _ _ _ Hs) as (c1 & E1 & Eo & Hin & Hu & Hu' & E'). pose proof (config_one _ _ _ _ _ _ Hr E E1) as (<- & <-).
      eexists. split; [exact E'|]. exact Hu'.
    + destruct (claim_exec _ _ _ _ _ _ Hs) as (c1 & E1 & Eo & Hin & Hu & Hu' & E'). pose proof (config_one _ _ _ _ _ _ Hr E E1) as (<- & <-).
      eexists. split; [exact E'|]. exact Hu'.
  - assert (Hu : st_uauth s' = st_uauth s).
    { pose proof (step_rest _ _ _ _ Hs) as R. cbn [signers ins] in R. inversion R; subst; try reflexivity; try discriminate.
      exfalso. eapply Hn. reflexivity. }
    destruct (config_step_at _ _ _ _ _ _ Hr Hs E) as (c' & E' & Q). exists c'. split; [exact E'|].
    assert (Hsame : cf_owner c' = cf_owner c /\ cf_pending c' = cf_pending c).
    { destruct Q as [->|Q]; [auto|]. cbn [signers ins] in Q. destruct Q; try discriminate; auto. }
    destruct Hsame as [Q1 Q2]. unfold authority_ok in *. rewrite Q1, Q2, Hu. exact Ho.
Qed.

Lemma authority_follows H s0 tr s a c : initial s0 -> run H s0 tr s ->
  (forall e n b d, In e tr -> ins (e_call e) = ESetUpgradeAuthority n -> ~ config_at (e_pre e) b d) ->
  config_at s a c -> authority_ok s c.
Proof.
  intros Hi R. revert a c. induction R as [|tr t cl t' R IH Hs]; intros a c Hno E.
  - exfalso. eapply initial_no_config; eassumption.
  - assert (Ht : reachable H t) by (exists s0, tr; auto).
    destruct (config_made _ _ _ _ _ _ Ht Hs E) as [(c0 & E0)|(d & m & tp & ch & l & md & Hnc & Hins & Hsg & Hu & _ & Ho & Hp)].
    + assert (A : authority_ok t c0) by (eapply IH; [|exact E0]; intros; eapply Hno; [right; eassumption|eassumption]).
      destruct (authority_step _ _ _ _ _ _ Ht Hs E0 A) as (c' & E' & A').
      * intros n Q. eapply (Hno (Ev t cl t')); [left; reflexivity|exact Q|exact E0].
      * unfold config_at in *. assert (c' = c) by congruence. subst. exact A'.
    + unfold authority_ok. rewrite Hp, Ho. pose proof (step_rest _ _ _ _ Hs) as Q. rewrite Hins in Q. inversion Q; subst. congruence.
Qed.

Lemma locked_fixed H s sg n : st_uauth s = Some upgrade_lock -> ~ succeeds (step H s (Call sg (ESetUpgradeAuthority n))).
Proof.
  intros Hu [s' E]. apply step_inv in E. destruct E as (Hsg & _ & E). cbn [exec ins signers] in *. rewrite Hu in E. binds E. bools.
  apply (signed_can _ _ Hsg) in E0. discriminate.
Qed.
Lemma no_second_offer H s sg a o n i : st_uauth s = Some upgrade_lock -> i = ITransferOwnership a o n \/ i = ITransferOwnershipOneStep a o n ->
  ~ succeeds (step H s (Call sg i)).
Proof.
  intros Hu Hi [s' E]. pose proof (step_inv _ _ _ _ E) as (Hsg & _ & _). cbn [signers] in Hsg.
  destruct Hi as [->| ->].
  - apply offer_exec in E. destruct E as (c & _ & _ & Hin & Q & _). apply signed_In in Hin. apply (signed_can _ _ Hsg) in Hin.
    assert (o = upgrade_lock) by congruence. subst. discriminate.
  - apply give_exec in E. destruct E as (c & _ & _ & Hin & Q & _). apply signed_In in Hin. apply (signed_can _ _ Hsg) in Hin.
    assert (o = upgrade_lock) by congruence. subst. discriminate.
Qed.

(** ** Registry *)
Lemma registry_unique H s a r b r' : reachable H s -> reg_at s a r -> reg_at s b r' ->
  (a = b <-> rt_id r = rt_id r') /\ (a = b <-> rt_address r = rt_address r') /\ (a = b -> r = r').
Proof.
  intros Hr E F. apply reachable_inv in Hr. destruct (reg_addr _ _ _ Hr E) as (p & -> & Ap), (reg_addr _ _ _ Hr F) as (q & -> & Aq).
  unfold reg_at in *. split; [|split].
  - split; [intros Q; inversion Q; subst; congruence|]. intros Q. rewrite (inv_reg_inj _ Hr _ _ _ _ E F Q). reflexivity.
  - split; [intros Q; inversion Q; subst; congruence|]. intros Q. rewrite Ap, Aq in Q. now rewrite Q.
  - intros Q. inversion Q; subst. congruence.
Qed.
Lemma registry_ids H s a c : reachable H s -> config_at s a c ->
  0 <= cf_next c <= 128 /\ (forall id, 0 <= id < cf_next c <-> exists b r, reg_at s b r /\ rt_id r = id) /\
  (forall id, Z.testbit (cf_enabled c) id = true -> 0 <= id < cf_next c).
Proof.
  intros Hr E. apply reachable_inv in Hr. destruct (config_ok_at _ _ _ Hr E) as (-> & Hok). split; [exact (co_next _ _ Hok)|].
  split; [|exact (proj2 (co_enabled _ _ Hok))]. intros id. split.
  - intros Hid. destruct (co_regs _ _ Hok _ Hid) as (p & Ep). eauto.
  - intros (b & r & Eb & <-). destruct (reg_addr _ _ _ Hr Eb) as (p & -> & _). destruct (inv_reg _ Hr _ _ Eb) as (c' & E' & Hid).
    unfold config_at, has in *. assert (c' = c) by congruence. subst. exact Hid.
Qed.
Lemma registry_kept H s tr s' a r : run H s tr s' -> reg_at s a r -> reg_at s' a r.
Proof. intros R E. induction R as [|tr t c t' R IH Hs]; [exact E|]. eapply reg_kept; eassumption. Qed.
Lemma register_exec H s sg a o t s' : reachable H s -> step H s (Call sg (IRegisterTransceiver a o t)) = Ok s' ->
  exists c c' b, config_at s a c /\ In (cf_owner c) sg /\ o = cf_owner c /\ config_at s' a c' /\ st_accts s b = None /\
    reg_at s' b (Registered 0 (cf_next c) t) /\ cf_next c' = cf_next c + 1 /\ cf_next c < 128 /\
    (forall i, 0 <= i -> Z.testbit (cf_enabled c') i = (i =? cf_next c) || Z.testbit (cf_enabled c) i) /\
    (forall d, d <> a -> d <> b -> st_accts s' d = st_accts s d).
Proof.
  intros Hr E. pose proof (reachable_inv _ _ Hr) as Hi. pose proof (step_inv _ _ _ _ E) as (_ & _ & He). cbn [exec signers ins] in He.
  apply register_ok in He. destruct He as (c & p & en & Ec & Ho & Hs & -> & Hn & Hnx & Hen & ->).
  destruct (config_ok_at _ _ _ Hi Ec) as (-> & Hok). pose proof (co_next _ _ Hok) as Hc.
  exists c, (with_next c (cf_next c + 1) en), (pda_reg (AProg p)). rewrite signed_In in Hs. subst o.
  split; [exact Ec|]. split; [exact Hs|]. split; [reflexivity|]. split; [apply get_put_same|]. split; [exact Hn|].
  split; [unfold reg_at; rewrite get_put_other by discriminate; apply get_put_same|]. split; [reflexivity|].
  unfold bm_set, BITS in Hen. destruct (128 <=? cf_next c) eqn:Q; [discriminate|]. apply Ok_inj in Hen. subst en. split; [lia|]. split.
  - intros i Hi'. cbn [with_next cf_enabled]. rewrite Z.setbit_eqb by lia. now rewrite Z.eqb_sym.
  - intros d D1 D2. rewrite !get_put_other by assumption. reflexivity.
Qed.
Lemma register_twice H s sg a o t b r : reachable H s -> reg_at s b r -> rt_address r = t -> ~ succeeds (step H s (Call sg (IRegisterTransceiver a o t))).
Proof.
  intros Hr Eb Ht [s' E]. pose proof (reachable_inv _ _ Hr) as Hi. pose proof (step_inv _ _ _ _ E) as (_ & _ & He). cbn [exec signers ins] in He.
  apply register_ok in He. destruct He as (c & p & en & Ec & Ho & Hs & Q & Hn & _).
  destruct (reg_addr _ _ _ Hi Eb) as (q & -> & Aq). unfold reg_at in Eb. congruence.
Qed.
Lemma register_full H s sg a o t c : reachable H s -> config_at s a c -> cf_next c = 128 -> ~ succeeds (step H s (Call sg (IRegisterTransceiver a o t))).
Proof.
  intros Hr E Hf [s' Q]. destruct (register_exec _ _ _ _ _ _ _ Hr Q) as (c1 & c' & b & E1 & _ & _ & _ & _ & _ & _ & Hlt & _).
  destruct (config_one _ _ _ _ _ _ Hr E E1) as (_ & <-). lia.
Qed.

(** ** Pause *)
Lemma paused_blocked H s sg i a c : reachable H s -> config_at s a c -> cf_paused c = true -> moves_value i = true ->
  ~ succeeds (step H s (Call sg i)).
Proof.
  intros Hr E Hp Hm [s' Q]. pose proof (step_inv _ _ _ _ Q) as (_ & Hty & He). cbn [exec signers ins typed] in He, Hty.
  assert (K : forall b d, has s b PManager (DConfig d) -> cf_paused d = false -> False).
  { intros b d F Hf. destruct (config_one _ _ _ _ _ _ Hr E F) as (_ & <-). congruence. }
  destruct i; try discriminate; cbn [exec typed] in He, Hty.
  - apply transfer_lock_ok in He. destruct He as (cf & mt & f & pe & am & t & orl & irl & orl' & irl' & ts & s1 & cu & cu' & HF & _). destruct HF. eauto.
  - apply transfer_burn_ok in He. destruct He as (cf & mt & f & pe & am & t & orl & irl & orl' & irl' & ts & s1 & s2 & cu & cu' & HF & _). destruct HF. eauto.
  - apply release_mint_ok in He. destruct He as (cf & it & mt & rt & HF & _). destruct HF. eauto.
  - apply release_unlock_ok in He. destruct He as (cf & it & mt & rt & HF & _). destruct HF. eauto.
  - binds He. apply mark_ok in E0. destruct E0 as (cf & o & rt & p & HF & _). destruct HF. eauto.
  - unfold x_receive in He. binds He. gets. eauto.
  - apply x_release_ok in He; [|assumption]. destruct He as (cf & o & rt & HF & _). destruct HF. eauto.
Qed.

Lemma init_once H s sg d m tp ch l md a c : reachable H s -> config_at s a c -> ~ succeeds (step H s (Call sg (IInitialize d m tp ch l md))).
Proof.
  intros Hr E [s' Q]. pose proof (reachable_inv _ _ Hr) as Hi. pose proof (config_addr _ _ _ Hi E). subst a.
  apply step_inv in Q. destruct Q as (Hsg & _ & He). cbn [exec ins signers] in *. apply initialize_ok in He; [|assumption].
  destruct He as (mt & s1 & _ & _ & N & _). unfold config_at in E. congruence.
Qed.

Lemma published_same s s' p : st_posted s' = st_posted s -> published s' p = published s p.
Proof. unfold published. now intros ->. Qed.

Lemma paused_still H s cl s' a c : reachable H s -> config_at s a c -> cf_paused c = true -> step H s cl = Ok s' ->
  (of_program (ins cl) = true -> st_toks s' = st_toks s /\ st_mints s' = st_mints s) /\
  balance s (cf_custody c) <= balance s' (cf_custody c) /\
  (cf_mode c = Burning -> supply_of s' (cf_mint c) <= supply_of s (cf_mint c)) /\
  (forall p, is_ntt_prog p = true -> published s' p = published s p).
Proof.
  intros Hr E Hp Hs. pose proof (reachable_inv _ _ Hr) as Hi. destruct (config_ok_at _ _ _ Hi E) as (-> & Hok).
  destruct (step_inv _ _ _ _ Hs) as (Hsg & Hty & _). destruct (step_ops _ _ _ _ Hs) as (os & s1 & Hops & Hsame & Hw).
  pose proof (why_ok _ _ _ _ _ _ Hi Hsg Hty Hw) as Hopk. destruct cl as [sg i]. cbn [signers ins] in *.
  assert (Hnb : moves_value i = true -> False) by (intros Q; eapply (paused_blocked H s sg i); [exact Hr|exact E|exact Hp|exact Q|exists s'; exact Hs]).
  destruct (co_prog _ _ Hok) as (tp & m & t & Htp & Et & Ec & Em & Hmp & Hb & Ect).
  assert (Hto : tk_owner t = token_authority).
  { destruct (proj1 (inv_ledger _ Hi) _ _ Ect) as (_&_&_&_&_&_&Q&_). eapply Q; [|exact Ec]. assumption. }
  split; [|split; [|split]].
  - intros Hpr. inversion Hw; subst; try (exfalso; apply Hnb; reflexivity).
    + destruct i; discriminate.
    + cbn in Hops. apply Ok_inj in Hops. subst. exact Hsame.
    + exfalso. eapply init_once; [exact Hr|exact E|]. exists s'. exact Hs.
  - rewrite (bal_same _ _ _ Hsame). inversion Hw; subst; try (exfalso; apply Hnb; reflexivity).
    + cbn in Hops. apply bind_ok in Hops. destruct Hops as (s2 & Ho & Q). apply Ok_inj in Q. subst s2. inversion Hopk; subst.
      eapply (op_amount s); try eassumption; [apply inv_ledger; assumption|]. eapply env_no_authority; eassumption.
    + cbn in Hops. apply Ok_inj in Hops. subst. lia.
    + exfalso. eapply init_once; [exact Hr|exact E|]. exists s'. exact Hs.
  - intros Hmd. specialize (Hb Hmd). rewrite (supply_same _ _ _ Hsame). inversion Hw; subst; try (exfalso; apply Hnb; reflexivity).
    + cbn in Hops. apply bind_ok in Hops. destruct Hops as (s2 & Ho & Q). apply Ok_inj in Q. subst s2. inversion Hopk; subst.
      rewrite (op_supply _ _ _ _ _ Ho Em). rewrite (env_mint _ _ _ _ _ (env_no_authority _ _ _ Hsg H1 H0) Ho Em Hb).
      unfold burned_by_op. destruct o; cbn in *; try lia.
      match goal with |- context [addr_eq_dec ?x ?y] => destruct (addr_eq_dec x y) end; lia.
    + cbn in Hops. apply Ok_inj in Hops. subst. lia.
    + exfalso. eapply init_once; [exact Hr|exact E|]. exists s'. exact Hs.
  - intros p Hpn. pose proof (step_rest _ _ _ _ Hs) as R. cbn [signers ins] in R. inversion R; subst; try (apply published_same; congruence).
    + exfalso. apply Hnb. reflexivity.
    + unfold published. match goal with Q : _ = st_posted s' |- _ => rewrite <- Q end. reflexivity.
    + unfold published. match goal with Q : _ = st_posted s' |- _ => rewrite <- Q end. reflexivity.
    + unfold published. match goal with Q : _ = st_posted s' |- _ => rewrite <- Q end. cbn [flat_map po_payload po_emitter].
      destruct pl; try reflexivity. destruct (addr_eq_dec _ _) as [->|]; [|reflexivity].
      match goal with Q : signed sg _ = true |- _ => apply (signed_can _ _ Hsg) in Q; destruct p; discriminate end.
Qed.

(** Setting the pause flag in a state, everything else alike. *)
Definition set_pause (s : state) (a : addr) (c : config addr) (b : bool) : state := put a PManager (DConfig (with_paused c b)) s.
Lemma pause_twin H s a c b : reachable H s -> config_at s a c -> twin a c (with_paused c b) s (set_pause s a c b).
Proof.
  intros Hr E. constructor; try reflexivity.
  - exact E.
  - intros b0 d F. destruct (config_one _ _ _ _ _ _ Hr E F). congruence.
  - apply get_put_same.
  - intros b0 Hne. apply get_put_other. exact Hne.
Qed.
Lemma unpause_twin H s a c b : reachable H s -> config_at s a c -> twin a (with_paused c b) c (set_pause s a c b) s.
Proof.
  intros Hr E. constructor; try reflexivity.
  - apply get_put_same.
  - intros b0 d F. unfold config_at, set_pause in F. destruct (addr_eq_dec b0 a) as [->|Hne]; [reflexivity|].
    rewrite get_put_other in F by assumption. destruct (config_one _ _ _ _ _ _ Hr E F). congruence.
  - exact E.
  - intros b0 Hne. unfold set_pause. rewrite get_put_other by assumption. reflexivity.
Qed.
Lemma pause_free H s a c b sg i : reachable H s -> config_at s a c -> plain_admin i || is_ownership i || (match i with IRedeem _ => true | _ => false end) = true ->
  (succeeds (step H (set_pause s a c b) (Call sg i)) <-> succeeds (step H s (Call sg i))).
Proof.
  intros Hr E Hk. rewrite !step_succ.
  enough (Q : succeeds (exec H (set_pause s a c b) sg i) <-> succeeds (exec H s sg i)) by tauto.
  pose proof (pause_twin H s a c b Hr E) as T1. pose proof (unpause_twin H s a c b Hr E) as T2.
  apply orb_true_iff in Hk. destruct Hk as [Hk|Hk]; [apply orb_true_iff in Hk; destruct Hk as [Hk|Hk]|].
  - split; intros Q; [eapply (twin_admin _ _ _ _ _ T2)|eapply (twin_admin _ _ _ _ _ T1)]; assumption.
  - split; intros Q; [eapply (twin_ownership _ _ _ _ _ T2)|eapply (twin_ownership _ _ _ _ _ T1)]; try assumption; reflexivity.
  - destruct i; try discriminate. cbn [exec]. split; intros Q; [eapply (twin_redeem _ _ _ _ _ T2)|eapply (twin_redeem _ _ _ _ _ T1)]; assumption.
Qed.

(** Setting the pending owner. *)
Definition set_pend (s : state) (a : addr) (c : config addr) (p : option addr) : state := put a PManager (DConfig (with_owner c (cf_owner c) p)) s.
Lemma pending_free H s a c p sg i : reachable H s -> config_at s a c -> plain_admin i = true ->
  (succeeds (step H (set_pend s a c p) (Call sg i)) <-> succeeds (step H s (Call sg i))).
Proof.
  intros Hr E Hk. rewrite !step_succ.
  enough (Q : succeeds (exec H (set_pend s a c p) sg i) <-> succeeds (exec H s sg i)) by tauto.
  assert (T1 : twin a c (with_owner c (cf_owner c) p) s (set_pend s a c p)).
  { constructor; try reflexivity; [exact E| |apply get_put_same|].
    - intros b0 d F. destruct (config_one _ _ _ _ _ _ Hr E F). congruence.
    - intros b0 Hne. apply get_put_other. exact Hne. }
  assert (T2 : twin a (with_owner c (cf_owner c) p) c (set_pend s a c p) s).
  { constructor; try reflexivity; [apply get_put_same| |exact E|].
    - intros b0 d F. unfold config_at, set_pend in F. destruct (addr_eq_dec b0 a) as [->|Hne]; [reflexivity|].
      rewrite get_put_other in F by assumption. destruct (config_one _ _ _ _ _ _ Hr E F). congruence.
    - intros b0 Hne. unfold set_pend. rewrite get_put_other by assumption. reflexivity. }
  split; intros Q; [eapply (twin_admin _ _ _ _ _ T2)|eapply (twin_admin _ _ _ _ _ T1)]; assumption.
Qed.

Lemma only_owner_pauses H s cl s' a c c' : reachable H s -> step H s cl = Ok s' -> config_at s a c -> config_at s' a c' ->
  cf_paused c' <> cf_paused c -> ins cl = ISetPaused a (cf_owner c) (cf_paused c') /\ In (cf_owner c) (signers cl).
Proof.
  intros Hr Hs E E' Hne. destruct (config_step_at _ _ _ _ _ _ Hr Hs E) as (c1 & E1 & Q). unfold config_at in *.
  assert (c1 = c') by congruence. subst. destruct Q as [->|Q]; [congruence|].
  pose proof (config_addr _ _ _ (reachable_inv _ _ Hr) E). subst a.
  destruct Q as [| | |o b c Ho Hg|]; try (exfalso; apply Hne; reflexivity). apply signed_In in Hg. subst. cbn. auto.
Qed.

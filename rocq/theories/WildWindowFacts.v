(** * Rate limits over histories in which the ledger changes in any way (C110): [WindowFacts] again, from [WildFacts]. *)
From Verif Require Export WindowFacts WildFacts.
Local Open Scope Z_scope.

Lemma w_local_nonneg H s x s' p ch tm c rt pe m b af : wreachable H s -> redeemed H s x s' p ch tm c rt pe m b af -> 0 <= local_amount m (tm_msg tm).
Proof.
  intros Hr Rd. pose proof (dl_message _ _ _ _ _ _ _ _ (rd_delivers _ _ _ _ _ _ _ _ _ _ _ _ _ Rd)) as E.
  destruct (vtm_typed _ _ _ _ _ (wreachable_inv _ _ Hr) E) as [_ T]. destruct (typed_tm_ranges _ T) as ((Ra & _) & _). apply convert_nonneg, Ra.
Qed.

Lemma w_transfer_flow H s sg i s' md x a : wreachable H s -> step H s (Call sg i) = Ok s' -> transfer_of i = Some (md, x, a) ->
  exists v orl irl, 0 <= v /\ out_limiter s orl /\ in_limiter s (ar_chain a) irl /\
    ((forall sel, out_at_once sel (Ev s (Call sg i) s') = 0) /\ out_limiter s' orl /\ in_limiter s' (ar_chain a) irl \/
     (forall sel, out_at_once sel (Ev s (Call sg i) s') = if sel (ar_chain a) then v else 0) /\ v <= capacity orl (st_now s) /\
       out_limiter s' (RL (rl_limit orl) (capacity orl (st_now s) - v) (st_now s)) /\
       in_limiter s' (ar_chain a) (RL (rl_limit irl) (Z.min (capacity irl (st_now s) + v) (rl_limit irl)) (st_now s))) /\
    (forall k r, k <> ar_chain a -> in_limiter s k r -> in_limiter s' k r).
Proof.
  intros Hr Hs Ti. destruct (transfer_limits _ _ _ _ _ _ _ _ Hr Hs Ti) as (c & m & pe & f & o & v & orl & irl & orl' & irl' & T & O1 & I1 & O2 & I2 & K1 & K2 & K).
  pose proof (fun sel => out_at_once_value sel _ _ _ _ _ _ _ _ _ _ _ _ _ Ti T) as V.
  exists v, orl, irl. split; [apply (tr_range _ _ _ _ _ _ _ _ _ _ _ _ T)|]. split; [exact O1|]. split; [exact I1|]. split.
  - destruct (Z_le_gt_dec v (capacity orl (st_now s))) as [L|L].
    + right. destruct (K1 L) as (Eo & -> & ->). split; [intros sel; rewrite V, Eo, Z.eqb_refl, andb_true_r; reflexivity|]. auto.
    + left. apply Z.gt_lt in L. destruct (K2 L) as (_ & Eo & -> & ->). split; [|auto]. intros sel. rewrite V, Eo.
      assert (Q : (st_now s + day =? st_now s) = false) by (apply Z.eqb_neq; pose proof day_pos; lia). now rewrite Q, andb_false_r.
  - intros k r Nk Q. unfold in_limiter in *. rewrite K; [exact Q| | |].
    + intros C. pose proof (tr_fresh _ _ _ _ _ _ _ _ _ _ _ _ T). congruence.
    + discriminate.
    + intros C. apply Nk. now apply inbox_rl_inj.
Qed.

Lemma w_inbound_same H s sg i s' ch r : step H s (Call sg i) = Ok s' -> in_limiter s ch r -> ~ sets_inbound ch i ->
  transfer_of i = None -> (forall x, i <> IRedeem x) -> in_limiter s' ch r.
Proof.
  intros Hs Hd Ns Ti Nr. destruct (step_change _ _ _ _ Hs (pda_inbox_rl ch)) as [Q|Q]; [unfold in_limiter in *; congruence|].
  unfold in_limiter in *. rewrite Hd in Q. cbn [signers ins] in Q. destruct (irl_kept _ _ _ _ _ _ Hs Hd) as (r' & Hd'). unfold has in Hd'.
  rewrite Hd' in Q. exfalso. remember (pda_inbox_rl ch) as a0 eqn:Ea. inversion Q; subst; try discriminate.
  - match goal with E : is_transfer _ _ _ _ |- _ => rename E into Et end. destruct md; cbn in Et; subst i; discriminate.
  - eapply Nr. reflexivity.
  - match goal with E : pda_inbox_rl _ = pda_inbox_rl _ |- _ => apply inbox_rl_inj in E; subst end. apply Ns. right. do 5 eexists. reflexivity.
  - match goal with E : pda_inbox_rl _ = pda_inbox_rl _ |- _ => apply inbox_rl_inj in E; subst end. apply Ns. left. do 3 eexists. reflexivity.
Qed.

Lemma w_in_flow H s sg i s' ch r : wreachable H s -> step H s (Call sg i) = Ok s' -> in_limiter s ch r -> ~ sets_inbound ch i ->
  exists r', in_limiter s' ch r' /\ moved r (st_now s) (in_at_once H (one ch) (Ev s (Call sg i) s')) (out_at_once (one ch) (Ev s (Call sg i) s')) r'.
Proof.
  intros Hr Hs Hd Ns. unfold one. destruct (transfer_of i) as [[[md x] a]|] eqn:Ti.
  - rewrite (in_transfer _ _ _ _ _ _ _ _ _ Ti). destruct (w_transfer_flow _ _ _ _ _ _ _ _ Hr Hs Ti) as (v & orl & irl & P & _ & I & D & K).
    destruct (Z.eq_dec ch (ar_chain a)) as [->|N].
    + assert (irl = r) by (unfold in_limiter in *; congruence). subst irl. destruct D as [(V & _ & I')|(V & _ & _ & I')]; rewrite V, ?Z.eqb_refl; eexists; (split; [exact I'|]); constructor; exact P.
    + exists r. split; [apply K; assumption|]. apply Z.eqb_neq in N. destruct D as [(V & _)|(V & _)]; rewrite V, ?N; constructor.
  - assert (Vo : out_at_once (Z.eqb ch) (Ev s (Call sg i) s') = 0) by (unfold out_at_once; cbn [e_call ins]; now rewrite Ti). rewrite Vo.
    assert (Q : (exists x, i = IRedeem x) \/ in_at_once H (Z.eqb ch) (Ev s (Call sg i) s') = 0 /\ (forall x, i <> IRedeem x)).
    { destruct i; try (left; eexists; reflexivity); right; (split; [reflexivity|intros; discriminate]). }
    destruct Q as [(x & ->)|(Vi & Nr)].
    + destruct (redeem_exact _ _ _ _ _ Hr Hs) as (p & k & tm & c & rt & pe & m & b & af & Rd). unfold in_at_once.
      destruct (redeem_flow H s sg _ _ _ _ _ _ _ _ _ _ _ Rd) as [(V & _ & I)|(V & irl & orl & I1 & _ & L & I2 & _ & K)]; rewrite V.
      * exists r. split; [apply I, Hd|constructor].
      * destruct (Z.eq_dec ch k) as [->|N].
        -- assert (irl = r) by (unfold in_limiter in *; congruence). subst irl. eexists. split; [exact I2|]. rewrite Z.eqb_refl. cbn [SpecWindow.total fold_right snd]. rewrite Z.add_0_r. constructor; [eapply w_local_nonneg; eassumption|exact L].
        -- exists r. split; [apply K; assumption|]. apply Z.eqb_neq in N. rewrite N. constructor.
    + rewrite Vi. exists r. split; [eapply w_inbound_same; eassumption|constructor].
Qed.

Lemma w_outbound_same H s sg i s' r : step H s (Call sg i) = Ok s' -> out_limiter s r -> ~ sets_outbound i ->
  transfer_of i = None -> (forall x, i <> IRedeem x) -> out_limiter s' r.
Proof.
  intros Hs Hd Ns Ti Nr. destruct (step_change _ _ _ _ Hs pda_outbox_rl) as [Q|Q]; [unfold out_limiter in *; congruence|].
  unfold out_limiter in *. rewrite Hd in Q. cbn [signers ins] in Q. destruct (orl_kept _ _ _ _ _ _ Hs Hd) as (r' & Hd'). unfold has in Hd'.
  rewrite Hd' in Q. exfalso. remember pda_outbox_rl as a0 eqn:Ea. inversion Q; subst; try discriminate.
  - match goal with E : is_transfer _ _ _ _ |- _ => rename E into Et end. destruct md; cbn in Et; subst i; discriminate.
  - eapply Nr. reflexivity.
  - apply Ns. do 4 eexists. reflexivity.
Qed.
Lemma w_out_flow H s sg i s' r : wreachable H s -> step H s (Call sg i) = Ok s' -> out_limiter s r -> ~ sets_outbound i ->
  exists r', out_limiter s' r' /\ moved r (st_now s) (out_at_once every (Ev s (Call sg i) s')) (in_at_once H every (Ev s (Call sg i) s')) r'.
Proof.
  intros Hr Hs Hd Ns. destruct (transfer_of i) as [[[md x] a]|] eqn:Ti.
  - rewrite (in_transfer _ _ _ _ _ _ _ _ _ Ti). destruct (w_transfer_flow _ _ _ _ _ _ _ _ Hr Hs Ti) as (v & orl & irl & P & O & _ & D & K).
    assert (orl = r) by (unfold out_limiter in *; congruence). subst orl. destruct D as [(V & O' & _)|(V & L & O' & _)]; rewrite V; unfold every; eexists; (split; [exact O'|]); constructor; assumption.
  - assert (Vo : out_at_once every (Ev s (Call sg i) s') = 0) by (unfold out_at_once; cbn [e_call ins]; now rewrite Ti). rewrite Vo.
    assert (Q : (exists x, i = IRedeem x) \/ in_at_once H every (Ev s (Call sg i) s') = 0 /\ (forall x, i <> IRedeem x)).
    { destruct i; try (left; eexists; reflexivity); right; (split; [reflexivity|intros; discriminate]). }
    destruct Q as [(x & ->)|(Vi & Nr)].
    + destruct (redeem_exact _ _ _ _ _ Hr Hs) as (p & k & tm & c & rt & pe & m & b & af & Rd). unfold in_at_once.
      destruct (redeem_flow H s sg _ _ _ _ _ _ _ _ _ _ _ Rd) as [(V & O & _)|(V & irl & orl & _ & O1 & L & _ & O2 & K)]; rewrite V.
      * exists r. split; [apply O, Hd|constructor].
      * assert (orl = r) by (unfold out_limiter in *; congruence). subst orl. eexists. split; [exact O2|]. unfold every. cbn [SpecWindow.total fold_right snd]. rewrite Z.add_0_r. constructor. eapply w_local_nonneg; eassumption.
    + rewrite Vi. exists r. split; [eapply w_outbound_same; eassumption|constructor].
Qed.

Lemma w_flow_run H (lim : state -> rl -> Prop) (taken back : ev -> Z) (quiet : ev -> Prop) s0 r0 t0 t1 :
  (forall s cl s' r, wreachable H s -> step H s cl = Ok s' -> lim s r -> quiet (Ev s cl s') ->
     exists r', lim s' r' /\ moved r (st_now s) (taken (Ev s cl s')) (back (Ev s cl s')) r') ->
  (forall s s' r, wild s s' -> lim s r -> lim s' r) ->
  wreachable H s0 -> lim s0 r0 -> wf_rl r0 -> forall tr s, wrun H s0 tr s -> during t0 t1 tr -> (forall e, In e tr -> quiet e) ->
  exists r, lim s r /\ flowed r0 t0 (sum taken tr) (sum back tr) r /\ (r = r0 \/ rl_last r <= t1).
Proof.
  intros St Wi Hr0 L0 W0 tr s R. induction R as [|tr s cl s' R IH E|tr s s' R IH E]; intros D Q.
  - exists r0. split; [exact L0|]. split; [apply flowed_start|auto].
  - apply during_tail in D. destruct D as (Dn & D). destruct (IH D (fun e I => Q e (or_intror I))) as (r & L & F & B).
    destruct (St s cl s' r (wrun_reachable _ _ _ _ Hr0 R) E L (Q _ (or_introl eq_refl))) as (r' & L' & M). cbn [e_pre] in Dn.
    exists r'. split; [exact L'|]. split.
    + cbn [sum fold_right]. fold (sum taken tr) (sum back tr). rewrite (Z.add_comm (taken _)), (Z.add_comm (back _)). exact (moved_flowed _ _ W0 _ _ _ _ _ _ _ F (proj1 Dn) M).
    + destruct (moved_last _ _ _ _ _ M) as [->|E']; [exact B|right; lia].
  - destruct (IH D Q) as (r & L & F & B). exists r. split; [eapply Wi; eassumption|]. split; assumption.
Qed.

Theorem w_inbound_bound H s tr s' ch r t0 t1 : wreachable H s -> wrun H s tr s' -> in_limiter s ch r -> t0 <= t1 -> during t0 t1 tr ->
  (forall e, In e tr -> ~ sets_inbound ch (ins (e_call e))) ->
  sum (in_at_once H (one ch)) tr * day <= room r t0 + (t1 - t0) * rl_limit r + sum (out_at_once (one ch)) tr * day.
Proof.
  intros Hr R L Ht D Q. pose proof (irl_wf _ _ _ (wreachable_inv _ _ Hr) L) as W.
  destruct (w_flow_run H (fun s r => in_limiter s ch r) (in_at_once H (one ch)) (out_at_once (one ch)) (fun e => ~ sets_inbound ch (ins (e_call e))) s r t0 t1
    ltac:(intros u [sg i] u' q Hu E Lq Nq; exact (w_in_flow _ _ _ _ _ _ _ Hu E Lq Nq))
    ltac:(intros u u' q Wu Lq; unfold in_limiter in *; rewrite (wl_accts _ _ Wu); exact Lq) Hr L W tr s' R D Q) as (r' & L' & F & B).
  eapply flowed_bound; [exact W|exact F| |exact Ht|exact B]. exact (irl_wf _ _ _ (wreachable_inv _ _ (wrun_reachable _ _ _ _ Hr R)) L').
Qed.
Theorem w_outbound_bound H s tr s' r t0 t1 : wreachable H s -> wrun H s tr s' -> out_limiter s r -> t0 <= t1 -> during t0 t1 tr ->
  (forall e, In e tr -> ~ sets_outbound (ins (e_call e))) ->
  sum (out_at_once every) tr * day <= room r t0 + (t1 - t0) * rl_limit r + sum (in_at_once H every) tr * day.
Proof.
  intros Hr R L Ht D Q. pose proof (proj2 (orl_addr _ _ _ (wreachable_inv _ _ Hr) L)) as W.
  destruct (w_flow_run H out_limiter (out_at_once every) (in_at_once H every) (fun e => ~ sets_outbound (ins (e_call e))) s r t0 t1
    ltac:(intros u [sg i] u' q Hu E Lq Nq; exact (w_out_flow _ _ _ _ _ _ Hu E Lq Nq))
    ltac:(intros u u' q Wu Lq; unfold out_limiter in *; rewrite (wl_accts _ _ Wu); exact Lq) Hr L W tr s' R D Q) as (r' & L' & F & B).
  eapply flowed_bound; [exact W|exact F| |exact Ht|exact B]. exact (proj2 (orl_addr _ _ _ (wreachable_inv _ _ (wrun_reachable _ _ _ _ Hr R)) L')).
Qed.

(** ** Payouts within a day *)
(** The threshold is one and a message counts only from an enabled transceiver, so every item is scheduled when it is made. *)
Lemma w_threshold_one H s a c : wreachable H s -> config_at s a c -> cf_threshold c = 1.
Proof.
  revert s a c. enough (forall s, wreachable H s -> forall a c, config_at s a c -> cf_threshold c = 1) by eauto.
  apply (wreach_ind H (fun s => forall a c, config_at s a c -> cf_threshold c = 1)).
  - intros s Hini a c Hd. exfalso. destruct (ini_accts _ Hini _ _ Hd) as (_ & C & _). discriminate.
  - intros s cl s' Hr IH E a c Hd. pose proof (wreachable_inv _ _ Hr) as Hi. assert (Hr' : wreachable H s') by (eapply wstep_reachable; eassumption).
    pose proof (config_addr _ _ _ (wreachable_inv _ _ Hr') Hd). subst a. destruct (config_dec _ Hi) as [N|(c0 & E0)].
    + destruct (config_new _ _ _ _ _ E N Hd) as (d & mnt & tp & ch & l & md & mt & _ & -> & _). reflexivity.
    + destruct (config_step_at _ _ _ _ _ _ Hr E E0) as (c' & Hc' & D). assert (c' = c) by (unfold config_at in *; congruence). subst c'.
      destruct D as [->|D]; [eauto|]. apply cfg_change_same in D. rewrite <- (IH _ _ E0). apply D.
  - intros s s' IH W a c Hd. apply (IH a). unfold config_at in *. now rewrite <- (wl_accts _ _ W).
Qed.
Lemma both_in v e i : 0 <= i < 128 -> Z.testbit v i = true -> Z.testbit e i = true -> (1 <= length (both v e))%nat.
Proof.
  intros R V E. assert (I : In i (both v e)).
  { unfold both. apply filter_In. split; [|now rewrite V, E]. apply in_map_iff. exists (Z.to_nat i). split; [lia|]. apply in_seq. lia. }
  destruct (both v e); [contradiction|]. cbn. lia.
Qed.
Lemma made_scheduled H s x s' p ch tm c rt pe m af : wreachable H s -> redeemed H s x s' p ch tm c rt pe m None af -> ib_status af <> NotApproved.
Proof.
  intros Hr Rd. pose proof (rd_delivers _ _ _ _ _ _ _ _ _ _ _ _ _ Rd) as D. destruct (rd_status _ _ _ _ _ _ _ _ _ _ _ _ _ Rd) as [(L & _)|(_ & _ & irl & orl & irl' & orl' & t & E & _)]; [|congruence].
  exfalso. pose proof (dl_config _ _ _ _ _ _ _ _ D) as Hc. rewrite (w_threshold_one _ _ _ _ Hr Hc) in L.
  pose proof (reg_id _ _ _ (wreachable_inv _ _ Hr) (dl_reg _ _ _ _ _ _ _ _ D)) as Ri. rewrite (rd_votes _ _ _ _ _ _ _ _ _ _ _ _ _ Rd) in L.
  assert (K : (1 <= length (both (Z.setbit 0 (rt_id rt)) (cf_enabled c)))%nat); [|lia].
  apply (both_in _ _ (rt_id rt)); [lia|apply Z.setbit_eq; lia|exact (dl_enabled _ _ _ _ _ _ _ _ D)].
Qed.
Lemma w_items_scheduled H s : wreachable H s -> forall a it, inbox_at s a it -> ib_status it <> NotApproved.
Proof.
  revert s. apply (wreach_ind H (fun s => forall a it, inbox_at s a it -> ib_status it <> NotApproved)).
  - intros s Hini a it Hd. exfalso. destruct (ini_accts _ Hini _ _ Hd) as (_ & C & _). discriminate.
  - intros s cl s' Hr IH E a it Hd. pose proof (item_addr _ _ _ (wreachable_inv _ _ (wstep_reachable _ _ _ _ Hr E)) Hd) as (Ea & _).
    destruct (inbox_dec _ _ (wreachable_inv _ _ Hr) Ea) as [N|(i0 & E0)].
    + destruct (inbox_made _ _ _ _ _ _ Hr E N Hd) as (x & p & ch & tm & c & rt & pe & m & _ & _ & Rd). eapply made_scheduled; eassumption.
    + destruct (status_step _ _ _ _ _ _ Hr E E0) as (it' & Hd' & _ & _ & L & _). assert (it' = it) by (unfold inbox_at in *; congruence). subst it'.
      specialize (IH _ _ E0). inversion L; congruence.
  - intros s s' IH W a it Hd. apply (IH a). now apply (wild_inbox _ _ _ _ W).
Qed.

Lemma payout_released e a : payout e = Some a -> released (e_pre e) a = false /\ released (e_post e) a = true.
Proof.
  unfold payout. destruct (release_of (ins (e_call e))) as [x|]; [|discriminate]. destruct (negb (released (e_pre e) (la_item x)) && released (e_post e) (la_item x)) eqn:Q; [|discriminate].
  intros K. apply Some_inj in K. subst a. apply andb_true_iff in Q. destruct Q as (Q1 & Q2). apply negb_true_iff in Q1. auto.
Qed.

Lemma w_paid_at_once H s0 tr0 s tr s' t0 t1 ch a : initial s0 -> wrun H s0 tr0 s -> wrun H s tr s' -> no_collision H (tr ++ tr0) -> during t0 t1 tr -> t1 < t0 + day ->
  open_in s a -> paid_for H ch (tr ++ tr0) tr a -> In (a, amount_of s' a) (flat_map (item_at_once H (one ch)) tr).
Proof.
  intros Hini R0 R NC D Ht (Os & Or) ((e & Ie & Pe) & e2 & p2 & nm2 & I2 & D2 & A2).
  assert (Ra : wrun H s0 (tr ++ tr0) s') by (eapply wrun_app; eassumption).
  assert (Iea : In e (tr ++ tr0)) by (apply in_or_app; left; exact Ie).
  destruct (wrun_event _ _ _ _ _ Ra Iea) as (Ee & u1 & u2 & Re & _ & Eu). destruct (payout_released _ _ Pe) as (Q1 & Q2).
  assert (Hre : wreachable H (e_pre e)) by (exists s0, u1; split; assumption).
  destruct (paid_when_due _ _ _ _ _ Hre Ee Q1 Q2) as (md & y & q & c2 & i2 & t2 & _ & _ & _ & _ & _ & Hd2 & Et2 & Tl).
  destruct (approved_by _ _ _ _ _ _ Hini Re Hd2) as (v2 & e1 & v1 & p & k & tm & c & m & it & t & Ev & Ap & Dt); [congruence|].
  assert (t2 = t) by (destruct Dt as [Dt|Dt]; congruence). subst t2.
  assert (I1 : In e1 (tr ++ tr0)) by (rewrite Eu, Ev; apply in_or_app; right; right; apply in_or_app; right; now left).
  pose proof Ap as (x & rt & pe & b & Ei & Eit & Rd & Nr & Nsch & Est).
  pose proof (rd_after _ _ _ _ _ _ _ _ _ _ _ _ _ Rd) as Haf. rewrite Eit in Haf.
  destruct (wrun_event _ _ _ _ _ Ra I1) as (E1 & w1 & w2 & R1 & R2 & Ew).
  assert (Hr1 : wreachable H (e_pre e1)) by (exists s0, w1; split; assumption).
  assert (Hr1' : wreachable H (e_post e1)) by (eapply wstep_reachable; eassumption).
  assert (I1' : In e1 tr).
  { apply in_app_or in I1. destruct I1 as [I1|I1]; [exact I1|]. exfalso. destruct (wrun_event _ _ _ _ _ R0 I1) as (_ & z1 & z2 & _ & R3 & _).
    destruct (status_run _ _ _ _ _ _ Hr1' R3 Haf) as (it' & Hit' & _ & _ & L). rewrite Est in L. unfold released in Or. rewrite (status_inbox _ _ _ Hit') in Or. rewrite (scheduled_inbox _ _ _ Hit') in Os.
    apply later_scheduled in L. destruct L as [L|L]; rewrite L in *; discriminate. }
  assert (Bn : b = None).
  { pose proof (rd_before _ _ _ _ _ _ _ _ _ _ _ _ _ Rd) as B. destruct b as [i0|]; [|reflexivity]. exfalso. rewrite Eit in B.
    pose proof (w_items_scheduled _ _ Hr1 _ _ B) as K. destruct (ib_status i0) as [|t'|] eqn:Es; [congruence| |].
    - apply (Nsch t'). now rewrite (status_inbox _ _ _ B), Es.
    - apply Nr. now rewrite (status_inbox _ _ _ B), Es. }
  subst b. pose proof (D _ Ie) as De. pose proof (D _ I1') as D1.
  assert (Et : t = st_now (e_pre e1)).
  { destruct (rd_status _ _ _ _ _ _ _ _ _ _ _ _ _ Rd) as [(_ & K & _)|(_ & _ & irl & orl & irl' & orl' & t' & E' & _ & _ & _ & _ & K1 & K2 & _)]; [exfalso; congruence|].
    assert (t' = t) by congruence. subst t'. destruct (Z_le_gt_dec (local_amount m (tm_msg tm)) (capacity irl (st_now (e_pre e1)))) as [L|L]; [apply K1, L|].
    apply Z.gt_lt in L. destruct (K2 L) as (K & _). lia. }
  assert (Dl1 : delivery e1 p k (tm_msg tm)) by (exists x, tm, c, rt, pe; split; [exact Ei|]; split; [exact (rd_delivers _ _ _ _ _ _ _ _ _ _ _ _ _ Rd)|reflexivity]).
  destruct (NC _ _ _ _ _ _ _ _ I1 I2 Dl1 D2) as (-> & Em); [apply inbox_inj; unfold item_of in *; congruence|].
  assert (As : amount_of s' a = local_amount m (tm_msg tm)).
  { destruct (status_run _ _ _ _ _ _ Hr1' R2 Haf) as (it' & Hit' & Ea & _ & _). pose proof (rd_amount _ _ _ _ _ _ _ _ _ _ _ _ _ Rd) as Am. unfold amount_of, inbox_at in *. rewrite Hit'. cbn in Am. congruence. }
  apply in_flat_map. exists e1. split; [exact I1'|]. destruct e1 as [u [sg i] u']. cbn [e_pre e_call e_post ins] in *. subst i.
  rewrite (item_at_once_redeemed H (one ch) u sg _ _ _ _ _ _ _ _ _ _ _ Rd), Eit.
  assert (Sn : scheduled u a = None) by (unfold scheduled; destruct (status_at u a) as [[]|]; try reflexivity; exfalso; eapply Nsch; reflexivity).
  rewrite Sn, (scheduled_inbox _ _ _ Haf), Est, Et, Z.eqb_refl. unfold one. rewrite Z.eqb_refl. left. congruence.
Qed.
Lemma w_at_once_nonneg H s0 tr s sel : wreachable H s0 -> wrun H s0 tr s -> forall p, In p (flat_map (item_at_once H sel) tr) -> 0 <= snd p.
Proof.
  intros Hr R p I. apply in_flat_map in I. destruct I as (e & Ie & Ip). destruct (wrun_event _ _ _ _ _ R Ie) as (E & tr1 & tr2 & R1 & _ & _).
  pose proof (wrun_reachable _ _ _ _ Hr R1) as Hr1. destruct e as [u [sg i] u']. cbn [e_pre e_call e_post] in *.
  destruct i; try (cbn in Ip; contradiction). destruct (redeem_exact _ _ _ _ _ Hr1 E) as (q & ch & tm & c & rt & pe & m & b & af & Rd).
  rewrite (item_at_once_redeemed H sel u sg _ _ _ _ _ _ _ _ _ _ _ Rd) in Ip. pose proof (w_local_nonneg _ _ _ _ _ _ _ _ _ _ _ _ _ Hr1 Rd) as P.
  destruct (scheduled u _); [contradiction|]. destruct (scheduled u' _); [|contradiction]. destruct (_ && _); [|contradiction]. destruct Ip as [<-|[]]. exact P.
Qed.
Theorem w_paid_bound H s0 tr0 s tr s' ch r t0 t1 l : initial s0 -> wrun H s0 tr0 s -> wrun H s tr s' -> no_collision H (tr ++ tr0) ->
  in_limiter s ch r -> t0 <= t1 -> t1 < t0 + day -> during t0 t1 tr -> (forall e, In e tr -> ~ sets_inbound ch (ins (e_call e))) ->
  NoDup l -> (forall a, In a l -> open_in s a /\ paid_for H ch (tr ++ tr0) tr a) ->
  amounts s' l * day <= room r t0 + (t1 - t0) * rl_limit r + sum (out_at_once (one ch)) tr * day.
Proof.
  intros Hini R0 R NC L T1 T2 D Q N P. assert (Hr : wreachable H s) by (exists s0, tr0; split; assumption).
  pose proof (w_inbound_bound _ _ _ _ _ _ _ _ Hr R L T1 D Q) as B. rewrite sum_total in B.
  assert (K : amounts s' l <= SpecWindow.total (flat_map (item_at_once H (one ch)) tr)); [|pose proof day_pos; nia].
  apply distinct_total; [exact N| |eapply w_at_once_nonneg; eassumption].
  intros a Ia. destruct (P a Ia) as (O & Pf). eapply w_paid_at_once; eassumption.
Qed.

(** ** A pause within the day *)
Lemma cfg_change_pause s sg i c c' : cfg_change s sg i c c' -> cf_paused c = true -> cf_paused c' = true \/ unpauses i.
Proof. intros Q P. destruct Q; cbn; auto. destruct b; [auto|]. right. eexists. eexists. reflexivity. Qed.
Lemma w_pause_run H s tr s' : wreachable H s -> wrun H s tr s' -> paused_in s -> (forall e, In e tr -> ~ unpauses (ins (e_call e))) ->
  paused_in s' /\ forall e, In e tr -> payout e = None.
Proof.
  intros Hr R P. induction R as [|tr u cl u' R IH E|tr u u' R IH W]; intros N; [split; [exact P|intros e []]| |].
  - destruct (IH (fun e I => N e (or_intror I))) as (Pu & No). pose proof (wrun_reachable _ _ _ _ Hr R) as Hu. destruct Pu as (c & Hc & Hp). split.
    + destruct (config_step_at _ _ _ _ _ _ Hu E Hc) as (c' & Hc' & D). exists c'. split; [exact Hc'|]. destruct D as [->|D]; [exact Hp|].
      destruct (cfg_change_pause _ _ _ _ _ D Hp) as [K|K]; [exact K|]. exfalso. exact (N _ (or_introl eq_refl) K).
    + intros e [<-|I]; [|exact (No e I)]. destruct (payout (Ev u cl u')) as [a|] eqn:Q; [|reflexivity]. exfalso. destruct (payout_released _ _ Q) as (Q1 & Q2). cbn [e_pre e_post] in *.
      destruct (paid_when_due _ _ _ _ _ Hu E Q1 Q2) as (md & y & q & c2 & i2 & t2 & _ & _ & Hc2 & Hn & _). destruct (config_one _ _ _ _ _ _ Hu Hc Hc2) as (_ & ->). congruence.
  - destruct (IH N) as ((c & Hc & Hp) & No). split; [|exact No]. exists c. split; [eapply wild_config; eassumption|exact Hp].
Qed.
Lemma w_amounts_run H s tr s' l : wreachable H s -> wrun H s tr s' -> (forall a, In a l -> exists it, inbox_at s a it) -> amounts s' l = amounts s l.
Proof.
  intros Hr R. induction l as [|a l IH]; intros K; [reflexivity|]. cbn [amounts fold_right]. fold (amounts s' l) (amounts s l). rewrite (IH (fun b I => K b (or_intror I))).
  destruct (K a (or_introl eq_refl)) as (it & Hi). destruct (status_run _ _ _ _ _ _ Hr R Hi) as (it' & Hi' & Ea & _). unfold amount_of, inbox_at in *. rewrite Hi, Hi'. congruence.
Qed.
Theorem w_paused_bound H s0 tr0 s tr s1 tr2 s2 ch r t0 t1 l : initial s0 -> wrun H s0 tr0 s -> wrun H s tr s1 -> wrun H s1 tr2 s2 -> no_collision H (tr2 ++ tr ++ tr0) ->
  in_limiter s ch r -> t0 <= t1 -> t1 < t0 + day -> during t0 t1 tr -> (forall e, In e tr -> ~ sets_inbound ch (ins (e_call e))) ->
  paused_in s1 -> (forall e, In e tr2 -> ~ unpauses (ins (e_call e))) ->
  NoDup l -> (forall a, In a l -> open_in s a /\ paid_for H ch (tr2 ++ tr ++ tr0) (tr2 ++ tr) a) ->
  amounts s2 l * day <= room r t0 + (t1 - t0) * rl_limit r + sum (out_at_once (one ch)) tr * day.
Proof.
  intros Hini R0 R R2 NC L T1 T2 D Q P N Nd Hl. assert (Hr0 : wreachable H s) by (exists s0, tr0; split; assumption). pose proof (wrun_reachable _ _ _ _ Hr0 R) as Hr1.
  destruct (w_pause_run _ _ _ _ Hr1 R2 P N) as (_ & No). pose proof (wrun_app _ _ _ _ _ _ R0 R) as Ra.
  assert (Ap : forall a e, In e tr -> payout e = Some a -> (exists it, inbox_at s1 a it) /\ exists e1 p k nm, In e1 (tr ++ tr0) /\ delivery e1 p k nm /\ item_of H k nm = a).
  { intros a e Ie Pe. destruct (payout_released _ _ Pe) as (Q1 & Q2). destruct (wrun_event _ _ _ _ _ R Ie) as (Ee & u1 & u2 & Re & Rv & Eu).
    pose proof (wrun_reachable _ _ _ _ Hr0 Re) as Hre. destruct (paid_when_due _ _ _ _ _ Hre Ee Q1 Q2) as (md & y & q & c2 & i2 & t2 & _ & _ & _ & _ & _ & Hd2 & Et2 & _).
    destruct (status_run _ _ _ _ _ _ Hre (wrun_app _ _ _ _ _ _ (wrun_step _ _ _ _ _ _ (wrun_nil _ _) Ee) Rv) Hd2) as (it' & Hi' & _). split; [eauto|].
    destruct (approved_by _ _ _ _ _ _ Hini (wrun_app _ _ _ _ _ _ R0 Re) Hd2) as (v2 & e1 & v1 & p & k & tm & c & m & it & t & Ev & A & _); [congruence|].
    destruct A as (x & rt & pe & b & Ei & Eit & Rd & _). exists e1, p, k, (tm_msg tm). split; [|split; [|exact Eit]].
    - assert (K : In e1 (u1 ++ tr0)) by (rewrite Ev; apply in_or_app; right; now left). rewrite Eu. apply in_or_app. apply in_app_or in K. destruct K as [K|K]; [left; apply in_or_app; right; now right|now right].
    - exists x, tm, c, rt, pe. split; [exact Ei|]. split; [exact (rd_delivers _ _ _ _ _ _ _ _ _ _ _ _ _ Rd)|reflexivity]. }
  assert (K : forall a, In a l -> (exists it, inbox_at s1 a it) /\ open_in s a /\ paid_for H ch (tr ++ tr0) tr a).
  { intros a Ia. destruct (Hl a Ia) as (O & ((e & Ie & Pe) & e2 & p2 & nm2 & I2 & D2 & A2)).
    assert (Ie' : In e tr) by (apply in_app_or in Ie; destruct Ie as [Ie|Ie]; [rewrite (No e Ie) in Pe; discriminate|exact Ie]).
    destruct (Ap a e Ie' Pe) as (Ex & e1 & p & k & nm & I1 & D1 & A1). split; [exact Ex|]. split; [exact O|]. split; [exists e; split; assumption|].
    destruct (NC e1 e2 p p2 k nm ch nm2) as (-> & ->); [apply in_or_app; right; exact I1|exact I2|exact D1|exact D2|apply inbox_inj; unfold item_of in *; congruence|].
    exists e1, p, nm2. auto. }
  rewrite (w_amounts_run _ _ _ _ _ Hr1 R2 (fun a I => proj1 (K a I))).
  assert (NC' : no_collision H (tr ++ tr0)) by (intros e e' p p' k nm k' nm' I I'; apply NC; apply in_or_app; right; assumption).
  exact (w_paid_bound _ _ _ _ _ _ _ _ _ _ _ Hini R0 R NC' L T1 T2 D Q Nd (fun a I => proj2 (K a I))).
Qed.

(** ** Publications within a day *)
Lemma w_due_when_sent H s tr s' a o o' t1 : wreachable H s -> wrun H s tr s' -> outbox_at s a o -> outbox_at s' a o' -> (forall e, In e tr -> st_now (e_pre e) <= t1) ->
  ob_released o = 0 -> ob_released o' <> 0 -> ob_release o <= t1.
Proof.
  intros Hr R Ho. revert o'. induction R as [|tr u cl u' R IH E|tr u u' R IH W]; intros o' Ho' B Z0 Nz.
  - unfold outbox_at in *. congruence.
  - destruct (item_kept _ _ _ _ _ _ Hr R Ho) as (o1 & Ho1 & S). destruct (item_step _ _ _ _ _ _ (wrun_reachable _ _ _ _ Hr R) E Ho1) as [Q|(cf & rt & p & b & cfg & x & Q & _ & _ & Hd & _)].
    + apply (IH o1); [exact Ho1|intros e I; exact (B e (or_intror I))|exact Z0|]. unfold outbox_at in *. congruence.
    + pose proof (B _ (or_introl eq_refl)) as B1. cbn [e_pre] in B1. assert (ob_release o1 = ob_release o) by (rewrite S; destruct o; reflexivity). lia.
  - apply (IH o'); [apply (wild_outbox _ _ _ _ W), Ho'|exact B|exact Z0|exact Nz].
Qed.

Lemma w_sent_at_once H s tr s' t0 t1 : wreachable H s -> wrun H s tr s' -> during t0 t1 tr -> t1 < t0 + day -> forall e, In e tr -> sent_value s' e <= out_at_once every e.
Proof.
  intros Hr R D T e I. destruct (wrun_event _ _ _ _ _ R I) as (E & tr1 & tr2 & R1 & R2 & Et). pose proof (wrun_reachable _ _ _ _ Hr R1) as Hr1.
  destruct (D e I) as (D1 & _). destruct e as [u [sg i] u']. cbn [e_pre e_call e_post] in *. unfold sent_value. cbn [e_pre e_call ins].
  destruct (transfer_of i) as [[[md x] ar]|] eqn:Ti; [|unfold out_at_once; cbn [e_call ins]; rewrite Ti; lia].
  destruct (transfer_limits _ _ _ _ _ _ _ _ Hr1 E Ti) as (c & m & pe & f & o & v & orl & irl & orl' & irl' & Tr & _ & _ & _ & _ & K1 & K2 & _).
  rewrite (out_at_once_value every _ _ _ _ _ _ _ _ _ _ _ _ _ Ti Tr), (deposit_value_ok _ _ _ _ _ _ _ _ _ _ _ _ Tr). cbn [every andb].
  pose proof (proj1 (tr_range _ _ _ _ _ _ _ _ _ _ _ _ Tr)) as Pv. pose proof (tr_item _ _ _ _ _ _ _ _ _ _ _ _ Tr) as Ho.
  pose proof (wrun_reachable _ _ _ _ Hr1 (wrun_step _ _ _ _ _ _ (wrun_nil _ _) E)) as Hr2.
  destruct (item_kept _ _ _ _ _ _ Hr2 R2 Ho) as (o' & Ho' & _). rewrite (Ho' : st_accts _ _ = _).
  destruct (Z.eqb_spec (ob_released o') 0) as [Q|Q]; [destruct (_ =? _); lia|].
  assert (Du : ob_release o <= t1).
  { refine (w_due_when_sent _ _ _ _ _ _ _ t1 Hr2 R2 Ho Ho' _ (tr_unsent _ _ _ _ _ _ _ _ _ _ _ _ Tr) Q).
    intros e' I'. apply (D e'). rewrite Et. apply in_or_app. now left. }
  destruct (Z_le_gt_dec v (capacity orl (st_now u))) as [L|L].
  - destruct (K1 L) as (Eo & _). rewrite Eo, Z.eqb_refl. lia.
  - apply Z.gt_lt in L. destruct (K2 L) as (_ & Eo & _). lia.
Qed.

Theorem w_sent_bound H s tr s' r t0 t1 : wreachable H s -> wrun H s tr s' -> out_limiter s r -> t0 <= t1 -> t1 < t0 + day -> during t0 t1 tr ->
  (forall e, In e tr -> ~ sets_outbound (ins (e_call e))) ->
  sum (sent_value s') tr * day <= room r t0 + (t1 - t0) * rl_limit r + sum (in_at_once H every) tr * day.
Proof.
  intros Hr R L T1 T2 D Q. pose proof (w_outbound_bound _ _ _ _ _ _ _ Hr R L T1 D Q) as B.
  pose proof (sum_le _ _ _ (w_sent_at_once _ _ _ _ _ _ Hr R D T2)) as K. pose proof day_pos. nia.
Qed.

Lemma w_pause_out H s tr s' : wreachable H s -> wrun H s tr s' -> paused_in s -> (forall e, In e tr -> ~ unpauses (ins (e_call e))) ->
  (forall e, In e tr -> transfer_of (ins (e_call e)) = None) /\ forall a o, outbox_at s a o -> outbox_at s' a o.
Proof.
  intros Hr R P. induction R as [|tr u cl u' R IH E|tr u u' R IH W]; intros N; [split; [intros e []|auto]| |].
  2: { destruct (IH N) as (No & K). split; [exact No|]. intros a o Ho. apply (wild_outbox _ _ _ _ W), (K a o Ho). }
  destruct (IH (fun e I => N e (or_intror I))) as (No & K). pose proof (wrun_reachable _ _ _ _ Hr R) as Hu.
  destruct (w_pause_run _ _ _ _ Hr R P (fun e I => N e (or_intror I))) as ((c' & Hc' & Hp) & _).
  assert (C : forall a c, config_at u a c -> cf_paused c = false -> False).
  { intros a c Hc Hn. destruct (config_one _ _ _ _ _ _ Hu Hc Hc') as (_ & ->). congruence. }
  split.
  - intros e [<-|I]; [|exact (No e I)]. destruct cl as [sg i]. cbn [e_call ins]. destruct (transfer_of i) as [[[md x] ar]|] eqn:Ti; [|reflexivity]. exfalso.
    destruct (transfer_done _ _ _ _ _ _ _ _ Hu E Ti) as (c & m & pe & f & o & v & Tr). exact (C _ _ (tr_config _ _ _ _ _ _ _ _ _ _ _ _ Tr) (tr_paused _ _ _ _ _ _ _ _ _ _ _ _ Tr)).
  - intros a o Ho. destruct (item_step _ _ _ _ _ _ Hu E (K a o Ho)) as [Q|(cf & rt & p & b & cfg & x & _ & F & _)]; [exact Q|]. exfalso.
    exact (C _ _ (of_config _ _ _ _ _ _ _ F) (of_paused _ _ _ _ _ _ _ F)).
Qed.

Theorem w_sent_paused_bound H s tr s1 tr2 s2 r t0 t1 : wreachable H s -> wrun H s tr s1 -> wrun H s1 tr2 s2 -> out_limiter s r -> t0 <= t1 -> t1 < t0 + day -> during t0 t1 tr ->
  (forall e, In e tr -> ~ sets_outbound (ins (e_call e))) -> paused_in s1 -> (forall e, In e tr2 -> ~ unpauses (ins (e_call e))) ->
  sum (sent_value s2) (tr2 ++ tr) * day <= room r t0 + (t1 - t0) * rl_limit r + sum (in_at_once H every) tr * day.
Proof.
  intros Hr R R2 L T1 T2 D Q P N. pose proof (w_sent_bound _ _ _ _ _ _ _ Hr R L T1 T2 D Q) as B.
  destruct (w_pause_out _ _ _ _ (wrun_reachable _ _ _ _ Hr R) R2 P N) as (No & K). rewrite sum_app.
  assert (S2 : sum (sent_value s2) tr2 <= sum (fun _ => 0) tr2) by (apply sum_le; intros e I; unfold sent_value; rewrite (No e I); reflexivity).
  assert (Z2 : sum (fun _ => 0) tr2 = 0) by (clear; induction tr2 as [|e l IH]; [reflexivity|exact IH]).
  assert (S1 : sum (sent_value s2) tr <= sum (sent_value s1) tr).
  { apply sum_le. intros e I. destruct (wrun_event _ _ _ _ _ R I) as (E & l1 & l2 & R1 & R3 & _). pose proof (wrun_reachable _ _ _ _ Hr R1) as Hr1.
    destruct e as [u [sg i] u']. cbn [e_pre e_call e_post] in *. unfold sent_value. cbn [e_pre e_call ins]. destruct (transfer_of i) as [[[md x] ar]|] eqn:Ti; [|reflexivity].
    destruct (transfer_done _ _ _ _ _ _ _ _ Hr1 E Ti) as (c & m & pe & f & o & v & Tr).
    destruct (item_kept _ _ _ _ _ _ (wrun_reachable _ _ _ _ Hr1 (wrun_step _ _ _ _ _ _ (wrun_nil _ _) E)) R3 (tr_item _ _ _ _ _ _ _ _ _ _ _ _ Tr)) as (o' & Ho' & _).
    rewrite (Ho' : st_accts _ _ = _), (K _ _ Ho' : st_accts _ _ = _). reflexivity. }
  pose proof day_pos. nia.
Qed.

(** * Rate limits over histories (C110). *)
From Verif Require Export VtmFacts SpecWindow.
Local Open Scope Z_scope.

(** ** One limiter *)
Inductive moved (r : rl) (T : Z) : Z -> Z -> rl -> Prop :=
  | m_same : moved r T 0 0 r
  | m_take v : 0 <= v -> v <= capacity r T -> moved r T v 0 (RL (rl_limit r) (capacity r T - v) T)
  | m_put v : 0 <= v -> moved r T 0 v (RL (rl_limit r) (Z.min (capacity r T + v) (rl_limit r)) T).

Lemma day_pos : 0 < day. Proof. reflexivity. Qed.
Lemma capacity_fluid r T : capacity r T * day <= rl_cap r * day + (T - rl_last r) * rl_limit r /\ capacity r T <= rl_limit r.
Proof.
  unfold capacity. set (x := (T - rl_last r) * rl_limit r). pose proof (Z.mul_div_le x day day_pos). pose proof day_pos. split; [|lia].
  pose proof (Z.le_min_l (rl_cap r + x / day) (rl_limit r)). nia.
Qed.

Section Flow.
Variables (r0 : rl) (t0 : Z).
Hypothesis W0 : wf_rl r0.
Definition start : Z := Z.max t0 (rl_last r0).
(** What has been taken and put back so far, when the limiter is [r]. *)
Definition flowed (taken back : Z) (r : rl) : Prop :=
  rl_limit r = rl_limit r0 /\ 0 <= taken /\ 0 <= back /\
  (r = r0 /\ taken = 0 \/ taken * day + rl_cap r * day <= room r0 t0 + (rl_last r - start) * rl_limit r0 + back * day).

Lemma capacity_flowed taken back r T : flowed taken back r -> t0 <= T -> taken * day + capacity r T * day <= room r0 t0 + (T - start) * rl_limit r0 + back * day.
Proof.
  intros (L & P1 & P2 & D) Ht. destruct (capacity_fluid r T) as (F1 & F2). pose proof day_pos as Dp. destruct W0 as ((Wl & _) & Wc & _).
  destruct D as [(-> & ->)|D].
  - assert (K : capacity r0 T * day <= room r0 t0 + (T - start) * rl_limit r0); [|nia]. unfold room, start.
    destruct (Z_le_gt_dec (rl_last r0) t0) as [Q|Q].
    + rewrite Z.max_r by lia. rewrite Z.max_l by lia. apply Z.min_case_strong; intros _; nia.
    + rewrite Z.max_l by lia. rewrite Z.max_r by lia. rewrite Z.min_l by nia. nia.
  - rewrite L in *. nia.
Qed.
Lemma moved_flowed taken back r T v p r' : flowed taken back r -> t0 <= T -> moved r T v p r' -> flowed (taken + v) (back + p) r'.
Proof.
  intros F Ht M. pose proof (capacity_flowed _ _ _ _ F Ht) as K. destruct F as (L & P1 & P2 & D). pose proof day_pos as Dp.
  destruct M as [|v Hv Hc|v Hv]; unfold flowed; cbn [rl_limit rl_cap rl_last].
  - rewrite !Z.add_0_r. auto.
  - split; [exact L|]. split; [lia|]. split; [lia|]. right. nia.
  - split; [exact L|]. split; [lia|]. split; [lia|]. right. pose proof (Z.le_min_l (capacity r T + v) (rl_limit r)). nia.
Qed.
Lemma flowed_start : flowed 0 0 r0.
Proof. unfold flowed. repeat split; try lia. auto. Qed.
Lemma flowed_bound taken back r t1 : flowed taken back r -> wf_rl r -> t0 <= t1 -> (r = r0 \/ rl_last r <= t1) ->
  taken * day <= room r0 t0 + (t1 - t0) * rl_limit r0 + back * day.
Proof.
  intros (L & P1 & P2 & D) (_ & Wc & _) Ht Hl. pose proof day_pos as Dp. destruct W0 as ((Wl & _) & Wc0 & _).
  assert (R : 0 <= room r0 t0) by (unfold room; apply Z.min_glb; nia).
  destruct D as [(-> & ->)|D]; [nia|].
  destruct Hl as [->|Hl]; unfold start in D; [|nia].
  assert (rl_last r0 - Z.max t0 (rl_last r0) <= 0) by lia. nia.
Qed.
End Flow.

(** ** What one call does to the limiters *)
Lemma scheduled_inbox s a it : inbox_at s a it -> scheduled s a = match ib_status it with ReleaseAfter t => Some t | _ => None end.
Proof. intros E. unfold scheduled. now rewrite (status_inbox _ _ _ E). Qed.
Lemma scheduled_none s a : st_accts s a = None -> scheduled s a = None.
Proof. intros E. unfold scheduled, status_at. now rewrite E. Qed.

Lemma out_at_once_value sel s sg i s' md x a c m pe f o v : transfer_of i = Some (md, x, a) -> transferred s sg x a s' md c m pe f o v ->
  out_at_once sel (Ev s (Call sg i) s') = if sel (ar_chain a) && (ob_release o =? st_now s) then v else 0.
Proof.
  intros Ti T. unfold out_at_once. cbn [e_pre e_call e_post ins]. rewrite Ti, (tr_item _ _ _ _ _ _ _ _ _ _ _ _ T : st_accts _ _ = _).
  unfold deposit_value. rewrite (tr_config _ _ _ _ _ _ _ _ _ _ _ _ T : st_accts _ _ = _), (tr_peer _ _ _ _ _ _ _ _ _ _ _ _ T : st_accts _ _ = _), (tr_mint _ _ _ _ _ _ _ _ _ _ _ _ T).
  now rewrite (tr_value _ _ _ _ _ _ _ _ _ _ _ _ T).
Qed.
Lemma in_transfer H sel s sg i s' md x a : transfer_of i = Some (md, x, a) -> in_at_once H sel (Ev s (Call sg i) s') = 0.
Proof. intros Ti. unfold in_at_once, item_at_once. cbn [e_call ins]. destruct i; try discriminate; reflexivity. Qed.

(** What a redemption counts as, against what it did to the status of the item. *)
Lemma item_at_once_redeemed H sel s sg x s' p ch tm c rt pe m b af : redeemed H s x s' p ch tm c rt pe m b af ->
  item_at_once H sel (Ev s (Call sg (IRedeem x)) s') =
  match scheduled s (item_of H ch (tm_msg tm)), scheduled s' (item_of H ch (tm_msg tm)) with
  | None, Some t => if sel ch && (t =? st_now s) then [(item_of H ch (tm_msg tm), local_amount m (tm_msg tm))] else []
  | _, _ => [] end.
Proof.
  intros Rd. unfold item_at_once. cbn [e_pre e_call e_post ins]. pose proof (rd_delivers _ _ _ _ _ _ _ _ _ _ _ _ _ Rd) as D.
  rewrite (dl_message _ _ _ _ _ _ _ _ D). unfold message_value. rewrite (dl_config _ _ _ _ _ _ _ _ D : st_accts _ _ = _), (rd_mint _ _ _ _ _ _ _ _ _ _ _ _ _ Rd). reflexivity.
Qed.
Lemma redeem_flow H s sg x s' p ch tm c rt pe m b af : redeemed H s x s' p ch tm c rt pe m b af ->
  (forall sel, item_at_once H sel (Ev s (Call sg (IRedeem x)) s') = []) /\
    (forall r, out_limiter s r -> out_limiter s' r) /\ (forall k r, in_limiter s k r -> in_limiter s' k r) \/
  (forall sel, item_at_once H sel (Ev s (Call sg (IRedeem x)) s') = if sel ch then [(item_of H ch (tm_msg tm), local_amount m (tm_msg tm))] else []) /\
    exists irl orl, in_limiter s ch irl /\ out_limiter s orl /\ local_amount m (tm_msg tm) <= capacity irl (st_now s) /\
      in_limiter s' ch (RL (rl_limit irl) (capacity irl (st_now s) - local_amount m (tm_msg tm)) (st_now s)) /\
      out_limiter s' (RL (rl_limit orl) (Z.min (capacity orl (st_now s) + local_amount m (tm_msg tm)) (rl_limit orl)) (st_now s)) /\
      (forall k r, k <> ch -> in_limiter s k r -> in_limiter s' k r).
Proof.
  intros Rd. pose proof (fun sel => item_at_once_redeemed H sel s sg _ _ _ _ _ _ _ _ _ _ _ Rd) as V.
  pose proof (rd_before _ _ _ _ _ _ _ _ _ _ _ _ _ Rd) as B. pose proof (scheduled_inbox _ _ _ (rd_after _ _ _ _ _ _ _ _ _ _ _ _ _ Rd)) as Sa.
  assert (Sb : scheduled s (item_of H ch (tm_msg tm)) = match (match b with Some it => ib_status it | None => NotApproved end) with ReleaseAfter t => Some t | _ => None end).
  { destruct b as [it|]; [now apply scheduled_inbox|now apply scheduled_none]. }
  set (a := item_of H ch (tm_msg tm)) in *.
  assert (N1 : pda_outbox_rl <> a) by discriminate. assert (N2 : forall k, pda_inbox_rl k <> a) by discriminate.
  destruct (rd_status _ _ _ _ _ _ _ _ _ _ _ _ _ Rd) as [(_ & Es & K)|(_ & Eo & irl & orl & irl' & orl' & t & Es & I1 & O1 & I2 & O2 & K1 & K2 & K)]; cbv zeta in *.
  - left. split; [intros sel; rewrite V, Sb, Sa, Es; destruct (match b with Some it => ib_status it | None => NotApproved end); reflexivity|].
    split; intros; unfold out_limiter, in_limiter in *; rewrite K by auto; assumption.
  - rewrite Eo in Sb. rewrite Es in Sa. destruct (Z_le_gt_dec (local_amount m (tm_msg tm)) (capacity irl (st_now s))) as [L|L].
    + right. destruct (K1 L) as (-> & -> & ->). split; [intros sel; rewrite V, Sb, Sa, Z.eqb_refl, andb_true_r; reflexivity|].
      exists irl, orl. repeat (split; [assumption|]). intros k r Nk Q. unfold in_limiter in *. rewrite K; [exact Q|apply N2| |discriminate]. intros C. apply Nk. now apply inbox_rl_inj.
    + left. apply Z.gt_lt in L. destruct (K2 L) as (-> & -> & ->).
      assert (Q : (st_now s + day =? st_now s) = false) by (apply Z.eqb_neq; pose proof day_pos; lia).
      split; [intros sel; rewrite V, Sb, Sa, Q, andb_false_r; reflexivity|]. split.
      * intros r Q1. unfold out_limiter in *. congruence.
      * intros k r Q1. destruct (Z.eq_dec k ch) as [->|Nk]; [unfold in_limiter in *; congruence|]. unfold in_limiter in *. rewrite K; [exact Q1|apply N2| |discriminate]. intros C. apply Nk. now apply inbox_rl_inj.
Qed.

Lemma convert_nonneg x f t : 0 <= x -> 0 <= convert x f t.
Proof. intros P. unfold convert. destruct (t <=? f); [apply Z_div_nonneg_nonneg|apply Z.mul_nonneg_nonneg]; try assumption; apply Z.pow_nonneg; lia. Qed.
Lemma local_nonneg H s x s' p ch tm c rt pe m b af : reachable H s -> redeemed H s x s' p ch tm c rt pe m b af -> 0 <= local_amount m (tm_msg tm).
Proof.
  intros Hr Rd. pose proof (dl_message _ _ _ _ _ _ _ _ (rd_delivers _ _ _ _ _ _ _ _ _ _ _ _ _ Rd)) as E.
  destruct (vtm_typed _ _ _ _ _ (reachable_inv _ _ Hr) E) as [_ T]. destruct (typed_tm_ranges _ T) as ((Ra & _) & _). apply convert_nonneg, Ra.
Qed.

Lemma transfer_flow H s sg i s' md x a : reachable H s -> step H s (Call sg i) = Ok s' -> transfer_of i = Some (md, x, a) ->
  exists v orl irl, 0 <= v /\ out_limiter s orl /\ in_limiter s (ar_chain a) irl /\
    ((forall sel, out_at_once sel (Ev s (Call sg i) s') = 0) /\ out_limiter s' orl /\ in_limiter s' (ar_chain a) irl \/
     (forall sel, out_at_once sel (Ev s (Call sg i) s') = if sel (ar_chain a) then v else 0) /\ v <= capacity orl (st_now s) /\
       out_limiter s' (RL (rl_limit orl) (capacity orl (st_now s) - v) (st_now s)) /\
       in_limiter s' (ar_chain a) (RL (rl_limit irl) (Z.min (capacity irl (st_now s) + v) (rl_limit irl)) (st_now s))) /\
    (forall k r, k <> ar_chain a -> in_limiter s k r -> in_limiter s' k r).
Proof.
  intros Hr Hs Ti. destruct (transfer_limits _ _ _ _ _ _ _ _ Hr Hs Ti) as (c & m & pe & f & o & v & orl & irl & orl' & irl' & T & O1 & I1 & O2 & I2 & K1 & K2 & K).
  pose proof (fun sel => out_at_once_value sel _ _ _ _ _ _ _ _ _ _ _ _ _ Ti T) as V.
  exists v, orl, irl. split; [apply (tr_range _ _ _ _ _ _ _ _ _ _ _ _ T)|]. split; [exact O1|]. split; [exact I1|]. split.
  - destruct (Z_le_gt_dec v (capacity orl (st_now s))) as [L|L].
    + right. destruct (K1 L) as (Eo & -> & ->). split; [intros sel; rewrite V, Eo, Z.eqb_refl, andb_true_r; reflexivity|]. auto.
    + left. apply Z.gt_lt in L. destruct (K2 L) as (_ & Eo & -> & ->). split; [|auto]. intros sel. rewrite V, Eo.
      assert (Q : (st_now s + day =? st_now s) = false) by (apply Z.eqb_neq; pose proof day_pos; lia). now rewrite Q, andb_false_r.
  - intros k r Nk Q. unfold in_limiter in *. rewrite K; [exact Q| | |].
    + intros C. pose proof (tr_fresh _ _ _ _ _ _ _ _ _ _ _ _ T). congruence.
    + discriminate.
    + intros C. apply Nk. now apply inbox_rl_inj.
Qed.

Lemma in_flow H s sg i s' ch r : reachable H s -> step H s (Call sg i) = Ok s' -> in_limiter s ch r -> ~ sets_inbound ch i ->
  exists r', in_limiter s' ch r' /\ moved r (st_now s) (in_at_once H (one ch) (Ev s (Call sg i) s')) (out_at_once (one ch) (Ev s (Call sg i) s')) r'.
Proof.
  intros Hr Hs Hd Ns. unfold one. destruct (transfer_of i) as [[[md x] a]|] eqn:Ti.
  - rewrite (in_transfer _ _ _ _ _ _ _ _ _ Ti). destruct (transfer_flow _ _ _ _ _ _ _ _ Hr Hs Ti) as (v & orl & irl & P & _ & I & D & K).
    destruct (Z.eq_dec ch (ar_chain a)) as [->|N].
    + assert (irl = r) by (unfold in_limiter in *; congruence). subst irl. destruct D as [(V & _ & I')|(V & _ & _ & I')]; rewrite V, ?Z.eqb_refl; eexists; (split; [exact I'|]); constructor; exact P.
    + exists r. split; [apply K; assumption|]. apply Z.eqb_neq in N. destruct D as [(V & _)|(V & _)]; rewrite V, ?N; constructor.
  - assert (Vo : out_at_once (Z.eqb ch) (Ev s (Call sg i) s') = 0) by (unfold out_at_once; cbn [e_call ins]; now rewrite Ti). rewrite Vo.
    assert (Q : (exists x, i = IRedeem x) \/ in_at_once H (Z.eqb ch) (Ev s (Call sg i) s') = 0 /\ (forall x, i <> IRedeem x)).
    { destruct i; try (left; eexists; reflexivity); right; (split; [reflexivity|intros; discriminate]). }
    destruct Q as [(x & ->)|(Vi & Nr)].
    + destruct (redeem_exact _ _ _ _ _ Hr Hs) as (p & k & tm & c & rt & pe & m & b & af & Rd). unfold in_at_once.
      destruct (redeem_flow H s sg _ _ _ _ _ _ _ _ _ _ _ Rd) as [(V & _ & I)|(V & irl & orl & I1 & _ & L & I2 & _ & K)]; rewrite V.
      * exists r. split; [apply I, Hd|constructor].
      * destruct (Z.eq_dec ch k) as [->|N].
        -- assert (irl = r) by (unfold in_limiter in *; congruence). subst irl. eexists. split; [exact I2|]. rewrite Z.eqb_refl. cbn [total fold_right snd]. rewrite Z.add_0_r. constructor; [eapply local_nonneg; eassumption|exact L].
        -- exists r. split; [apply K; assumption|]. apply Z.eqb_neq in N. rewrite N. constructor.
    + rewrite Vi. destruct (inbound_limiter_step _ _ _ _ _ _ _ Hr Hs Hd) as (r' & Hd' & D). exists r'. split; [exact Hd'|].
      destruct D as [->|[(md & x & a & c & m & pe & f & o & v & E & _)|[(x & p & tm & c & rt & pe & m & b & af & E & _)|[(cfg & o & l & c & E & _)|(cfg & o & a & l & d & c & E & _)]]]].
      * constructor.
      * congruence.
      * now apply Nr in E.
      * exfalso. apply Ns. left. eauto.
      * exfalso. apply Ns. right. exists cfg, o, a, l, d. exact E.
Qed.

Lemma outbound_same H s sg i s' r : reachable H s -> step H s (Call sg i) = Ok s' -> out_limiter s r -> ~ sets_outbound i ->
  transfer_of i = None -> (forall x, i <> IRedeem x) -> out_limiter s' r.
Proof.
  intros Hr Hs Hd Ns Ti Nr. destruct (step_change _ _ _ _ Hs pda_outbox_rl) as [Q|Q]; [unfold out_limiter in *; congruence|].
  unfold out_limiter in *. rewrite Hd in Q. cbn [signers ins] in Q. destruct (orl_kept _ _ _ _ _ _ Hs Hd) as (r' & Hd'). unfold has in Hd'.
  rewrite Hd' in Q. exfalso. remember pda_outbox_rl as a0 eqn:Ea. inversion Q; subst; try discriminate.
  - match goal with E : is_transfer _ _ _ _ |- _ => rename E into Et end. destruct md; cbn in Et; subst i; discriminate.
  - eapply Nr. reflexivity.
  - apply Ns. do 4 eexists. reflexivity.
Qed.
Lemma out_flow H s sg i s' r : reachable H s -> step H s (Call sg i) = Ok s' -> out_limiter s r -> ~ sets_outbound i ->
  exists r', out_limiter s' r' /\ moved r (st_now s) (out_at_once every (Ev s (Call sg i) s')) (in_at_once H every (Ev s (Call sg i) s')) r'.
Proof.
  intros Hr Hs Hd Ns. destruct (transfer_of i) as [[[md x] a]|] eqn:Ti.
  - rewrite (in_transfer _ _ _ _ _ _ _ _ _ Ti). destruct (transfer_flow _ _ _ _ _ _ _ _ Hr Hs Ti) as (v & orl & irl & P & O & _ & D & K).
    assert (orl = r) by (unfold out_limiter in *; congruence). subst orl. destruct D as [(V & O' & _)|(V & L & O' & _)]; rewrite V; unfold every; eexists; (split; [exact O'|]); constructor; assumption.
  - assert (Vo : out_at_once every (Ev s (Call sg i) s') = 0) by (unfold out_at_once; cbn [e_call ins]; now rewrite Ti). rewrite Vo.
    assert (Q : (exists x, i = IRedeem x) \/ in_at_once H every (Ev s (Call sg i) s') = 0 /\ (forall x, i <> IRedeem x)).
    { destruct i; try (left; eexists; reflexivity); right; (split; [reflexivity|intros; discriminate]). }
    destruct Q as [(x & ->)|(Vi & Nr)].
    + destruct (redeem_exact _ _ _ _ _ Hr Hs) as (p & k & tm & c & rt & pe & m & b & af & Rd). unfold in_at_once.
      destruct (redeem_flow H s sg _ _ _ _ _ _ _ _ _ _ _ Rd) as [(V & O & _)|(V & irl & orl & _ & O1 & L & _ & O2 & K)]; rewrite V.
      * exists r. split; [apply O, Hd|constructor].
      * assert (orl = r) by (unfold out_limiter in *; congruence). subst orl. eexists. split; [exact O2|]. unfold every. cbn [total fold_right snd]. rewrite Z.add_0_r. constructor. eapply local_nonneg; eassumption.
    + rewrite Vi. exists r. split; [eapply outbound_same; eassumption|constructor].
Qed.

(** ** Histories *)
Lemma moved_last r T v p r' : moved r T v p r' -> r' = r \/ rl_last r' = T.
Proof. intros M. destruct M; auto. Qed.
Lemma during_tail t0 t1 e tr : during t0 t1 (e :: tr) -> t0 <= st_now (e_pre e) <= t1 /\ during t0 t1 tr.
Proof. intros D. split; [apply D; now left|]. intros e' I. apply D. now right. Qed.

Lemma flow_run H (lim : state -> rl -> Prop) (taken back : ev -> Z) (quiet : ev -> Prop) s0 r0 t0 t1 :
  (forall s cl s' r, reachable H s -> step H s cl = Ok s' -> lim s r -> quiet (Ev s cl s') ->
     exists r', lim s' r' /\ moved r (st_now s) (taken (Ev s cl s')) (back (Ev s cl s')) r') ->
  reachable H s0 -> lim s0 r0 -> wf_rl r0 -> forall tr s, run H s0 tr s -> during t0 t1 tr -> (forall e, In e tr -> quiet e) ->
  exists r, lim s r /\ flowed r0 t0 (sum taken tr) (sum back tr) r /\ (r = r0 \/ rl_last r <= t1).
Proof.
  intros St Hr0 L0 W0 tr s R. induction R as [|tr s cl s' R IH E]; intros D Q.
  - exists r0. split; [exact L0|]. split; [apply flowed_start|auto].
  - apply during_tail in D. destruct D as (Dn & D). destruct (IH D (fun e I => Q e (or_intror I))) as (r & L & F & B).
    destruct (St s cl s' r (run_reachable _ _ _ _ Hr0 R) E L (Q _ (or_introl eq_refl))) as (r' & L' & M). cbn [e_pre] in Dn.
    exists r'. split; [exact L'|]. split.
    + cbn [sum fold_right]. fold (sum taken tr) (sum back tr). rewrite (Z.add_comm (taken _)), (Z.add_comm (back _)). exact (moved_flowed _ _ W0 _ _ _ _ _ _ _ F (proj1 Dn) M).
    + destruct (moved_last _ _ _ _ _ M) as [->|E']; [exact B|right; lia].
Qed.

Theorem inbound_bound H s tr s' ch r t0 t1 : reachable H s -> run H s tr s' -> in_limiter s ch r -> t0 <= t1 -> during t0 t1 tr ->
  (forall e, In e tr -> ~ sets_inbound ch (ins (e_call e))) ->
  sum (in_at_once H (one ch)) tr * day <= room r t0 + (t1 - t0) * rl_limit r + sum (out_at_once (one ch)) tr * day.
Proof.
  intros Hr R L Ht D Q. pose proof (irl_wf _ _ _ (reachable_inv _ _ Hr) L) as W.
  destruct (flow_run H (fun s r => in_limiter s ch r) (in_at_once H (one ch)) (out_at_once (one ch)) (fun e => ~ sets_inbound ch (ins (e_call e))) s r t0 t1
    ltac:(intros u [sg i] u' q Hu E Lq Nq; exact (in_flow _ _ _ _ _ _ _ Hu E Lq Nq)) Hr L W tr s' R D Q) as (r' & L' & F & B).
  eapply flowed_bound; [exact W|exact F| |exact Ht|exact B]. exact (irl_wf _ _ _ (reachable_inv _ _ (run_reachable _ _ _ _ Hr R)) L').
Qed.
Theorem outbound_bound H s tr s' r t0 t1 : reachable H s -> run H s tr s' -> out_limiter s r -> t0 <= t1 -> during t0 t1 tr ->
  (forall e, In e tr -> ~ sets_outbound (ins (e_call e))) ->
  sum (out_at_once every) tr * day <= room r t0 + (t1 - t0) * rl_limit r + sum (in_at_once H every) tr * day.
Proof.
  intros Hr R L Ht D Q. pose proof (proj2 (orl_addr _ _ _ (reachable_inv _ _ Hr) L)) as W.
  destruct (flow_run H out_limiter (out_at_once every) (in_at_once H every) (fun e => ~ sets_outbound (ins (e_call e))) s r t0 t1
    ltac:(intros u [sg i] u' q Hu E Lq Nq; exact (out_flow _ _ _ _ _ _ Hu E Lq Nq)) Hr L W tr s' R D Q) as (r' & L' & F & B).
  eapply flowed_bound; [exact W|exact F| |exact Ht|exact B]. exact (proj2 (orl_addr _ _ _ (reachable_inv _ _ (run_reachable _ _ _ _ Hr R)) L')).
Qed.

(** ** Payouts within a day *)
Lemma total_app l1 l2 : total (l1 ++ l2) = total l1 + total l2.
Proof. induction l1 as [|p l1 IH]; cbn; [reflexivity|]. unfold total in IH. rewrite IH. unfold total. lia. Qed.
Lemma total_nonneg l : (forall p, In p l -> 0 <= snd p) -> 0 <= total l.
Proof. induction l as [|p l IH]; intros N; [reflexivity|]. cbn [total fold_right]. fold (total l). pose proof (N p (or_introl eq_refl)). pose proof (IH (fun q I => N q (or_intror I))). lia. Qed.
Lemma sum_total H sel tr : sum (in_at_once H sel) tr = total (flat_map (item_at_once H sel) tr).
Proof. induction tr as [|e tr IH]; [reflexivity|]. cbn [sum fold_right flat_map]. fold (sum (in_at_once H sel) tr). rewrite IH, total_app. reflexivity. Qed.
Lemma distinct_total (s : state) l : NoDup l -> forall A, (forall a, In a l -> In (a, amount_of s a) A) -> (forall p, In p A -> 0 <= snd p) -> amounts s l <= total A.
Proof.
  intros N. induction N as [|a l Na N IH]; intros A I P; [apply total_nonneg, P|].
  destruct (in_split _ _ (I a (or_introl eq_refl))) as (l1 & l2 & ->). cbn [amounts fold_right]. fold (amounts s l). rewrite total_app. cbn [total fold_right snd]. fold (total l2).
  assert (K : amounts s l <= total (l1 ++ l2)); [|rewrite total_app in K; lia]. apply IH.
  - intros b Ib. pose proof (I b (or_intror Ib)) as Q. apply in_app_or in Q. apply in_or_app. destruct Q as [Q|[Q|Q]]; [auto| |auto]. exfalso. apply Na. congruence.
  - intros p Ip. apply P. apply in_app_or in Ip. apply in_or_app. destruct Ip; [auto|right; now right].
Qed.
Lemma at_once_nonneg H s0 tr s sel : reachable H s0 -> run H s0 tr s -> forall p, In p (flat_map (item_at_once H sel) tr) -> 0 <= snd p.
Proof.
  intros Hr R p I. apply in_flat_map in I. destruct I as (e & Ie & Ip). destruct (In_split_run _ _ _ _ _ R Ie) as (tr2 & tr1 & _ & R1 & E & _).
  pose proof (run_reachable _ _ _ _ Hr R1) as Hr1. destruct e as [u [sg i] u']. cbn [e_pre e_call e_post] in *.
  destruct i; try (cbn in Ip; contradiction). destruct (redeem_exact _ _ _ _ _ Hr1 E) as (q & ch & tm & c & rt & pe & m & b & af & Rd).
  rewrite (item_at_once_redeemed H sel u sg _ _ _ _ _ _ _ _ _ _ _ Rd) in Ip. pose proof (local_nonneg _ _ _ _ _ _ _ _ _ _ _ _ _ Hr1 Rd) as P.
  destruct (scheduled u _); [contradiction|]. destruct (scheduled u' _); [|contradiction]. destruct (_ && _); [|contradiction]. destruct Ip as [<-|[]]. exact P.
Qed.

Lemma later_scheduled t q : later (ReleaseAfter t) q -> q = ReleaseAfter t \/ q = Released.
Proof. intros L. inversion L; auto. Qed.

Lemma paid_at_once H s0 tr0 s tr s' t0 t1 ch a : initial s0 -> run H s0 tr0 s -> run H s tr s' -> no_collision H (tr ++ tr0) -> during t0 t1 tr -> t1 < t0 + day ->
  open_in s a -> paid_for H ch (tr ++ tr0) tr a -> In (a, amount_of s' a) (flat_map (item_at_once H (one ch)) tr).
Proof.
  intros Hini R0 R NC D Ht (Os & Or) ((e & Ie & Pe) & e2 & p2 & nm2 & I2 & D2 & A2).
  assert (Ra : run H s0 (tr ++ tr0) s') by (eapply run_app; eassumption).
  destruct (payout_delay _ _ _ _ _ _ Hini Ra (in_or_app _ _ _ (or_introl Ie)) Pe) as (tr5 & tr4 & tr3 & e1 & p & k & tm & c & m & it & t & irl & Etr & Ap & Tl & _ & Cs).
  assert (I1 : In e1 (tr ++ tr0)) by (rewrite Etr; apply in_or_app; right; right; apply in_or_app; right; now left).
  pose proof Ap as (x & rt & pe & b & Ei & Eit & Rd & Nr & Nsch & Est).
  pose proof (rd_after _ _ _ _ _ _ _ _ _ _ _ _ _ Rd) as Haf. rewrite Eit in Haf.
  assert (I1' : In e1 tr).
  { apply in_app_or in I1. destruct I1 as [I1|I1]; [exact I1|]. exfalso. destruct (In_split_run _ _ _ _ _ R0 I1) as (u2 & u1 & _ & R1 & E1 & R2).
    assert (Hr1 : reachable H (e_post e1)) by (eapply step_reachable; [exists s0, u1; split; [exact Hini|exact R1]|exact E1]).
    destruct (status_run _ _ _ _ _ _ Hr1 R2 Haf) as (it' & Hit' & _ & _ & L). rewrite Est in L. unfold released in Or. rewrite (status_inbox _ _ _ Hit') in Or. rewrite (scheduled_inbox _ _ _ Hit') in Os.
    apply later_scheduled in L. destruct L as [L|L]; rewrite L in *; discriminate. }
  pose proof (D _ Ie) as De. pose proof (D _ I1') as D1. assert (Et : t = st_now (e_pre e1)) by (destruct Cs as [(_ & ->)|(_ & ->)]; [reflexivity|lia]).
  assert (Dl1 : delivery e1 p k (tm_msg tm)) by (exists x, tm, c, rt, pe; split; [exact Ei|]; split; [exact (rd_delivers _ _ _ _ _ _ _ _ _ _ _ _ _ Rd)|reflexivity]).
  destruct (NC _ _ _ _ _ _ _ _ I1 I2 Dl1 D2) as (-> & Em); [apply inbox_inj; unfold item_of in *; congruence|].
  destruct (In_split_run _ _ _ _ _ Ra I1) as (u2 & u1 & Eu & R1 & E1 & R2).
  assert (Hr1 : reachable H (e_pre e1)) by (exists s0, u1; split; [exact Hini|exact R1]).
  assert (Hr1' : reachable H (e_post e1)) by (eapply step_reachable; eassumption).
  assert (Am : ib_amount it = local_amount m (tm_msg tm)).
  { rewrite (rd_amount _ _ _ _ _ _ _ _ _ _ _ _ _ Rd). pose proof (rd_before _ _ _ _ _ _ _ _ _ _ _ _ _ Rd) as B. destruct b as [i0|]; [|reflexivity].
    pose proof (dl_config _ _ _ _ _ _ _ _ (rd_delivers _ _ _ _ _ _ _ _ _ _ _ _ _ Rd)) as Hc. pose proof (config_addr _ _ _ (reachable_inv _ _ Hr1) Hc) as Eca. rewrite Eca in Hc.
    destruct (item_message _ _ _ _ _ _ _ _ Hini R1 B Hc (rd_mint _ _ _ _ _ _ _ _ _ _ _ _ _ Rd)) as (e3 & p3 & k3 & nm3 & I3 & D3 & A3 & _ & V3 & _).
    assert (I3' : In e3 (tr ++ tr0)) by (rewrite Eu; apply in_or_app; right; now right).
    destruct (NC _ _ _ _ _ _ _ _ I1 I3' Dl1 D3) as (_ & En); [apply inbox_inj; unfold item_of in *; congruence|]. now rewrite V3, En. }
  assert (As : amount_of s' a = local_amount m (tm_msg tm)).
  { destruct (status_run _ _ _ _ _ _ Hr1' R2 Haf) as (it' & Hit' & Ea & _ & _). unfold amount_of, inbox_at in *. rewrite Hit'. congruence. }
  apply in_flat_map. exists e1. split; [exact I1'|]. destruct e1 as [u [sg i] u']. cbn [e_pre e_call e_post ins] in *. subst i.
  rewrite (item_at_once_redeemed H (one ch) u sg _ _ _ _ _ _ _ _ _ _ _ Rd), Eit.
  assert (Sn : scheduled u a = None) by (unfold scheduled; destruct (status_at u a) as [[]|]; try reflexivity; exfalso; eapply Nsch; reflexivity).
  rewrite Sn, (scheduled_inbox _ _ _ Haf), Est, Et, Z.eqb_refl. unfold one. rewrite Z.eqb_refl. left. congruence.
Qed.

Theorem paid_bound H s0 tr0 s tr s' ch r t0 t1 l : initial s0 -> run H s0 tr0 s -> run H s tr s' -> no_collision H (tr ++ tr0) ->
  in_limiter s ch r -> t0 <= t1 -> t1 < t0 + day -> during t0 t1 tr -> (forall e, In e tr -> ~ sets_inbound ch (ins (e_call e))) ->
  NoDup l -> (forall a, In a l -> open_in s a /\ paid_for H ch (tr ++ tr0) tr a) ->
  amounts s' l * day <= room r t0 + (t1 - t0) * rl_limit r + sum (out_at_once (one ch)) tr * day.
Proof.
  intros Hini R0 R NC L T1 T2 D Q N P. assert (Hr : reachable H s) by (exists s0, tr0; split; assumption).
  pose proof (inbound_bound _ _ _ _ _ _ _ _ Hr R L T1 D Q) as B. rewrite sum_total in B.
  assert (K : amounts s' l <= total (flat_map (item_at_once H (one ch)) tr)); [|pose proof day_pos; nia].
  apply distinct_total; [exact N| |eapply at_once_nonneg; eassumption].
  intros a Ia. destruct (P a Ia) as (O & Pf). eapply paid_at_once; eassumption.
Qed.

(** With no transfers back to the chain, less than two limits in less than a day. *)
Lemma room_limit r t0 : room r t0 <= rl_limit r * day. Proof. unfold room. lia. Qed.
Theorem paid_two_limits H s0 tr0 s tr s' ch r t0 t1 l : initial s0 -> run H s0 tr0 s -> run H s tr s' -> no_collision H (tr ++ tr0) ->
  in_limiter s ch r -> t0 <= t1 -> t1 < t0 + day -> during t0 t1 tr -> (forall e, In e tr -> ~ sets_inbound ch (ins (e_call e))) ->
  sum (out_at_once (one ch)) tr = 0 ->
  NoDup l -> (forall a, In a l -> open_in s a /\ paid_for H ch (tr ++ tr0) tr a) ->
  amounts s' l <= 2 * rl_limit r.
Proof.
  intros Hini R0 R NC L T1 T2 D Q Z0 N P. pose proof (paid_bound _ _ _ _ _ _ _ _ _ _ _ Hini R0 R NC L T1 T2 D Q N P) as B. rewrite Z0 in B.
  assert (Hr : reachable H s) by (exists s0, tr0; split; assumption). destruct (irl_wf _ _ _ (reachable_inv _ _ Hr) L) as ((Wl & _) & _).
  pose proof (room_limit r t0). pose proof day_pos. assert ((t1 - t0) * rl_limit r <= day * rl_limit r) by (apply Z.mul_le_mono_nonneg_r; lia). nia.
Qed.

(** ** A pause within the day *)
Lemma pause_step H s cl s' : reachable H s -> step H s cl = Ok s' -> paused_in s -> ~ unpauses (ins cl) -> paused_in s'.
Proof.
  intros Hr E (c & Hc & Hp) N. destruct (config_step_at _ _ _ _ _ _ Hr E Hc) as (c' & Hc' & _). exists c'. split; [exact Hc'|].
  destruct (cf_paused c') eqn:Q; [reflexivity|]. exfalso. destruct (only_owner_pauses _ _ _ _ _ _ _ Hr E Hc Hc') as (I & _); [congruence|].
  apply N. rewrite Q in I. eexists. eexists. exact I.
Qed.
Lemma pause_run H s tr s' : reachable H s -> run H s tr s' -> paused_in s -> (forall e, In e tr -> ~ unpauses (ins (e_call e))) ->
  paused_in s' /\ forall e, In e tr -> payout e = None.
Proof.
  intros Hr R P. induction R as [|tr u cl u' R IH E]; intros N; [split; [exact P|intros e []]|].
  destruct (IH (fun e I => N e (or_intror I))) as (Pu & No). pose proof (run_reachable _ _ _ _ Hr R) as Hu.
  split; [eapply pause_step; [exact Hu|exact E|exact Pu|exact (N _ (or_introl eq_refl))]|].
  intros e [<-|I]; [|exact (No e I)]. destruct (payout (Ev u cl u')) as [a|] eqn:Q; [|reflexivity]. exfalso.
  destruct (payout_pays H u [Ev u cl u'] u' _ a Hu (run_step _ _ _ _ _ _ (run_nil _ _) E) (or_introl eq_refl) Q) as (md & x & r & c & it & m & _ & _ & Py).
  destruct Pu as (c' & Hc' & Hp). pose proof (py_config _ _ _ _ _ _ _ Py) as Hc. cbn [e_pre] in Hc. pose proof (config_addr _ _ _ (reachable_inv _ _ Hu) Hc) as Ea. rewrite Ea in Hc.
  pose proof (py_paused _ _ _ _ _ _ _ Py) as Hn. unfold config_at in *. congruence.
Qed.

Lemma amounts_run H s tr s' l : reachable H s -> run H s tr s' -> (forall a, In a l -> exists it, inbox_at s a it) -> amounts s' l = amounts s l.
Proof.
  intros Hr R. induction l as [|a l IH]; intros K; [reflexivity|]. cbn [amounts fold_right]. fold (amounts s' l) (amounts s l). rewrite (IH (fun b I => K b (or_intror I))).
  destruct (K a (or_introl eq_refl)) as (it & Hi). destruct (status_run _ _ _ _ _ _ Hr R Hi) as (it' & Hi' & Ea & _). unfold amount_of, inbox_at in *. rewrite Hi, Hi'. congruence.
Qed.

Theorem paused_bound H s0 tr0 s tr s1 tr2 s2 ch r t0 t1 l : initial s0 -> run H s0 tr0 s -> run H s tr s1 -> run H s1 tr2 s2 -> no_collision H (tr2 ++ tr ++ tr0) ->
  in_limiter s ch r -> t0 <= t1 -> t1 < t0 + day -> during t0 t1 tr -> (forall e, In e tr -> ~ sets_inbound ch (ins (e_call e))) ->
  paused_in s1 -> (forall e, In e tr2 -> ~ unpauses (ins (e_call e))) ->
  NoDup l -> (forall a, In a l -> open_in s a /\ paid_for H ch (tr2 ++ tr ++ tr0) (tr2 ++ tr) a) ->
  amounts s2 l * day <= room r t0 + (t1 - t0) * rl_limit r + sum (out_at_once (one ch)) tr * day.
Proof.
  intros Hini R0 R R2 NC L T1 T2 D Q P N Nd Hl. assert (Hr0 : reachable H s) by (exists s0, tr0; split; assumption). pose proof (run_reachable _ _ _ _ Hr0 R) as Hr1.
  destruct (pause_run _ _ _ _ Hr1 R2 P N) as (_ & No). pose proof (run_app _ _ _ _ _ _ R0 R) as Ra.
  assert (K : forall a, In a l -> open_in s a /\ paid_for H ch (tr ++ tr0) tr a).
  { intros a Ia. destruct (Hl a Ia) as (O & ((e & Ie & Pe) & e2 & p2 & nm2 & I2 & D2 & A2)). split; [exact O|].
    assert (Ie' : In e tr) by (apply in_app_or in Ie; destruct Ie as [Ie|Ie]; [rewrite (No e Ie) in Pe; discriminate|exact Ie]).
    split; [exists e; split; assumption|].
    destruct (payout_message _ _ _ _ _ _ Hini Ra (in_or_app _ _ _ (or_introl Ie')) Pe) as (md & x & q & c & it & m & e1 & p & k & nm & _ & _ & _ & I1 & D1 & A1 & _).
    destruct (NC e1 e2 p p2 k nm ch nm2) as (-> & ->); [apply in_or_app; right; exact I1|exact I2|exact D1|exact D2|apply inbox_inj; unfold item_of in *; congruence|].
    exists e1, p, nm2. auto. }
  assert (Ex : forall a, In a l -> exists it, inbox_at s1 a it).
  { intros a Ia. destruct (K a Ia) as (_ & ((e & Ie & Pe) & _)). destruct (payout_pays _ _ _ _ _ _ Hr0 R Ie Pe) as (md & x & q & c & it & m & _ & Ex & Py).
    destruct (In_split_run _ _ _ _ _ R Ie) as (u2 & u1 & _ & Ru & E & Rv). pose proof (step_reachable _ _ _ _ (run_reachable _ _ _ _ Hr0 Ru) E) as Hp.
    pose proof (py_done _ _ _ _ _ _ _ Py) as Hd. rewrite Ex in Hd. destruct (status_run _ _ _ _ _ _ Hp Rv Hd) as (it' & Hi' & _). eauto. }
  rewrite (amounts_run _ _ _ _ _ Hr1 R2 Ex). 
  assert (NC' : no_collision H (tr ++ tr0)) by (intros e e' p p' k nm k' nm' I I'; apply NC; apply in_or_app; right; assumption).
  exact (paid_bound _ _ _ _ _ _ _ _ _ _ _ Hini R0 R NC' L T1 T2 D Q Nd K).
Qed.

(** ** Publications within a day *)
Lemma due_when_sent H s tr s' a o o' t1 : reachable H s -> run H s tr s' -> outbox_at s a o -> outbox_at s' a o' -> (forall e, In e tr -> st_now (e_pre e) <= t1) ->
  ob_released o = 0 -> ob_released o' <> 0 -> ob_release o <= t1.
Proof.
  intros Hr R Ho. revert o'. induction R as [|tr u cl u' R IH E]; intros o' Ho' B Z0 Nz.
  - unfold outbox_at in *. congruence.
  - destruct (item_kept _ _ _ _ _ _ Hr R Ho) as (o1 & Ho1 & S). destruct (item_step _ _ _ _ _ _ (run_reachable _ _ _ _ Hr R) E Ho1) as [Q|(cf & rt & p & b & cfg & x & Q & _ & _ & Hd & _)].
    + apply (IH o1); [exact Ho1|intros e I; exact (B e (or_intror I))|exact Z0|]. unfold outbox_at in *. congruence.
    + pose proof (B _ (or_introl eq_refl)) as B1. cbn [e_pre] in B1. assert (ob_release o1 = ob_release o) by (rewrite S; destruct o; reflexivity). lia.
Qed.

Lemma sum_le (f g : ev -> Z) tr : (forall e, In e tr -> f e <= g e) -> sum f tr <= sum g tr.
Proof.
  induction tr as [|e tr IH]; intros L; [reflexivity|]. cbn [sum fold_right]. fold (sum f tr) (sum g tr).
  pose proof (L e (or_introl eq_refl)). specialize (IH (fun e I => L e (or_intror I))). lia.
Qed.
Lemma sum_app (f : ev -> Z) a b : sum f (a ++ b) = sum f a + sum f b.
Proof. induction a as [|e a IH]; [reflexivity|]. cbn [app sum fold_right]. fold (sum f (a ++ b)) (sum f a). lia. Qed.

Lemma sent_at_once H s tr s' t0 t1 : reachable H s -> run H s tr s' -> during t0 t1 tr -> t1 < t0 + day -> forall e, In e tr -> sent_value s' e <= out_at_once every e.
Proof.
  intros Hr R D T e I. destruct (In_split_run _ _ _ _ _ R I) as (tr2 & tr1 & Et & R1 & E & R2). pose proof (run_reachable _ _ _ _ Hr R1) as Hr1.
  destruct (D e I) as (D1 & _). destruct e as [u [sg i] u']. cbn [e_pre e_call e_post] in *. unfold sent_value. cbn [e_pre e_call ins].
  destruct (transfer_of i) as [[[md x] ar]|] eqn:Ti; [|unfold out_at_once; cbn [e_call ins]; rewrite Ti; lia].
  destruct (transfer_limits _ _ _ _ _ _ _ _ Hr1 E Ti) as (c & m & pe & f & o & v & orl & irl & orl' & irl' & Tr & _ & _ & _ & _ & K1 & K2 & _).
  rewrite (out_at_once_value every _ _ _ _ _ _ _ _ _ _ _ _ _ Ti Tr), (deposit_value_ok _ _ _ _ _ _ _ _ _ _ _ _ Tr). cbn [every andb].
  pose proof (proj1 (tr_range _ _ _ _ _ _ _ _ _ _ _ _ Tr)) as Pv. pose proof (tr_item _ _ _ _ _ _ _ _ _ _ _ _ Tr) as Ho.
  pose proof (run_reachable _ _ _ _ Hr1 (run_step _ _ _ _ _ _ (run_nil _ _) E)) as Hr2.
  destruct (item_kept _ _ _ _ _ _ Hr2 R2 Ho) as (o' & Ho' & _). rewrite (Ho' : st_accts _ _ = _).
  destruct (Z.eqb_spec (ob_released o') 0) as [Q|Q]; [destruct (_ =? _); lia|].
  assert (Du : ob_release o <= t1).
  { refine (due_when_sent _ _ _ _ _ _ _ t1 Hr2 R2 Ho Ho' _ (tr_unsent _ _ _ _ _ _ _ _ _ _ _ _ Tr) Q).
    intros e' I'. apply (D e'). rewrite Et. apply in_or_app. now left. }
  destruct (Z_le_gt_dec v (capacity orl (st_now u))) as [L|L].
  - destruct (K1 L) as (Eo & _). rewrite Eo, Z.eqb_refl. lia.
  - apply Z.gt_lt in L. destruct (K2 L) as (_ & Eo & _). lia.
Qed.

Theorem sent_bound H s tr s' r t0 t1 : reachable H s -> run H s tr s' -> out_limiter s r -> t0 <= t1 -> t1 < t0 + day -> during t0 t1 tr ->
  (forall e, In e tr -> ~ sets_outbound (ins (e_call e))) ->
  sum (sent_value s') tr * day <= room r t0 + (t1 - t0) * rl_limit r + sum (in_at_once H every) tr * day.
Proof.
  intros Hr R L T1 T2 D Q. pose proof (outbound_bound _ _ _ _ _ _ _ Hr R L T1 D Q) as B.
  pose proof (sum_le _ _ _ (sent_at_once _ _ _ _ _ _ Hr R D T2)) as K. pose proof day_pos. nia.
Qed.

Lemma pause_out H s tr s' : reachable H s -> run H s tr s' -> paused_in s -> (forall e, In e tr -> ~ unpauses (ins (e_call e))) ->
  paused_in s' /\ (forall e, In e tr -> transfer_of (ins (e_call e)) = None) /\ forall a o, outbox_at s a o -> outbox_at s' a o.
Proof.
  intros Hr R P. induction R as [|tr u cl u' R IH E]; intros N; [split; [exact P|split; [intros e []|auto]]|].
  destruct (IH (fun e I => N e (or_intror I))) as (Pu & No & K). pose proof (run_reachable _ _ _ _ Hr R) as Hu.
  split; [eapply pause_step; [exact Hu|exact E|exact Pu|exact (N _ (or_introl eq_refl))]|].
  assert (C : forall a c, config_at u a c -> cf_paused c = false -> False).
  { intros a c Hc Hn. destruct Pu as (c' & Hc' & Hp). pose proof (config_addr _ _ _ (reachable_inv _ _ Hu) Hc) as Ea. rewrite Ea in Hc. unfold config_at in *. congruence. }
  split.
  - intros e [<-|I]; [|exact (No e I)]. destruct cl as [sg i]. cbn [e_call ins]. destruct (transfer_of i) as [[[md x] ar]|] eqn:Ti; [|reflexivity]. exfalso.
    destruct (transfer_done _ _ _ _ _ _ _ _ Hu E Ti) as (c & m & pe & f & o & v & Tr). exact (C _ _ (tr_config _ _ _ _ _ _ _ _ _ _ _ _ Tr) (tr_paused _ _ _ _ _ _ _ _ _ _ _ _ Tr)).
  - intros a o Ho. destruct (item_step _ _ _ _ _ _ Hu E (K a o Ho)) as [Q|(cf & rt & p & b & cfg & x & _ & F & _)]; [exact Q|]. exfalso.
    exact (C _ _ (of_config _ _ _ _ _ _ _ F) (of_paused _ _ _ _ _ _ _ F)).
Qed.

Theorem sent_paused_bound H s tr s1 tr2 s2 r t0 t1 : reachable H s -> run H s tr s1 -> run H s1 tr2 s2 -> out_limiter s r -> t0 <= t1 -> t1 < t0 + day -> during t0 t1 tr ->
  (forall e, In e tr -> ~ sets_outbound (ins (e_call e))) -> paused_in s1 -> (forall e, In e tr2 -> ~ unpauses (ins (e_call e))) ->
  sum (sent_value s2) (tr2 ++ tr) * day <= room r t0 + (t1 - t0) * rl_limit r + sum (in_at_once H every) tr * day.
Proof.
  intros Hr R R2 L T1 T2 D Q P N. pose proof (sent_bound _ _ _ _ _ _ _ Hr R L T1 T2 D Q) as B.
  destruct (pause_out _ _ _ _ (run_reachable _ _ _ _ Hr R) R2 P N) as (_ & No & K). rewrite sum_app.
  assert (S2 : sum (sent_value s2) tr2 <= sum (fun _ => 0) tr2) by (apply sum_le; intros e I; unfold sent_value; rewrite (No e I); reflexivity).
  assert (Z2 : sum (fun _ => 0) tr2 = 0) by (clear; induction tr2 as [|e l IH]; [reflexivity|exact IH]).
  assert (S1 : sum (sent_value s2) tr <= sum (sent_value s1) tr).
  { apply sum_le. intros e I. destruct (In_split_run _ _ _ _ _ R I) as (l2 & l1 & _ & R1 & E & R3). pose proof (run_reachable _ _ _ _ Hr R1) as Hr1.
    destruct e as [u [sg i] u']. cbn [e_pre e_call e_post] in *. unfold sent_value. cbn [e_pre e_call ins]. destruct (transfer_of i) as [[[md x] ar]|] eqn:Ti; [|reflexivity].
    destruct (transfer_done _ _ _ _ _ _ _ _ Hr1 E Ti) as (c & m & pe & f & o & v & Tr).
    destruct (item_kept _ _ _ _ _ _ (run_reachable _ _ _ _ Hr1 (run_step _ _ _ _ _ _ (run_nil _ _) E)) R3 (tr_item _ _ _ _ _ _ _ _ _ _ _ _ Tr)) as (o' & Ho' & _).
    rewrite (Ho' : st_accts _ _ = _), (K _ _ Ho' : st_accts _ _ = _). reflexivity. }
  pose proof day_pos. nia.
Qed.

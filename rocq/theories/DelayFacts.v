(** * Proofs about who can have whose transfer delayed (C112). *)
From Verif Require Export WindowFacts SpecDelay.
Import ListNotations.
Local Open Scope Z_scope.

(** ** Other chains leave the limiter alone *)
Lemma apart_step H s cl s' ch r : reachable H s -> step H s cl = Ok s' -> in_limiter s ch r -> ~ concerns ch (Ev s cl s') -> in_limiter s' ch r.
Proof.
  intros Hr Hs L N. destruct cl as [sg i]. destruct (inbound_limiter_step _ _ _ _ _ _ _ Hr Hs L) as (r' & L' & D).
  destruct D as [->|[(md & x & a & c & m & pe & f & o & v & E & Ec & _)|[(x & p & tm & c & rt & pe & m & b & af & E & Rd & _)|[(cfg & o & l & c & E & _)|(cfg & o & a & l & d & c & E & _)]]]].
  - exact L'.
  - exfalso. apply N. left. exists md, x, a. split; assumption.
  - exfalso. apply N. right. left. exists p, (tm_msg tm), x, tm, c, rt, pe. split; [exact E|]. split; [exact (rd_delivers _ _ _ _ _ _ _ _ _ _ _ _ _ Rd)|reflexivity].
  - exfalso. apply N. right. right. left. exists cfg, o, l. exact E.
  - exfalso. apply N. right. right. right. exists cfg, o, a, l, d. exact E.
Qed.
Theorem apart H s tr s' ch r : reachable H s -> run H s tr s' -> in_limiter s ch r -> (forall e, In e tr -> ~ concerns ch e) -> in_limiter s' ch r.
Proof.
  intros Hr R L. induction R as [|tr s1 cl s' R IH E]; intros N; [exact L|].
  eapply apart_step; [exact (run_reachable _ _ _ _ Hr R)|exact E|apply IH; intros e I; apply N; now right|apply N; now left].
Qed.

(** ** What is left falls by what is taken, and by nothing else *)
Lemma capacity_mono r T T' : wf_rl r -> T <= T' -> capacity r T <= capacity r T'.
Proof.
  intros W L. unfold capacity. apply Z.min_le_compat_r. apply Z.add_le_mono_l. apply Z.div_le_mono; [exact day_pos|]. unfold wf_rl in W. apply Z.mul_le_mono_nonneg_r; lia.
Qed.
Lemma capacity_now l c T : c <= l -> capacity (RL l c T) T = c.
Proof. intros L. unfold capacity. cbn [rl_cap rl_last rl_limit]. rewrite Z.sub_diag, Z.mul_0_l, Z.div_0_l by (pose proof day_pos; lia). lia. Qed.
Lemma moved_left r T v p r' : moved r T v p r' -> capacity r T - v <= capacity r' T.
Proof.
  intros M. pose proof (Z.le_min_r (rl_cap r + (T - rl_last r) * rl_limit r / day) (rl_limit r)) as B. fold (capacity r T) in B. destruct M.
  - lia.
  - rewrite capacity_now; lia.
  - rewrite capacity_now; lia.
Qed.
Lemma left_run H (lim : state -> rl -> Prop) (taken back : ev -> Z) (quiet : ev -> Prop) s0 r0 :
  (forall s cl s' r, reachable H s -> step H s cl = Ok s' -> lim s r -> quiet (Ev s cl s') ->
     exists r', lim s' r' /\ moved r (st_now s) (taken (Ev s cl s')) (back (Ev s cl s')) r') ->
  (forall s r, reachable H s -> lim s r -> wf_rl r) ->
  reachable H s0 -> lim s0 r0 -> forall tr s, run H s0 tr s -> onward tr -> (forall e, In e tr -> quiet e) ->
  exists r, lim s r /\ capacity r0 (st_now s0) - sum taken tr <= capacity r (st_now s).
Proof.
  intros St Wf Hr0 L0 tr s R. induction R as [|tr s cl s' R IH E]; intros D Q.
  - exists r0. split; [exact L0|]. cbn. lia.
  - destruct (IH (fun e I => D e (or_intror I)) (fun e I => Q e (or_intror I))) as (r & L & B). pose proof (run_reachable _ _ _ _ Hr0 R) as Hr.
    destruct (St s cl s' r Hr E L (Q _ (or_introl eq_refl))) as (r' & L' & M). exists r'. split; [exact L'|]. apply moved_left in M.
    assert (Hr' : reachable H s') by (eapply run_reachable; [exact Hr0|eapply run_step; [exact R|exact E]]).
    pose proof (capacity_mono r' _ _ (Wf _ _ Hr' L') (D _ (or_introl eq_refl))) as K. cbn [e_pre e_post] in K. cbn [sum fold_right]. fold (sum taken tr). lia.
Qed.

Theorem in_left H s tr s' ch r : reachable H s -> run H s tr s' -> in_limiter s ch r -> onward tr -> (forall e, In e tr -> ~ sets_inbound ch (ins (e_call e))) ->
  exists r', in_limiter s' ch r' /\ capacity r (st_now s) - sum (in_at_once H (one ch)) tr <= capacity r' (st_now s').
Proof.
  intros Hr R L D Q. exact (left_run H (fun s r => in_limiter s ch r) (in_at_once H (one ch)) (out_at_once (one ch)) (fun e => ~ sets_inbound ch (ins (e_call e))) s r
    ltac:(intros u [sg i] u' q Hu E Lq Nq; exact (in_flow _ _ _ _ _ _ _ Hu E Lq Nq)) ltac:(intros u q Hu Lq; exact (irl_wf _ _ _ (reachable_inv _ _ Hu) Lq)) Hr L tr s' R D Q).
Qed.
Theorem out_left H s tr s' r : reachable H s -> run H s tr s' -> out_limiter s r -> onward tr -> (forall e, In e tr -> ~ sets_outbound (ins (e_call e))) ->
  exists r', out_limiter s' r' /\ capacity r (st_now s) - sum (out_at_once every) tr <= capacity r' (st_now s').
Proof.
  intros Hr R L D Q. exact (left_run H out_limiter (out_at_once every) (in_at_once H every) (fun e => ~ sets_outbound (ins (e_call e))) s r
    ltac:(intros u [sg i] u' q Hu E Lq Nq; exact (out_flow _ _ _ _ _ _ Hu E Lq Nq)) ltac:(intros u q Hu Lq; exact (proj2 (orl_addr _ _ _ (reachable_inv _ _ Hu) Lq))) Hr L tr s' R D Q).
Qed.

(** ** Delays *)
Lemma redeem_delayed H s sg x s' p ch tm t : reachable H s -> step H s (Call sg (IRedeem x)) = Ok s' -> st_accts s (ra_message x) = Some (Acct p (DVtm ch tm)) ->
  scheduled s (item_of H ch (tm_msg tm)) = None -> scheduled s' (item_of H ch (tm_msg tm)) = Some t ->
  exists r, in_limiter s ch r /\ (t = st_now s /\ message_value s (ra_config x) (tm_msg tm) <= capacity r (st_now s) \/
    t = st_now s + day /\ capacity r (st_now s) < message_value s (ra_config x) (tm_msg tm)).
Proof.
  intros Hr Hs Hm S0 S1. destruct (redeem_exact _ _ _ _ _ Hr Hs) as (p' & k & tm' & c & rt & pe & m & b & af & Rd).
  pose proof (rd_delivers _ _ _ _ _ _ _ _ _ _ _ _ _ Rd) as D. pose proof (dl_message _ _ _ _ _ _ _ _ D) as E. rewrite Hm in E. injection E as <- <- <-.
  assert (V : message_value s (ra_config x) (tm_msg tm) = local_amount m (tm_msg tm)).
  { unfold message_value. now rewrite (dl_config _ _ _ _ _ _ _ _ D : st_accts _ _ = _), (rd_mint _ _ _ _ _ _ _ _ _ _ _ _ _ Rd). }
  rewrite V. pose proof (rd_before _ _ _ _ _ _ _ _ _ _ _ _ _ Rd) as B. rewrite (scheduled_inbox _ _ _ (rd_after _ _ _ _ _ _ _ _ _ _ _ _ _ Rd)) in S1.
  destruct (rd_status _ _ _ _ _ _ _ _ _ _ _ _ _ Rd) as [(_ & Es & _)|(_ & _ & irl & orl & irl' & orl' & u & Es & I1 & _ & _ & _ & K1 & K2 & _)]; cbv zeta in *.
  - exfalso. rewrite Es in S1. destruct b as [it|]; [rewrite (scheduled_inbox _ _ _ B) in S0; congruence|discriminate].
  - rewrite Es in S1. injection S1 as ->. exists irl. split; [exact I1|].
    destruct (Z_le_gt_dec (local_amount m (tm_msg tm)) (capacity irl (st_now s))) as [L|L].
    + left. split; [apply K1, L|exact L].
    + right. apply Z.gt_lt in L. split; [apply K2, L|exact L].
Qed.
Theorem in_price H s tr s1 ch r sg x s2 p tm t : reachable H s -> run H s tr s1 -> in_limiter s ch r -> onward tr -> (forall e, In e tr -> ~ sets_inbound ch (ins (e_call e))) ->
  step H s1 (Call sg (IRedeem x)) = Ok s2 -> st_accts s1 (ra_message x) = Some (Acct p (DVtm ch tm)) ->
  scheduled s1 (item_of H ch (tm_msg tm)) = None -> scheduled s2 (item_of H ch (tm_msg tm)) = Some t -> t <> st_now s1 ->
  capacity r (st_now s) < sum (in_at_once H (one ch)) tr + message_value s1 (ra_config x) (tm_msg tm).
Proof.
  intros Hr R L D Q Hs Hm S0 S1 N. destruct (in_left _ _ _ _ _ _ Hr R L D Q) as (r' & L' & B).
  destruct (redeem_delayed _ _ _ _ _ _ _ _ _ (run_reachable _ _ _ _ Hr R) Hs Hm S0 S1) as (q & Lq & [(E & _)|(_ & K)]); [contradiction|].
  assert (q = r') by (unfold in_limiter in *; congruence). subst q. lia.
Qed.
Theorem apart_price H s tr s1 ch r sg x s2 p tm t : reachable H s -> run H s tr s1 -> in_limiter s ch r -> (forall e, In e tr -> ~ concerns ch e) ->
  step H s1 (Call sg (IRedeem x)) = Ok s2 -> st_accts s1 (ra_message x) = Some (Acct p (DVtm ch tm)) ->
  scheduled s1 (item_of H ch (tm_msg tm)) = None -> scheduled s2 (item_of H ch (tm_msg tm)) = Some t ->
  t = if message_value s1 (ra_config x) (tm_msg tm) <=? capacity r (st_now s1) then st_now s1 else st_now s1 + day.
Proof.
  intros Hr R L N Hs Hm S0 S1. pose proof (apart _ _ _ _ _ _ Hr R L N) as L'.
  destruct (redeem_delayed _ _ _ _ _ _ _ _ _ (run_reachable _ _ _ _ Hr R) Hs Hm S0 S1) as (q & Lq & K). assert (q = r) by (unfold in_limiter in *; congruence). subst q.
  destruct K as [(-> & K)|(-> & K)]; [apply Z.leb_le in K|apply Z.leb_gt in K]; now rewrite K.
Qed.
Theorem out_price H s tr s1 r sg i s2 md x a o : reachable H s -> run H s tr s1 -> out_limiter s r -> onward tr -> (forall e, In e tr -> ~ sets_outbound (ins (e_call e))) ->
  step H s1 (Call sg i) = Ok s2 -> transfer_of i = Some (md, x, a) -> outbox_at s2 (xa_outbox_item x) o -> ob_release o <> st_now s1 ->
  ar_queue a = true /\ capacity r (st_now s) < sum (out_at_once every) tr + deposit_value s1 x a.
Proof.
  intros Hr R L D Q Hs Ti Ho N. destruct (out_left _ _ _ _ _ Hr R L D Q) as (r' & L' & B).
  destruct (transfer_limits _ _ _ _ _ _ _ _ (run_reachable _ _ _ _ Hr R) Hs Ti) as (c & m & pe & f & o' & v & orl & irl & orl' & irl' & T & O1 & _ & _ & _ & K1 & K2 & _).
  assert (o' = o) by (pose proof (tr_item _ _ _ _ _ _ _ _ _ _ _ _ T) as E; unfold outbox_at, has in *; congruence). subst o'.
  assert (orl = r') by (unfold out_limiter in *; congruence). subst orl.
  assert (V : deposit_value s1 x a = v).
  { unfold deposit_value. rewrite (tr_config _ _ _ _ _ _ _ _ _ _ _ _ T : st_accts _ _ = _), (tr_peer _ _ _ _ _ _ _ _ _ _ _ _ T : st_accts _ _ = _), (tr_mint _ _ _ _ _ _ _ _ _ _ _ _ T). now rewrite (tr_value _ _ _ _ _ _ _ _ _ _ _ _ T). }
  rewrite V. destruct (Z_le_gt_dec v (capacity r' (st_now s1))) as [G|G]; [exfalso; apply N, K1, G|]. apply Z.gt_lt in G. split; [apply K2, G|lia].
Qed.

(** * Who can have whose transfer delayed, when the ledger changes in any way (C112): [DelayFacts] again, from [WildWindowFacts]. *)
From Verif Require Export DelayFacts WildWindowFacts.
Import ListNotations.
Local Open Scope Z_scope.

Lemma wild_in s s' ch r : wild s s' -> in_limiter s ch r -> in_limiter s' ch r.
Proof. intros W L. unfold in_limiter in *. rewrite (wl_accts _ _ W). exact L. Qed.
Lemma wild_out s s' r : wild s s' -> out_limiter s r -> out_limiter s' r.
Proof. intros W L. unfold out_limiter in *. rewrite (wl_accts _ _ W). exact L. Qed.

Lemma w_apart_step H s cl s' ch r : wreachable H s -> step H s cl = Ok s' -> in_limiter s ch r -> ~ concerns ch (Ev s cl s') -> in_limiter s' ch r.
Proof.
  intros Hr Hs L N. destruct cl as [sg i]. destruct (transfer_of i) as [[[md x] a]|] eqn:Ti.
  - destruct (w_transfer_flow _ _ _ _ _ _ _ _ Hr Hs Ti) as (v & orl & irl & _ & _ & _ & _ & K). apply K; [|exact L]. intros E. apply N. left. exists md, x, a. split; [exact Ti|now symmetry].
  - assert (Q : (exists x, i = IRedeem x) \/ (forall x, i <> IRedeem x)) by (destruct i; try (left; eexists; reflexivity); right; intros; discriminate).
    destruct Q as [(x & ->)|Nr].
    + destruct (redeem_exact _ _ _ _ _ Hr Hs) as (p & k & tm & c & rt & pe & m & b & af & Rd).
      assert (Nk : ch <> k).
      { intros <-. apply N. right. left. exists p, (tm_msg tm), x, tm, c, rt, pe. split; [reflexivity|]. split; [exact (rd_delivers _ _ _ _ _ _ _ _ _ _ _ _ _ Rd)|reflexivity]. }
      destruct (redeem_flow H s sg _ _ _ _ _ _ _ _ _ _ _ Rd) as [(_ & _ & I)|(_ & irl & orl & _ & _ & _ & _ & _ & K)]; [apply I, L|apply K; assumption].
    + eapply w_inbound_same; [exact Hs|exact L| |exact Ti|exact Nr]. intros C. apply N. right. right. exact C.
Qed.
Theorem w_apart H s tr s' ch r : wreachable H s -> wrun H s tr s' -> in_limiter s ch r -> (forall e, In e tr -> ~ concerns ch e) -> in_limiter s' ch r.
Proof.
  intros Hr R L. induction R as [|tr s1 cl s' R IH E|tr s1 s' R IH E]; intros N; [exact L| |].
  - eapply w_apart_step; [exact (wrun_reachable _ _ _ _ Hr R)|exact E|apply IH; intros e I; apply N; now right|apply N; now left].
  - eapply wild_in; [exact E|apply IH, N].
Qed.

Lemma w_left_run H (lim : state -> rl -> Prop) (taken back : ev -> Z) (quiet : ev -> Prop) s0 r0 :
  (forall s cl s' r, wreachable H s -> step H s cl = Ok s' -> lim s r -> quiet (Ev s cl s') ->
     exists r', lim s' r' /\ moved r (st_now s) (taken (Ev s cl s')) (back (Ev s cl s')) r') ->
  (forall s s' r, wild s s' -> lim s r -> lim s' r) ->
  (forall s r, wreachable H s -> lim s r -> wf_rl r) ->
  wreachable H s0 -> lim s0 r0 -> forall tr s, wrun H s0 tr s -> onward tr -> (forall e, In e tr -> quiet e) ->
  exists r, lim s r /\ capacity r0 (st_now s0) - sum taken tr <= capacity r (st_now s).
Proof.
  intros St Wi Wf Hr0 L0 tr s R. induction R as [|tr s cl s' R IH E|tr s s' R IH E]; intros D Q.
  - exists r0. split; [exact L0|]. cbn. lia.
  - destruct (IH (fun e I => D e (or_intror I)) (fun e I => Q e (or_intror I))) as (r & L & B). pose proof (wrun_reachable _ _ _ _ Hr0 R) as Hr.
    destruct (St s cl s' r Hr E L (Q _ (or_introl eq_refl))) as (r' & L' & M). exists r'. split; [exact L'|]. apply moved_left in M.
    assert (Hr' : wreachable H s') by (eapply wrun_reachable; [exact Hr0|eapply wrun_step; [exact R|exact E]]).
    pose proof (capacity_mono r' _ _ (Wf _ _ Hr' L') (D _ (or_introl eq_refl))) as K. cbn [e_pre e_post] in K. cbn [sum fold_right]. fold (sum taken tr). lia.
  - destruct (IH D Q) as (r & L & B). exists r. split; [eapply Wi; eassumption|]. rewrite (wl_now _ _ E). exact B.
Qed.
Theorem w_in_left H s tr s' ch r : wreachable H s -> wrun H s tr s' -> in_limiter s ch r -> onward tr -> (forall e, In e tr -> ~ sets_inbound ch (ins (e_call e))) ->
  exists r', in_limiter s' ch r' /\ capacity r (st_now s) - sum (in_at_once H (one ch)) tr <= capacity r' (st_now s').
Proof.
  intros Hr R L D Q. exact (w_left_run H (fun s r => in_limiter s ch r) (in_at_once H (one ch)) (out_at_once (one ch)) (fun e => ~ sets_inbound ch (ins (e_call e))) s r
    ltac:(intros u [sg i] u' q Hu E Lq Nq; exact (w_in_flow _ _ _ _ _ _ _ Hu E Lq Nq)) ltac:(intros u u' q W Lq; exact (wild_in _ _ _ _ W Lq))
    ltac:(intros u q Hu Lq; exact (irl_wf _ _ _ (wreachable_inv _ _ Hu) Lq)) Hr L tr s' R D Q).
Qed.
Theorem w_out_left H s tr s' r : wreachable H s -> wrun H s tr s' -> out_limiter s r -> onward tr -> (forall e, In e tr -> ~ sets_outbound (ins (e_call e))) ->
  exists r', out_limiter s' r' /\ capacity r (st_now s) - sum (out_at_once every) tr <= capacity r' (st_now s').
Proof.
  intros Hr R L D Q. exact (w_left_run H out_limiter (out_at_once every) (in_at_once H every) (fun e => ~ sets_outbound (ins (e_call e))) s r
    ltac:(intros u [sg i] u' q Hu E Lq Nq; exact (w_out_flow _ _ _ _ _ _ Hu E Lq Nq)) ltac:(intros u u' q W Lq; exact (wild_out _ _ _ W Lq))
    ltac:(intros u q Hu Lq; exact (proj2 (orl_addr _ _ _ (wreachable_inv _ _ Hu) Lq))) Hr L tr s' R D Q).
Qed.

Lemma w_redeem_delayed H s sg x s' p ch tm t : wreachable H s -> step H s (Call sg (IRedeem x)) = Ok s' -> st_accts s (ra_message x) = Some (Acct p (DVtm ch tm)) ->
  scheduled s (item_of H ch (tm_msg tm)) = None -> scheduled s' (item_of H ch (tm_msg tm)) = Some t ->
  exists r, in_limiter s ch r /\ (t = st_now s /\ message_value s (ra_config x) (tm_msg tm) <= capacity r (st_now s) \/
    t = st_now s + day /\ capacity r (st_now s) < message_value s (ra_config x) (tm_msg tm)).
Proof.
  intros Hr Hs Hm S0 S1. destruct (redeem_exact _ _ _ _ _ Hr Hs) as (p' & k & tm' & c & rt & pe & m & b & af & Rd).
  pose proof (rd_delivers _ _ _ _ _ _ _ _ _ _ _ _ _ Rd) as D. pose proof (dl_message _ _ _ _ _ _ _ _ D) as E. rewrite Hm in E. injection E as <- <- <-.
  assert (V : message_value s (ra_config x) (tm_msg tm) = local_amount m (tm_msg tm)).
  { unfold message_value. now rewrite (dl_config _ _ _ _ _ _ _ _ D : st_accts _ _ = _), (rd_mint _ _ _ _ _ _ _ _ _ _ _ _ _ Rd). }
  rewrite V. pose proof (rd_before _ _ _ _ _ _ _ _ _ _ _ _ _ Rd) as B. rewrite (scheduled_inbox _ _ _ (rd_after _ _ _ _ _ _ _ _ _ _ _ _ _ Rd)) in S1.
  destruct (rd_status _ _ _ _ _ _ _ _ _ _ _ _ _ Rd) as [(_ & Es & _)|(_ & _ & irl & orl & irl' & orl' & u & Es & I1 & _ & _ & _ & K1 & K2 & _)]; cbv zeta in *.
  - exfalso. rewrite Es in S1. destruct b as [it|]; [rewrite (scheduled_inbox _ _ _ B) in S0; congruence|discriminate].
  - rewrite Es in S1. injection S1 as ->. exists irl. split; [exact I1|].
    destruct (Z_le_gt_dec (local_amount m (tm_msg tm)) (capacity irl (st_now s))) as [L|L].
    + left. split; [apply K1, L|exact L].
    + right. apply Z.gt_lt in L. split; [apply K2, L|exact L].
Qed.
Theorem w_in_price H s tr s1 ch r sg x s2 p tm t : wreachable H s -> wrun H s tr s1 -> in_limiter s ch r -> onward tr -> (forall e, In e tr -> ~ sets_inbound ch (ins (e_call e))) ->
  step H s1 (Call sg (IRedeem x)) = Ok s2 -> st_accts s1 (ra_message x) = Some (Acct p (DVtm ch tm)) ->
  scheduled s1 (item_of H ch (tm_msg tm)) = None -> scheduled s2 (item_of H ch (tm_msg tm)) = Some t -> t <> st_now s1 ->
  capacity r (st_now s) < sum (in_at_once H (one ch)) tr + message_value s1 (ra_config x) (tm_msg tm).
Proof.
  intros Hr R L D Q Hs Hm S0 S1 N. destruct (w_in_left _ _ _ _ _ _ Hr R L D Q) as (r' & L' & B).
  destruct (w_redeem_delayed _ _ _ _ _ _ _ _ _ (wrun_reachable _ _ _ _ Hr R) Hs Hm S0 S1) as (q & Lq & [(E & _)|(_ & K)]); [contradiction|].
  assert (q = r') by (unfold in_limiter in *; congruence). subst q. lia.
Qed.
Theorem w_apart_price H s tr s1 ch r sg x s2 p tm t : wreachable H s -> wrun H s tr s1 -> in_limiter s ch r -> (forall e, In e tr -> ~ concerns ch e) ->
  step H s1 (Call sg (IRedeem x)) = Ok s2 -> st_accts s1 (ra_message x) = Some (Acct p (DVtm ch tm)) ->
  scheduled s1 (item_of H ch (tm_msg tm)) = None -> scheduled s2 (item_of H ch (tm_msg tm)) = Some t ->
  t = if message_value s1 (ra_config x) (tm_msg tm) <=? capacity r (st_now s1) then st_now s1 else st_now s1 + day.
Proof.
  intros Hr R L N Hs Hm S0 S1. pose proof (w_apart _ _ _ _ _ _ Hr R L N) as L'.
  destruct (w_redeem_delayed _ _ _ _ _ _ _ _ _ (wrun_reachable _ _ _ _ Hr R) Hs Hm S0 S1) as (q & Lq & K). assert (q = r) by (unfold in_limiter in *; congruence). subst q.
  destruct K as [(-> & K)|(-> & K)]; [apply Z.leb_le in K|apply Z.leb_gt in K]; now rewrite K.
Qed.
Theorem w_out_price H s tr s1 r sg i s2 md x a o : wreachable H s -> wrun H s tr s1 -> out_limiter s r -> onward tr -> (forall e, In e tr -> ~ sets_outbound (ins (e_call e))) ->
  step H s1 (Call sg i) = Ok s2 -> transfer_of i = Some (md, x, a) -> outbox_at s2 (xa_outbox_item x) o -> ob_release o <> st_now s1 ->
  ar_queue a = true /\ capacity r (st_now s) < sum (out_at_once every) tr + deposit_value s1 x a.
Proof.
  intros Hr R L D Q Hs Ti Ho N. destruct (w_out_left _ _ _ _ _ Hr R L D Q) as (r' & L' & B).
  destruct (transfer_limits _ _ _ _ _ _ _ _ (wrun_reachable _ _ _ _ Hr R) Hs Ti) as (c & m & pe & f & o' & v & orl & irl & orl' & irl' & T & O1 & _ & _ & _ & K1 & K2 & _).
  assert (o' = o) by (pose proof (tr_item _ _ _ _ _ _ _ _ _ _ _ _ T) as E; unfold outbox_at, has in *; congruence). subst o'.
  assert (orl = r') by (unfold out_limiter in *; congruence). subst orl.
  assert (V : deposit_value s1 x a = v).
  { unfold deposit_value. rewrite (tr_config _ _ _ _ _ _ _ _ _ _ _ _ T : st_accts _ _ = _), (tr_peer _ _ _ _ _ _ _ _ _ _ _ _ T : st_accts _ _ = _), (tr_mint _ _ _ _ _ _ _ _ _ _ _ _ T). now rewrite (tr_value _ _ _ _ _ _ _ _ _ _ _ _ T). }
  rewrite V. destruct (Z_le_gt_dec v (capacity r' (st_now s1))) as [G|G]; [exfalso; apply N, K1, G|]. apply Z.gt_lt in G. split; [apply K2, G|lia].
Qed.

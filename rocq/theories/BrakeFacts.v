(** * Proofs about limits of zero (C113). *)
From Verif Require Export DelayFacts.
Import ListNotations.
Local Open Scope Z_scope.

Lemma capacity_shut r T : rl_limit r = 0 -> capacity r T <= 0.
Proof. intros E. pose proof (proj2 (capacity_fluid r T)). lia. Qed.
Lemma moved_shut r T v p r' : rl_limit r = 0 -> moved r T v p r' -> v = 0 /\ rl_limit r' = 0.
Proof. intros E M. pose proof (capacity_shut r T E). destruct M; (split; [lia|exact E]). Qed.
Lemma shut_run H (lim : state -> rl -> Prop) (taken back : ev -> Z) (quiet : ev -> Prop) s0 r0 :
  (forall s cl s' r, reachable H s -> step H s cl = Ok s' -> lim s r -> quiet (Ev s cl s') ->
     exists r', lim s' r' /\ moved r (st_now s) (taken (Ev s cl s')) (back (Ev s cl s')) r') ->
  reachable H s0 -> lim s0 r0 -> rl_limit r0 = 0 -> forall tr s, run H s0 tr s -> (forall e, In e tr -> quiet e) ->
  (forall e, In e tr -> taken e = 0) /\ exists r, lim s r /\ rl_limit r = 0.
Proof.
  intros St Hr0 L0 Z0 tr s R. induction R as [|tr s cl s' R IH E]; intros Q.
  - split; [contradiction|]. exists r0. auto.
  - destruct (IH (fun e I => Q e (or_intror I))) as (T & r & L & Zr).
    destruct (St s cl s' r (run_reachable _ _ _ _ Hr0 R) E L (Q _ (or_introl eq_refl))) as (r' & L' & M). destruct (moved_shut _ _ _ _ _ Zr M) as (V & Zr').
    split; [intros e [<-|I]; [exact V|apply T, I]|]. exists r'. auto.
Qed.

(** ** One chain *)
Theorem in_shut H s tr s' ch r : reachable H s -> run H s tr s' -> in_limiter s ch r -> rl_limit r = 0 -> (forall e, In e tr -> ~ sets_inbound ch (ins (e_call e))) ->
  (forall e, In e tr -> in_at_once H (one ch) e = 0) /\ exists r', in_limiter s' ch r' /\ rl_limit r' = 0.
Proof.
  intros Hr R L Zr Q. exact (shut_run H (fun s r => in_limiter s ch r) (in_at_once H (one ch)) (out_at_once (one ch)) (fun e => ~ sets_inbound ch (ins (e_call e))) s r
    ltac:(intros u [sg i] u' q Hu E Lq Nq; exact (in_flow _ _ _ _ _ _ _ Hu E Lq Nq)) Hr L Zr tr s' R Q).
Qed.
Theorem in_brake H s tr s1 ch r sg x s2 p tm t : reachable H s -> run H s tr s1 -> in_limiter s ch r -> rl_limit r = 0 -> (forall e, In e tr -> ~ sets_inbound ch (ins (e_call e))) ->
  step H s1 (Call sg (IRedeem x)) = Ok s2 -> st_accts s1 (ra_message x) = Some (Acct p (DVtm ch tm)) ->
  scheduled s1 (item_of H ch (tm_msg tm)) = None -> scheduled s2 (item_of H ch (tm_msg tm)) = Some t -> 0 < message_value s1 (ra_config x) (tm_msg tm) -> t = st_now s1 + day.
Proof.
  intros Hr R L Zr Q Hs Hm S0 S1 P. destruct (in_shut _ _ _ _ _ _ Hr R L Zr Q) as (_ & r' & L' & Zr').
  destruct (redeem_delayed _ _ _ _ _ _ _ _ _ (run_reachable _ _ _ _ Hr R) Hs Hm S0 S1) as (q & Lq & [(_ & K)|(E & _)]); [|exact E].
  assert (q = r') by (unfold in_limiter in *; congruence). subst q. pose proof (capacity_shut r' (st_now s1) Zr'). lia.
Qed.
Lemma sum_zero (f : ev -> Z) tr : (forall e, In e tr -> f e = 0) -> sum f tr = 0.
Proof. induction tr as [|e tr IH]; intros Q; [reflexivity|]. cbn [sum fold_right]. fold (sum f tr). rewrite (Q e (or_introl eq_refl)), IH; [reflexivity|intros e' I; apply Q; now right]. Qed.
Theorem paid_shut H s0 tr0 s tr s' ch r t0 t1 l : initial s0 -> run H s0 tr0 s -> run H s tr s' -> no_collision H (tr ++ tr0) ->
  in_limiter s ch r -> rl_limit r = 0 -> t1 < t0 + day -> during t0 t1 tr -> (forall e, In e tr -> ~ sets_inbound ch (ins (e_call e))) ->
  NoDup l -> (forall a, In a l -> open_in s a /\ paid_for H ch (tr ++ tr0) tr a) -> amounts s' l <= 0.
Proof.
  intros Hini R0 R NC L Zr T D Q N P. assert (Hr : reachable H s) by (exists s0, tr0; split; assumption).
  destruct (in_shut _ _ _ _ _ _ Hr R L Zr Q) as (Z0 & _). rewrite <- (sum_zero _ _ Z0), sum_total.
  apply distinct_total; [exact N| |eapply at_once_nonneg; eassumption]. intros a Ia. destruct (P a Ia) as (O & Pf). eapply paid_at_once; eassumption.
Qed.

(** ** Outbound *)
Theorem out_shut H s tr s' r : reachable H s -> run H s tr s' -> out_limiter s r -> rl_limit r = 0 -> (forall e, In e tr -> ~ sets_outbound (ins (e_call e))) ->
  (forall e, In e tr -> out_at_once every e = 0) /\ exists r', out_limiter s' r' /\ rl_limit r' = 0.
Proof.
  intros Hr R L Zr Q. exact (shut_run H out_limiter (out_at_once every) (in_at_once H every) (fun e => ~ sets_outbound (ins (e_call e))) s r
    ltac:(intros u [sg i] u' q Hu E Lq Nq; exact (out_flow _ _ _ _ _ _ Hu E Lq Nq)) Hr L Zr tr s' R Q).
Qed.
Theorem out_brake H s tr s1 r sg i s2 md x a o : reachable H s -> run H s tr s1 -> out_limiter s r -> rl_limit r = 0 -> (forall e, In e tr -> ~ sets_outbound (ins (e_call e))) ->
  step H s1 (Call sg i) = Ok s2 -> transfer_of i = Some (md, x, a) -> outbox_at s2 (xa_outbox_item x) o -> 0 < deposit_value s1 x a ->
  ar_queue a = true /\ ob_release o = st_now s1 + day.
Proof.
  intros Hr R L Zr Q Hs Ti Ho P. destruct (out_shut _ _ _ _ _ Hr R L Zr Q) as (_ & r' & L' & Zr').
  destruct (transfer_limits _ _ _ _ _ _ _ _ (run_reachable _ _ _ _ Hr R) Hs Ti) as (c & m & pe & f & o' & v & orl & irl & orl' & irl' & T & O1 & _ & _ & _ & _ & K2 & _).
  assert (o' = o) by (pose proof (tr_item _ _ _ _ _ _ _ _ _ _ _ _ T) as E; unfold outbox_at, has in *; congruence). subst o'.
  assert (orl = r') by (unfold out_limiter in *; congruence). subst orl.
  assert (V : deposit_value s1 x a = v).
  { unfold deposit_value. rewrite (tr_config _ _ _ _ _ _ _ _ _ _ _ _ T : st_accts _ _ = _), (tr_peer _ _ _ _ _ _ _ _ _ _ _ _ T : st_accts _ _ = _), (tr_mint _ _ _ _ _ _ _ _ _ _ _ _ T). now rewrite (tr_value _ _ _ _ _ _ _ _ _ _ _ _ T). }
  rewrite V in P. pose proof (capacity_shut r' (st_now s1) Zr'). destruct K2 as (K & E & _); [lia|]. split; [exact K|exact E].
Qed.
Theorem sent_shut H s tr s' r t0 t1 : reachable H s -> run H s tr s' -> out_limiter s r -> rl_limit r = 0 -> t1 < t0 + day -> during t0 t1 tr ->
  (forall e, In e tr -> ~ sets_outbound (ins (e_call e))) -> sum (sent_value s') tr <= 0.
Proof.
  intros Hr R L Zr T D Q. destruct (out_shut _ _ _ _ _ Hr R L Zr Q) as (Z0 & _). rewrite <- (sum_zero _ _ Z0). apply sum_le. eapply sent_at_once; eassumption.
Qed.

(** * The rate limits over histories (C110). *)
From Verif Require Export WindowFacts.
From Verif Require Import Scenario PropsFlow.
Import ListNotations.
Local Open Scope Z_scope.
Local Open Scope list_scope.

(** Of the messages of a chain, no more is scheduled to be paid at once, in any history between two clock readings, than the limiter of the
    chain had to give at the first, plus one limit per day of the time between, plus what was sent to the chain at once meanwhile. *)
Theorem C110_inbound : forall H s tr s' ch r t0 t1, reachable H s -> run H s tr s' -> in_limiter s ch r -> t0 <= t1 -> during t0 t1 tr ->
  (forall e, In e tr -> ~ sets_inbound ch (ins (e_call e))) ->
  sum (in_at_once H (one ch)) tr * day <= room r t0 + (t1 - t0) * rl_limit r + sum (out_at_once (one ch)) tr * day.
Proof. exact inbound_bound. Qed.
Print Assumptions C110_inbound.

(** The same for what is sent to all chains together. *)
Theorem C110_outbound : forall H s tr s' r t0 t1, reachable H s -> run H s tr s' -> out_limiter s r -> t0 <= t1 -> during t0 t1 tr ->
  (forall e, In e tr -> ~ sets_outbound (ins (e_call e))) ->
  sum (out_at_once every) tr * day <= room r t0 + (t1 - t0) * rl_limit r + sum (in_at_once H every) tr * day.
Proof. exact outbound_bound. Qed.
Print Assumptions C110_outbound.

(** What is paid out within less than a day for messages of one chain that were not scheduled when the time began is bounded alike, whatever
    the chain, the transceivers and everyone else do: the rest of what they had approved is still waiting. *)
Theorem C110_paid : forall H s0 tr0 s tr s' ch r t0 t1 l, initial s0 -> run H s0 tr0 s -> run H s tr s' -> no_collision H (tr ++ tr0) ->
  in_limiter s ch r -> t0 <= t1 -> t1 < t0 + day -> during t0 t1 tr -> (forall e, In e tr -> ~ sets_inbound ch (ins (e_call e))) ->
  NoDup l -> (forall a, In a l -> open_in s a /\ paid_for H ch (tr ++ tr0) tr a) ->
  amounts s' l * day <= room r t0 + (t1 - t0) * rl_limit r + sum (out_at_once (one ch)) tr * day.
Proof. exact paid_bound. Qed.
Print Assumptions C110_paid.

(** When nothing was sent to the chain at once meanwhile, that is less than two limits. *)
Theorem C110_two_limits : forall H s0 tr0 s tr s' ch r t0 t1 l, initial s0 -> run H s0 tr0 s -> run H s tr s' -> no_collision H (tr ++ tr0) ->
  in_limiter s ch r -> t0 <= t1 -> t1 < t0 + day -> during t0 t1 tr -> (forall e, In e tr -> ~ sets_inbound ch (ins (e_call e))) ->
  sum (out_at_once (one ch)) tr = 0 ->
  NoDup l -> (forall a, In a l -> open_in s a /\ paid_for H ch (tr ++ tr0) tr a) ->
  amounts s' l <= 2 * rl_limit r.
Proof. exact paid_two_limits. Qed.
Print Assumptions C110_two_limits.

(** If the owner pauses the deployment before the day is over and does not end the pause, this is all that is ever paid for such messages,
    however long it lasts and whatever is delivered and approved meanwhile. *)
Theorem C110_paused : forall H s0 tr0 s tr s1 tr2 s2 ch r t0 t1 l, initial s0 -> run H s0 tr0 s -> run H s tr s1 -> run H s1 tr2 s2 -> no_collision H (tr2 ++ tr ++ tr0) ->
  in_limiter s ch r -> t0 <= t1 -> t1 < t0 + day -> during t0 t1 tr -> (forall e, In e tr -> ~ sets_inbound ch (ins (e_call e))) ->
  paused_in s1 -> (forall e, In e tr2 -> ~ unpauses (ins (e_call e))) ->
  NoDup l -> (forall a, In a l -> open_in s a /\ paid_for H ch (tr2 ++ tr ++ tr0) (tr2 ++ tr) a) ->
  amounts s2 l * day <= room r t0 + (t1 - t0) * rl_limit r + sum (out_at_once (one ch)) tr * day.
Proof. exact paused_bound. Qed.
Print Assumptions C110_paused.

(** ** A chain that goes wrong: from a full limiter of 3000000000 it has the limit paid, waits for almost a day and has 7 units less
    than what the limiter then holds paid; a third message of 10 units waits for a day. *)
Definition vaa (n : nat) : addr := APda PWormhole (TUser 1) (Z.of_nat n) ANull ANull.
Definition bad (n : nat) (am : Z) : tr_msg := TrMsg (ARaw 7) (AProg PManager) (NttMsg (ARaw (50 + n)) (ARaw 21) (Trim am 8) (ARaw 22) 1 RCPT).
Definition bad_item (n : nat) (am : Z) : addr := item_of H0 2 (tm_msg (bad n am)).
Definition come (n : nat) (am : Z) : list call :=
  [ Call [] (EPostVaa (vaa n) 2 (ARaw 8) (Some (bad n am))); Call [] (IXReceive PManager pda_config (vaa n));
    Call [] (IRedeem (RedeemAccts pda_config (pda_vtm PManager 2 (ARaw (50 + n))) (pda_reg (AProg PManager)) pda_outbox_rl)) ].
Definition pay (n : nat) (am : Z) : call := Call [] (IReleaseMint (ReleaseAccts pda_config (bad_item n am) PToken true) true).
Definition wrong : list call :=
  [Call [] (ECreateAta PToken RCPT MINT)] ++ come 1 300000000 ++ [pay 1 300000000; Call [] (EClock 87399)] ++ come 2 299996527 ++ [pay 2 299996527] ++ come 3 1.
Definition wrong_tr : list ev := events H0 (at_ Burning 5) wrong.
Definition wrong_end : state := apply_tx H0 (at_ Burning 5) wrong.

Lemma tx_run H s cs : is_ok (exec_tx H s cs) = true -> run H s (events H s cs) (apply_tx H s cs).
Proof. unfold apply_tx. destruct (exec_tx H s cs) as [s'|] eqn:E; [|discriminate]. intros _. exact (events_run _ _ _ _ E). Qed.
Lemma wrong_runs : run H0 (at_ Burning 5) wrong_tr wrong_end.
Proof. apply tx_run. vm_compute. reflexivity. Qed.
Lemma before_runs : run H0 (s_start Burning) (events H0 (s_start Burning) (firstn 5 (calls Burning))) (at_ Burning 5).
Proof. apply tx_run. vm_compute. reflexivity. Qed.
Lemma all_of (f : ev -> bool) tr : forallb f tr = true -> forall e, In e tr -> f e = true.
Proof. intros E. exact (proj1 (forallb_forall f tr) E). Qed.
Definition is_owners (e : ev) : bool := match ins (e_call e) with ISetInboundLimit _ _ _ _ | ISetPeer _ _ _ _ _ _ | ISetOutboundLimit _ _ _ _ => true | _ => false end.
Definition within (e : ev) : bool := (1000 <=? st_now (e_pre e)) && (st_now (e_pre e) <=? 87399).
Lemma wrong_during : during 1000 87399 wrong_tr.
Proof. intros e I. assert (Q : within e = true) by (revert e I; apply all_of; vm_compute; reflexivity). unfold within in Q. apply andb_true_iff in Q. lia. Qed.
Lemma wrong_quiet : forall e, In e wrong_tr -> ~ sets_inbound 2 (ins (e_call e)) /\ ~ sets_outbound (ins (e_call e)).
Proof.
  intros e I. assert (Q : negb (is_owners e) = true) by (revert e I; apply (all_of (fun e => negb (is_owners e))); vm_compute; reflexivity). unfold is_owners in Q.
  split; [intros [(c & o & l & E)|(c & o & a & l & d & E)]|intros (c & o & a & l & E)]; rewrite E in Q; discriminate.
Qed.
Definition taken : list addr := [bad_item 1 300000000; bad_item 2 299996527].

(** The hypotheses of all four theorems hold; the bound, 5999965277 and a fraction, leaves no room for the 10 units of the third message. *)
Example C110_case : run H0 (s_start Burning) (events H0 (s_start Burning) (firstn 5 (calls Burning))) (at_ Burning 5) /\
  run H0 (at_ Burning 5) wrong_tr wrong_end /\ no_collision H0 (wrong_tr ++ events H0 (s_start Burning) (firstn 5 (calls Burning))) /\
  in_limiter (at_ Burning 5) 2 (RL 3000000000 3000000000 0) /\ out_limiter (at_ Burning 5) (RL 3000000000 3000000000 0) /\
  during 1000 87399 wrong_tr /\ 87399 < 1000 + day /\
  (forall e, In e wrong_tr -> ~ sets_inbound 2 (ins (e_call e)) /\ ~ sets_outbound (ins (e_call e))) /\
  sum (in_at_once H0 (one 2)) wrong_tr = 5999965270 /\ sum (out_at_once (one 2)) wrong_tr = 0 /\
  amounts wrong_end taken = 5999965270 /\ map (status_at wrong_end) taken = [Some Released; Some Released] /\
  status_at wrong_end (bad_item 3 1) = Some (ReleaseAfter (87399 + day)) /\
  (room (RL 3000000000 3000000000 0) 1000 + (87399 - 1000) * 3000000000) / day = 5999965277.
Proof.
  split; [exact before_runs|]. split; [exact wrong_runs|]. split; [intros e e' p p' ch nm ch' nm' _ _ _ _; apply h_msg_inj|].
  split; [vm_compute; reflexivity|]. split; [vm_compute; reflexivity|]. split; [exact wrong_during|]. split; [reflexivity|]. split; [exact wrong_quiet|].
  repeat match goal with |- _ /\ _ => split end; vm_compute; reflexivity.
Qed.
Lemma taken_paid : forall a, In a taken -> open_in (at_ Burning 5) a /\ paid_for H0 2 (wrong_tr ++ events H0 (s_start Burning) (firstn 5 (calls Burning))) wrong_tr a.
Proof.
  intros a I. split; [destruct I as [<-|[<-|[]]]; split; vm_compute; reflexivity|].
  assert (Q : In (Some a) (map payout wrong_tr)).
  { assert (E : filter (fun o => match o with Some _ => true | None => false end) (map payout wrong_tr) = [Some (bad_item 2 299996527); Some (bad_item 1 300000000)]) by (vm_compute; reflexivity).
    apply (proj1 (proj1 (filter_In (fun o : option addr => match o with Some _ => true | None => false end) (Some a) (map payout wrong_tr)) ltac:(rewrite E; destruct I as [<-|[<-|[]]]; cbn [In]; auto))). }
  destruct (proj1 (in_map_iff payout wrong_tr (Some a)) Q) as (e & P & Ie). split; [exists e; split; assumption|].
  destruct (payout_message _ _ _ _ _ _ (s_start_initial Burning) (run_app _ _ _ _ _ _ before_runs wrong_runs) (in_or_app _ _ _ (or_introl Ie)) P)
    as (md & x & r & c & it & m & e1 & p & ch & nm & _ & _ & _ & I1 & D1 & A1 & _).
  assert (ch = 2) by (destruct I as [<-|[<-|[]]]; apply inbox_inj in A1; apply h_msg_inj in A1; exact (proj1 A1)). subst ch.
  exists e1, p, nm. split; [exact I1|]. split; [exact D1|exact A1].
Qed.
Example C110_applied : amounts wrong_end taken <= 2 * 3000000000.
Proof.
  refine (C110_two_limits H0 _ _ _ _ _ 2 (RL 3000000000 3000000000 0) 1000 87399 taken (s_start_initial Burning) before_runs wrong_runs _ _ _ _ wrong_during (fun e I => proj1 (wrong_quiet e I)) _ _ taken_paid);
  [intros e e' p p' ch nm ch' nm' _ _ _ _; apply h_msg_inj|vm_compute; reflexivity|lia|reflexivity|vm_compute; reflexivity|].
  constructor; [|constructor; [intros []|constructor]]. intros [C|[]]. apply inbox_inj, h_msg_inj in C. destruct C as (_ & C). vm_compute in C. discriminate.
Qed.

(** After a pause the third item is not paid though its day has passed, nor is a fourth that can still be redeemed; without the pause it is. *)
Definition stop : call := Call [DEPLOYER] (ISetPaused pda_config DEPLOYER true).
Definition stopping : list call := firstn 2 (come 4 5) ++ [stop].
Definition stopped : state := apply_tx H0 wrong_end stopping.
Definition much_later (l : list call) : list call := Call [] (EClock 1000000) :: l.
Example C110_pause_case : is_ok (exec_tx H0 wrong_end stopping) = true /\ paused_in stopped /\
  map (fun l => is_ok (exec_tx H0 stopped (much_later l))) [[]; [pay 3 1]; skipn 2 (come 4 5); skipn 2 (come 4 5) ++ [pay 4 5]] = [true; false; true; false] /\
  is_ok (exec_tx H0 wrong_end (much_later [pay 3 1])) = true.
Proof.
  split; [vm_compute; reflexivity|]. split; [|split; vm_compute; reflexivity].
  eexists. split; [vm_compute; reflexivity|reflexivity].
Qed.

(** ** The other way: a token that goes wrong here.  Of what is deposited within less than a day, no more is published to the other chains
    meanwhile than the outbound limiter lets through: the rest waits. *)
Theorem C110_sent : forall H s tr s' r t0 t1, reachable H s -> run H s tr s' -> out_limiter s r -> t0 <= t1 -> t1 < t0 + day -> during t0 t1 tr ->
  (forall e, In e tr -> ~ sets_outbound (ins (e_call e))) ->
  sum (sent_value s') tr * day <= room r t0 + (t1 - t0) * rl_limit r + sum (in_at_once H every) tr * day.
Proof. exact sent_bound. Qed.
Print Assumptions C110_sent.

(** If the owner pauses the deployment before the day is over and does not end the pause, this is all of it that is ever published. *)
Theorem C110_sent_paused : forall H s tr s1 tr2 s2 r t0 t1, reachable H s -> run H s tr s1 -> run H s1 tr2 s2 -> out_limiter s r -> t0 <= t1 -> t1 < t0 + day -> during t0 t1 tr ->
  (forall e, In e tr -> ~ sets_outbound (ins (e_call e))) -> paused_in s1 -> (forall e, In e tr2 -> ~ unpauses (ins (e_call e))) ->
  sum (sent_value s2) (tr2 ++ tr) * day <= room r t0 + (t1 - t0) * rl_limit r + sum (in_at_once H every) tr * day.
Proof. exact sent_paused_bound. Qed.
Print Assumptions C110_sent_paused.

(** The limit is sent and published; 1900000000 more are queued, and published after a day unless the owner has paused by then. *)
Definition sargs (am : Z) : targs := TransferArgs am 2 (ARaw 9) true.
Definition send (k : nat) (am : Z) : list call :=
  [ Call [USER] (EApprove PToken user_tok USER (pda_session USER (h_args H0 (sargs am))) am);
    Call [AKey k] (ITransferBurn (TransferAccts pda_config user_tok PToken (AKey k) pda_outbox_rl true) (sargs am)) ].
Definition publish (k : nat) : call := Call [] (IXRelease PManager pda_config (AKey k) (pda_reg (AProg PManager)) true true).
Definition sending : list call := send 50 3000000000 ++ [publish 50; Call [] (EClock 40000)] ++ send 51 1900000000.
Definition sending_tr : list ev := events H0 (at_ Burning 5) sending.
Definition sending_end : state := apply_tx H0 (at_ Burning 5) sending.
Definition stop_tr : list ev := events H0 (at_ Burning 5) (sending ++ [stop]).
Definition stop_end : state := apply_tx H0 (at_ Burning 5) (sending ++ [stop]).
Definition forgotten : list call := [Call [] (EClock 1000000)].
Example C110_sent_case : run H0 (at_ Burning 5) stop_tr stop_end /\ run H0 stop_end (events H0 stop_end forgotten) (apply_tx H0 stop_end forgotten) /\
  out_limiter (at_ Burning 5) (RL 3000000000 3000000000 0) /\ during 1000 87399 stop_tr /\ (forall e, In e stop_tr -> ~ sets_outbound (ins (e_call e))) /\ paused_in stop_end /\
  (forall e, In e (events H0 stop_end forgotten) -> ~ unpauses (ins (e_call e))) /\
  map (fun e => (deposited e, sent_value stop_end e)) (rev stop_tr) = [(0, 0); (3000000000, 3000000000); (0, 0); (0, 0); (0, 0); (1900000000, 0); (0, 0)] /\
  is_ok (exec_tx H0 sending_end [publish 51]) = false /\ is_ok (exec_tx H0 sending_end (much_later [publish 51])) = true /\
  is_ok (exec_tx H0 stop_end (much_later [publish 51])) = false.
Proof.
  split; [apply tx_run; vm_compute; reflexivity|]. split; [apply tx_run; vm_compute; reflexivity|]. split; [vm_compute; reflexivity|].
  split; [intros e I; assert (Q : within e = true) by (revert e I; apply all_of; vm_compute; reflexivity); unfold within in Q; apply andb_true_iff in Q; lia|].
  split; [intros e I (c & o & b & l & E); assert (Q : negb (is_owners e) = true) by (revert e I E; intros e I _; revert e I; apply (all_of (fun e => negb (is_owners e))); vm_compute; reflexivity);
    unfold is_owners in Q; rewrite E in Q; discriminate|].
  split; [eexists; split; [vm_compute; reflexivity|reflexivity]|].
  split; [intros e [<-|[]] (c & o & E); discriminate|].
  repeat match goal with |- _ /\ _ => split end; vm_compute; reflexivity.
Qed.

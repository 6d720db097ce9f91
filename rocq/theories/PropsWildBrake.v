(** * A limit of zero, when the ledger changes in any way (C113). *)
From Verif Require Export WildBrakeFacts.
From Verif Require Import Scenario PropsFlow PropsWild PropsWindow PropsWildWindow PropsDelay PropsBrake WildBrakeFacts.
Import ListNotations.
Local Open Scope Z_scope.
Local Open Scope list_scope.

(** The same for histories in which token accounts and mints change in any way between instructions. *)
Theorem C113_wild_inbound : forall H s tr s' ch r, wreachable H s -> wrun H s tr s' -> in_limiter s ch r -> rl_limit r = 0 -> (forall e, In e tr -> ~ sets_inbound ch (ins (e_call e))) ->
  forall e, In e tr -> in_at_once H (one ch) e = 0.
Proof. intros H s tr s' ch r Hr R L Zr Q. exact (proj1 (w_in_shut _ _ _ _ _ _ Hr R L Zr Q)). Qed.
Print Assumptions C113_wild_inbound.

Theorem C113_wild_due : forall H s tr s1 ch r sg x s2 p tm t, wreachable H s -> wrun H s tr s1 -> in_limiter s ch r -> rl_limit r = 0 -> (forall e, In e tr -> ~ sets_inbound ch (ins (e_call e))) ->
  step H s1 (Call sg (IRedeem x)) = Ok s2 -> st_accts s1 (ra_message x) = Some (Acct p (DVtm ch tm)) ->
  scheduled s1 (item_of H ch (tm_msg tm)) = None -> scheduled s2 (item_of H ch (tm_msg tm)) = Some t -> 0 < message_value s1 (ra_config x) (tm_msg tm) -> t = st_now s1 + day.
Proof. exact w_in_brake. Qed.
Print Assumptions C113_wild_due.

Theorem C113_wild_paid : forall H s0 tr0 s tr s' ch r t0 t1 l, initial s0 -> wrun H s0 tr0 s -> wrun H s tr s' -> no_collision H (tr ++ tr0) ->
  in_limiter s ch r -> rl_limit r = 0 -> t1 < t0 + day -> during t0 t1 tr -> (forall e, In e tr -> ~ sets_inbound ch (ins (e_call e))) ->
  NoDup l -> (forall a, In a l -> open_in s a /\ paid_for H ch (tr ++ tr0) tr a) -> amounts s' l <= 0.
Proof. exact w_paid_shut. Qed.
Print Assumptions C113_wild_paid.

Theorem C113_wild_outbound : forall H s tr s1 r sg i s2 md x a o, wreachable H s -> wrun H s tr s1 -> out_limiter s r -> rl_limit r = 0 -> (forall e, In e tr -> ~ sets_outbound (ins (e_call e))) ->
  step H s1 (Call sg i) = Ok s2 -> transfer_of i = Some (md, x, a) -> outbox_at s2 (xa_outbox_item x) o -> 0 < deposit_value s1 x a ->
  ar_queue a = true /\ ob_release o = st_now s1 + day.
Proof. exact w_out_brake. Qed.
Print Assumptions C113_wild_outbound.

Theorem C113_wild_sent : forall H s tr s' r t0 t1, wreachable H s -> wrun H s tr s' -> out_limiter s r -> rl_limit r = 0 -> t1 < t0 + day -> during t0 t1 tr ->
  (forall e, In e tr -> ~ sets_outbound (ins (e_call e))) -> sum (sent_value s') tr <= 0.
Proof. exact w_sent_shut. Qed.
Print Assumptions C113_wild_sent.

(** ** The owner sets the limit to zero, and the mint is then made anew with other decimals: the message is worth another number of units, and waits all the same. *)
Definition shut_other : state := remade 8 shut.
Lemma shut_dec : dec_ok shut.
Proof. intros a m E. exact (winv_dec _ (inv_winv _ (reachable_inv _ _ (apply_reachable _ _ _ (at_reachable Burning 5)))) _ _ E). Qed.
Example C113_wild_case : wreachable H0 shut /\ wrun H0 shut (events H0 shut_other comes) (apply_tx H0 shut_other comes) /\ in_limiter shut 2 (RL 0 0 1000) /\ existsb is_owners (events H0 shut_other comes) = false /\
  scheduled (apply_tx H0 shut_other comes) (bad_item 1 300000000) = Some (1000 + day) /\ amount_of (apply_tx H0 shut_other comes) (bad_item 1 300000000) = 300000000.
Proof.
  split; [destruct (apply_reachable H0 (at_ Burning 5) [shut_in] (at_reachable Burning 5)) as (s0 & tr & Hi & R); exists s0, tr; split; [exact Hi|apply wrun_of_run, R]|]. split.
  { rewrite <- (app_nil_r (events H0 shut_other comes)). eapply wrun_app; [eapply wrun_wild; [constructor|]|apply wrun_of_run, tx_run; vm_compute; reflexivity].
    apply remade_wild; [exact shut_dec|ilia]. }
  repeat (split; [vm_compute; reflexivity|]). vm_compute; reflexivity.
Qed.

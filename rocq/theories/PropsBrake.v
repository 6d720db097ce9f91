(** * A limit of zero (C113). *)
From Verif Require Export BrakeFacts.
From Verif Require Import Scenario SpecEffect PropsFlow PropsWindow PropsEffect PropsDelay.
Import ListNotations.
Local Open Scope Z_scope.
Local Open Scope list_scope.

(** After the owner sets the inbound limit of a chain to zero, nothing of the limiter is left. *)
Theorem C113_set : forall H s sg a o ch s', reachable H s -> forallb can_sign sg = true -> is_u16 ch -> step H s (Call sg (ISetInboundLimit a o ch 0)) = Ok s' ->
  in_limiter s' ch (RL 0 0 (st_now s)).
Proof.
  intros H s sg a o ch s' Hr Cs Uc Hs. destruct (C66_inbound_limit H s sg a o ch 0 Hr Cs Uc ltac:(unfold is_u64, u64_max; lia)) as (_ & E).
  destruct (E _ Hs) as (c & r & _ & Hb & Ha & _). unfold in_limiter. rewrite Ha. unfold relimited. pose proof (proj2 (capacity_fluid r (st_now s))). now rewrite Z.max_l by lia.
Qed.
Print Assumptions C113_set.
Theorem C113_set_outbound : forall H s sg a o ra s', reachable H s -> forallb can_sign sg = true -> step H s (Call sg (ISetOutboundLimit a o ra 0)) = Ok s' ->
  out_limiter s' (RL 0 0 (st_now s)).
Proof.
  intros H s sg a o ra s' Hr Cs Hs. destruct (C66_outbound_limit H s sg a o ra 0 Hr Cs ltac:(unfold is_u64, u64_max; lia)) as (_ & E).
  destruct (E _ Hs) as (c & r & _ & -> & Hb & Ha & _). unfold out_limiter. rewrite Ha. unfold relimited. pose proof (proj2 (capacity_fluid r (st_now s))). now rewrite Z.max_l by lia.
Qed.
Print Assumptions C113_set_outbound.

(** From then on nothing of value that comes from the chain is let through at once, however much is sent there, until the owner sets its limit or peer again. *)
Theorem C113_inbound : forall H s tr s' ch r, reachable H s -> run H s tr s' -> in_limiter s ch r -> rl_limit r = 0 -> (forall e, In e tr -> ~ sets_inbound ch (ins (e_call e))) ->
  forall e, In e tr -> in_at_once H (one ch) e = 0.
Proof. intros H s tr s' ch r Hr R L Zr Q. exact (proj1 (in_shut _ _ _ _ _ _ Hr R L Zr Q)). Qed.
Print Assumptions C113_inbound.

(** Each message of the chain that gets scheduled, if it is worth anything, is due a day later. *)
Theorem C113_due : forall H s tr s1 ch r sg x s2 p tm t, reachable H s -> run H s tr s1 -> in_limiter s ch r -> rl_limit r = 0 -> (forall e, In e tr -> ~ sets_inbound ch (ins (e_call e))) ->
  step H s1 (Call sg (IRedeem x)) = Ok s2 -> st_accts s1 (ra_message x) = Some (Acct p (DVtm ch tm)) ->
  scheduled s1 (item_of H ch (tm_msg tm)) = None -> scheduled s2 (item_of H ch (tm_msg tm)) = Some t -> 0 < message_value s1 (ra_config x) (tm_msg tm) -> t = st_now s1 + day.
Proof. exact in_brake. Qed.
Print Assumptions C113_due.

(** So within less than a day nothing is paid for the chain but what was scheduled before. *)
Theorem C113_paid : forall H s0 tr0 s tr s' ch r t0 t1 l, initial s0 -> run H s0 tr0 s -> run H s tr s' -> no_collision H (tr ++ tr0) ->
  in_limiter s ch r -> rl_limit r = 0 -> t1 < t0 + day -> during t0 t1 tr -> (forall e, In e tr -> ~ sets_inbound ch (ins (e_call e))) ->
  NoDup l -> (forall a, In a l -> open_in s a /\ paid_for H ch (tr ++ tr0) tr a) -> amounts s' l <= 0.
Proof. exact paid_shut. Qed.
Print Assumptions C113_paid.

(** An outbound limit of zero: a transfer of value succeeds only with its sender's consent to wait, and waits for a day. *)
Theorem C113_outbound : forall H s tr s1 r sg i s2 md x a o, reachable H s -> run H s tr s1 -> out_limiter s r -> rl_limit r = 0 -> (forall e, In e tr -> ~ sets_outbound (ins (e_call e))) ->
  step H s1 (Call sg i) = Ok s2 -> transfer_of i = Some (md, x, a) -> outbox_at s2 (xa_outbox_item x) o -> 0 < deposit_value s1 x a ->
  ar_queue a = true /\ ob_release o = st_now s1 + day.
Proof. exact out_brake. Qed.
Print Assumptions C113_outbound.

(** And of what is deposited from then on within less than a day, nothing is published meanwhile. *)
Theorem C113_sent : forall H s tr s' r t0 t1, reachable H s -> run H s tr s' -> out_limiter s r -> rl_limit r = 0 -> t1 < t0 + day -> during t0 t1 tr ->
  (forall e, In e tr -> ~ sets_outbound (ins (e_call e))) -> sum (sent_value s') tr <= 0.
Proof. exact sent_shut. Qed.
Print Assumptions C113_sent.

(** ** Cases: after the owner's call a message is scheduled for a day later though a transfer is queued the other way; it is not paid before, and is paid then.
    Without the call it would have been paid at once. *)
Definition shut_in : call := Call [DEPLOYER] (ISetInboundLimit pda_config DEPLOYER 2 0).
Definition shut_out : call := Call [DEPLOYER] (ISetOutboundLimit pda_config DEPLOYER pda_outbox_rl 0).
Definition shut : state := apply_tx H0 (at_ Burning 5) [shut_in].
Definition comes : list call := Call [] (ECreateAta PToken RCPT MINT) :: send 50 1000000000 ++ come 1 300000000.
Example C113_case : is_ok (step H0 (at_ Burning 5) shut_in) = true /\ in_limiter (at_ Burning 5) 2 (RL 3000000000 3000000000 0) /\ in_limiter shut 2 (RL 0 0 1000) /\
  run H0 shut (events H0 shut comes) (apply_tx H0 shut comes) /\ existsb is_owners (events H0 shut comes) = false /\ sum (out_at_once (one 2)) (events H0 shut comes) = 1000000000 /\
  scheduled (apply_tx H0 shut comes) (bad_item 1 300000000) = Some (1000 + day) /\ amount_of (apply_tx H0 shut comes) (bad_item 1 300000000) = 3000000000 /\
  map (fun l => is_ok (exec_tx H0 shut (comes ++ l))) [[pay 1 300000000]; [Call [] (EClock (1000 + day - 1)); pay 1 300000000]; [Call [] (EClock (1000 + day)); pay 1 300000000]] = [false; false; true] /\
  is_ok (exec_tx H0 (at_ Burning 5) (comes ++ [pay 1 300000000])) = true.
Proof.
  split; [vm_compute; reflexivity|]. split; [vm_compute; reflexivity|]. split; [vm_compute; reflexivity|]. split; [apply tx_run; vm_compute; reflexivity|].
  repeat (split; [vm_compute; reflexivity|]). vm_compute; reflexivity.
Qed.
Definition shut2 : state := apply_tx H0 (at_ Burning 5) [shut_out].
Example C113_outbound_case : is_ok (step H0 (at_ Burning 5) shut_out) = true /\ out_limiter shut2 (RL 0 0 1000) /\ due_out (apply_tx H0 shut2 (send 50 1000000000)) (AKey 50) = Some (1000 + day) /\
  map (fun l => is_ok (exec_tx H0 shut2 (send 50 1000000000 ++ l))) [[]; [publish 50]; [Call [] (EClock (1000 + day)); publish 50]] = [true; false; true] /\
  is_ok (exec_tx H0 (at_ Burning 5) (send 50 1000000000 ++ [publish 50])) = true.
Proof. repeat (split; [vm_compute; reflexivity|]). vm_compute; reflexivity. Qed.

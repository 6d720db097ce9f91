(** * Who can have whose transfer delayed, when the ledger changes in any way (C112). *)
From Verif Require Export WildDelayFacts.
From Verif Require Import Scenario PropsFlow PropsWild PropsWindow PropsWildWindow PropsDelay WildDelayFacts.
Import ListNotations.
Local Open Scope Z_scope.
Local Open Scope list_scope.

(** The same for histories in which token accounts and mints change in any way between instructions. *)
Theorem C112_wild_apart : forall H s tr s' ch r, wreachable H s -> wrun H s tr s' -> in_limiter s ch r -> (forall e, In e tr -> ~ concerns ch e) -> in_limiter s' ch r.
Proof. exact w_apart. Qed.
Print Assumptions C112_wild_apart.

Theorem C112_wild_schedule : forall H s tr s1 ch r sg x s2 p tm t, wreachable H s -> wrun H s tr s1 -> in_limiter s ch r -> (forall e, In e tr -> ~ concerns ch e) ->
  step H s1 (Call sg (IRedeem x)) = Ok s2 -> st_accts s1 (ra_message x) = Some (Acct p (DVtm ch tm)) ->
  scheduled s1 (item_of H ch (tm_msg tm)) = None -> scheduled s2 (item_of H ch (tm_msg tm)) = Some t ->
  t = if message_value s1 (ra_config x) (tm_msg tm) <=? capacity r (st_now s1) then st_now s1 else st_now s1 + day.
Proof. exact w_apart_price. Qed.
Print Assumptions C112_wild_schedule.

Theorem C112_wild_inbound : forall H s tr s1 ch r sg x s2 p tm t, wreachable H s -> wrun H s tr s1 -> in_limiter s ch r -> onward tr -> (forall e, In e tr -> ~ sets_inbound ch (ins (e_call e))) ->
  step H s1 (Call sg (IRedeem x)) = Ok s2 -> st_accts s1 (ra_message x) = Some (Acct p (DVtm ch tm)) ->
  scheduled s1 (item_of H ch (tm_msg tm)) = None -> scheduled s2 (item_of H ch (tm_msg tm)) = Some t -> t <> st_now s1 ->
  capacity r (st_now s) < sum (in_at_once H (one ch)) tr + message_value s1 (ra_config x) (tm_msg tm).
Proof. exact w_in_price. Qed.
Print Assumptions C112_wild_inbound.

Theorem C112_wild_outbound : forall H s tr s1 r sg i s2 md x a o, wreachable H s -> wrun H s tr s1 -> out_limiter s r -> onward tr -> (forall e, In e tr -> ~ sets_outbound (ins (e_call e))) ->
  step H s1 (Call sg i) = Ok s2 -> transfer_of i = Some (md, x, a) -> outbox_at s2 (xa_outbox_item x) o -> ob_release o <> st_now s1 ->
  ar_queue a = true /\ capacity r (st_now s) < sum (out_at_once every) tr + deposit_value s1 x a.
Proof. exact w_out_price. Qed.
Print Assumptions C112_wild_outbound.

(** ** The mint is made anew with other decimals; one message takes most of what the limiter has to give, and the next has to wait. *)
Definition most : list call := come 1 2900000000 ++ firstn 2 (come 2 200000000).
Definition most_tr : list ev := events H0 other_start most.
Definition most_end : state := apply_tx H0 other_start most.
Definition second : redeem_accts := RedeemAccts pda_config (pda_vtm PManager 2 (ARaw 52)) (pda_reg (AProg PManager)) pda_outbox_rl.
Example C112_wild_case : wreachable H0 (at_ Burning 5) /\ wrun H0 (at_ Burning 5) most_tr most_end /\ in_limiter (at_ Burning 5) 2 (RL 3000000000 3000000000 0) /\ onward most_tr /\
  sum (in_at_once H0 (one 2)) most_tr = 2900000000 /\
  match st_accts most_end (ra_message second) with
  | Some (Acct _ (DVtm 2 tm)) => item_of H0 2 (tm_msg tm) = bad_item 2 200000000 /\ message_value most_end pda_config (tm_msg tm) = 200000000 | _ => False end /\
  scheduled most_end (bad_item 2 200000000) = None /\ scheduled (after most_end (Call [] (IRedeem second))) (bad_item 2 200000000) = Some (1000 + day).
Proof.
  split; [destruct (at_reachable Burning 5) as (s0 & tr & Hi & R); exists s0, tr; split; [exact Hi|apply wrun_of_run, R]|]. split.
  { rewrite <- (app_nil_r most_tr). eapply wrun_app; [eapply wrun_wild; [constructor|]|apply wrun_of_run, tx_run; vm_compute; reflexivity].
    apply remade_wild; [apply at_dec|ilia]. }
  split; [vm_compute; reflexivity|]. split; [apply goes_on; vm_compute; reflexivity|]. split; [vm_compute; reflexivity|]. split; [vm_compute; split; reflexivity|]. split; vm_compute; reflexivity.
Qed.

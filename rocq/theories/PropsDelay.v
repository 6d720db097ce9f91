(** * Who can have whose transfer delayed (C112). *)
From Verif Require Export DelayFacts.
From Verif Require Import Scenario PropsFlow PropsWindow PropsErrors SpecErrors.
Import ListNotations.
Local Open Scope Z_scope.
Local Open Scope list_scope.

(** What happens with other chains leaves the inbound limiter of a chain as it is. *)
Theorem C112_apart : forall H s tr s' ch r, reachable H s -> run H s tr s' -> in_limiter s ch r -> (forall e, In e tr -> ~ concerns ch e) -> in_limiter s' ch r.
Proof. exact apart. Qed.
Print Assumptions C112_apart.

(** So when its next message is due depends on the message, the clock and what the limiter was before, however much came from other chains. *)
Theorem C112_schedule : forall H s tr s1 ch r sg x s2 p tm t, reachable H s -> run H s tr s1 -> in_limiter s ch r -> (forall e, In e tr -> ~ concerns ch e) ->
  step H s1 (Call sg (IRedeem x)) = Ok s2 -> st_accts s1 (ra_message x) = Some (Acct p (DVtm ch tm)) ->
  scheduled s1 (item_of H ch (tm_msg tm)) = None -> scheduled s2 (item_of H ch (tm_msg tm)) = Some t ->
  t = if message_value s1 (ra_config x) (tm_msg tm) <=? capacity r (st_now s1) then st_now s1 else st_now s1 + day.
Proof. exact apart_price. Qed.
Print Assumptions C112_schedule.

(** A message is delayed only if what the limiter of its chain had to give at some time before has been used up, but for less than the message itself, by messages
    of the same chain that were let through at once since. *)
Theorem C112_inbound : forall H s tr s1 ch r sg x s2 p tm t, reachable H s -> run H s tr s1 -> in_limiter s ch r -> onward tr -> (forall e, In e tr -> ~ sets_inbound ch (ins (e_call e))) ->
  step H s1 (Call sg (IRedeem x)) = Ok s2 -> st_accts s1 (ra_message x) = Some (Acct p (DVtm ch tm)) ->
  scheduled s1 (item_of H ch (tm_msg tm)) = None -> scheduled s2 (item_of H ch (tm_msg tm)) = Some t -> t <> st_now s1 ->
  capacity r (st_now s) < sum (in_at_once H (one ch)) tr + message_value s1 (ra_config x) (tm_msg tm).
Proof. exact in_price. Qed.
Print Assumptions C112_inbound.

(** A transfer is queued only with the sender's consent, and only if transfers that were let through at once since have used up what the outbound limiter had to give. *)
Theorem C112_outbound : forall H s tr s1 r sg i s2 md x a o, reachable H s -> run H s tr s1 -> out_limiter s r -> onward tr -> (forall e, In e tr -> ~ sets_outbound (ins (e_call e))) ->
  step H s1 (Call sg i) = Ok s2 -> transfer_of i = Some (md, x, a) -> outbox_at s2 (xa_outbox_item x) o -> ob_release o <> st_now s1 ->
  ar_queue a = true /\ capacity r (st_now s) < sum (out_at_once every) tr + deposit_value s1 x a.
Proof. exact out_price. Qed.
Print Assumptions C112_outbound.

(** And is refused for the limit only then. *)
Theorem C112_refused : forall H s tr s1 r sg i md x a, reachable H s -> run H s tr s1 -> out_limiter s r -> onward tr -> (forall e, In e tr -> ~ sets_outbound (ins (e_call e))) ->
  transfer_of i = Some (md, x, a) -> step H s1 (Call sg i) = Err TransferExceedsRateLimit ->
  ar_queue a = false /\ capacity r (st_now s) < sum (out_at_once every) tr + deposit_value s1 x a.
Proof.
  intros H s tr s1 r sg i md x a Hr R L D Q Ti E. destruct (out_left _ _ _ _ _ Hr R L D Q) as (r' & L' & B).
  pose proof (C88_manager _ _ _ _ (run_reachable _ _ _ _ Hr R) E) as C. cbn [ins] in C.
  assert (O : over_limit s1 x a) by (destruct i; try discriminate Ti; injection Ti as <- <- <-; exact C). destruct O as (N & q & Lq & K).
  assert (q = r') by (unfold out_limiter in *; congruence). subst q. split; [exact N|lia].
Qed.
Print Assumptions C112_refused.

(** ** The outbound limiter is shared: what goes to one chain can delay what goes to another. *)
Definition peer3 : list call := [Call [DEPLOYER] (ISetPeer pda_config DEPLOYER 3 (ARaw 77) 3000000000 18)].
Definition three : state := apply_tx H0 (at_ Locking 5) peer3.
Definition to_chain (ch : Z) (queue : bool) : targs := TransferArgs 2000000000 ch (ARaw 9) queue.
Definition approve (a : targs) : call := Call [USER] (EApprove PToken user_tok USER (pda_session USER (h_args H0 a)) 2000000000).
Definition sending (it : addr) (a : targs) : call := Call [it] (ITransferLock (TransferAccts pda_config user_tok PToken it pda_outbox_rl true) a).
Definition alone : list call := [approve (to_chain 3 true)].
Definition others : list call := [approve (to_chain 2 true); sending (AKey 61) (to_chain 2 true); approve (to_chain 3 true)].
Definition busy : state := apply_tx H0 three others.
Definition after (s : state) (cl : call) : state := match step H0 s cl with Ok s' => s' | Err _ => s end.
Lemma ok_step s cl : is_ok (step H0 s cl) = true -> step H0 s cl = Ok (after s cl).
Proof. unfold after. destruct (step H0 s cl); [reflexivity|discriminate]. Qed.
(** When the outbox item at [a] is due. *)
Definition due_out (s : state) (a : addr) : option Z := match st_accts s a with Some (Acct PManager (DOutboxItem o)) => Some (ob_release o) | _ => None end.
Definition aside (e : ev) : bool :=
  match ins (e_call e) with ITransferLock _ a | ITransferBurn _ a => negb (ar_chain a =? 3) | IRedeem _ | ISetInboundLimit _ _ _ _ | ISetPeer _ _ _ _ _ _ => false | _ => true end.
Lemma aside_apart e : aside e = true -> ~ concerns 3 e.
Proof.
  unfold aside. intros A [(md & x & a & T & E)|[(p & nm & x & tm & c & rt & pe & E & _)|[(c & o & l & E)|(c & o & a & l & d & E)]]].
  - destruct (ins (e_call e)); try discriminate T; injection T as <- <- <-; rewrite E in A; discriminate.
  - rewrite E in A. discriminate.
  - rewrite E in A. discriminate.
  - rewrite E in A. discriminate.
Qed.
Lemma three_reachable : reachable H0 three.
Proof. apply apply_reachable, at_reachable. Qed.
Definition quiet_before : state := apply_tx H0 three alone.

Theorem C112_outbound_apart_refuted : exists H s tr s1 tr' s1' ch cl s2 s2' it, reachable H s /\ run H s tr s1 /\ run H s tr' s1' /\ (forall e, In e (tr ++ tr') -> ~ concerns ch e) /\ st_now s1' = st_now s1 /\
  step H s1 cl = Ok s2 /\ step H s1' cl = Ok s2' /\ due_out s2 it = Some (st_now s1) /\ due_out s2' it = Some (st_now s1 + day).
Proof.
  exists H0, three, (events H0 three alone), quiet_before, (events H0 three others), busy, 3, (sending ITEM (to_chain 3 true)), (after quiet_before (sending ITEM (to_chain 3 true))), (after busy (sending ITEM (to_chain 3 true))), ITEM.
  split; [exact three_reachable|]. split; [apply tx_run; vm_compute; reflexivity|]. split; [apply tx_run; vm_compute; reflexivity|].
  split; [intros e I; apply aside_apart; revert e I; apply all_of; vm_compute; reflexivity|]. split; [vm_compute; reflexivity|].
  split; [apply ok_step; vm_compute; reflexivity|]. split; [apply ok_step; vm_compute; reflexivity|]. split; vm_compute; reflexivity.
Qed.
Print Assumptions C112_outbound_apart_refuted.

(** ** Cases: the price of the delay just shown, and of a refusal in its place *)
Definition on_time (e : ev) : bool := st_now (e_pre e) <=? st_now (e_post e).
Lemma goes_on tr : forallb on_time tr = true -> onward tr.
Proof. intros F e I. apply Z.leb_le. exact (proj1 (forallb_forall _ _) F e I). Qed.
Example C112_outbound_case : run H0 three (events H0 three others) busy /\ onward (events H0 three others) /\ out_limiter three (RL 3000000000 3000000000 0) /\
  sum (out_at_once every) (events H0 three others) = 2000000000 /\ deposit_value busy (TransferAccts pda_config user_tok PToken ITEM pda_outbox_rl true) (to_chain 3 true) = 2000000000 /\
  capacity (RL 3000000000 3000000000 0) (st_now three) = 3000000000 /\
  err_of (step H0 (apply_tx H0 three (firstn 2 others ++ [approve (to_chain 3 false)])) (sending ITEM (to_chain 3 false))) = Some TransferExceedsRateLimit.
Proof.
  split; [apply tx_run; vm_compute; reflexivity|]. split; [apply goes_on; vm_compute; reflexivity|]. split; [vm_compute; reflexivity|]. split; [vm_compute; reflexivity|].
  split; [vm_compute; reflexivity|]. split; vm_compute; reflexivity.
Qed.
(** The case of [PropsWindow.v] up to the third message, which is delayed; and in [busy] the limiter of chain 3 is as it was. *)
Definition short_of : list call := firstn 12 wrong.
Definition third : redeem_accts := RedeemAccts pda_config (pda_vtm PManager 2 (ARaw 53)) (pda_reg (AProg PManager)) pda_outbox_rl.
Example C112_inbound_case : run H0 (at_ Burning 5) (events H0 (at_ Burning 5) short_of) (apply_tx H0 (at_ Burning 5) short_of) /\ onward (events H0 (at_ Burning 5) short_of) /\
  sum (in_at_once H0 (one 2)) (events H0 (at_ Burning 5) short_of) = 5999965270 /\
  match st_accts (apply_tx H0 (at_ Burning 5) short_of) (ra_message third) with Some (Acct _ (DVtm 2 tm)) => item_of H0 2 (tm_msg tm) = bad_item 3 1 | _ => False end /\
  scheduled (apply_tx H0 (at_ Burning 5) short_of) (bad_item 3 1) = None /\ scheduled (after (apply_tx H0 (at_ Burning 5) short_of) (Call [] (IRedeem third))) (bad_item 3 1) = Some (87399 + day) /\
  in_limiter three 3 (RL 3000000000 3000000000 0) /\ in_limiter busy 3 (RL 3000000000 3000000000 0).
Proof.
  split; [apply tx_run; vm_compute; reflexivity|]. split; [apply goes_on; vm_compute; reflexivity|]. split; [vm_compute; reflexivity|]. split; [vm_compute; reflexivity|].
  split; [vm_compute; reflexivity|]. split; [vm_compute; reflexivity|]. split; vm_compute; reflexivity.
Qed.

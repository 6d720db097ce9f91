(** * Exact effects of the instructions that move value or publish (C67).

    As in C66, each theorem has two halves: when exactly the instruction succeeds in a reachable state, and everything it does then. *)
From Verif Require Export MoveFacts Scenario.
Local Open Scope Z_scope.

(** ** C67 *)

(** Locking: the session of the sender's token account takes the dust-free amount into custody; one outbox item, two limiters. The tokens move iff every condition listed in [transferable] holds. *)
Theorem C67_transfer_lock : forall H s sg x a, reachable H s -> forallb can_sign sg = true -> is_u64 (ar_amount a) -> is_u16 (ar_chain a) ->
  (succeeds (step H s (Call sg (ITransferLock x a))) <-> exists c m pe f cu orl irl v, transferable H s sg x a Locking c m pe f cu orl irl v) /\
  (forall s', step H s (Call sg (ITransferLock x a)) = Ok s' -> exists c m pe f cu orl irl v, transferable H s sg x a Locking c m pe f cu orl irl v /\
     recorded s s' x a m pe f orl irl v /\ xa_from x <> cf_custody c /\
     st_toks s' (xa_from x) = Some (debited f v) /\ st_toks s' (cf_custody c) = Some (given cu v) /\
     (forall b, b <> xa_from x -> b <> cf_custody c -> st_toks s' b = st_toks s b) /\ (forall b, st_mints s' b = st_mints s b)).
Proof. exact lock_effect. Qed.
Print Assumptions C67_transfer_lock.

(** Burning: the same, but the amount leaves the supply and custody is as before. *)
Theorem C67_transfer_burn : forall H s sg x a, reachable H s -> forallb can_sign sg = true -> is_u64 (ar_amount a) -> is_u16 (ar_chain a) ->
  (succeeds (step H s (Call sg (ITransferBurn x a))) <-> exists c m pe f cu orl irl v, transferable H s sg x a Burning c m pe f cu orl irl v /\ v <= mt_supply m) /\
  (forall s', step H s (Call sg (ITransferBurn x a)) = Ok s' -> exists c m pe f cu orl irl v, transferable H s sg x a Burning c m pe f cu orl irl v /\
     recorded s s' x a m pe f orl irl v /\ xa_from x <> cf_custody c /\
     st_toks s' (xa_from x) = Some (debited f v) /\ (forall b, b <> xa_from x -> st_toks s' b = st_toks s b) /\
     st_mints s' (cf_mint c) = Some (minted m (- v) 0) /\ (forall b, b <> cf_mint c -> st_mints s' b = st_mints s b)).
Proof. exact burn_effect. Qed.
Print Assumptions C67_transfer_burn.

(** Redeeming: exactly a delivery by an enabled registered transceiver, from the manager's peer, for this chain and this manager, not redeemed before; creates the item and meters it. *)
Theorem C67_redeem : forall H s sg x, reachable H s -> forallb can_sign sg = true ->
  (succeeds (step H s (Call sg (IRedeem x))) <-> exists p ch tm c rt pe m irl orl, redeemable H s x p ch tm c rt pe m irl orl) /\
  (forall s', step H s (Call sg (IRedeem x)) = Ok s' -> exists p ch tm c rt pe m irl orl, redeemable H s x p ch tm c rt pe m irl orl /\
     let it := item_of H ch (tm_msg tm) in let v := local_amount m (tm_msg tm) in
     let '(irl', orl', t) := metered (st_now s) v irl orl in
     inbox_at s' it (InboxItem true 0 v (nm_to (tm_msg tm)) (2 ^ rt_id rt) (ReleaseAfter t)) /\
     in_limiter s' ch irl' /\ out_limiter s' orl' /\ untouched [it; pda_outbox_rl; pda_inbox_rl ch] s s' /\ st_uauth s' = st_uauth s).
Proof. exact redeem_effect. Qed.
Print Assumptions C67_redeem.

(** Releasing from custody: early calls change nothing (or fail, if the caller asks for that); due calls pay. *)
Theorem C67_release_unlock : forall H s sg x r, reachable H s -> forallb can_sign sg = true ->
  (succeeds (step H s (Call sg (IReleaseUnlock x r))) <-> exists c it m d cu, releasable s x Locking c it m d cu /\
     (early it (st_now s) /\ r = false \/ due it (st_now s) /\ creditable x c it m d /\ ib_amount it <= tk_amount cu)) /\
  (forall s', step H s (Call sg (IReleaseUnlock x r)) = Ok s' -> exists c it m d cu, releasable s x Locking c it m d cu /\
     (early it (st_now s) /\ s' = s \/ due it (st_now s) /\ marked s s' x it /\ unlocked s s' x c it m d cu)).
Proof. exact unlock_effect. Qed.
Print Assumptions C67_release_unlock.

(** Releasing by minting. *)
Theorem C67_release_mint : forall H s sg x r, reachable H s -> forallb can_sign sg = true ->
  (succeeds (step H s (Call sg (IReleaseMint x r))) <-> exists c it m d cu, releasable s x Burning c it m d cu /\
     (early it (st_now s) /\ r = false \/
      due it (st_now s) /\ creditable x c it m d /\ tk_amount cu + ib_amount it <= u64_max /\ mt_supply m + ib_amount it <= u64_max)) /\
  (forall s', step H s (Call sg (IReleaseMint x r)) = Ok s' -> exists c it m d cu, releasable s x Burning c it m d cu /\
     (early it (st_now s) /\ s' = s \/ due it (st_now s) /\ marked s s' x it /\ issued s s' x c it m d)).
Proof. exact mint_release_effect. Qed.
Print Assumptions C67_release_mint.

(** Publishing an outbound item by a transceiver program of the repository. *)
Theorem C67_publish : forall H s sg p cfg a tr r ok, reachable H s -> forallb can_sign sg = true -> is_ntt_prog p = true ->
  (succeeds (step H s (Call sg (IXRelease p cfg a tr r ok))) <-> exists c o rt, publishable s cfg a tr p c o rt /\
     (st_now s < ob_release o /\ r = false \/ ob_release o <= st_now s /\ ok = true)) /\
  (forall s', step H s (Call sg (IXRelease p cfg a tr r ok)) = Ok s' -> exists c o rt, publishable s cfg a tr p c o rt /\
     (st_now s < ob_release o /\ s' = s \/
      ob_release o <= st_now s /\ outbox_at s' a (sent_by o (rt_id rt)) /\ announced s s' p (pda_message p a) (PPTransfer (announcement c a o)) [a])).
Proof. exact publish_effect. Qed.
Print Assumptions C67_publish.

(** Another registered program marking an outbound item as sent, by signing with its derived address. *)
Theorem C67_mark : forall H s sg sn cfg a tr, reachable H s -> forallb can_sign sg = true ->
  (succeeds (step H s (Call sg (IMark sn cfg a tr))) <-> exists p c o rt, publishable s cfg a tr p c o rt /\ sn = pda_outbox_signer p /\ In sn sg) /\
  (forall s', step H s (Call sg (IMark sn cfg a tr)) = Ok s' -> exists p c o rt, publishable s cfg a tr p c o rt /\ sn = pda_outbox_signer p /\
     outbox_at s' a (if st_now s <? ob_release o then o else sent_by o (rt_id rt)) /\ untouched [a] s s' /\ st_uauth s' = st_uauth s).
Proof. exact mark_effect. Qed.
Print Assumptions C67_mark.

(** Broadcasting the manager's identity. *)
Theorem C67_broadcast_info : forall H s sg p cfg msg ok, reachable H s -> forallb can_sign sg = true -> is_ntt_prog p = true ->
  (succeeds (step H s (Call sg (IXBroadcastId p cfg msg ok))) <-> (exists c, config_at s cfg c) /\ fresh_signer s sg msg /\ ok = true) /\
  (forall s', step H s (Call sg (IXBroadcastId p cfg msg ok)) = Ok s' -> exists c m, config_at s cfg c /\ st_mints s (cf_mint c) = Some m /\
     announced s s' p msg (PPInfo (AProg PManager) (cf_mode c) (cf_mint c) (mt_decimals m)) []).
Proof. exact info_effect. Qed.
Print Assumptions C67_broadcast_info.

(** Broadcasting a transceiver peer. *)
Theorem C67_broadcast_peer : forall H s sg p cfg ch msg ok, reachable H s -> forallb can_sign sg = true -> is_ntt_prog p = true -> is_u16 ch ->
  (succeeds (step H s (Call sg (IXBroadcastPeer p cfg ch msg ok))) <->
     (exists c, config_at s cfg c) /\ (exists xp, xpeer_at s p ch xp) /\ fresh_signer s sg msg /\ ok = true) /\
  (forall s', step H s (Call sg (IXBroadcastPeer p cfg ch msg ok)) = Ok s' -> exists xp, xpeer_at s p ch xp /\ announced s s' p msg (PPReg ch (xp_address xp)) []).
Proof. exact peer_broadcast_effect. Qed.
Print Assumptions C67_broadcast_peer.

(** The worked deployment. First the call of each kind succeeds; then the same call after one condition was spoiled fails: paused, another mode, a
    session for other arguments, the limit exceeded without consent to wait, an item address in use, a hook that refuses, a wrong limiter account;
    redeemed twice, redeemed against a custody account as message; paid twice, paid while paused; published twice, by an unregistered program. *)
Definition lock_call (x : transfer_accts) (a : targs) : call := Call [ITEM] (ITransferLock x a).
Definition paused_at (k : nat) : state := apply_tx H0 (at_ Locking k) [Call [DEPLOYER] (ISetPaused pda_config DEPLOYER true)].
Example C67_case :
  map (fun k => ok_at Locking k (nth k (calls Locking) (Call [] (EClock 0)))) [6; 7; 10; 12]%nat = repeat true 4 /\
  map (fun k => ok_at Burning k (nth k (calls Burning) (Call [] (EClock 0)))) [6; 7; 10; 12]%nat = repeat true 4 /\
  map (fun k => is_ok (step H0 (paused_at k) (nth k (calls Locking) (Call [] (EClock 0))))) [6; 7; 10; 12]%nat = [false; false; true; false] /\
  map (ok_at Locking 6) [Call [ITEM] (ITransferBurn the_accts the_args); lock_call the_accts (TransferArgs 1000000004 2 (ARaw 9) false);
    lock_call (TransferAccts pda_config user_tok PToken MINT pda_outbox_rl true) the_args; lock_call (TransferAccts pda_config user_tok PToken ITEM pda_outbox_rl false) the_args;
    lock_call (TransferAccts pda_config user_tok PToken ITEM (pda_inbox_rl 2) true) the_args; Call [] (ITransferLock the_accts the_args)] = repeat false 6 /\
  map (ok_at Locking 8) [nth 6 (calls Locking) (Call [] (EClock 0)); nth 7 (calls Locking) (Call [] (EClock 0));
    Call [] (IXRelease PTransceiver pda_config ITEM (pda_reg (AProg PManager)) true true)] = repeat false 3 /\
  map (ok_at Locking 11) [Call [] (IRedeem the_redeem); Call [] (IRedeem (RedeemAccts pda_config ITEM (pda_reg (AProg PManager)) pda_outbox_rl))] = [false; false] /\
  ok_at Locking 13 (Call [] (IReleaseUnlock the_release true)) = false /\
  map (ok_at Locking 8) [Call [AKey 77] (IXBroadcastId PManager pda_config (AKey 77) true); Call [AKey 77] (IXBroadcastId PManager pda_config (AKey 78) true);
    Call [AKey 77] (IXBroadcastPeer PManager pda_config 2 (AKey 77) true); Call [AKey 77] (IXBroadcastPeer PManager pda_config 3 (AKey 77) true)] = [true; false; true; false] /\
  st_accts (at_ Locking 7) ITEM = Some (Acct PManager (DOutboxItem (OutboxItem (Trim 100000000 8) USER 2 (ARaw 7) (ARaw 9) 1000 0))) /\
  st_toks (at_ Locking 7) user_tok = Some (Tok PToken MINT USER 4000000000 (Some (pda_session USER (h_args H0 the_args))) 5) /\
  st_accts (at_ Locking 7) pda_outbox_rl = Some (Acct PManager (DOutboxRL (RL 3000000000 2000000000 1000))) /\
  st_accts (at_ Locking 11) in_inbox = Some (Acct PManager (DInboxItem (InboxItem true 0 400000000 RCPT 1 (ReleaseAfter 1000)))) /\
  st_mints (at_ Burning 7) MINT = Some (Mint PToken 9 4000000000 (Some token_authority) 0 0 0).
Proof. vm_compute. repeat split. Qed.

(** * What the client library reads and reports (C103, C104). *)
From Coq Require Import String.
From Verif Require Export ReadsFacts.
From Verif Require Import Scenario PropsEntry PropsTx.
Import ListNotations.
Local Open Scope Z_scope.
Local Open Scope list_scope.
Local Strategy 1000 [sha256].

(** ** C103 *)

(** An inbox item exists exactly when the transfer was approved. It is then queued or executed, never both; a queued one is reported as it is stored. *)
Theorem C103_item : forall H alive s ch m it, reachable H s -> inbox_at s (item_of H ch m) it ->
  getIsApproved H alive s ch m = Some true /\
  (getIsExecuted H alive s ch m = Some true /\ getIsTransferInboundQueued H alive s ch m = Some false /\
   getInboundQueuedTransfer H alive s ch m = Some None /\ ib_status it = Released \/
   exists t, getIsExecuted H alive s ch m = Some false /\ getIsTransferInboundQueued H alive s ch m = Some true /\
   (Z.abs t < 2 ^ 53 -> getInboundQueuedTransfer H alive s ch m = Some (Some (ib_recipient it, ib_amount it, t))) /\ ib_status it = ReleaseAfter t).
Proof. exact reads_item. Qed.
Print Assumptions C103_item.
Theorem C103_nothing : forall H alive s ch m, st_accts s (item_of H ch m) = None -> alive (item_of H ch m) = false ->
  getIsApproved H alive s ch m = Some false /\ getIsExecuted H alive s ch m = Some false /\
  getIsTransferInboundQueued H alive s ch m = Some false /\ getInboundQueuedTransfer H alive s ch m = Some None.
Proof. exact reads_nothing. Qed.
Print Assumptions C103_nothing.
(** Lamports sent to the address of an item that is still to come make every one of these reads throw, and tracking with them. *)
Theorem C103_dusted : forall H alive s ch m, st_accts s (item_of H ch m) = None -> alive (item_of H ch m) = true ->
  getIsApproved H alive s ch m = None /\ getIsExecuted H alive s ch m = None /\
  getIsTransferInboundQueued H alive s ch m = None /\ getInboundQueuedTransfer H alive s ch m = None /\ track H alive s ch m RAttested = None.
Proof. exact reads_dusted. Qed.
Print Assumptions C103_dusted.

(** Tracking ends in the stage the transfer is in; from a receipt of earlier it ends where it would from the start. Stages only go forward. *)
Theorem C103_track : forall H alive s ch m, reachable H s -> alive (item_of H ch m) = false -> timely s (item_of H ch m) ->
  track H alive s ch m RAttested = Some (stage s (item_of H ch m)).
Proof. exact track_stage. Qed.
Print Assumptions C103_track.
Theorem C103_resumed : forall H alive s tr s' ch m, reachable H s -> run H s tr s' -> alive (item_of H ch m) = false -> timely s' (item_of H ch m) ->
  track H alive s' ch m (stage s (item_of H ch m)) = track H alive s' ch m RAttested.
Proof. exact track_resumes. Qed.
Print Assumptions C103_resumed.
Theorem C103_forward : forall H s tr s' a, reachable H s -> run H s tr s' -> (exists h, a = pda_inbox h) -> stage_le (stage s a) (stage s' a).
Proof. exact stage_run. Qed.
Print Assumptions C103_forward.

(** Peers and limits are reported as they are. A peer never lacks its limit. *)
Theorem C103_peer : forall H alive s ch, reachable H s ->
  (exists p r, peer_at s ch p /\ in_limiter s ch r /\ getPeer alive s ch = Some (Some (pe_address p, pe_decimals p, rl_limit r)) /\
     getInboundLimit alive s ch = Some (rl_limit r) /\ getCurrentInboundCapacity alive s ch = Some (rl_cap r)) \/
  (st_accts s (pda_peer ch) = None /\ st_accts s (pda_inbox_rl ch) = None /\ getInboundLimit alive s ch = None /\ getCurrentInboundCapacity alive s ch = None /\
   (alive (pda_peer ch) = false -> getPeer alive s ch = Some None)).
Proof. exact reads_peer. Qed.
Print Assumptions C103_peer.
Theorem C103_transceiver_peer : forall H alive s x ch, reachable H s -> is_ntt_prog x = true ->
  (exists p, xpeer_at s x ch p /\ getTransceiverPeer alive s x ch = Some (Some (xp_address p))) \/
  (st_accts s (pda_xpeer x ch) = None /\ (alive (pda_xpeer x ch) = false -> getTransceiverPeer alive s x ch = Some None)).
Proof. exact reads_xpeer. Qed.
Print Assumptions C103_transceiver_peer.
Theorem C103_outbox : forall H alive s, reachable H s ->
  (exists c r, fetched s c /\ out_limiter s r /\ getConfig alive s None = Some c /\ getOutboundLimit alive s = Some (rl_limit r) /\ getCurrentOutboundCapacity alive s = Some (rl_cap r)) \/
  (st_accts s pda_config = None /\ getConfig alive s None = None /\ getOutboundLimit alive s = None /\ getCurrentOutboundCapacity alive s = None).
Proof. exact reads_outbox. Qed.
Print Assumptions C103_outbox.
(** What [verifyAddresses] reports is the chain's token if another was expected, and the manager's emitter if another transceiver was expected. *)
Theorem C103_addresses : forall c token x,
  (verifyAddresses c token x = None <-> cf_mint c = token /\ x = Some PManager) /\
  (forall t w, verifyAddresses c token x = Some (t, w) ->
     (t = None /\ cf_mint c = token \/ t = Some (cf_mint c) /\ cf_mint c <> token) /\
     (w = None /\ x = Some PManager \/ w = Some (APda PManager TEmitter 0 ANull ANull) /\ x <> Some PManager)).
Proof. intros. split; [apply verify_iff|intros t w; apply verify_what]. Qed.
Print Assumptions C103_addresses.
(** The duration is the time in which an unused limiter fills up. *)
Theorem C103_duration : forall r now, wf_rl r -> rl_cap r = 0 -> 0 < rl_limit r -> rl_last r <= now <= i64_max ->
  (capacity_at r now = Ok (rl_limit r) <-> getRateLimitDuration <= now - rl_last r).
Proof. exact duration_fills. Qed.
Print Assumptions C103_duration.

(** What is reported of the configuration is what the programs act upon: settings change by the reported owner's signature or by the claim of the owner named next, nothing of value
    moves while it is reported paused, and only the functions of the reported mode succeed. The threshold is one and the custody the token authority's account. *)
Theorem C103_config : forall H s sg i s' c, reachable H s -> fetched s c -> step H s (Call sg i) = Ok s' ->
  (forall a, settings (st_accts s' a) <> settings (st_accts s a) -> In (getOwner c) sg \/ exists a n, i = IClaimOwnership a n /\ cf_pending c = Some n /\ In n sg) /\
  (moves_value i = true -> isPaused c = false) /\
  (forall x a, i = ITransferLock x a -> getMode c = Locking) /\ (forall x a, i = ITransferBurn x a -> getMode c = Burning) /\
  (forall x r, i = IReleaseUnlock x r -> getMode c = Locking) /\ (forall x r, i = IReleaseMint x r -> getMode c = Burning).
Proof. exact getters. Qed.
Print Assumptions C103_config.
Theorem C103_fixed : forall H s c, reachable H s -> fetched s c ->
  getThreshold c = 1 /\ exists tp t, cf_token_program c = AProg tp /\ getCustodyAddress c = ata tp token_authority (cf_mint c) /\ st_toks s (getCustodyAddress c) = Some t /\ tk_owner t = token_authority.
Proof. exact getters_still. Qed.
Print Assumptions C103_fixed.

(** What is reported as current capacity is never more than the capacity, in both directions. *)
Theorem C103_capacity_below : forall H s r, reachable H s -> (out_limiter s r \/ exists ch, in_limiter s ch r) -> rl_last r <= st_now s -> 0 <= rl_cap r <= capacity r (st_now s).
Proof. exact cap_bounded. Qed.
Print Assumptions C103_capacity_below.

(** The quoted amounts: the amount of which the transfer takes all, and what its message is worth at the destination. *)
Theorem C103_quote : forall a f t m nm, 0 <= f -> 0 <= t -> mt_decimals m = t -> nm_amount nm = Trim (a / 10 ^ (f - shared f t)) (shared f t) ->
  trimAmount a f t = dust_free a f t /\ dust_free (trimAmount a f t) f t = trimAmount a f t /\
  trimAmount a f t / 10 ^ (f - shared f t) = a / 10 ^ (f - shared f t) /\ local_amount m nm = quote_amount a f t.
Proof. exact quoted_amounts. Qed.
Print Assumptions C103_quote.
(** A quote without a warning: a redemption of that amount now is not delayed. *)
Theorem C103_no_warning : forall H alive s sg x s' ch tm m c a f p, reachable H s -> forallb can_sign sg = true -> step H s (Call sg (IRedeem x)) = Ok s' ->
  st_accts s (ra_message x) = Some (Acct p (DVtm ch tm)) -> fetched s c -> st_mints s (cf_mint c) = Some m ->
  local_amount m (tm_msg tm) = quote_amount a f (mt_decimals m) -> quote_warns alive s ch a f (mt_decimals m) = Some false ->
  exists it, inbox_at s' (item_of H ch (tm_msg tm)) it /\ ib_status it = ReleaseAfter (st_now s) /\ ib_amount it = quote_amount a f (mt_decimals m).
Proof. exact not_warned. Qed.
Print Assumptions C103_no_warning.

Definition nobody : addr -> bool := fun _ => false.
Definition after (s : state) (l : list call) : state := apply_tx H0 s l.
(** The worked deployment: 4 * 10^8 of limit 3 * 10^9 came in at time 1000. Half a day later the limiter is full again and the report is unchanged, so that a
    quote for 2.9 * 10^9 comes with a warning; nothing is delayed. *)
Definition LATER : state := after (at_ Locking 13) [Call [] (EClock (1000 + 43200))].
Theorem C103_current_refuted : exists H s r, reachable H s /\ in_limiter s 2 r /\ rl_last r <= st_now s /\
  getCurrentInboundCapacity nobody s 2 = Some (rl_cap r) /\ rl_cap r < capacity r (st_now s) /\
  exists a f t, quote_amount a f t <= capacity r (st_now s) /\ quote_warns nobody s 2 a f t = Some true.
Proof.
  exists H0, LATER, (RL 3000000000 2600000000 1000). split; [apply apply_reachable, at_reachable|].
  split; [vm_compute; reflexivity|]. split; [vm_compute; discriminate|]. split; [vm_compute; reflexivity|]. split; [vm_compute; reflexivity|].
  exists 2850000000, 9, 9. split; [vm_compute; discriminate|vm_compute; reflexivity].
Qed.
Print Assumptions C103_current_refuted.

Example C103_case : let m := tm_msg in_msg in
  track H0 nobody (at_ Locking 10) 2 m RAttested = Some RAttested /\ track H0 nobody (at_ Locking 11) 2 m RAttested = Some (RQueued 1000) /\
  track H0 nobody (at_ Locking 13) 2 m (RQueued 1000) = Some RFinalized /\ track H0 (fun _ => true) (at_ Locking 10) 2 m RAttested = None /\
  getInboundQueuedTransfer H0 nobody (at_ Locking 12) 2 m = Some (Some (RCPT, 400000000, 1000)) /\
  getPeer nobody (at_ Locking 13) 2 = Some (Some (ARaw 7, 18, 3000000000)) /\ getPeer nobody (at_ Locking 13) 3 = Some None /\
  getTransceiverPeer nobody (at_ Locking 13) PManager 2 = Some (Some (ARaw 8)) /\
  quote_amount 1000000005 9 18 = 1000000000000000000 /\ quote_amount 40000000 8 9 = 400000000 /\
  quote_warns nobody (at_ Locking 10) 2 40000000 8 9 = Some false /\ verifyAddresses (config_of (at_ Locking 13)) MINT (Some PTransceiver) = Some (None, Some (pda_emitter PManager)).
Proof. vm_compute. repeat split; reflexivity. Qed.
Example C103_fill_case : wf_rl (RL 1000 0 5) /\ capacity_at (RL 1000 0 5) (5 + 86399) = Ok 999 /\ capacity_at (RL 1000 0 5) (5 + 86400) = Ok 1000 /\
  verifyAddresses (config_of (at_ Locking 13)) USER None = Some (Some MINT, Some (pda_emitter PManager)) /\ verifyAddresses (config_of (at_ Locking 13)) USER (Some PManager) = Some (Some MINT, None).
Proof. split; [unfold wf_rl; cbn; ilia|]. repeat match goal with |- _ /\ _ => split end; vm_compute; reflexivity. Qed.

(** ** C104 *)

(** A configuration read at [s0] and used at any later [s]: everything the transactions are made of, except the pause, is as it is on the chain. *)
Theorem C104_same : forall nm H s0 c0 tr s c, reachable H s0 -> fetched s0 c0 -> run H s0 tr s -> fetched s c ->
  getMode c0 = getMode c /\ getThreshold c0 = getThreshold c /\ getCustodyAddress c0 = getCustodyAddress c /\ cf_mint c0 = cf_mint c /\
  (forall py x slot, initializeOrUpdateLUT py c0 x slot = initializeOrUpdateLUT py c x slot) /\
  (isPaused c0 = isPaused c ->
   (forall sd a ch to q it x, client_transfer nm H sd a ch to q it c0 x = client_transfer nm H sd a ch to q it c x) /\
   (forall py v ch m x, client_redeem H py v ch m c0 x = client_redeem H py v ch m c x) /\
   (forall py ch m, completeInboundQueuedTransfer H py ch m c0 = completeInboundQueuedTransfer H py ch m c) /\
   (forall py o msg x, registerWormholeTransceiver py o msg c0 x = registerWormholeTransceiver py o msg c x)).
Proof. exact held_same. Qed.
Print Assumptions C104_same.

(** Read while unpaused, it is good for transactions forever: they succeed exactly when those of a fresh configuration would. Paused since, the chain refuses them. *)
Theorem C104_transfer : forall nm H s0 c0 tr s c tp, reachable H s0 -> fetched s0 c0 -> run H s0 tr s -> fetched s c -> cf_paused c0 = false -> cf_token_program c = AProg tp ->
  forall sender amount chain to q item x, can_sign sender = true -> can_sign item = true -> is_ntt_prog x = true -> is_u64 amount -> is_u16 chain -> is32 to ->
  let a := TransferArgs amount chain (nm to) q in let from := ata tp sender (cf_mint c) in
  exists i1 i2 i3, client_transfer nm H sender amount chain to q item c0 x = Some [i1; i2; i3] /\ forall ok0 ok ok',
    let r := submit nm H sender s [(i1, ok0); (i2, ok); (i3, ok')] in
    (succeeds r <-> cf_paused c = false /\ exists m pe f cu orl irl rt v, sendable s c x sender from item a ok ok' m pe f cu orl irl rt v) /\
    (forall s', r = Ok s' -> exists m pe f cu orl irl rt v, sent H s s' c x sender from item a m pe f cu orl irl rt v).
Proof. exact held_transfers. Qed.
Print Assumptions C104_transfer.
Theorem C104_redeem : forall nm H s0 c0 tr s c tp, reachable H s0 -> fetched s0 c0 -> run H s0 tr s -> fetched s c -> cf_paused c0 = false -> cf_token_program c = AProg tp ->
  forall payer vaa ch msg x, can_sign payer = true -> is_ntt_prog x = true ->
  (forall ch' e tm, st_accts s vaa = Some (Acct PWormhole (DVaa ch' e (Some tm))) -> ch' = ch /\ tm_msg tm = msg) ->
  exists i1 i2 i3, client_redeem H payer vaa ch msg c0 x = Some [i1; i2; i3] /\ forall ok1 ok2 ok,
    let r := submit nm H payer s [(i1, ok1); (i2, ok2); (i3, ok)] in
    (succeeds r <-> cf_paused c = false /\ exists e tm xp rt pe m irl orl d cu, claimable H s c x tp vaa ch msg ok e tm xp rt pe m irl orl d cu) /\
    (forall s', r = Ok s' -> exists tm rt m irl orl d cu, claimed H s s' c x tp ch msg tm rt m irl orl d cu).
Proof. exact held_redeems. Qed.
Print Assumptions C104_redeem.
Theorem C104_complete : forall nm H s0 c0 tr s c tp, reachable H s0 -> fetched s0 c0 -> run H s0 tr s -> fetched s c -> cf_paused c0 = false -> cf_token_program c = AProg tp ->
  forall payer ch msg, can_sign payer = true -> (forall it, inbox_at s (item_of H ch msg) it -> ib_recipient it = nm_to msg) ->
  exists i, completeInboundQueuedTransfer H payer ch msg c0 = Some [i] /\ forall ok,
    let r := submit nm H payer s [(i, ok)] in let x := ReleaseAccts pda_config (item_of H ch msg) tp ok in
    (succeeds r -> cf_paused c = false) /\
    (cf_paused c = false -> completeInboundQueuedTransfer H payer ch msg c = Some [i] /\
     (succeeds r <-> exists it m d cu, releasable s x (cf_mode c) c it m d cu /\
     (early it (st_now s) \/ due it (st_now s) /\ creditable x c it m d /\
      match cf_mode c with Locking => ib_amount it <= tk_amount cu | Burning => tk_amount cu + ib_amount it <= u64_max /\ mt_supply m + ib_amount it <= u64_max end))).
Proof. exact held_completes. Qed.
Print Assumptions C104_complete.

(** What the object reports and refuses does not follow the chain: once read, a configuration is returned in every later state, and one read while paused
    refuses transfers, redemptions and completions whatever the state. *)
Theorem C104_kept : forall alive s c0, getConfig alive s (Some c0) = Some c0.
Proof. reflexivity. Qed.
Print Assumptions C104_kept.
Theorem C104_refuses : forall nm H c0, cf_paused c0 = true -> (forall sd a ch to q it x, client_transfer nm H sd a ch to q it c0 x = None) /\
  (forall py v ch m x, client_redeem H py v ch m c0 x = None) /\ (forall py ch m, completeInboundQueuedTransfer H py ch m c0 = None).
Proof. exact held_refuses. Qed.
Print Assumptions C104_refuses.
(** Witness: read while paused, used after the pause was lifted. The same transfer of a new object succeeds. *)
Definition pause (b : bool) : call := Call [DEPLOYER] (ISetPaused pda_config DEPLOYER b).
Theorem C104_follows_refuted : exists H s0 c0 tr s c, reachable H s0 /\ fetched s0 c0 /\ run H s0 tr s /\ fetched s c /\
  isPaused c0 = true /\ isPaused c = false /\ getConfig nobody s (Some c0) = Some c0 /\
  client_transfer nm0 H USER 1000000005 2 (repeat x09 32) false ITEM c0 PManager = None /\ succeeds (do_transfer s 1000000005 2).
Proof.
  destruct (apply_txs_run H0 [[pause false]] (after (at_ Locking 5) [pause true])) as (tr & Rn & _).
  exists H0, (after (at_ Locking 5) [pause true]), (config_of (after (at_ Locking 5) [pause true])), tr, (after (after (at_ Locking 5) [pause true]) [pause false]),
    (config_of (after (after (at_ Locking 5) [pause true]) [pause false])).
  split; [apply apply_reachable, at_reachable|]. split; [vm_compute; reflexivity|]. split; [exact Rn|]. split; [vm_compute; reflexivity|].
  split; [vm_compute; reflexivity|]. split; [vm_compute; reflexivity|]. split; [reflexivity|]. split; [vm_compute; reflexivity|].
  destruct (do_transfer _ _ _) as [s'|e] eqn:E; [exists s'; reflexivity|]. exfalso. revert E. vm_compute. discriminate.
Qed.
Print Assumptions C104_follows_refuted.

(** Read unpaused, used after a pause, and after a pause and its end. *)
Definition stale_transfer (l : list call) : result state :=
  submit nm0 H0 USER (after (at_ Locking 5) l) (with_oks (client_transfer nm0 H0 USER 1000000005 2 (repeat x09 32) false ITEM (config_of (at_ Locking 5)) PManager)).
Example C104_case : is_ok (stale_transfer [pause true]) = false /\ is_ok (stale_transfer [pause true; pause false]) = true.
Proof. split; vm_compute; reflexivity. Qed.

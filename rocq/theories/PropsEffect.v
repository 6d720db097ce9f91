(** * Exact effects of instructions (C66).

    Each theorem has two halves: when exactly the instruction succeeds in a reachable state, and everything it does then. *)
From Verif Require Export EffectFacts Scenario.
Local Open Scope Z_scope.

(** ** C66 *)

(** Initialisation: possible exactly for the upgrade authority, once, with a matching mint; creates the configuration, the limiter and the custody account, and nothing else. *)
Theorem C66_initialize : forall H s sg d mnt tp ch l md, reachable H s -> forallb can_sign sg = true -> is_u16 ch -> is_u64 l ->
  let cu := ata tp token_authority mnt in
  (succeeds (step H s (Call sg (IInitialize d mnt tp ch l md))) <->
   In d sg /\ st_uauth s = Some d /\ st_accts s pda_config = None /\ is_token_prog tp = true /\
   exists m, st_mints s mnt = Some m /\ mt_prog m = tp /\ (md = Burning -> mt_auth m = Some token_authority) /\
     (st_toks s cu = None -> st_accts s cu = None /\ st_mints s cu = None)) /\
  (forall s', step H s (Call sg (IInitialize d mnt tp ch l md)) = Ok s' ->
     config_at s' pda_config (Config 0 d None mnt (AProg tp) md ch 0 1 0 false cu) /\
     st_accts s' pda_outbox_rl = Some (Acct PManager (DOutboxRL (RL l l 0))) /\
     (forall a, a <> pda_config -> a <> pda_outbox_rl -> st_accts s' a = st_accts s a) /\
     (forall a, a <> cu -> st_toks s' a = st_toks s a) /\
     (exists t, st_toks s' cu = Some t /\ tk_prog t = tp /\ tk_mint t = mnt /\ tk_owner t = token_authority /\ tk_delegate t = None /\
        (st_toks s cu = Some t \/ st_toks s cu = None /\ tk_amount t = 0)) /\
     st_mints s' = st_mints s /\ st_now s' = st_now s /\ st_posted s' = st_posted s /\ st_uauth s' = st_uauth s).
Proof. exact initialize_effect. Qed.
Print Assumptions C66_initialize.

(** Pausing. *)
Theorem C66_set_paused : forall H s sg a o b, reachable H s -> forallb can_sign sg = true ->
  (succeeds (step H s (Call sg (ISetPaused a o b))) <-> exists c, by_owner s sg a o c) /\
  (forall s', step H s (Call sg (ISetPaused a o b)) = Ok s' -> exists c c', by_owner s sg a o c /\ config_at s' a c' /\
     fixed c' = fixed c /\ registry c' = registry c /\ cf_owner c' = cf_owner c /\ cf_pending c' = cf_pending c /\ cf_paused c' = b /\
     untouched [a] s s' /\ st_uauth s' = st_uauth s).
Proof. exact paused_effect. Qed.
Print Assumptions C66_set_paused.

(** Setting a peer: always possible for the owner; a fresh limiter. *)
Theorem C66_set_peer : forall H s sg a o ch addr0 limit dec, reachable H s -> forallb can_sign sg = true -> is_u16 ch -> is_u64 limit -> is_u8 dec ->
  (succeeds (step H s (Call sg (ISetPeer a o ch addr0 limit dec))) <-> exists c, by_owner s sg a o c) /\
  (forall s', step H s (Call sg (ISetPeer a o ch addr0 limit dec)) = Ok s' -> exists c, by_owner s sg a o c /\
     st_accts s' (pda_peer ch) = Some (Acct PManager (DPeer (Peer 0 addr0 dec))) /\
     st_accts s' (pda_inbox_rl ch) = Some (Acct PManager (DInboxRL (RL limit limit 0))) /\
     untouched [pda_peer ch; pda_inbox_rl ch] s s' /\ st_uauth s' = st_uauth s).
Proof. exact set_peer_effect. Qed.
Print Assumptions C66_set_peer.

(** Registering a transceiver: a program, not registered yet, at most 128. *)
Theorem C66_register : forall H s sg a o t, reachable H s -> forallb can_sign sg = true ->
  (succeeds (step H s (Call sg (IRegisterTransceiver a o t))) <->
   exists c p, by_owner s sg a o c /\ t = AProg p /\ st_accts s (pda_reg t) = None /\ cf_next c < 128) /\
  (forall s', step H s (Call sg (IRegisterTransceiver a o t)) = Ok s' -> exists c c', by_owner s sg a o c /\ config_at s' a c' /\
     fixed c' = fixed c /\ cf_owner c' = cf_owner c /\ cf_pending c' = cf_pending c /\ cf_paused c' = cf_paused c /\
     cf_next c' = cf_next c + 1 /\ (forall i, 0 <= i -> Z.testbit (cf_enabled c') i = (i =? cf_next c) || Z.testbit (cf_enabled c) i) /\
     reg_at s' (pda_reg t) (Registered 0 (cf_next c) t) /\ untouched [pda_reg t; a] s s' /\ st_uauth s' = st_uauth s).
Proof. exact register_effect. Qed.
Print Assumptions C66_register.

(** Changing the outbound limit: the clock must not be behind the limiter's. *)
Theorem C66_outbound_limit : forall H s sg a o ra l, reachable H s -> forallb can_sign sg = true -> is_u64 l ->
  (succeeds (step H s (Call sg (ISetOutboundLimit a o ra l))) <->
   exists c r, by_owner s sg a o c /\ st_accts s ra = Some (Acct PManager (DOutboxRL r)) /\ rl_last r <= st_now s) /\
  (forall s', step H s (Call sg (ISetOutboundLimit a o ra l)) = Ok s' -> exists c r, by_owner s sg a o c /\ ra = pda_outbox_rl /\
     st_accts s ra = Some (Acct PManager (DOutboxRL r)) /\ st_accts s' ra = Some (Acct PManager (DOutboxRL (relimited r (st_now s) l))) /\
     untouched [ra] s s' /\ st_uauth s' = st_uauth s).
Proof. exact outbound_limit_effect. Qed.
Print Assumptions C66_outbound_limit.

(** Changing an inbound limit. *)
Theorem C66_inbound_limit : forall H s sg a o ch l, reachable H s -> forallb can_sign sg = true -> is_u16 ch -> is_u64 l ->
  (succeeds (step H s (Call sg (ISetInboundLimit a o ch l))) <->
   exists c r, by_owner s sg a o c /\ st_accts s (pda_inbox_rl ch) = Some (Acct PManager (DInboxRL r)) /\ rl_last r <= st_now s) /\
  (forall s', step H s (Call sg (ISetInboundLimit a o ch l)) = Ok s' -> exists c r, by_owner s sg a o c /\
     st_accts s (pda_inbox_rl ch) = Some (Acct PManager (DInboxRL r)) /\
     st_accts s' (pda_inbox_rl ch) = Some (Acct PManager (DInboxRL (relimited r (st_now s) l))) /\
     untouched [pda_inbox_rl ch] s s' /\ st_uauth s' = st_uauth s).
Proof. exact inbound_limit_effect. Qed.
Print Assumptions C66_inbound_limit.

(** Offering ownership: parks the upgrade authority. *)
Theorem C66_transfer_ownership : forall H s sg a o n, reachable H s -> forallb can_sign sg = true ->
  (succeeds (step H s (Call sg (ITransferOwnership a o n))) <-> exists c, by_owner s sg a o c /\ st_uauth s = Some o) /\
  (forall s', step H s (Call sg (ITransferOwnership a o n)) = Ok s' -> exists c c', by_owner s sg a o c /\ config_at s' a c' /\
     fixed c' = fixed c /\ registry c' = registry c /\ cf_paused c' = cf_paused c /\ cf_owner c' = cf_owner c /\ cf_pending c' = Some n /\
     untouched [a] s s' /\ st_uauth s' = Some upgrade_lock).
Proof. exact offer_effect. Qed.
Print Assumptions C66_transfer_ownership.

(** Giving ownership away in one step. *)
Theorem C66_transfer_ownership_one_step : forall H s sg a o n, reachable H s -> forallb can_sign sg = true ->
  (succeeds (step H s (Call sg (ITransferOwnershipOneStep a o n))) <-> exists c, by_owner s sg a o c /\ st_uauth s = Some o) /\
  (forall s', step H s (Call sg (ITransferOwnershipOneStep a o n)) = Ok s' -> exists c c', by_owner s sg a o c /\ config_at s' a c' /\
     fixed c' = fixed c /\ registry c' = registry c /\ cf_paused c' = cf_paused c /\ cf_owner c' = n /\ cf_pending c' = None /\
     untouched [a] s s' /\ st_uauth s' = Some n).
Proof. exact give_effect. Qed.
Print Assumptions C66_transfer_ownership_one_step.

(** Claiming, or taking back an offer. *)
Theorem C66_claim_ownership : forall H s sg a n, reachable H s -> forallb can_sign sg = true ->
  (succeeds (step H s (Call sg (IClaimOwnership a n))) <->
   exists c, config_at s a c /\ (cf_pending c = Some n \/ cf_owner c = n) /\ In n sg /\ st_uauth s = Some upgrade_lock) /\
  (forall s', step H s (Call sg (IClaimOwnership a n)) = Ok s' -> exists c c', config_at s a c /\ config_at s' a c' /\
     fixed c' = fixed c /\ registry c' = registry c /\ cf_paused c' = cf_paused c /\ cf_owner c' = n /\ cf_pending c' = None /\
     untouched [a] s s' /\ st_uauth s' = Some n).
Proof. exact claim_effect. Qed.
Print Assumptions C66_claim_ownership.

(** Setting a transceiver peer, of either transceiver program: once per chain. *)
Theorem C66_transceiver_peer : forall H s p sg a o ch addr0, reachable H s -> forallb can_sign sg = true -> is_ntt_prog p = true -> is_u16 ch ->
  (succeeds (step H s (Call sg (IXSetPeer p a o ch addr0))) <-> exists c, by_owner s sg a o c /\ st_accts s (pda_xpeer p ch) = None) /\
  (forall s', step H s (Call sg (IXSetPeer p a o ch addr0)) = Ok s' -> exists c, by_owner s sg a o c /\
     st_accts s' (pda_xpeer p ch) = Some (Acct p (DXPeer (XPeer 0 addr0))) /\ untouched [pda_xpeer p ch] s s' /\ st_uauth s' = st_uauth s).
Proof. exact x_peer_effect. Qed.
Print Assumptions C66_transceiver_peer.

(** Receiving a message in a transceiver. *)
Theorem C66_receive : forall H s p sg a v, reachable H s -> forallb can_sign sg = true -> is_ntt_prog p = true ->
  (succeeds (step H s (Call sg (IXReceive p a v))) <->
   exists c ch em m xp, config_at s a c /\ cf_paused c = false /\ st_accts s v = Some (Acct PWormhole (DVaa ch em (Some m))) /\
     st_accts s (pda_xpeer p ch) = Some (Acct p (DXPeer xp)) /\ xp_address xp = em /\ nm_to_chain (tm_msg m) = cf_chain c /\
     st_accts s (pda_vtm p ch (nm_id (tm_msg m))) = None) /\
  (forall s', step H s (Call sg (IXReceive p a v)) = Ok s' -> exists ch em m, st_accts s v = Some (Acct PWormhole (DVaa ch em (Some m))) /\
     st_accts s' (pda_vtm p ch (nm_id (tm_msg m))) = Some (Acct p (DVtm ch m)) /\ untouched [pda_vtm p ch (nm_id (tm_msg m))] s s' /\ st_uauth s' = st_uauth s).
Proof. exact receive_effect. Qed.
Print Assumptions C66_receive.

(** The worked deployment: each administration call by the owner succeeds and by another fails; then a few refusals of the second
    kind: registering twice, a key instead of a program, a second transceiver peer, a clock set back, a claim by a stranger. *)
Definition admin_calls (o : addr) : list call :=
  [Call [o] (ISetPaused pda_config o true); Call [o] (ISetPeer pda_config o 3 (ARaw 17) 500 6); Call [o] (IRegisterTransceiver pda_config o (AProg PTransceiver));
   Call [o] (ISetOutboundLimit pda_config o pda_outbox_rl 4000000000); Call [o] (ISetInboundLimit pda_config o 2 1000); Call [o] (ITransferOwnership pda_config o USER);
   Call [o] (ITransferOwnershipOneStep pda_config o USER); Call [o] (IXSetPeer PTransceiver pda_config o 2 (ARaw 8))].
Definition late (c : call) : bool := is_ok (exec_tx H0 (at_ Locking 8) [Call [] (EClock 500); c]).
Example C66_case :
  map (ok_at Locking 8) (admin_calls DEPLOYER) = repeat true 8 /\ map (ok_at Locking 8) (admin_calls USER) = repeat false 8 /\
  map (ok_at Locking 8) [Call [DEPLOYER] (IRegisterTransceiver pda_config DEPLOYER (AProg PManager)); Call [DEPLOYER] (IRegisterTransceiver pda_config DEPLOYER (AKey 3));
    Call [DEPLOYER] (IXSetPeer PManager pda_config DEPLOYER 2 (ARaw 8)); Call [DEPLOYER] (IInitialize DEPLOYER MINT PToken 1 3000000000 Locking);
    Call [USER] (IClaimOwnership pda_config USER)] = repeat false 5 /\
  map late [Call [DEPLOYER] (ISetOutboundLimit pda_config DEPLOYER pda_outbox_rl 5); Call [DEPLOYER] (ISetInboundLimit pda_config DEPLOYER 2 5)] = [false; false] /\
  st_accts (apply_tx H0 (at_ Locking 8) (firstn 4 (admin_calls DEPLOYER))) pda_outbox_rl = Some (Acct PManager (DOutboxRL (RL 4000000000 3000000000 1000))) /\
  st_accts (apply_tx H0 (at_ Locking 8) (firstn 5 (admin_calls DEPLOYER))) (pda_peer 3) = Some (Acct PManager (DPeer (Peer 0 (ARaw 17) 6))).
Proof. vm_compute. repeat split. Qed.

(** * Properties C23-C28: administration. *)
From Verif Require Import SpecAdmin Scenario AdminFacts AuthorityFacts.
Local Open Scope Z_scope.

(** ** C23 *)
Theorem C23_one_config : forall H s a c b d, reachable H s -> config_at s a c -> config_at s b d -> a = b /\ c = d.
Proof. exact config_one. Qed.
Print Assumptions C23_one_config.

(** A configuration appears only where there was none, by an initialisation signed by the upgrade authority. *)
Theorem C23_created_by_upgrade_authority : forall H s c s' a cf, reachable H s -> step H s c = Ok s' -> config_at s' a cf ->
  (exists cf0, config_at s a cf0) \/
  (exists d m tp ch l md, (forall b cf0, ~ config_at s b cf0) /\ ins c = IInitialize d m tp ch l md /\ In d (signers c) /\ st_uauth s = Some d /\
     identity cf = (m, AProg tp, md, ch, ata tp token_authority m, 1) /\ cf_owner cf = d /\ cf_pending cf = None).
Proof. exact config_made. Qed.
Print Assumptions C23_created_by_upgrade_authority.

Theorem C23_identity_never_changes : forall H s tr s' a c, reachable H s -> run H s tr s' -> config_at s a c ->
  exists c', config_at s' a c' /\ identity c' = identity c.
Proof. exact config_kept. Qed.
Print Assumptions C23_identity_never_changes.

(** The configuration the worked deployment has after initialisation and at the end of the history. *)
Definition ex_cfg (md : mode) : config addr := Config 0 DEPLOYER None MINT (AProg PToken) md 1 0 1 0 false custody.
Example C23_case : config_at (at_ Locking 2) pda_config (ex_cfg Locking) /\ st_accts (at_ Locking 1) pda_config = None /\
  config_at (at_ Locking 13) pda_config (with_next (ex_cfg Locking) 1 1) /\ identity (with_next (ex_cfg Locking) 1 1) = identity (ex_cfg Locking).
Proof. repeat match goal with |- _ /\ _ => split end; vm_compute; reflexivity. Qed.

(** ** C24 *)
(** Initialisation aside (which needs the absence of a configuration and the upgrade authority's signature). *)
Theorem C24_settings_change_only_by_owner : forall H s c s' a, reachable H s -> step H s c = Ok s' ->
  settings (st_accts s' a) <> settings (st_accts s a) ->
  (exists b cf o, config_at s b cf /\ admin_by (ins c) = Some o /\ In o (signers c) /\
     (o = cf_owner cf \/ (is_claim (ins c) /\ cf_pending cf = Some o))) \/
  (exists d m tp ch l md, (forall b cf, ~ config_at s b cf) /\ ins c = IInitialize d m tp ch l md /\ In d (signers c) /\ st_uauth s = Some d).
Proof. exact settings_owner. Qed.
Print Assumptions C24_settings_change_only_by_owner.

(** Registering a transceiver, setting a peer and a wormhole peer change settings; another signer fails. *)
Example C24_case :
  settings (st_accts (at_ Locking 3) (pda_reg (AProg PManager))) <> settings (st_accts (at_ Locking 2) (pda_reg (AProg PManager))) /\
  settings (st_accts (at_ Locking 4) (pda_peer 2)) <> settings (st_accts (at_ Locking 3) (pda_peer 2)) /\
  settings (st_accts (at_ Locking 5) (pda_xpeer PManager 2)) <> settings (st_accts (at_ Locking 4) (pda_xpeer PManager 2)) /\
  ok_at Locking 5 (Call [USER] (ISetPaused pda_config USER true)) = false /\
  ok_at Locking 5 (Call [USER] (ISetPaused pda_config DEPLOYER true)) = false /\
  ok_at Locking 5 (Call [DEPLOYER] (ISetPaused pda_config DEPLOYER true)) = true.
Proof. repeat match goal with |- _ /\ _ => split end; try (vm_compute; reflexivity); intros E; vm_compute in E; discriminate. Qed.

(** ** C25 *)
Theorem C25_ownership_moves : forall H s c s' a cf, reachable H s -> step H s c = Ok s' -> config_at s a cf ->
  exists cf', config_at s' a cf' /\
    ownership (signers c) (ins c) (cf_owner cf) (cf_pending cf) (cf_owner cf') (cf_pending cf').
Proof. exact ownership_step. Qed.
Print Assumptions C25_ownership_moves.

(** The reading of [ownership]: a new owner either signed a claim of an offer to them or was named by the old owner. *)
Theorem C25_new_owner_consents : forall sg i o p o' p', ownership sg i o p o' p' ->
  o' = o \/ (exists b, i = ITransferOwnershipOneStep b o o' /\ In o sg) \/ (exists b, i = IClaimOwnership b o' /\ p = Some o' /\ In o' sg).
Proof. exact ownership_owner. Qed.
Print Assumptions C25_new_owner_consents.

(** An offer in force was made by the present owner, and has been standing since. *)
Theorem C25_offers_come_from_owner : forall H s0 tr s a c n, initial s0 -> run H s0 tr s -> config_at s a c -> cf_pending c = Some n ->
  exists tr1 e tr2, tr = tr1 ++ e :: tr2 /\ (exists b, ins (e_call e) = ITransferOwnership b (cf_owner c) n) /\
    In (cf_owner c) (signers (e_call e)) /\
    (forall e', In e' (tr1 ++ [e]) -> exists c', config_at (e_post e') a c' /\ cf_owner c' = cf_owner c /\ cf_pending c' = Some n).
Proof. exact pending_offered. Qed.
Print Assumptions C25_offers_come_from_owner.

(** Every owner is the deployer, or was named by an owner's signature, or claimed with their own signature. *)
Theorem C25_every_owner_was_named : forall H s0 tr s a c, initial s0 -> run H s0 tr s -> config_at s a c ->
  exists e, In e tr /\
   ((exists m tp ch l md, ins (e_call e) = IInitialize (cf_owner c) m tp ch l md /\ In (cf_owner c) (signers (e_call e)) /\
        st_uauth (e_pre e) = Some (cf_owner c)) \/
    (exists c0 b, config_at (e_pre e) a c0 /\ ins (e_call e) = ITransferOwnershipOneStep b (cf_owner c0) (cf_owner c) /\
        In (cf_owner c0) (signers (e_call e))) \/
    (exists c0 b, config_at (e_pre e) a c0 /\ cf_pending c0 = Some (cf_owner c) /\ ins (e_call e) = IClaimOwnership b (cf_owner c) /\
        In (cf_owner c) (signers (e_call e)))).
Proof. exact owner_named. Qed.
Print Assumptions C25_every_owner_was_named.

(** While the lock holds the upgrade authority (C26: while an offer is pending), the owner can cancel. *)
Theorem C25_owner_can_cancel : forall H s a c, reachable H s -> config_at s a c -> st_uauth s = Some upgrade_lock -> can_sign (cf_owner c) = true ->
  exists s', step H s (Call [cf_owner c] (IClaimOwnership a (cf_owner c))) = Ok s' /\
    config_at s' a (with_owner c (cf_owner c) None) /\ st_uauth s' = Some (cf_owner c).
Proof. exact cancel_ok. Qed.
Print Assumptions C25_owner_can_cancel.

(** The owner's other instructions succeed with a pending offer exactly when they succeed without. *)
Theorem C25_owner_keeps_powers : forall H s a c p sg i, reachable H s -> config_at s a c -> plain_admin i = true ->
  (succeeds (step H (set_pend s a c p) (Call sg i)) <-> succeeds (step H s (Call sg i))).
Proof. exact pending_free. Qed.
Print Assumptions C25_owner_keeps_powers.

Definition ex_offer : list call := [Call [DEPLOYER] (ITransferOwnership pda_config DEPLOYER USER)].
Definition ex_after (txs : list call) : state := apply_tx H0 (at_ Locking 5) txs.
Definition owners (s : state) : option (addr * option addr * option addr) :=
  match st_accts s pda_config with Some (Acct PManager (DConfig c)) => Some (cf_owner c, cf_pending c, st_uauth s) | _ => None end.
(** Offer; offer and claim; offer and cancel; one-step transfer; a claim without an offer; a claim by a stranger. *)
Example C25_case :
  owners (ex_after ex_offer) = Some (DEPLOYER, Some USER, Some upgrade_lock) /\
  owners (ex_after (ex_offer ++ [Call [USER] (IClaimOwnership pda_config USER)])) = Some (USER, None, Some USER) /\
  owners (ex_after (ex_offer ++ [Call [DEPLOYER] (IClaimOwnership pda_config DEPLOYER)])) = Some (DEPLOYER, None, Some DEPLOYER) /\
  owners (ex_after [Call [DEPLOYER] (ITransferOwnershipOneStep pda_config DEPLOYER USER)]) = Some (USER, None, Some USER) /\
  ok_at Locking 5 (Call [USER] (IClaimOwnership pda_config USER)) = false /\
  is_ok (step H0 (ex_after ex_offer) (Call [RCPT] (IClaimOwnership pda_config RCPT))) = false /\
  is_ok (step H0 (ex_after ex_offer) (Call [DEPLOYER] (ISetPaused pda_config DEPLOYER true))) = true /\
  plain_admin (ISetPaused pda_config DEPLOYER true) = true /\ can_sign DEPLOYER = true.
Proof. repeat match goal with |- _ /\ _ => split end; vm_compute; reflexivity. Qed.

(** ** C26 *)
(** Histories in which the loader's own instruction changes the authority only before deployment. *)
Theorem C26_authority_follows_owner : forall H s0 tr s a c, initial s0 -> run H s0 tr s ->
  (forall e n b d, In e tr -> ins (e_call e) = ESetUpgradeAuthority n -> ~ config_at (e_pre e) b d) ->
  config_at s a c ->
  match cf_pending c with None => st_uauth s = Some (cf_owner c) | Some _ => st_uauth s = Some upgrade_lock end.
Proof. exact authority_follows. Qed.
Print Assumptions C26_authority_follows_owner.

(** Nobody signs for the lock, so while it holds the authority, the loader refuses everyone. *)
Theorem C26_locked_against_upgrades : forall H s sg n, st_uauth s = Some upgrade_lock ->
  ~ succeeds (step H s (Call sg (ESetUpgradeAuthority n))).
Proof. exact locked_fixed. Qed.
Print Assumptions C26_locked_against_upgrades.

Theorem C26_no_second_transfer : forall H s sg a o n i, st_uauth s = Some upgrade_lock ->
  i = ITransferOwnership a o n \/ i = ITransferOwnershipOneStep a o n -> ~ succeeds (step H s (Call sg i)).
Proof. exact no_second_offer. Qed.
Print Assumptions C26_no_second_transfer.

Example C26_case : owners (ex_after ex_offer) = Some (DEPLOYER, Some USER, Some upgrade_lock) /\
  owners (at_ Locking 5) = Some (DEPLOYER, None, Some DEPLOYER) /\
  is_ok (step H0 (ex_after ex_offer) (Call [DEPLOYER] (ITransferOwnership pda_config DEPLOYER RCPT))) = false /\
  is_ok (step H0 (ex_after ex_offer) (Call [DEPLOYER] (ESetUpgradeAuthority (Some DEPLOYER)))) = false /\
  is_ok (step H0 (at_ Locking 5) (Call [DEPLOYER] (ESetUpgradeAuthority (Some USER)))) = true.
Proof. repeat match goal with |- _ /\ _ => split end; vm_compute; reflexivity. Qed.

(** ** C27 *)
Theorem C27_unique : forall H s a r b r', reachable H s -> reg_at s a r -> reg_at s b r' ->
  (a = b <-> rt_id r = rt_id r') /\ (a = b <-> rt_address r = rt_address r') /\ (a = b -> r = r').
Proof. exact registry_unique. Qed.
Print Assumptions C27_unique.

(** The ids in use are 0, 1, ..., next-1, at most 128 of them, and only those can be enabled. *)
Theorem C27_ids_consecutive : forall H s a c, reachable H s -> config_at s a c ->
  0 <= cf_next c <= 128 /\ (forall id, 0 <= id < cf_next c <-> exists b r, reg_at s b r /\ rt_id r = id) /\
  (forall id, Z.testbit (cf_enabled c) id = true -> 0 <= id < cf_next c).
Proof. exact registry_ids. Qed.
Print Assumptions C27_ids_consecutive.

Theorem C27_permanent : forall H s tr s' a r, run H s tr s' -> reg_at s a r -> reg_at s' a r.
Proof. exact registry_kept. Qed.
Print Assumptions C27_permanent.

(** A registration takes the next id, enables exactly that id, and touches nothing else. *)
Theorem C27_registration : forall H s sg a o t s', reachable H s -> step H s (Call sg (IRegisterTransceiver a o t)) = Ok s' ->
  exists c c' b, config_at s a c /\ In (cf_owner c) sg /\ o = cf_owner c /\ config_at s' a c' /\ st_accts s b = None /\
    reg_at s' b (Registered 0 (cf_next c) t) /\ cf_next c' = cf_next c + 1 /\ cf_next c < 128 /\
    (forall i, 0 <= i -> Z.testbit (cf_enabled c') i = (i =? cf_next c) || Z.testbit (cf_enabled c) i) /\
    (forall d, d <> a -> d <> b -> st_accts s' d = st_accts s d).
Proof. exact register_exec. Qed.
Print Assumptions C27_registration.

Theorem C27_not_twice : forall H s sg a o t b r, reachable H s -> reg_at s b r -> rt_address r = t ->
  ~ succeeds (step H s (Call sg (IRegisterTransceiver a o t))).
Proof. exact register_twice. Qed.
Print Assumptions C27_not_twice.

Theorem C27_not_beyond_128 : forall H s sg a o t c, reachable H s -> config_at s a c -> cf_next c = 128 ->
  ~ succeeds (step H s (Call sg (IRegisterTransceiver a o t))).
Proof. exact register_full. Qed.
Print Assumptions C27_not_beyond_128.

(** A failed call, registration or other, leaves the state as it was. *)
Theorem C27_failure_changes_nothing : forall H s c, ~ succeeds (step H s c) -> apply_tx H s [c] = s.
Proof. intros H s c Q. unfold apply_tx. cbn. destruct (step H s c) eqn:E; [destruct Q; eexists; reflexivity|reflexivity]. Qed.
Print Assumptions C27_failure_changes_nothing.

Definition register_n (n : nat) : list call :=
  map (fun k => Call [DEPLOYER] (IRegisterTransceiver pda_config DEPLOYER (AProg (PUser k)))) (seq 0 n).
Definition next_enabled (s : state) : option (Z * Z) :=
  match st_accts s pda_config with Some (Acct PManager (DConfig c)) => Some (cf_next c, cf_enabled c) | _ => None end.
(** The worked deployment has one transceiver; 127 more can be registered, the next one is refused. *)
Example C27_case : next_enabled (ex_after (register_n 127)) = Some (128, 2^128 - 1) /\
  st_accts (ex_after (register_n 2)) (pda_reg (AProg (PUser 1))) = Some (Acct PManager (DReg (Registered 0 2 (AProg (PUser 1))))) /\
  is_ok (step H0 (ex_after (register_n 127)) (Call [DEPLOYER] (IRegisterTransceiver pda_config DEPLOYER (AProg (PUser 127))))) = false /\
  is_ok (step H0 (ex_after (register_n 126)) (Call [DEPLOYER] (IRegisterTransceiver pda_config DEPLOYER (AProg (PUser 127))))) = true /\
  is_ok (step H0 (at_ Locking 5) (Call [DEPLOYER] (IRegisterTransceiver pda_config DEPLOYER (AProg PManager)))) = false.
Proof. repeat match goal with |- _ /\ _ => split end; vm_compute; reflexivity. Qed.

(** ** C28 *)
Theorem C28_paused_blocks : forall H s sg i a c, reachable H s -> config_at s a c -> cf_paused c = true -> moves_value i = true ->
  ~ succeeds (step H s (Call sg i)).
Proof. exact paused_blocked. Qed.
Print Assumptions C28_paused_blocks.

(** While paused: the programs' own instructions move no token at all; whatever anyone does, custody does not shrink, in
    burning mode supply does not grow, and no transfer message is published. *)
Theorem C28_paused_keeps_value : forall H s cl s' a c, reachable H s -> config_at s a c -> cf_paused c = true -> step H s cl = Ok s' ->
  (of_program (ins cl) = true -> st_toks s' = st_toks s /\ st_mints s' = st_mints s) /\
  balance s (cf_custody c) <= balance s' (cf_custody c) /\
  (cf_mode c = Burning -> supply_of s' (cf_mint c) <= supply_of s (cf_mint c)) /\
  (forall p, is_ntt_prog p = true -> published s' p = published s p).
Proof. exact paused_still. Qed.
Print Assumptions C28_paused_keeps_value.

(** Redeeming and administration succeed exactly when they would with any other value of the flag. *)
Theorem C28_pause_does_not_stop_the_rest : forall H s a c b sg i, reachable H s -> config_at s a c ->
  plain_admin i || is_ownership i || (match i with IRedeem _ => true | _ => false end) = true ->
  (succeeds (step H (set_pause s a c b) (Call sg i)) <-> succeeds (step H s (Call sg i))).
Proof. exact pause_free. Qed.
Print Assumptions C28_pause_does_not_stop_the_rest.

Theorem C28_only_owner_pauses : forall H s cl s' a c c', reachable H s -> step H s cl = Ok s' -> config_at s a c -> config_at s' a c' ->
  cf_paused c' <> cf_paused c -> ins cl = ISetPaused a (cf_owner c) (cf_paused c') /\ In (cf_owner c) (signers cl).
Proof. exact only_owner_pauses. Qed.
Print Assumptions C28_only_owner_pauses.

(** In the worked deployment each of calls 7, 8, 10 and 13 (transfer, publish, receive, release) fails after a pause and
    call 11 (redeem) still works; without the pause all of them succeed. *)
Definition ex_pause : call := Call [DEPLOYER] (ISetPaused pda_config DEPLOYER true).
Definition nth_call (md : mode) (k : nat) : call := nth (k - 1) (calls md) ex_pause.
Definition paused_ok (md : mode) (k : nat) : bool := is_ok (exec_tx H0 (at_ md (k - 1)) [ex_pause; nth_call md k]).
Example C28_case : map (paused_ok Locking) [7; 8; 10; 11; 13]%nat = [false; false; false; true; false] /\
  map (paused_ok Burning) [7; 8; 10; 11; 13]%nat = [false; false; false; true; false] /\
  map (fun k => ok_at Burning (k - 1) (nth_call Burning k)) [7; 8; 10; 11; 13]%nat = [true; true; true; true; true] /\
  length (published (at_ Locking 8) PManager) = 1%nat.
Proof. repeat match goal with |- _ /\ _ => split end; vm_compute; reflexivity. Qed.

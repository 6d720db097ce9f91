(** * Outbound transfers: C29-C34, C46. *)
From Verif Require Export LogFacts Scenario.
Local Open Scope Z_scope.

(** ** C29 *)
Theorem C29_lock : forall H s sg x a s', reachable H s -> step H s (Call sg (ITransferLock x a)) = Ok s' ->
  exists c m pe f o v, transferred s sg x a s' Locking c m pe f o v /\
    xa_from x <> cf_custody c /\ fee_of m v = 0 /\
    tk_delegate f = Some (pda_session (tk_owner f) (h_args H a)) /\ v <= tk_delegated f /\
    balance s' (xa_from x) = balance s (xa_from x) - v /\ balance s' (cf_custody c) = balance s (cf_custody c) + v /\
    (forall b, b <> xa_from x -> b <> cf_custody c -> st_toks s' b = st_toks s b) /\
    (exists f', st_toks s' (xa_from x) = Some f' /\ tk_owner f' = tk_owner f /\ tk_delegated f' = tk_delegated f - v) /\
    (forall b, st_mints s' b = st_mints s b).
Proof. exact lock_exact. Qed.
Print Assumptions C29_lock.

(** Whatever the fee schedule of the mint: a transfer that would lose a fee is refused. *)
Theorem C29_fee_refused : forall H s sg x a c m pe, reachable H s -> config_at s (xa_config x) c -> st_mints s (cf_mint c) = Some m ->
  peer_at s (ar_chain a) pe -> 0 < fee_of m (dust_free (ar_amount a) (mt_decimals m) (pe_decimals pe)) ->
  ~ succeeds (step H s (Call sg (ITransferLock x a))).
Proof. exact lock_fee_refused. Qed.
Print Assumptions C29_fee_refused.

(** 1000000005 units of 9 decimals to a peer of 18: 8 decimals travel, so the last digit stays with the sender. *)
Definition ex_item (md : mode) (k : nat) : option (outbox_item addr) :=
  match st_accts (at_ md k) ITEM with Some (Acct PManager (DOutboxItem o)) => Some o | _ => None end.
Example C29_case : dust_free 1000000005 9 18 = 1000000000 /\
  (amount_at Locking 7 user_tok, amount_at Locking 7 custody) = (Some 4000000000, Some 1000000000) /\
  ex_item Locking 7 = Some (OutboxItem (Trim 100000000 8) USER 2 (ARaw 7) (ARaw 9) 1000 0) /\
  fee_of (Mint PToken22 9 0 None 100 5000 0) 1000000 = 5000 /\ fee_of (Mint PToken22 9 0 None 100 5000 0) 1 = 1.
Proof. repeat match goal with |- _ /\ _ => split end; vm_compute; reflexivity. Qed.

(** ** C30 *)
Theorem C30_burn : forall H s sg x a s', reachable H s -> step H s (Call sg (ITransferBurn x a)) = Ok s' ->
  exists c m pe f o v, transferred s sg x a s' Burning c m pe f o v /\
    xa_from x <> cf_custody c /\ fee_of m v = 0 /\
    tk_delegate f = Some (pda_session (tk_owner f) (h_args H a)) /\ v <= tk_delegated f /\
    balance s' (xa_from x) = balance s (xa_from x) - v /\
    (forall b, b <> xa_from x -> st_toks s' b = st_toks s b) /\
    (exists f', st_toks s' (xa_from x) = Some f' /\ tk_owner f' = tk_owner f /\ tk_delegated f' = tk_delegated f - v) /\
    st_mints s' (cf_mint c) = Some (with_supply m (mt_supply m - v)) /\
    (forall b, b <> cf_mint c -> st_mints s' b = st_mints s b).
Proof. exact burn_exact. Qed.
Print Assumptions C30_burn.

Theorem C30_fee_refused : forall H s sg x a c m pe, reachable H s -> config_at s (xa_config x) c -> st_mints s (cf_mint c) = Some m ->
  peer_at s (ar_chain a) pe -> 0 < fee_of m (dust_free (ar_amount a) (mt_decimals m) (pe_decimals pe)) ->
  ~ succeeds (step H s (Call sg (ITransferBurn x a))).
Proof. exact burn_fee_refused. Qed.
Print Assumptions C30_fee_refused.

Example C30_case : (amount_at Burning 7 user_tok, supply_at Burning 7, amount_at Burning 7 custody) = (Some 4000000000, Some 4000000000, Some 0) /\
  ex_item Burning 7 = Some (OutboxItem (Trim 100000000 8) USER 2 (ARaw 7) (ARaw 9) 1000 0).
Proof. split; vm_compute; reflexivity. Qed.

(** ** C31 *)
(** Whoever submits it: a program call that takes tokens from an account other than the manager's own is a transfer whose
    arguments the account's owner approved, by a signed approval in the history (or one present at its start) of at
    least the amount taken. *)
Theorem C31_owner_approved : forall H s0 tr s cl s' a, reachable H s0 -> run H s0 tr s -> step H s cl = Ok s' -> of_program (ins cl) = true ->
  private a -> balance s' a < balance s a ->
  exists md x ar t d, transfer_of (ins cl) = Some (md, x, ar) /\ xa_from x = a /\ st_toks s a = Some t /\
    d = pda_session (tk_owner t) (h_args H ar) /\
    ((exists t0, st_toks s0 a = Some t0 /\ tk_owner t0 = tk_owner t /\ tk_delegate t0 = Some d /\ balance s a - balance s' a <= tk_delegated t0) \/
     (exists e p y, In e tr /\ ins (e_call e) = EApprove p a (tk_owner t) d y /\ In (tk_owner t) (signers (e_call e)) /\ balance s a - balance s' a <= y)).
Proof. exact drained_signed. Qed.
Print Assumptions C31_owner_approved.

(** The session authority determines the owner, and the arguments unless these two collide under the hash (C64_same_session says what
    that takes in bytes). *)
Theorem C31_arguments_fixed : forall H o ar o' ar', (h_args H ar = h_args H ar' -> ar = ar') ->
  pda_session o (h_args H ar) = pda_session o' (h_args H ar') -> o = o' /\ ar = ar'.
Proof. intros H o ar o' ar' Hi E. inversion E. auto. Qed.
Print Assumptions C31_arguments_fixed.

(** Until the owner approves again, everything the programs ever take is within the allowance. *)
Theorem C31_total : forall H s0 tr s a, reachable H s0 -> run H s0 tr s -> private a ->
  (forall e, In e tr -> ~ is_approval a (ins (e_call e))) -> sum (drained a) tr + allowance s a <= allowance s0 a.
Proof. exact drained_total. Qed.
Print Assumptions C31_total.

(** The worked transfer: a relayer may submit it, but not with another recipient, amount, chain or queue flag, nor twice. *)
Definition try_args (md : mode) (k : nat) (ar : targs) : bool :=
  ok_at md k (Call [AKey 51] (ITransferLock (TransferAccts pda_config user_tok PToken (AKey 51) pda_outbox_rl true) ar)).
Example C31_case : try_args Locking 6 the_args = true /\
  map (try_args Locking 6) [TransferArgs 1000000005 2 (ARaw 10) false; TransferArgs 1000000004 2 (ARaw 9) false;
     TransferArgs 1000000005 3 (ARaw 9) false; TransferArgs 1000000005 2 (ARaw 9) true] = [false; false; false; false] /\
  try_args Locking 7 the_args = false /\
  allowance (at_ Locking 6) user_tok = 1000000005 /\ allowance (at_ Locking 7) user_tok = 5.
Proof. repeat match goal with |- _ /\ _ => split end; vm_compute; reflexivity. Qed.

(** ** C32 *)
Theorem C32_limits : forall H s sg i s' md x a, reachable H s -> step H s (Call sg i) = Ok s' -> transfer_of i = Some (md, x, a) ->
  exists c m pe f o v orl irl orl' irl', transferred s sg x a s' md c m pe f o v /\
    out_limiter s orl /\ in_limiter s (ar_chain a) irl /\ out_limiter s' orl' /\ in_limiter s' (ar_chain a) irl' /\
    (v <= capacity orl (st_now s) ->
       ob_release o = st_now s /\ orl' = RL (rl_limit orl) (capacity orl (st_now s) - v) (st_now s) /\
       irl' = RL (rl_limit irl) (Z.min (capacity irl (st_now s) + v) (rl_limit irl)) (st_now s)) /\
    (capacity orl (st_now s) < v -> ar_queue a = true /\ ob_release o = st_now s + day /\ orl' = orl /\ irl' = irl) /\
    (forall b, b <> xa_outbox_item x -> b <> pda_outbox_rl -> b <> pda_inbox_rl (ar_chain a) -> st_accts s' b = st_accts s b).
Proof. exact transfer_limits. Qed.
Print Assumptions C32_limits.

Theorem C32_refused_without_consent : forall H s sg i md x a c m pe r, reachable H s -> transfer_of i = Some (md, x, a) -> ar_queue a = false ->
  config_at s (xa_config x) c -> st_mints s (cf_mint c) = Some m -> peer_at s (ar_chain a) pe -> out_limiter s r ->
  capacity r (st_now s) < dust_free (ar_amount a) (mt_decimals m) (pe_decimals pe) -> ~ succeeds (step H s (Call sg i)).
Proof. exact limit_refused. Qed.
Print Assumptions C32_refused_without_consent.

(** Limit 3000000000: the first transfer of 1000000000 is immediate; one of 2500000000 after it is refused, or queued for a day. *)
Definition ex_more (q : bool) : list call :=
  let ar := TransferArgs 2500000000 2 (ARaw 9) q in
  [ Call [USER] (EApprove PToken user_tok USER (pda_session USER (h_args H0 ar)) 2500000000);
    Call [AKey 51] (ITransferLock (TransferAccts pda_config user_tok PToken (AKey 51) pda_outbox_rl true) ar) ].
Definition ex_rls (s : state) := (st_accts s pda_outbox_rl, st_accts s (pda_inbox_rl 2)).
Example C32_case :
  ex_rls (at_ Locking 7) = (Some (Acct PManager (DOutboxRL (RL 3000000000 2000000000 1000))), Some (Acct PManager (DInboxRL (RL 3000000000 3000000000 1000)))) /\
  is_ok (exec_tx H0 (at_ Locking 7) (ex_more false)) = false /\
  st_accts (apply_tx H0 (at_ Locking 7) (ex_more true)) (AKey 51) =
    Some (Acct PManager (DOutboxItem (OutboxItem (Trim 250000000 8) USER 2 (ARaw 7) (ARaw 9) 87400 0))) /\
  ex_rls (apply_tx H0 (at_ Locking 7) (ex_more true)) = ex_rls (at_ Locking 7).
Proof. repeat match goal with |- _ /\ _ => split end; vm_compute; reflexivity. Qed.

(** ** C33 *)
Theorem C33_once : forall H s p it, reachable H s -> is_ntt_prog p = true -> (length (message_for it p s) <= 1)%nat.
Proof. exact message_once. Qed.
Print Assumptions C33_once.

Theorem C33_conditions : forall H s cl s' p, reachable H s -> step H s cl = Ok s' -> is_ntt_prog p = true -> published s' p <> published s p ->
  exists cfg it tr rev c o rt m, ins cl = IXRelease p cfg it tr rev true /\
    config_at s cfg c /\ cf_paused c = false /\ outbox_at s it o /\ ob_release o <= st_now s /\
    reg_at s tr rt /\ rt_address rt = AProg p /\ Z.testbit (cf_enabled c) (rt_id rt) = true /\
    flag s it (rt_id rt) = false /\ flag s' it (rt_id rt) = true /\
    published s' p = m :: published s p /\ nm_id (tm_msg m) = it.
Proof. exact publish_conditions. Qed.
Print Assumptions C33_conditions.

(** The release time of an item never changes. *)
Theorem C33_release_time_fixed : forall H s tr s' a o, reachable H s -> run H s tr s' -> outbox_at s a o ->
  exists r, outbox_at s' a (OutboxItem (ob_amount o) (ob_sender o) (ob_chain o) (ob_manager o) (ob_recipient o) (ob_release o) r).
Proof.
  intros H s tr s' a o Hr R E. destruct (item_kept _ _ _ _ _ _ Hr R E) as (o' & E' & S). exists (ob_released o'). unfold same_item in S. rewrite S in E'. exact E'.
Qed.
Print Assumptions C33_release_time_fixed.

(** The worked transfer is published once by the built-in transceiver, and once more by a stand-alone one registered
    later; a queued transfer is not published before its time. *)
Definition release_by (p : prog) (it : addr) : call := Call [] (IXRelease p pda_config it (pda_reg (AProg p)) true true).
Definition with_transceiver : state :=
  apply_tx H0 (at_ Locking 8) [Call [DEPLOYER] (IRegisterTransceiver pda_config DEPLOYER (AProg PTransceiver)); release_by PTransceiver ITEM].
Example C33_case : length (message_for ITEM PManager (at_ Locking 8)) = 1%nat /\ length (message_for ITEM PTransceiver (at_ Locking 8)) = 0%nat /\
  length (message_for ITEM PTransceiver with_transceiver) = 1%nat /\
  is_ok (step H0 (at_ Locking 8) (release_by PManager ITEM)) = false /\ is_ok (step H0 with_transceiver (release_by PTransceiver ITEM)) = false /\
  is_ok (exec_tx H0 (at_ Locking 7) (ex_more true ++ [Call [] (EClock 87399); release_by PManager (AKey 51)])) = false /\
  is_ok (exec_tx H0 (at_ Locking 7) (ex_more true ++ [Call [] (EClock 87400); release_by PManager (AKey 51)])) = true.
Proof. repeat match goal with |- _ /\ _ => split end; vm_compute; reflexivity. Qed.

(** ** C34 *)
Theorem C34_states_a_deposit : forall H s0 tr s p m, initial s0 -> run H s0 tr s -> is_ntt_prog p = true -> In m (published s p) ->
  exists e c mt pe f o v md x ar, In e tr /\ deposit e (nm_id (tm_msg m)) c mt pe f o v md x ar /\ states m (nm_id (tm_msg m)) c mt pe f ar v.
Proof. exact log_states. Qed.
Print Assumptions C34_states_a_deposit.

(** ... and there is only one deposit under this id. *)
Theorem C34_one_deposit : forall H s0 e e' a tr1 tr2 tr3 s, reachable H s0 -> run H s0 (tr3 ++ e' :: tr2 ++ e :: tr1) s ->
  (exists md x ar, transfer_of (ins (e_call e)) = Some (md, x, ar) /\ xa_outbox_item x = a) ->
  (exists md x ar, transfer_of (ins (e_call e')) = Some (md, x, ar) /\ xa_outbox_item x = a) -> False.
Proof. exact deposit_once. Qed.
Print Assumptions C34_one_deposit.

Example C34_case : published (at_ Burning 13) PManager =
  [TrMsg (AProg PManager) (ARaw 7) (NttMsg ITEM USER (Trim 100000000 8) MINT 2 (ARaw 9))].
Proof. vm_compute. reflexivity. Qed.

(** ** C46 *)
Theorem C46_only_its_transceiver : forall H s cl s' a id, reachable H s -> step H s cl = Ok s' -> flag s' a id <> flag s a id ->
  flag s a id = false /\ flag s' a id = true /\
  exists p cfg tr rt o, reg_at s tr rt /\ rt_address rt = AProg p /\ rt_id rt = id /\ outbox_at s a o /\ ob_release o <= st_now s /\
    ((ins cl = IMark (pda_outbox_signer p) cfg a tr /\ In (pda_outbox_signer p) (signers cl)) \/
     (exists rev, is_ntt_prog p = true /\ ins cl = IXRelease p cfg a tr rev true)).
Proof. exact flag_step. Qed.
Print Assumptions C46_only_its_transceiver.

(** For the wormhole transceivers (built-in and stand-alone) the flag is set together with the published message. *)
Theorem C46_flag_is_publication : forall H s cl s' a tr rt p, reachable H s -> step H s cl = Ok s' -> reg_at s tr rt -> rt_address rt = AProg p ->
  is_ntt_prog p = true -> flag s' a (rt_id rt) <> flag s a (rt_id rt) ->
  exists cfg rev, ins cl = IXRelease p cfg a tr rev true /\
    exists c o, published s' p = outbound_message c a o :: published s p /\ outbox_at s a o.
Proof. exact flag_ntt. Qed.
Print Assumptions C46_flag_is_publication.

(** A third-party transceiver marks with its own signer, nobody else does it for it, and it cannot mark for another. *)
Definition mark_by (sn : addr) (p : prog) (sg : list addr) : call := Call sg (IMark sn pda_config ITEM (pda_reg (AProg p))).
Definition with_third : state := apply_tx H0 (at_ Locking 7) [Call [DEPLOYER] (IRegisterTransceiver pda_config DEPLOYER (AProg (PUser 3)))].
Example C46_case : let sn := pda_outbox_signer (PUser 3) in
  map (fun c => is_ok (step H0 with_third c))
    [mark_by sn (PUser 3) [sn]; mark_by sn (PUser 3) []; mark_by sn PManager [sn]; mark_by (pda_outbox_signer PManager) PManager [DEPLOYER]] =
    [true; false; false; false] /\
  (flag (apply_tx H0 with_third [mark_by sn (PUser 3) [sn]]) ITEM 1, flag (apply_tx H0 with_third [mark_by sn (PUser 3) [sn]]) ITEM 0) = (true, false).
Proof. split; vm_compute; reflexivity. Qed.

(** * The repository's own Rust tests, run on the model.
    Each example has the name of the test it repeats, makes the same calls in the same order on the model and compares with the same expected values. They
    prove nothing about other inputs; they check that the model does what the authors of the code observed. The remaining tests are repeated elsewhere: those of
    modules/ntt-messages/src/transceiver.rs and transceivers/wormhole.rs in PropsWire.v (C06_vector_...), test_governance_message_parse_guardian in PropsGov.v
    (C53_case). *)
From Verif Require Import Hook Bitmap Trimmed RateLimit Scenario Bytes Governance PropsGov PropsGoverned PropsDerive PropsGovCall Derive Exec GovCall Dispatch SpecGov SpecGovCall.
From Coq Require Import ZArith List Bool String.
Import ListNotations.
Local Open Scope Z_scope.

(** The call succeeds and then ...; the call fails with ... *)
Definition gives {A} (r : result A) (P : A -> Prop) : Prop := match r with Ok a => P a | Err _ => False end.
Definition fails {A} (r : result A) (e : error) : Prop := match r with Ok _ => False | Err e' => e' = e end.
Ltac replay := vm_compute; repeat match goal with |- _ /\ _ => split end; reflexivity.

(** ** bitmap.rs:64-105 *)
Definition u128_all : Z := 2 ^ 128 - 1.
Example test_bitmap :
  bm_count_enabled_votes bm_new u128_all = Ok 0 /\
  (exists b0 b1 b2 b3 en,
     bm_set bm_new 0 true = Ok b0 /\ bm_count_enabled_votes b0 u128_all = Ok 1 /\ bm_get b0 0 = Ok true /\ bm_get b0 1 = Ok false /\
     bm_set b0 1 true = Ok b1 /\ bm_count_enabled_votes b1 u128_all = Ok 2 /\ bm_get b1 0 = Ok true /\ bm_get b1 1 = Ok true /\
     bm_set b1 0 false = Ok b2 /\ bm_count_enabled_votes b2 u128_all = Ok 1 /\ bm_get b2 0 = Ok false /\ bm_get b2 1 = Ok true /\
     bm_set b2 18 true = Ok b3 /\ bm_count_enabled_votes b3 u128_all = Ok 2 /\
     bm_set u128_all 18 false = Ok en /\ bm_count_enabled_votes b3 en = Ok 1).
Proof. split; [reflexivity|]. do 5 eexists. repeat match goal with |- _ /\ _ => split end; reflexivity. Qed.
Example test_bitmap_len : bm_count_enabled_votes u128_all u128_all = Ok 128. Proof. reflexivity. Qed.
Example test_bitmap_get_out_of_bounds : bm_get bm_new 129 = Err BitmapIndexOutOfBounds. Proof. reflexivity. Qed.
Example test_bitmap_set_out_of_bounds : bm_set bm_new 129 false = Err BitmapIndexOutOfBounds. Proof. reflexivity. Qed.

(** ** trimmed_amount.rs:162-236 *)
Example test_scale_overflow_exponent : scale 100 0 255 = Err OverflowExponent /\ scale 100 255 0 = Err OverflowExponent.
Proof. split; vm_compute; reflexivity. Qed.
Example test_scale_overflow_scaled_amount : scale (2 ^ 64 - 1) 10 11 = Err OverflowScaledAmount. Proof. vm_compute. reflexivity. Qed.
Definition trim_untrim (amount from to back : Z) : result Z := let? t := trim amount from to in untrim t back.
Example test_trim :
  (let? t := trim 100000000000000000 18 13 in Ok (ta_amount t)) = Ok 10000000 /\
  (let? t := trim 100000000000000000 7 11 in Ok (ta_amount t)) = Ok 100000000000000000 /\
  trim_untrim 100555555555555555 18 9 18 = Ok 100555550000000000 /\
  trim_untrim 100555555555555555 18 1 18 = Ok 100000000000000000 /\
  trim 158434 6 3 = Ok (Trim 158 3) /\ untrim (Trim 1 6) 13 = Ok 10000000.
Proof. repeat match goal with |- _ /\ _ => split end; vm_compute; reflexivity. Qed.

(** ** queue/rate_limit.rs:141-196, at some starting time *)
Example rate_limit_test : let now := 1700000000 in let later := now + RATE_LIMIT_DURATION / 4 in
  gives (consume_or_delay (RL 100000 100000 now) now 30000) (fun '(r1, d1) =>
  d1 = Consumed now /\ capacity_at r1 now = Ok 70000 /\ rl_limit r1 = 100000 /\ rl_last r1 = now /\ capacity_at r1 later = Ok (70000 + 25000) /\
  gives (consume_or_delay r1 later 150000) (fun '(r2, d2) =>
  d2 = Delayed (later + RATE_LIMIT_DURATION) /\ capacity_at r2 later = Ok (70000 + 25000) /\
  gives (set_limit r2 later 50000) (fun r3 => capacity_at r3 later = Ok 45000 /\
  gives (set_limit r3 later 100000) (fun r4 => capacity_at r4 later = Ok 95000 /\
  gives (refill r4 later 2000) (fun r5 => capacity_at r5 later = Ok 97000 /\
  gives (refill r5 later 50000) (fun r6 => capacity_at r6 later = Ok 100000)))))).
Proof. replay. Qed.

(** ** wormhole-governance: governance.rs:173-179 and 252-280 *)
Example test_governance_module : MODULE = repeat x00 (32 - 24) ++ str "GeneralPurposeGovernance"%string. Proof. vm_compute. reflexivity. Qed.
Definition serde_msg : gov_msg := Gov GOV_ID (unique 1) [Acc (unique 2) true true; Acc (unique 3) false true] [x01; x02; x03; x04; x05].
Example test_governance_message_serde : (match write_gov serde_msg with Some b => read_gov b | None => None end) = Some (serde_msg, []).
Proof. vm_compute. reflexivity. Qed.

(** ** The integration tests of programs/example-native-token-transfers/tests *)

(** common/setup.rs:35-46 *)
Definition MINT_AMOUNT : Z := 100000.
Definition OUTBOUND_LIMIT : Z := 10000.
Definition INBOUND_LIMIT : Z := 50000.
Definition OTHER_TRANSCEIVER : addr := ARaw 7.
Definition OTHER_MANAGER : addr := ARaw 9.
Definition NOW : Z := 1700000000.
Definition own_prog : addr := AProg PManager.

(** common/setup.rs:80-96, 149-330: mint and user's account; with a transfer fee of 5 per cent, at most 5000, under Token-2022. *)
Definition tp_of (fee : bool) : prog := if fee then PToken22 else PToken.
Definition from_of (fee : bool) : addr := ata (tp_of fee) USER MINT.
Definition empty_state : state := State 0 no_accts (fun _ => None) (fun _ => None) (Some DEPLOYER) [].
Definition setup_calls (fee : bool) (md : mode) : list call :=
  [ Call [] (EClock NOW);
    Call [MINT] (EInitMint (tp_of fee) MINT 9 (Some ISSUER)) ] ++
  (if fee then [Call [] (ESetFee PToken22 MINT 500 5000)] else []) ++
  [ Call [] (ECreateAta (tp_of fee) USER MINT);
    Call [ISSUER] (EMintTo (tp_of fee) MINT (from_of fee) ISSUER MINT_AMOUNT) ] ++
  (match md with Burning => [Call [ISSUER] (ESetMintAuth (tp_of fee) MINT ISSUER (Some token_authority))] | Locking => [] end) ++
  [ Call [DEPLOYER] (IInitialize DEPLOYER MINT (tp_of fee) 1 OUTBOUND_LIMIT md);
    Call [DEPLOYER] (IRegisterTransceiver pda_config DEPLOYER own_prog);
    Call [DEPLOYER] (IXSetPeer PManager pda_config DEPLOYER 2 OTHER_TRANSCEIVER);
    Call [DEPLOYER] (ISetPeer pda_config DEPLOYER 2 OTHER_MANAGER INBOUND_LIMIT 7) ].
(** Calls in transactions of their own, all of which have to succeed. *)
Fixpoint all (s : state) (l : list call) : result state := match l with [] => Ok s | c :: l => let? s := step H0 s c in all s l end.
Definition setup_fee (fee : bool) (md : mode) : result state := all empty_state (setup_calls fee md).
Definition setup (md : mode) : result state := setup_fee false md.

(** transfer.rs:61-86; sdk/instructions/transfer.rs: the approval and the transfer. *)
Definition args_of (amount : Z) (queue : bool) : targs := TransferArgs amount 2 (ARaw 1) queue.
Definition approve_call (fee : bool) (a : targs) : call := Call [USER] (EApprove (tp_of fee) (from_of fee) USER (pda_session USER (h_args H0 a)) (ar_amount a)).
Definition accs_of (fee : bool) (item : addr) : transfer_accts := TransferAccts pda_config (from_of fee) (tp_of fee) item pda_outbox_rl true.
Definition transfer_call (fee : bool) (item : addr) (a : targs) (md : mode) : call :=
  Call [item] (match md with Locking => ITransferLock (accs_of fee item) a | Burning => ITransferBurn (accs_of fee item) a end).
Definition release_call (item : addr) (revert : bool) : call := Call [] (IXRelease PManager pda_config item (pda_reg own_prog) revert true).
Definition pause_call (v : bool) : call := Call [DEPLOYER] (ISetPaused pda_config DEPLOYER v).

(** Reading accounts. *)
Definition item_at (s : state) (a : addr) : option (outbox_item addr) := match st_accts s a with Some (Acct PManager (DOutboxItem o)) => Some o | _ => None end.
Definition out_rl (s : state) : option rl := match st_accts s pda_outbox_rl with Some (Acct PManager (DOutboxRL r)) => Some r | _ => None end.
Definition in_rl (s : state) : option rl := match st_accts s (pda_inbox_rl 2) with Some (Acct PManager (DInboxRL r)) => Some r | _ => None end.
Definition cap_of (s : state) (r : option rl) : option Z := match r with Some r => match capacity_at r (st_now s) with Ok c => Some c | Err _ => None end | None => None end.
Definition held (s : state) (a : addr) : option Z := option_map tk_amount (st_toks s a).
Definition supply_of (s : state) : option Z := option_map mt_supply (st_mints s MINT).
Definition minus (x : option Z) (d : Z) : option Z := option_map (fun v => v - d) x.

(** transfer.rs:88-98, 124-225 *)
Definition transfer_test (md : mode) : Prop :=
  gives (setup md) (fun s0 =>
  gives (all s0 [approve_call false (args_of 154 false); transfer_call false ITEM (args_of 154 false) md]) (fun s1 =>
  item_at s1 ITEM = Some (OutboxItem (Trim 1 7) USER 2 OTHER_MANAGER (ARaw 1) NOW 0) /\
  gives (all s1 [release_call ITEM true]) (fun s2 =>
  item_at s2 ITEM = Some (OutboxItem (Trim 1 7) USER 2 OTHER_MANAGER (ARaw 1) NOW 1) /\
  st_accts s2 (pda_message PManager ITEM) = Some (Acct PWormhole DPosted) /\
  st_posted s2 = [Post (pda_emitter PManager) (PPTransfer (TrMsg own_prog OTHER_MANAGER (NttMsg ITEM USER (Trim 1 7) MINT 2 (ARaw 1))))]))).
Example test_transfer_locking : transfer_test Locking. Proof. replay. Qed.
Example test_transfer_burning : transfer_test Burning. Proof. replay. Qed.

(** transfer.rs:100-122, 227-256. In burning mode the token program refuses the burn for lack of funds. *)
Definition fee_test (md : mode) (e : error) : Prop :=
  gives (setup_fee true md) (fun s0 => gives (step H0 s0 (approve_call true (args_of 154 false))) (fun s1 =>
  fails (step H0 s1 (transfer_call true ITEM (args_of 154 false) md)) e)).
Example test_transfer_locking_with_transfer_fee : fee_test Locking BadAmountAfterTransfer. Proof. replay. Qed.
Example test_transfer_burning_with_transfer_fee : fee_test Burning TokenErr. Proof. replay. Qed.

(** transfer.rs:258-301 *)
Example test_burn_mode_burns_tokens :
  gives (setup Burning) (fun s0 =>
  gives (all s0 [approve_call false (args_of 105 false); transfer_call false ITEM (args_of 105 false) Burning]) (fun s1 =>
  supply_of s1 = minus (supply_of s0) 100 /\ held s1 (from_of false) = minus (held s0 (from_of false)) 100)).
Proof. replay. Qed.
(** transfer.rs:303-358 *)
Example locking_mode_locks_tokens :
  gives (setup Locking) (fun s0 =>
  gives (all s0 [approve_call false (args_of 1050 false); transfer_call false ITEM (args_of 1050 false) Locking]) (fun s1 =>
  held s1 (from_of false) = minus (held s0 (from_of false)) 1000 /\ held s0 custody = minus (held s1 custody) 1000 /\ supply_of s1 = supply_of s0)).
Proof. replay. Qed.
(** transfer.rs:360-395 *)
Example test_rate_limit :
  gives (setup Locking) (fun s0 =>
  gives (all s0 [approve_call false (args_of 100 false); transfer_call false ITEM (args_of 100 false) Locking]) (fun s1 =>
  cap_of s1 (out_rl s1) = minus (cap_of s0 (out_rl s0)) 100 /\ cap_of s0 (out_rl s0) = Some OUTBOUND_LIMIT)).
Proof. replay. Qed.
(** transfer.rs:397-426 *)
Example test_transfer_wrong_mode :
  gives (setup Burning) (fun s0 => gives (step H0 s0 (approve_call false (args_of 100 false))) (fun s1 =>
  fails (step H0 s1 (transfer_call false ITEM (args_of 100 false) Locking)) InvalidMode)).
Proof. replay. Qed.

(** transfer.rs:428-435 *)
Definition queued (s : state) (item : addr) : bool :=
  match item_at s item with
  | Some o => match bm_get (ob_released o) 0 with Ok b => negb b && (st_now s <? ob_release o) | Err _ => false end
  | None => false
  end.
Definition too_much : Z := OUTBOUND_LIMIT + 1000.
Definition queue_calls : list call := [approve_call false (args_of too_much true); transfer_call false ITEM (args_of too_much true) Locking].
(** transfer.rs:437-478 *)
Example test_large_tx_queue :
  gives (setup Locking) (fun s0 => gives (all s0 queue_calls) (fun s1 =>
  queued s1 ITEM = true /\ out_rl s1 = out_rl s0 /\ cap_of s0 (out_rl s0) = Some OUTBOUND_LIMIT)).
Proof. replay. Qed.
(** transfer.rs:480-543 *)
Example test_cant_transfer_when_paused :
  gives (setup Locking) (fun s0 => gives (all s0 [pause_call true; approve_call false (args_of 100 false)]) (fun s1 =>
  fails (step H0 s1 (transfer_call false ITEM (args_of 100 false) Locking)) Paused /\
  gives (all s1 [pause_call false; approve_call false (args_of 100 false); transfer_call false ITEM (args_of 100 false) Locking]) (fun s2 =>
  held s2 custody = Some 100))).
Proof. replay. Qed.
(** transfer.rs:545-582 *)
Example test_large_tx_no_queue :
  gives (setup Locking) (fun s0 => gives (step H0 s0 (approve_call false (args_of too_much false))) (fun s1 =>
  fails (step H0 s1 (transfer_call false ITEM (args_of too_much false) Locking)) TransferExceedsRateLimit)).
Proof. replay. Qed.
(** transfer.rs:584-657 *)
Example test_cant_release_queued :
  gives (setup Locking) (fun s0 => gives (all s0 queue_calls) (fun s1 =>
  queued s1 ITEM = true /\ fails (step H0 s1 (release_call ITEM true)) CantReleaseYet /\
  gives (step H0 s1 (release_call ITEM false)) (fun s2 => queued s2 ITEM = true /\ st_accts s2 (pda_message PManager ITEM) = None))).
Proof. replay. Qed.
(** transfer.rs:659-718 *)
Example test_cant_release_twice :
  gives (setup Locking) (fun s0 =>
  gives (all s0 [approve_call false (args_of 100 false); transfer_call false ITEM (args_of 100 false) Locking; release_call ITEM true]) (fun s1 =>
  fails (step H0 s1 (release_call ITEM true)) MessageAlreadySent)).
Proof. replay. Qed.

(** ** cancel_flow.rs *)
Definition vaa_at (k : nat) : addr := APda PWormhole (TUser k) 0 ANull ANull.
(** cancel_flow.rs:103-152; two messages, of ids [0u8; 32] and [1u8; 32] *)
Definition incoming (k : nat) (amount : Z) (to_manager : addr) : tr_msg := TrMsg OTHER_MANAGER to_manager (NttMsg (ARaw k) (ARaw 4) (Trim amount 9) (ARaw 3) 1 RCPT).
Definition post_call (k : nat) (m : tr_msg) : call := Call [] (EPostVaa (vaa_at k) 2 OTHER_TRANSCEIVER (Some m)).
Definition receive_call (k : nat) : call := Call [] (IXReceive PManager pda_config (vaa_at k)).
Definition redeem_call (k : nat) : call := Call [] (IRedeem (RedeemAccts pda_config (pda_vtm PManager 2 (ARaw k)) (pda_reg own_prog) pda_outbox_rl)).
Definition in_cap (s : state) : option Z := cap_of s (in_rl s).
Definition out_cap (s : state) : option Z := cap_of s (out_rl s).
(** cancel_flow.rs:175-271 *)
Example test_cancel :
  gives (let? s := setup Locking in all s [post_call 0 (incoming 0 1000 own_prog); post_call 1 (incoming 1 2000 own_prog)]) (fun s0 =>
  (out_cap s0, in_cap s0) = (Some OUTBOUND_LIMIT, Some INBOUND_LIMIT) /\
  gives (all s0 [receive_call 0; redeem_call 0]) (fun s1 => out_cap s1 = out_cap s0 /\ in_cap s1 = minus (in_cap s0) 1000 /\
  gives (all s1 [approve_call false (args_of 7000 true); transfer_call false ITEM (args_of 7000 true) Locking]) (fun s2 =>
  out_cap s2 = minus (out_cap s0) 7000 /\ in_cap s2 = in_cap s0 /\
  gives (all s2 [receive_call 1; redeem_call 1]) (fun s3 => out_cap s3 = minus (out_cap s0) 5000 /\ in_cap s3 = minus (in_cap s0) 2000)))).
Proof. replay. Qed.
(** cancel_flow.rs:273-313 *)
Example test_wrong_recipient_ntt_manager :
  gives (let? s := setup Locking in all s [post_call 0 (incoming 0 1000 ANull); receive_call 0]) (fun s1 =>
  fails (step H0 s1 (redeem_call 0)) InvalidRecipientNttManager).
Proof. replay. Qed.

(** ** broadcast.rs *)
Definition MSG : addr := AKey 60.
(** broadcast.rs:25-54 *)
Example test_broadcast_peer :
  gives (setup Locking) (fun s0 => gives (step H0 s0 (Call [MSG] (IXBroadcastPeer PManager pda_config 2 MSG true))) (fun s1 =>
  st_accts s1 MSG = Some (Acct PWormhole DPosted) /\ st_posted s1 = [Post (pda_emitter PManager) (PPReg 2 OTHER_TRANSCEIVER)])).
Proof. replay. Qed.
(** broadcast.rs:56-84 *)
Example test_broadcast_id :
  gives (setup Locking) (fun s0 => gives (step H0 s0 (Call [MSG] (IXBroadcastId PManager pda_config MSG true))) (fun s1 =>
  st_accts s1 MSG = Some (Acct PWormhole DPosted) /\ st_posted s1 = [Post (pda_emitter PManager) (PPInfo own_prog Locking MINT 9)])).
Proof. replay. Qed.

(** ** tests/governance.rs. Accounts and programs by their bytes, as in PropsGovCall.v; governance's own address is [GA]. *)
Definition config_ : acc := Acc (at_book pda_config) false true.
(** governance.rs:88-107: [ClaimOwnership]'s accounts with the owner's placeholder for the new owner. *)
Definition msg_claim : gov_msg := Gov GOV_ID (ids PManager)
  [config_; Acc (at_book upgrade_lock) false false; Acc OWNER true false; Acc (word 77) false true; Acc PropsDerive.loader false false] (ftag "claim_ownership").
Definition msg_to (gov : bytes) (m : gov_msg) : gov_msg := Gov gov (g_program m) (g_accounts m) (g_data m).
(** Posted: the claim; a request to pause; the same from another emitter; the claim naming another governance program. *)
Definition test_posts : list (bytes * vaa) :=
  [(word 201, vaa_of 1 msg_claim); (word 202, vaa_of 2 msg_pause); (word 203, Vaa 1 (repeat x00 32) 3 (gov_packet msg_pause)); (word 204, vaa_of 4 (msg_to (unique 5) msg_claim))].
Definition Et : genv state := world_env PropsGovCall.N0 H0 (fun _ _ => true) (fun _ _ => Err Constraint) addr_of (fun _ => lookup test_posts) (fun _ b => bytes_eqb b (ids PManager)).
(** governance.rs:350-417 [wrap_governance] for the post at [at_]. *)
Definition wrap (st : gstate state) (at_ : bytes) (v : vaa) (m : gov_msg) : result (gstate state) := g_exec Et DEPTH st (plain_ctx Et PAYER_ at_ v m) GOV_TAG.
Definition paused_in (st : gstate state) : option bool := match st_accts (gs_world st) pda_config with Some (Acct PManager (DConfig c)) => Some (cf_paused c) | _ => None end.
Definition owner_in (st : gstate state) : option addr := match st_accts (gs_world st) pda_config with Some (Acct PManager (DConfig c)) => Some (cf_owner c) | _ => None end.
Definition handed (i : instr) : result (gstate state) :=
  let? s := setup Locking in let? s := step H0 s (Call [DEPLOYER] i) in Ok (GState s (fun _ => false) []).
(** governance.rs:62-135 *)
Example test_governance :
  gives (handed (ITransferOwnership pda_config DEPLOYER GA)) (fun st0 => paused_in st0 = Some false /\
  gives (wrap st0 (word 201) (vaa_of 1 msg_claim) msg_claim) (fun st1 => owner_in st1 = Some GA /\
  gives (wrap st1 (word 202) (vaa_of 2 msg_pause) msg_pause) (fun st2 => paused_in st2 = Some true))).
Proof. replay. Qed.
(** governance.rs:137-182 *)
Example test_governance_one_step_transfer :
  gives (handed (ITransferOwnershipOneStep pda_config DEPLOYER GA)) (fun st0 => paused_in st0 = Some false /\
  gives (wrap st0 (word 202) (vaa_of 2 msg_pause) msg_pause) (fun st1 => paused_in st1 = Some true)).
Proof. replay. Qed.
(** governance.rs:184-207 *)
Example test_governance_bad_emitter :
  gives (setup Locking) (fun s => fails (wrap (GState s (fun _ => false) []) (word 203) (Vaa 1 (repeat x00 32) 3 (gov_packet msg_pause)) msg_pause) InvalidGovernanceEmitter).
Proof. replay. Qed.
(** governance.rs:209-271 *)
Example test_governance_bad_governance_contract :
  gives (handed (ITransferOwnership pda_config DEPLOYER GA)) (fun st0 =>
  fails (wrap st0 (word 204) (vaa_of 4 (msg_to (unique 5) msg_claim)) (msg_to (unique 5) msg_claim)) InvalidGovernanceProgram).
Proof. replay. Qed.
(** governance.rs:273-343. The test expects the system program's error for an account in use; the model has one error for all account checks. *)
Example test_governance_replay :
  gives (handed (ITransferOwnership pda_config DEPLOYER GA)) (fun st0 => gives (wrap st0 (word 201) (vaa_of 1 msg_claim) msg_claim) (fun st1 =>
  fails (wrap st1 (word 201) (vaa_of 1 msg_claim) msg_claim) Constraint)).
Proof. replay. Qed.

(** ** /repo/solana/tests/anchor.test.ts:230-406: burning mode, a Token-2022 mint with the hook of programs/dummy-transfer-hook, the separate transceiver. The
    library's transactions are given by the instructions they hold (C96, C97 and C101 are about the library itself); the payer is owner, sender and recipient. *)
Definition PAYER_KEY : addr := DEPLOYER.
Definition payer_tok : addr := ata PToken22 PAYER_KEY MINT.
Definition ts_args : targs := TransferArgs 100000 2 (ARaw 1) false.
Definition ts_hook : hook dummy := dummy_hook (fun m => addr_eqb m MINT).
Definition ts_setup : list call :=
  [ Call [] (EClock NOW);
    Call [MINT] (EInitMint PToken22 MINT 9 (Some ISSUER));
    Call [] (ECreateAta PToken22 PAYER_KEY MINT);
    Call [ISSUER] (EMintTo PToken22 MINT payer_tok ISSUER 10000000);
    Call [ISSUER] (ESetMintAuth PToken22 MINT ISSUER (Some token_authority));
    Call [PAYER_KEY] (IInitialize PAYER_KEY MINT PToken22 1 1000000 Burning);
    Call [PAYER_KEY] (IRegisterTransceiver pda_config PAYER_KEY (AProg PTransceiver));
    Call [PAYER_KEY] (IXSetPeer PTransceiver pda_config PAYER_KEY 2 OTHER_TRANSCEIVER);
    Call [PAYER_KEY] (ISetPeer pda_config PAYER_KEY 2 OTHER_MANAGER 1000000 18) ].
Definition ts_send : list call :=
  [ Call [PAYER_KEY] (EApprove PToken22 payer_tok PAYER_KEY (pda_session PAYER_KEY (h_args H0 ts_args)) 100000);
    Call [ITEM] (ITransferBurn (TransferAccts pda_config payer_tok PToken22 ITEM pda_outbox_rl true) ts_args);
    Call [] (IXRelease PTransceiver pda_config ITEM (pda_reg (AProg PTransceiver)) true true) ].
Definition ts_msg : tr_msg := TrMsg OTHER_MANAGER own_prog (NttMsg (ARaw 20) (ARaw 21) (Trim 10000 8) (ARaw 22) 1 PAYER_KEY).
Definition ts_receive : list call :=
  [ Call [] (EPostVaa (vaa_at 5) 2 OTHER_TRANSCEIVER (Some ts_msg));
    Call [] (IXReceive PTransceiver pda_config (vaa_at 5));
    Call [] (IRedeem (RedeemAccts pda_config (pda_vtm PTransceiver 2 (ARaw 20)) (pda_reg (AProg PTransceiver)) pda_outbox_rl));
    Call [] (IReleaseMint (ReleaseAccts pda_config (pda_inbox (h_msg H0 2 (tm_msg ts_msg))) PToken22 true) false) ].
Fixpoint h_calls (s : state) (w : dummy) (l : list call) : result (state * dummy) :=
  match l with [] => Ok (s, w) | c :: l => let? (s, w, _) := h_step ts_hook H0 s w c in h_calls s w l end.
Definition amount_sent (s : state) : list trimmed := flat_map (fun p => match po_payload p with PPTransfer m => [nm_amount (tm_msg m)] | _ => [] end) (st_posted s).
Example can_send_and_receive_tokens :
  gives (h_calls empty_state dummy0 ts_setup) (fun '(s0, w0) =>
  gives (dummy_initialize s0 w0 MINT) (fun w1 =>
  gives (h_calls s0 w1 ts_send) (fun '(s2, w2) =>
  option_map (@ob_released addr) (item_at s2 ITEM) = Some 1 /\ amount_sent s2 = [Trim 10000 8] /\ held s2 payer_tok = Some 9900000 /\
  gives (h_calls s2 w2 ts_receive) (fun '(s3, w3) => du_count w3 = Some 2 /\ held s3 payer_tok = Some 10000000)))).
Proof. replay. Qed.

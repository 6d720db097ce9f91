(** * Instruction data.

    What Anchor's generated entry point makes of the data of an instruction (anchor-lang 0.29, [#[program]] macro, not part of the
    repository): data shorter than eight bytes is refused; the first eight bytes, [sha256("global:" ++ name)[..8]], select the
    function; the Borsh encoding of the arguments follows; what comes after it is ignored. The data that Anchor's own
    [idl] instructions answer to ([IDL_TAG]) is not modelled. *)
From Coq Require Import String.
From Verif Require Export Accounts.
Import ListNotations.
Local Open Scope Z_scope.

(** The functions with their arguments. *)
Inductive gcall :=
  (* programs/example-native-token-transfers/src/lib.rs:64-188 *)
  | GInitialize (chain limit : Z) (md : mode) | GInitializeLut (slot : Z) | GVersion
  | GTransferBurn (amount chain : Z) (to : bytes) (queue : bool) | GTransferLock (amount chain : Z) (to : bytes) (queue : bool)
  | GRedeem | GReleaseMint (revert : bool) | GReleaseUnlock (revert : bool)
  | GTransferOwnership | GTransferOwnershipOneStep | GClaimOwnership | GSetPaused (pause : bool)
  | GSetPeer (chain : Z) (address : bytes) (limit decimals : Z) | GRegisterTransceiver
  | GSetOutboundLimit (limit : Z) | GSetInboundLimit (limit chain : Z) | GMark
  (* also programs/ntt-transceiver/src/lib.rs:13-47 *)
  | GSetWormholePeer (chain : Z) (address : bytes) | GReceive | GReleaseOutbound (revert : bool) | GBroadcastId | GBroadcastPeer (chain : Z)
  | GTransceiverType
  (* programs/ntt-quoter/src/lib.rs:21-74 *)
  | QRequestRelay (dropoff max_fee : Z) | QCloseRelay | QInitialize | QSetAssistant | QSetFeeRecipient | QRegisterChain (chain : Z)
  | QRegisterNtt (program : bytes) (index gas_cost : Z) | QDeregisterNtt (program : bytes) | QUpdateSolPrice (price : Z)
  | QUpdateChainPrices (native gas : Z) | QUpdateChainParams (max_dropoff base : Z)
  (* programs/wormhole-governance/src/lib.rs:11-17 *)
  | GGovernance
  (* programs/dummy-transfer-hook/src/lib.rs:22-97 *)
  | HInitialize | HTransferHook (amount : Z).

Inductive program := AManager | ATransceiver | AQuoter | AGovernance | AHook.

Definition rmap {A B} (f : A -> B) (c : codec A) : reader B := rbind (c_dec c) (fun x => rret (f x)).
Definition plain_call (g : gcall) : reader gcall := rret g.

(** Functions of each program and their argument structs: initialize.rs:91-96, transfer.rs:85-91, redeem.rs:103-104,
    release_inbound.rs:54-57, admin.rs:196-203, 280-283, 314-318; transceivers/wormhole/instructions/admin.rs:31-35,
    release_outbound.rs:51-54, broadcast_peer.rs:37-40 (and the same structs in programs/ntt-transceiver/src/wormhole/instructions);
    ntt-quoter/src/processor/admin.rs:93-96, 127-132, 164-167, update_prices.rs:7-10, 33-37, 59-63, request_relay.rs:79-83. *)
Definition wormhole_functions : list (string * reader gcall) := [
  ("set_wormhole_peer", rmap (fun '(c, a) => GSetWormholePeer c a) (c_u16 ** c_b32));
  ("receive_wormhole_message", plain_call GReceive);
  ("release_wormhole_outbound", rmap GReleaseOutbound c_bool);
  ("broadcast_wormhole_id", plain_call GBroadcastId);
  ("broadcast_wormhole_peer", rmap GBroadcastPeer c_u16)]%string.
Definition functions (p : program) : list (string * reader gcall) :=
  match p with
  | AManager => [
      ("initialize", rmap (fun '(c, (l, m)) => GInitialize c l m) (c_u16 ** c_u64 ** c_mode));
      ("initialize_lut", rmap GInitializeLut c_u64);
      ("version", plain_call GVersion);
      ("transfer_burn", rmap (fun '(a, (c, (t, q))) => GTransferBurn a c t q) (c_u64 ** c_u16 ** c_b32 ** c_bool));
      ("transfer_lock", rmap (fun '(a, (c, (t, q))) => GTransferLock a c t q) (c_u64 ** c_u16 ** c_b32 ** c_bool));
      ("redeem", plain_call GRedeem);
      ("release_inbound_mint", rmap GReleaseMint c_bool);
      ("release_inbound_unlock", rmap GReleaseUnlock c_bool);
      ("transfer_ownership", plain_call GTransferOwnership);
      ("transfer_ownership_one_step_unchecked", plain_call GTransferOwnershipOneStep);
      ("claim_ownership", plain_call GClaimOwnership);
      ("set_paused", rmap GSetPaused c_bool);
      ("set_peer", rmap (fun '(c, (a, (l, d))) => GSetPeer c a l d) (c_u16 ** c_b32 ** c_u64 ** c_u8));
      ("register_transceiver", plain_call GRegisterTransceiver);
      ("set_outbound_limit", rmap GSetOutboundLimit c_u64);
      ("set_inbound_limit", rmap (fun '(l, c) => GSetInboundLimit l c) (c_u64 ** c_u16));
      ("mark_outbox_item_as_released", plain_call GMark)]%string ++ wormhole_functions
  | ATransceiver => ("transceiver_type"%string, plain_call GTransceiverType) :: wormhole_functions
  | AQuoter => [
      ("request_relay", rmap (fun '(d, f) => QRequestRelay d f) (c_u64 ** c_u64));
      ("close_relay", plain_call QCloseRelay);
      ("initialize", plain_call QInitialize);
      ("set_assistant", plain_call QSetAssistant);
      ("set_fee_recipient", plain_call QSetFeeRecipient);
      ("register_chain", rmap QRegisterChain c_u16);
      ("register_ntt", rmap (fun '(p, (i, g)) => QRegisterNtt p i g) (c_b32 ** c_u8 ** c_u32));
      ("deregister_ntt", rmap QDeregisterNtt c_b32);
      ("update_sol_price", rmap QUpdateSolPrice c_u64);
      ("update_chain_prices", rmap (fun '(n, g) => QUpdateChainPrices n g) (c_u64 ** c_u64));
      ("update_chain_params", rmap (fun '(m, b) => QUpdateChainParams m b) (c_u64 ** c_u64))]%string
  | AGovernance => [("governance"%string, plain_call GGovernance)]
  | AHook => [
      ("initialize_extra_account_meta_list"%string, plain_call HInitialize);
      ("transfer_hook"%string, rmap HTransferHook c_u64)]
  end.

Definition ftag (name : string) : bytes := firstn 8 (sha256 (str "global:" ++ str name)).
Fixpoint find_function (l : list (string * reader gcall)) (tag : bytes) : option (reader gcall) :=
  match l with [] => None | (n, r) :: l => if bytes_eqb (ftag n) tag then Some r else find_function l tag end.

(** dummy-transfer-hook lib.rs:78-96, [fallback]: [TransferHookInstruction::unpack] (spl-transfer-hook-interface) of the interface's
    execute instruction. *)
Definition EXECUTE_TAG : bytes := firstn 8 (sha256 (str "spl-transfer-hook-interface:execute")).
Definition fallback (p : program) (data : bytes) : option gcall :=
  match p with
  | AHook => if bytes_eqb (firstn 8 data) EXECUTE_TAG then option_map fst (rmap HTransferHook c_u64 (skipn 8 data)) else None
  | _ => None
  end.

Definition dispatch (p : program) (data : bytes) : option gcall :=
  if (8 <=? List.length data)%nat then
    match find_function (functions p) (firstn 8 data) with
    | Some r => option_map fst (r (skipn 8 data))
    | None => fallback p data
    end
  else None.

(** anchor_lang::idl::IDL_IX_TAG, 0x0a69e9a778bcf440 little-endian. *)
Definition IDL_TAG : bytes := le_enc 8 0x0a69e9a778bcf440.

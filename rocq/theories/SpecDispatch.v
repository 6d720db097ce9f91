(** * The documented instruction data (C72): for each call its program, the eight bytes and the layout of the arguments. *)
From Coq Require Import String.
From Verif Require Export Dispatch.
Import ListNotations.
Local Open Scope Z_scope.

(** Arguments: little-endian integers, raw addresses, one byte for a flag. *)
Definition flag (b : bool) : bytes := [if b then x01 else x00].
Definition args_of (g : gcall) : bytes :=
  match g with
  | GInitialize c l m => le_enc 2 c ++ le_enc 8 l ++ [match m with Locking => x00 | Burning => x01 end]
  | GInitializeLut s => le_enc 8 s
  | GTransferBurn a c t q | GTransferLock a c t q => le_enc 8 a ++ le_enc 2 c ++ t ++ flag q
  | GReleaseMint r | GReleaseUnlock r | GReleaseOutbound r => flag r
  | GSetPaused b => flag b
  | GSetPeer c a l d => le_enc 2 c ++ a ++ le_enc 8 l ++ le_enc 1 d
  | GSetOutboundLimit l => le_enc 8 l
  | GSetInboundLimit l c => le_enc 8 l ++ le_enc 2 c
  | GSetWormholePeer c a => le_enc 2 c ++ a
  | GBroadcastPeer c => le_enc 2 c
  | QRequestRelay d f => le_enc 8 d ++ le_enc 8 f
  | QRegisterChain c => le_enc 2 c
  | QRegisterNtt p i g => p ++ le_enc 1 i ++ le_enc 4 g
  | QDeregisterNtt p => p
  | QUpdateSolPrice x => le_enc 8 x
  | QUpdateChainPrices n x => le_enc 8 n ++ le_enc 8 x
  | QUpdateChainParams m b => le_enc 8 m ++ le_enc 8 b
  | HTransferHook a => le_enc 8 a
  | _ => []
  end.
Definition is_u32 (z : Z) : Prop := 0 <= z < 2 ^ 32.
Definition wf_call (g : gcall) : Prop :=
  match g with
  | GInitialize c l _ => is_u16 c /\ is_u64 l
  | GInitializeLut s => is_u64 s
  | GTransferBurn a c t _ | GTransferLock a c t _ => is_u64 a /\ is_u16 c /\ is32 t
  | GSetPeer c a l d => is_u16 c /\ is32 a /\ is_u64 l /\ is_u8 d
  | GSetOutboundLimit l => is_u64 l
  | GSetInboundLimit l c => is_u64 l /\ is_u16 c
  | GSetWormholePeer c a => is_u16 c /\ is32 a
  | GBroadcastPeer c => is_u16 c
  | QRequestRelay d f => is_u64 d /\ is_u64 f
  | QRegisterChain c => is_u16 c
  | QRegisterNtt p i g => is32 p /\ is_u8 i /\ is_u32 g
  | QDeregisterNtt p => is32 p
  | QUpdateSolPrice x => is_u64 x
  | QUpdateChainPrices n x => is_u64 n /\ is_u64 x
  | QUpdateChainParams m b => is_u64 m /\ is_u64 b
  | HTransferHook a => is_u64 a
  | _ => True
  end.

Definition name_of (g : gcall) : string :=
  match g with
  | GInitialize _ _ _ => "initialize" | GInitializeLut _ => "initialize_lut" | GVersion => "version"
  | GTransferBurn _ _ _ _ => "transfer_burn" | GTransferLock _ _ _ _ => "transfer_lock" | GRedeem => "redeem"
  | GReleaseMint _ => "release_inbound_mint" | GReleaseUnlock _ => "release_inbound_unlock" | GTransferOwnership => "transfer_ownership"
  | GTransferOwnershipOneStep => "transfer_ownership_one_step_unchecked" | GClaimOwnership => "claim_ownership" | GSetPaused _ => "set_paused"
  | GSetPeer _ _ _ _ => "set_peer" | GRegisterTransceiver => "register_transceiver" | GSetOutboundLimit _ => "set_outbound_limit"
  | GSetInboundLimit _ _ => "set_inbound_limit" | GMark => "mark_outbox_item_as_released" | GSetWormholePeer _ _ => "set_wormhole_peer"
  | GReceive => "receive_wormhole_message" | GReleaseOutbound _ => "release_wormhole_outbound" | GBroadcastId => "broadcast_wormhole_id"
  | GBroadcastPeer _ => "broadcast_wormhole_peer" | GTransceiverType => "transceiver_type"
  | QRequestRelay _ _ => "request_relay" | QCloseRelay => "close_relay" | QInitialize => "initialize" | QSetAssistant => "set_assistant"
  | QSetFeeRecipient => "set_fee_recipient" | QRegisterChain _ => "register_chain" | QRegisterNtt _ _ _ => "register_ntt"
  | QDeregisterNtt _ => "deregister_ntt" | QUpdateSolPrice _ => "update_sol_price" | QUpdateChainPrices _ _ => "update_chain_prices"
  | QUpdateChainParams _ _ => "update_chain_params" | GGovernance => "governance"
  | HInitialize => "initialize_extra_account_meta_list" | HTransferHook _ => "transfer_hook"
  end%string.
Definition offered (p : program) (g : gcall) : Prop :=
  match g with
  | GSetWormholePeer _ _ | GReceive | GReleaseOutbound _ | GBroadcastId | GBroadcastPeer _ => p = AManager \/ p = ATransceiver
  | GTransceiverType => p = ATransceiver
  | QRequestRelay _ _ | QCloseRelay | QInitialize | QSetAssistant | QSetFeeRecipient | QRegisterChain _ | QRegisterNtt _ _ _
  | QDeregisterNtt _ | QUpdateSolPrice _ | QUpdateChainPrices _ _ | QUpdateChainParams _ _ => p = AQuoter
  | GGovernance => p = AGovernance
  | HInitialize | HTransferHook _ => p = AHook
  | _ => p = AManager
  end.

(** The data of a call; the hook answers to two headers. *)
Definition header (g : gcall) (h : bytes) : Prop :=
  h = firstn 8 (sha256 (str "global:" ++ str (name_of g))) \/
  (exists a, g = HTransferHook a) /\ h = firstn 8 (sha256 (str "spl-transfer-hook-interface:execute")).
Definition data_of (g : gcall) (data : bytes) : Prop := exists h rest, header g h /\ data = h ++ args_of g ++ rest.

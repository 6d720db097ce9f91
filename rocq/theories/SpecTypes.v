(** * The types of the published interfaces (C85).

    The generated IDL (solana/ts/idl/3_0_0/json) describes the arguments of every instruction and the contents of every account by types. A client
    encodes and decodes by these. [encodes] is Borsh on such types; the tables are printed by tools/idl_types.py. *)
From Coq Require Import String Ascii.
From Verif Require Export SpecDispatch Accounts.
Import ListNotations.
Local Open Scope string_scope.
Local Open Scope list_scope.
Local Open Scope Z_scope.

Inductive ity := IU (n : nat) | II64 | IBool | IKey | IRaw (n : nat) | IOpt (t : ity) | INamed (s : string).
Inductive idef := IStruct (fs : list (string * ity)) | IEnum (vs : list (string * list ity)).
Inductive ival := VInt (z : Z) | VBool (b : bool) | VBytes (b : bytes) | VNone | VSome (v : ival) | VStruct (fs : list (string * ival)) | VEnum (s : string) (vs : list ival).

(** The definition of a name: the first entry. *)
Fixpoint entry_for {A} (s : string) (l : list (string * A)) : option A := match l with [] => None | (n, a) :: l => if String.eqb n s then Some a else entry_for s l end.

(** Little-endian integers; 32 bytes of a key; options and enums with a leading byte; structs field by field, by name. *)
Inductive encodes (D : list (string * idef)) : ity -> ival -> bytes -> Prop :=
  | en_int n z : 0 <= z < 256 ^ Z.of_nat n -> encodes D (IU n) (VInt z) (le_enc n z)
  | en_i64 z : - 2 ^ 63 <= z < 2 ^ 63 -> encodes D II64 (VInt z) (le_enc 8 (z mod 2 ^ 64))
  | en_false : encodes D IBool (VBool false) [x00]
  | en_true : encodes D IBool (VBool true) [x01]
  | en_key b : List.length b = 32%nat -> encodes D IKey (VBytes b) b
  | en_raw n b : List.length b = n -> encodes D (IRaw n) (VBytes b) b
  | en_none t : encodes D (IOpt t) VNone [x00]
  | en_some t v b : encodes D t v b -> encodes D (IOpt t) (VSome v) (x01 :: b)
  | en_struct s fs vs b : entry_for s D = Some (IStruct fs) -> encodes_fields D fs vs b -> encodes D (INamed s) (VStruct vs) b
  | en_enum s l k n ts vs b : entry_for s D = Some (IEnum l) -> nth_error l k = Some (n, ts) -> encodes_all D ts vs b ->
      encodes D (INamed s) (VEnum n vs) (le_enc 1 (Z.of_nat k) ++ b)
with encodes_fields (D : list (string * idef)) : list (string * ity) -> list (string * ival) -> bytes -> Prop :=
  | ef_nil : encodes_fields D [] [] []
  | ef_cons n t v fs vs b c : encodes D t v b -> encodes_fields D fs vs c -> encodes_fields D ((n, t) :: fs) ((n, v) :: vs) (b ++ c)
with encodes_all (D : list (string * idef)) : list ity -> list ival -> bytes -> Prop :=
  | ea_nil : encodes_all D [] [] []
  | ea_cons t v ts vs b c : encodes D t v b -> encodes_all D ts vs c -> encodes_all D (t :: ts) (v :: vs) (b ++ c).

Definition types (p : program) : list (string * idef) :=
  match p with
  | AManager =>
    [("Bitmap", IStruct [("map", IU 16)]);
     ("SetInboundLimitArgs", IStruct [("limit", IU 8); ("chainId", INamed "ChainId")]);
     ("SetOutboundLimitArgs", IStruct [("limit", IU 8)]);
     ("SetPeerArgs", IStruct [("chainId", INamed "ChainId"); ("address", IRaw 32); ("limit", IU 8); ("tokenDecimals", IU 1)]);
     ("InitializeArgs", IStruct [("chainId", IU 2); ("limit", IU 8); ("mode", INamed "Mode")]);
     ("RedeemArgs", IStruct []);
     ("ReleaseInboundArgs", IStruct [("revertOnDelay", IBool)]);
     ("TransferArgs", IStruct [("amount", IU 8); ("recipientChain", INamed "ChainId"); ("recipientAddress", IRaw 32); ("shouldQueue", IBool)]);
     ("ReleaseStatus", IEnum [("NotApproved", []); ("ReleaseAfter", [II64]); ("Released", [])]);
     ("RateLimitState", IStruct [("limit", IU 8); ("capacityAtLastTx", IU 8); ("lastTxTimestamp", II64)]);
     ("SetTransceiverPeerArgs", IStruct [("chainId", INamed "ChainId"); ("address", IRaw 32)]);
     ("BroadcastPeerArgs", IStruct [("chainId", IU 2)]);
     ("ReleaseOutboundArgs", IStruct [("revertOnDelay", IBool)]);
     ("ChainId", IStruct [("id", IU 2)]);
     ("Mode", IEnum [("Locking", []); ("Burning", [])]);
     ("TrimmedAmount", IStruct [("amount", IU 8); ("decimals", IU 1)]);
     ("BridgeConfig", IStruct [("guardianSetExpirationTime", IU 4); ("fee", IU 8)])]
  | ATransceiver =>
    [("Bitmap", IStruct [("map", IU 16)]);
     ("ChainId", IStruct [("id", IU 2)]);
     ("Mode", IEnum [("Locking", []); ("Burning", [])]);
     ("TrimmedAmount", IStruct [("amount", IU 8); ("decimals", IU 1)]);
     ("SetTransceiverPeerArgs", IStruct [("chainId", INamed "ChainId"); ("address", IRaw 32)]);
     ("BroadcastPeerArgs", IStruct [("chainId", IU 2)]);
     ("ReleaseOutboundArgs", IStruct [("revertOnDelay", IBool)]);
     ("BridgeConfig", IStruct [("guardianSetExpirationTime", IU 4); ("fee", IU 8)])]
  | AQuoter =>
    [("RegisterChainArgs", IStruct [("chainId", IU 2)]);
     ("RegisterNttArgs", IStruct [("nttProgramId", IKey); ("wormholeTransceiverIndex", IU 1); ("gasCost", IU 4)]);
     ("DeregisterNttArgs", IStruct [("nttProgramId", IKey)]);
     ("RequestRelayArgs", IStruct [("gasDropoff", IU 8); ("maxFee", IU 8)]);
     ("UpdateSolPriceArgs", IStruct [("solPrice", IU 8)]);
     ("UpdateChainPricesArgs", IStruct [("nativePrice", IU 8); ("gasPrice", IU 8)]);
     ("UpdateChainParamsArgs", IStruct [("maxGasDropoff", IU 8); ("basePrice", IU 8)])]
  | AGovernance =>
    []
  | AHook =>
    []
  end.
Definition accounts (p : program) : list (string * list (string * ity)) :=
  match p with
  | AManager =>
    [("Config", [("bump", IU 1); ("owner", IKey); ("pendingOwner", IOpt IKey); ("mint", IKey); ("tokenProgram", IKey); ("mode", INamed "Mode"); ("chainId", INamed "ChainId"); ("nextTransceiverId", IU 1); ("threshold", IU 1); ("enabledTransceivers", INamed "Bitmap"); ("paused", IBool); ("custody", IKey)]);
     ("LUT", [("bump", IU 1); ("address", IKey)]);
     ("NttManagerPeer", [("bump", IU 1); ("address", IRaw 32); ("tokenDecimals", IU 1)]);
     ("InboxItem", [("init", IBool); ("bump", IU 1); ("amount", IU 8); ("recipientAddress", IKey); ("votes", INamed "Bitmap"); ("releaseStatus", INamed "ReleaseStatus")]);
     ("InboxRateLimit", [("bump", IU 1); ("rateLimit", INamed "RateLimitState")]);
     ("OutboxItem", [("amount", INamed "TrimmedAmount"); ("sender", IKey); ("recipientChain", INamed "ChainId"); ("recipientNttManager", IRaw 32); ("recipientAddress", IRaw 32); ("releaseTimestamp", II64); ("released", INamed "Bitmap")]);
     ("OutboxRateLimit", [("rateLimit", INamed "RateLimitState")]);
     ("RegisteredTransceiver", [("bump", IU 1); ("id", IU 1); ("transceiverAddress", IKey)]);
     ("TransceiverPeer", [("bump", IU 1); ("address", IRaw 32)]);
     ("BridgeData", [("guardianSetIndex", IU 4); ("lastLamports", IU 8); ("config", INamed "BridgeConfig")])]
  | ATransceiver =>
    [("Config", [("bump", IU 1); ("owner", IKey); ("pendingOwner", IOpt IKey); ("mint", IKey); ("tokenProgram", IKey); ("mode", INamed "Mode"); ("chainId", INamed "ChainId"); ("nextTransceiverId", IU 1); ("threshold", IU 1); ("enabledTransceivers", INamed "Bitmap"); ("paused", IBool); ("custody", IKey)]);
     ("OutboxItem", [("amount", INamed "TrimmedAmount"); ("sender", IKey); ("recipientChain", INamed "ChainId"); ("recipientNttManager", IRaw 32); ("recipientAddress", IRaw 32); ("releaseTimestamp", II64); ("released", INamed "Bitmap")]);
     ("RegisteredTransceiver", [("bump", IU 1); ("id", IU 1); ("transceiverAddress", IKey)]);
     ("TransceiverPeer", [("bump", IU 1); ("address", IRaw 32)]);
     ("BridgeData", [("guardianSetIndex", IU 4); ("lastLamports", IU 8); ("config", INamed "BridgeConfig")])]
  | AQuoter =>
    [("Instance", [("owner", IKey); ("assistant", IKey); ("feeRecipient", IKey); ("solPrice", IU 8)]);
     ("RegisteredChain", [("bump", IU 1); ("maxGasDropoff", IU 8); ("basePrice", IU 8); ("nativePrice", IU 8); ("gasPrice", IU 8)]);
     ("RegisteredNtt", [("bump", IU 1); ("wormholeTransceiverIndex", IU 1); ("gasCost", IU 4)]);
     ("RelayRequest", [("requestedGasDropoff", IU 8)])]
  | AGovernance =>
    [("ReplayProtection", [("bump", IU 1)])]
  | AHook =>
    [("Counter", [("count", IU 8)])]
  end.
Definition arguments (p : program) : list (string * list (string * ity)) :=
  match p with
  | AManager =>
    [("initialize", [("args", INamed "InitializeArgs")]);
     ("initializeLut", [("recentSlot", IU 8)]);
     ("version", []);
     ("transferBurn", [("args", INamed "TransferArgs")]);
     ("transferLock", [("args", INamed "TransferArgs")]);
     ("redeem", [("args", INamed "RedeemArgs")]);
     ("releaseInboundMint", [("args", INamed "ReleaseInboundArgs")]);
     ("releaseInboundUnlock", [("args", INamed "ReleaseInboundArgs")]);
     ("transferOwnership", []);
     ("transferOwnershipOneStepUnchecked", []);
     ("claimOwnership", []);
     ("setPaused", [("pause", IBool)]);
     ("setPeer", [("args", INamed "SetPeerArgs")]);
     ("registerTransceiver", []);
     ("setOutboundLimit", [("args", INamed "SetOutboundLimitArgs")]);
     ("setInboundLimit", [("args", INamed "SetInboundLimitArgs")]);
     ("markOutboxItemAsReleased", []);
     ("setWormholePeer", [("args", INamed "SetTransceiverPeerArgs")]);
     ("receiveWormholeMessage", []);
     ("releaseWormholeOutbound", [("args", INamed "ReleaseOutboundArgs")]);
     ("broadcastWormholeId", []);
     ("broadcastWormholePeer", [("args", INamed "BroadcastPeerArgs")])]
  | ATransceiver =>
    [("transceiverType", []);
     ("setWormholePeer", [("args", INamed "SetTransceiverPeerArgs")]);
     ("receiveWormholeMessage", []);
     ("releaseWormholeOutbound", [("args", INamed "ReleaseOutboundArgs")]);
     ("broadcastWormholeId", []);
     ("broadcastWormholePeer", [("args", INamed "BroadcastPeerArgs")])]
  | AQuoter =>
    [("requestRelay", [("args", INamed "RequestRelayArgs")]);
     ("closeRelay", []);
     ("initialize", []);
     ("setAssistant", []);
     ("setFeeRecipient", []);
     ("registerChain", [("args", INamed "RegisterChainArgs")]);
     ("registerNtt", [("args", INamed "RegisterNttArgs")]);
     ("deregisterNtt", [("args", INamed "DeregisterNttArgs")]);
     ("updateSolPrice", [("args", INamed "UpdateSolPriceArgs")]);
     ("updateChainPrices", [("args", INamed "UpdateChainPricesArgs")]);
     ("updateChainParams", [("args", INamed "UpdateChainParamsArgs")])]
  | AGovernance =>
    [("governance", [])]
  | AHook =>
    [("initializeExtraAccountMetaList", []);
     ("transferHook", [("amount", IU 8)])]
  end.

(** ** What the values stand for *)
Definition val_chain (c : Z) : ival := VStruct [("id", VInt c)].
Definition val_mode (m : mode) : ival := VEnum (match m with Locking => "Locking" | Burning => "Burning" end) [].
Definition val_bitmap (b : Z) : ival := VStruct [("map", VInt b)].
Definition val_trimmed (t : trimmed) : ival := VStruct [("amount", VInt (ta_amount t)); ("decimals", VInt (ta_decimals t))].
Definition val_limit (r : rl) : ival := VStruct [("limit", VInt (rl_limit r)); ("capacityAtLastTx", VInt (rl_cap r)); ("lastTxTimestamp", VInt (rl_last r))].
Definition val_status (s : release_status) : ival :=
  match s with NotApproved => VEnum "NotApproved" [] | ReleaseAfter t => VEnum "ReleaseAfter" [VInt t] | Released => VEnum "Released" [] end.
Definition fields_of (k : kind) : contents k -> list (string * ival) :=
  match k with
  | KConfig => fun c => [("bump", VInt (cf_bump c)); ("owner", VBytes (cf_owner c)); ("pendingOwner", match cf_pending c with Some o => VSome (VBytes o) | None => VNone end);
      ("mint", VBytes (cf_mint c)); ("tokenProgram", VBytes (cf_token_program c)); ("mode", val_mode (cf_mode c)); ("chainId", val_chain (cf_chain c));
      ("nextTransceiverId", VInt (cf_next c)); ("threshold", VInt (cf_threshold c)); ("enabledTransceivers", val_bitmap (cf_enabled c));
      ("paused", VBool (cf_paused c)); ("custody", VBytes (cf_custody c))]
  | KPeer => fun p => [("bump", VInt (pe_bump p)); ("address", VBytes (pe_address p)); ("tokenDecimals", VInt (pe_decimals p))]
  | KOutboxItem => fun o => [("amount", val_trimmed (ob_amount o)); ("sender", VBytes (ob_sender o)); ("recipientChain", val_chain (ob_chain o));
      ("recipientNttManager", VBytes (ob_manager o)); ("recipientAddress", VBytes (ob_recipient o)); ("releaseTimestamp", VInt (ob_release o));
      ("released", val_bitmap (ob_released o))]
  | KOutboxRateLimit => fun r => [("rateLimit", val_limit r)]
  | KInboxItem => fun i => [("init", VBool (ib_init i)); ("bump", VInt (ib_bump i)); ("amount", VInt (ib_amount i)); ("recipientAddress", VBytes (ib_recipient i));
      ("votes", val_bitmap (ib_votes i)); ("releaseStatus", val_status (ib_status i))]
  | KInboxRateLimit => fun p => [("bump", VInt (fst p)); ("rateLimit", val_limit (snd p))]
  | KRegistered => fun r => [("bump", VInt (rt_bump r)); ("id", VInt (rt_id r)); ("transceiverAddress", VBytes (rt_address r))]
  | KXPeer => fun p => [("bump", VInt (xp_bump p)); ("address", VBytes (xp_address p))]
  | KVtm => fun _ => [] (* not published *)
  | KLut => fun p => [("bump", VInt (lu_bump p)); ("address", VBytes (lu_address p))]
  | KInstance => fun i => [("owner", VBytes (in_owner i)); ("assistant", VBytes (in_assistant i)); ("feeRecipient", VBytes (in_fee_recipient i)); ("solPrice", VInt (in_sol_price i))]
  | KRegChain => fun r => [("bump", VInt (rc_bump r)); ("maxGasDropoff", VInt (rc_max_dropoff r)); ("basePrice", VInt (rc_base_price r));
      ("nativePrice", VInt (rc_native_price r)); ("gasPrice", VInt (rc_gas_price r))]
  | KRegNtt => fun r => [("bump", VInt (rn_bump r)); ("wormholeTransceiverIndex", VInt (rn_index r)); ("gasCost", VInt (rn_gas_cost r))]
  | KRelayRequest => fun r => [("requestedGasDropoff", VInt (rr_dropoff r))]
  | KReplay => fun b => [("bump", VInt b)]
  end.

(** A function's name in the interface, and its arguments. *)
Definition published (g : gcall) : string * list (string * ival) :=
  let args l := [("args", VStruct l)] in
  match g with
  | GInitialize c l m => ("initialize", args [("chainId", VInt c); ("limit", VInt l); ("mode", val_mode m)])
  | GInitializeLut s => ("initializeLut", [("recentSlot", VInt s)])
  | GVersion => ("version", [])
  | GTransferBurn a c t q => ("transferBurn", args [("amount", VInt a); ("recipientChain", val_chain c); ("recipientAddress", VBytes t); ("shouldQueue", VBool q)])
  | GTransferLock a c t q => ("transferLock", args [("amount", VInt a); ("recipientChain", val_chain c); ("recipientAddress", VBytes t); ("shouldQueue", VBool q)])
  | GRedeem => ("redeem", args [])
  | GReleaseMint r => ("releaseInboundMint", args [("revertOnDelay", VBool r)])
  | GReleaseUnlock r => ("releaseInboundUnlock", args [("revertOnDelay", VBool r)])
  | GTransferOwnership => ("transferOwnership", [])
  | GTransferOwnershipOneStep => ("transferOwnershipOneStepUnchecked", [])
  | GClaimOwnership => ("claimOwnership", [])
  | GSetPaused b => ("setPaused", [("pause", VBool b)])
  | GSetPeer c a l d => ("setPeer", args [("chainId", val_chain c); ("address", VBytes a); ("limit", VInt l); ("tokenDecimals", VInt d)])
  | GRegisterTransceiver => ("registerTransceiver", [])
  | GSetOutboundLimit l => ("setOutboundLimit", args [("limit", VInt l)])
  | GSetInboundLimit l c => ("setInboundLimit", args [("limit", VInt l); ("chainId", val_chain c)])
  | GMark => ("markOutboxItemAsReleased", [])
  | GSetWormholePeer c a => ("setWormholePeer", args [("chainId", val_chain c); ("address", VBytes a)])
  | GReceive => ("receiveWormholeMessage", [])
  | GReleaseOutbound r => ("releaseWormholeOutbound", args [("revertOnDelay", VBool r)])
  | GBroadcastId => ("broadcastWormholeId", [])
  | GBroadcastPeer c => ("broadcastWormholePeer", args [("chainId", VInt c)])
  | GTransceiverType => ("transceiverType", [])
  | QRequestRelay d f => ("requestRelay", args [("gasDropoff", VInt d); ("maxFee", VInt f)])
  | QCloseRelay => ("closeRelay", [])
  | QInitialize => ("initialize", [])
  | QSetAssistant => ("setAssistant", [])
  | QSetFeeRecipient => ("setFeeRecipient", [])
  | QRegisterChain c => ("registerChain", args [("chainId", VInt c)])
  | QRegisterNtt p i g => ("registerNtt", args [("nttProgramId", VBytes p); ("wormholeTransceiverIndex", VInt i); ("gasCost", VInt g)])
  | QDeregisterNtt p => ("deregisterNtt", args [("nttProgramId", VBytes p)])
  | QUpdateSolPrice x => ("updateSolPrice", args [("solPrice", VInt x)])
  | QUpdateChainPrices n x => ("updateChainPrices", args [("nativePrice", VInt n); ("gasPrice", VInt x)])
  | QUpdateChainParams m b => ("updateChainParams", args [("maxGasDropoff", VInt m); ("basePrice", VInt b)])
  | GGovernance => ("governance", [])
  | HInitialize => ("initializeExtraAccountMetaList", [])
  | HTransferHook a => ("transferHook", [("amount", VInt a)])
  end.

(** Clients turn the names of the interface into those that are hashed: an underscore before capital letters, which become small. *)
Fixpoint snake (s : string) : string :=
  match s with
  | EmptyString => EmptyString
  | String c r => let n := nat_of_ascii c in
      if (65 <=? n)%nat && (n <=? 90)%nat then String "_"%char (String (ascii_of_nat (n + 32)) (snake r)) else String c (snake r)
  end.
Definition call_header (nm : string) : bytes := firstn 8 (sha256 (str "global:" ++ str (snake nm))).
Definition account_header (nm : string) : bytes := firstn 8 (sha256 (str "account:" ++ str nm)).

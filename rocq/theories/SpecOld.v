(** * Interfaces published for earlier generations of the programs (C106).

    solana/ts/idl/1_0_0/json and 2_0_0/json, which clients still hold: the types of accounts and arguments, and for each function the names of its accounts in
    order and which of them sign and are writable. The tables are printed by tools/idl_old.py. The separate transceiver did not exist then. *)
From Coq Require Import String.
From Verif Require Export SpecTypes SpecIdl SpecQEntry.
Import ListNotations.
Local Open Scope string_scope.
Local Open Scope list_scope.
Local Open Scope Z_scope.

Inductive generation := Gen1 | Gen2.
Local Notation R n := (Field n%string false false).
Local Notation W n := (Field n%string false true).
Local Notation S n := (Field n%string true false).
Local Notation SW n := (Field n%string true true).

Definition old_types (n : generation) (p : program) : list (string * idef) :=
  match n, p with
  | Gen1, AManager =>
    [("Bitmap", IStruct [("map", IU 16)]);
     ("SetInboundLimitArgs", IStruct [("limit", IU 8); ("chainId", INamed "ChainId")]);
     ("SetOutboundLimitArgs", IStruct [("limit", IU 8)]);
     ("SetPeerArgs", IStruct [("chainId", INamed "ChainId"); ("address", IRaw 32); ("limit", IU 8); ("tokenDecimals", IU 1)]);
     ("InitializeArgs", IStruct [("chainId", IU 2); ("limit", IU 8); ("mode", INamed "Mode")]);
     ("RedeemArgs", IStruct []);
     ("ReleaseInboundArgs", IStruct [("revertOnDelay", IBool)]);
     ("TransferArgs", IStruct [("amount", IU 8); ("recipientChain", INamed "ChainId"); ("recipientAddress", IRaw 32); ("shouldQueue", IBool)]);
     ("ReleaseStatus", IEnum [("NotApproved", []); ("ReleaseAfter", [II64]); ("Released", [])]);
     ("RateLimitState", IStruct [("limit", IU 8); ("capacityAtLastTx", IU 8); ("lastTxTimestamp", II64)]);
     ("SetTransceiverPeerArgs", IStruct [("chainId", INamed "ChainId"); ("address", IRaw 32)]);
     ("BroadcastPeerArgs", IStruct [("chainId", IU 2)]);
     ("ReleaseOutboundArgs", IStruct [("revertOnDelay", IBool)]);
     ("ChainId", IStruct [("id", IU 2)]);
     ("Mode", IEnum [("Locking", []); ("Burning", [])]);
     ("TrimmedAmount", IStruct [("amount", IU 8); ("decimals", IU 1)]);
     ("BridgeConfig", IStruct [("guardianSetExpirationTime", IU 4); ("fee", IU 8)])]
  | Gen1, AQuoter =>
    [("RegisterChainArgs", IStruct [("chainId", IU 2)]);
     ("RegisterNttArgs", IStruct [("nttProgramId", IKey); ("wormholeTransceiverIndex", IU 1); ("gasCost", IU 4)]);
     ("DeregisterNttArgs", IStruct [("nttProgramId", IKey)]);
     ("RequestRelayArgs", IStruct [("gasDropoff", IU 8); ("maxFee", IU 8)]);
     ("UpdateSolPriceArgs", IStruct [("solPrice", IU 8)]);
     ("UpdateChainPricesArgs", IStruct [("nativePrice", IU 8); ("gasPrice", IU 8)]);
     ("UpdateChainParamsArgs", IStruct [("maxGasDropoff", IU 8); ("basePrice", IU 8)])]
  | Gen1, AGovernance =>
    []
  | Gen1, AHook =>
    []
  | Gen2, AManager =>
    [("Bitmap", IStruct [("map", IU 16)]);
     ("SetInboundLimitArgs", IStruct [("limit", IU 8); ("chainId", INamed "ChainId")]);
     ("SetOutboundLimitArgs", IStruct [("limit", IU 8)]);
     ("SetPeerArgs", IStruct [("chainId", INamed "ChainId"); ("address", IRaw 32); ("limit", IU 8); ("tokenDecimals", IU 1)]);
     ("InitializeArgs", IStruct [("chainId", IU 2); ("limit", IU 8); ("mode", INamed "Mode")]);
     ("RedeemArgs", IStruct []);
     ("ReleaseInboundArgs", IStruct [("revertOnDelay", IBool)]);
     ("TransferArgs", IStruct [("amount", IU 8); ("recipientChain", INamed "ChainId"); ("recipientAddress", IRaw 32); ("shouldQueue", IBool)]);
     ("ReleaseStatus", IEnum [("NotApproved", []); ("ReleaseAfter", [II64]); ("Released", [])]);
     ("RateLimitState", IStruct [("limit", IU 8); ("capacityAtLastTx", IU 8); ("lastTxTimestamp", II64)]);
     ("SetTransceiverPeerArgs", IStruct [("chainId", INamed "ChainId"); ("address", IRaw 32)]);
     ("BroadcastPeerArgs", IStruct [("chainId", IU 2)]);
     ("ReleaseOutboundArgs", IStruct [("revertOnDelay", IBool)]);
     ("ChainId", IStruct [("id", IU 2)]);
     ("Mode", IEnum [("Locking", []); ("Burning", [])]);
     ("TrimmedAmount", IStruct [("amount", IU 8); ("decimals", IU 1)]);
     ("BridgeConfig", IStruct [("guardianSetExpirationTime", IU 4); ("fee", IU 8)])]
  | Gen2, AQuoter =>
    [("RegisterChainArgs", IStruct [("chainId", IU 2)]);
     ("RegisterNttArgs", IStruct [("nttProgramId", IKey); ("wormholeTransceiverIndex", IU 1); ("gasCost", IU 4)]);
     ("DeregisterNttArgs", IStruct [("nttProgramId", IKey)]);
     ("RequestRelayArgs", IStruct [("gasDropoff", IU 8); ("maxFee", IU 8)]);
     ("UpdateSolPriceArgs", IStruct [("solPrice", IU 8)]);
     ("UpdateChainPricesArgs", IStruct [("nativePrice", IU 8); ("gasPrice", IU 8)]);
     ("UpdateChainParamsArgs", IStruct [("maxGasDropoff", IU 8); ("basePrice", IU 8)])]
  | Gen2, AGovernance =>
    []
  | Gen2, AHook =>
    []
  | _, ATransceiver => []
  end.
Definition old_accounts (n : generation) (p : program) : list (string * list (string * ity)) :=
  match n, p with
  | Gen1, AManager =>
    [("Config", [("bump", IU 1); ("owner", IKey); ("pendingOwner", IOpt IKey); ("mint", IKey); ("tokenProgram", IKey); ("mode", INamed "Mode"); ("chainId", INamed "ChainId"); ("nextTransceiverId", IU 1); ("threshold", IU 1); ("enabledTransceivers", INamed "Bitmap"); ("paused", IBool); ("custody", IKey)]);
     ("NttManagerPeer", [("bump", IU 1); ("address", IRaw 32); ("tokenDecimals", IU 1)]);
     ("InboxItem", [("init", IBool); ("bump", IU 1); ("amount", IU 8); ("recipientAddress", IKey); ("votes", INamed "Bitmap"); ("releaseStatus", INamed "ReleaseStatus")]);
     ("InboxRateLimit", [("bump", IU 1); ("rateLimit", INamed "RateLimitState")]);
     ("OutboxItem", [("amount", INamed "TrimmedAmount"); ("sender", IKey); ("recipientChain", INamed "ChainId"); ("recipientNttManager", IRaw 32); ("recipientAddress", IRaw 32); ("releaseTimestamp", II64); ("released", INamed "Bitmap")]);
     ("OutboxRateLimit", [("rateLimit", INamed "RateLimitState")]);
     ("RegisteredTransceiver", [("bump", IU 1); ("id", IU 1); ("transceiverAddress", IKey)]);
     ("TransceiverPeer", [("bump", IU 1); ("address", IRaw 32)]);
     ("BridgeData", [("guardianSetIndex", IU 4); ("lastLamports", IU 8); ("config", INamed "BridgeConfig")])]
  | Gen1, AQuoter =>
    [("Instance", [("owner", IKey); ("assistant", IKey); ("feeRecipient", IKey); ("solPrice", IU 8)]);
     ("RegisteredChain", [("bump", IU 1); ("maxGasDropoff", IU 8); ("basePrice", IU 8); ("nativePrice", IU 8); ("gasPrice", IU 8)]);
     ("RegisteredNtt", [("bump", IU 1); ("wormholeTransceiverIndex", IU 1); ("gasCost", IU 4)]);
     ("RelayRequest", [("requestedGasDropoff", IU 8)])]
  | Gen1, AGovernance =>
    [("ReplayProtection", [("bump", IU 1)])]
  | Gen1, AHook =>
    [("Counter", [("count", IU 8)])]
  | Gen2, AManager =>
    [("Config", [("bump", IU 1); ("owner", IKey); ("pendingOwner", IOpt IKey); ("mint", IKey); ("tokenProgram", IKey); ("mode", INamed "Mode"); ("chainId", INamed "ChainId"); ("nextTransceiverId", IU 1); ("threshold", IU 1); ("enabledTransceivers", INamed "Bitmap"); ("paused", IBool); ("custody", IKey)]);
     ("LUT", [("bump", IU 1); ("address", IKey)]);
     ("NttManagerPeer", [("bump", IU 1); ("address", IRaw 32); ("tokenDecimals", IU 1)]);
     ("InboxItem", [("init", IBool); ("bump", IU 1); ("amount", IU 8); ("recipientAddress", IKey); ("votes", INamed "Bitmap"); ("releaseStatus", INamed "ReleaseStatus")]);
     ("InboxRateLimit", [("bump", IU 1); ("rateLimit", INamed "RateLimitState")]);
     ("OutboxItem", [("amount", INamed "TrimmedAmount"); ("sender", IKey); ("recipientChain", INamed "ChainId"); ("recipientNttManager", IRaw 32); ("recipientAddress", IRaw 32); ("releaseTimestamp", II64); ("released", INamed "Bitmap")]);
     ("OutboxRateLimit", [("rateLimit", INamed "RateLimitState")]);
     ("RegisteredTransceiver", [("bump", IU 1); ("id", IU 1); ("transceiverAddress", IKey)]);
     ("TransceiverPeer", [("bump", IU 1); ("address", IRaw 32)]);
     ("BridgeData", [("guardianSetIndex", IU 4); ("lastLamports", IU 8); ("config", INamed "BridgeConfig")])]
  | Gen2, AQuoter =>
    [("Instance", [("owner", IKey); ("assistant", IKey); ("feeRecipient", IKey); ("solPrice", IU 8)]);
     ("RegisteredChain", [("bump", IU 1); ("maxGasDropoff", IU 8); ("basePrice", IU 8); ("nativePrice", IU 8); ("gasPrice", IU 8)]);
     ("RegisteredNtt", [("bump", IU 1); ("wormholeTransceiverIndex", IU 1); ("gasCost", IU 4)]);
     ("RelayRequest", [("requestedGasDropoff", IU 8)])]
  | Gen2, AGovernance =>
    [("ReplayProtection", [("bump", IU 1)])]
  | Gen2, AHook =>
    [("Counter", [("count", IU 8)])]
  | _, ATransceiver => []
  end.
Definition old_arguments (n : generation) (p : program) : list (string * list (string * ity)) :=
  match n, p with
  | Gen1, AManager =>
    [("initialize", [("args", INamed "InitializeArgs")]);
     ("version", []);
     ("transferBurn", [("args", INamed "TransferArgs")]);
     ("transferLock", [("args", INamed "TransferArgs")]);
     ("redeem", [("args", INamed "RedeemArgs")]);
     ("releaseInboundMint", [("args", INamed "ReleaseInboundArgs")]);
     ("releaseInboundUnlock", [("args", INamed "ReleaseInboundArgs")]);
     ("transferOwnership", []);
     ("claimOwnership", []);
     ("setPaused", [("pause", IBool)]);
     ("setPeer", [("args", INamed "SetPeerArgs")]);
     ("registerTransceiver", []);
     ("setOutboundLimit", [("args", INamed "SetOutboundLimitArgs")]);
     ("setInboundLimit", [("args", INamed "SetInboundLimitArgs")]);
     ("setWormholePeer", [("args", INamed "SetTransceiverPeerArgs")]);
     ("receiveWormholeMessage", []);
     ("releaseWormholeOutbound", [("args", INamed "ReleaseOutboundArgs")]);
     ("broadcastWormholeId", []);
     ("broadcastWormholePeer", [("args", INamed "BroadcastPeerArgs")])]
  | Gen1, AQuoter =>
    [("requestRelay", [("args", INamed "RequestRelayArgs")]);
     ("closeRelay", []);
     ("initialize", []);
     ("setAssistant", []);
     ("setFeeRecipient", []);
     ("registerChain", [("args", INamed "RegisterChainArgs")]);
     ("registerNtt", [("args", INamed "RegisterNttArgs")]);
     ("deregisterNtt", [("args", INamed "DeregisterNttArgs")]);
     ("updateSolPrice", [("args", INamed "UpdateSolPriceArgs")]);
     ("updateChainPrices", [("args", INamed "UpdateChainPricesArgs")]);
     ("updateChainParams", [("args", INamed "UpdateChainParamsArgs")])]
  | Gen1, AGovernance =>
    [("governance", [])]
  | Gen1, AHook =>
    [("initializeExtraAccountMetaList", []);
     ("transferHook", [("amount", IU 8)])]
  | Gen2, AManager =>
    [("initialize", [("args", INamed "InitializeArgs")]);
     ("initializeLut", [("recentSlot", IU 8)]);
     ("version", []);
     ("transferBurn", [("args", INamed "TransferArgs")]);
     ("transferLock", [("args", INamed "TransferArgs")]);
     ("redeem", [("args", INamed "RedeemArgs")]);
     ("releaseInboundMint", [("args", INamed "ReleaseInboundArgs")]);
     ("releaseInboundUnlock", [("args", INamed "ReleaseInboundArgs")]);
     ("transferOwnership", []);
     ("claimOwnership", []);
     ("setPaused", [("pause", IBool)]);
     ("setPeer", [("args", INamed "SetPeerArgs")]);
     ("registerTransceiver", []);
     ("setOutboundLimit", [("args", INamed "SetOutboundLimitArgs")]);
     ("setInboundLimit", [("args", INamed "SetInboundLimitArgs")]);
     ("setWormholePeer", [("args", INamed "SetTransceiverPeerArgs")]);
     ("receiveWormholeMessage", []);
     ("releaseWormholeOutbound", [("args", INamed "ReleaseOutboundArgs")]);
     ("broadcastWormholeId", []);
     ("broadcastWormholePeer", [("args", INamed "BroadcastPeerArgs")])]
  | Gen2, AQuoter =>
    [("requestRelay", [("args", INamed "RequestRelayArgs")]);
     ("closeRelay", []);
     ("initialize", []);
     ("setAssistant", []);
     ("setFeeRecipient", []);
     ("registerChain", [("args", INamed "RegisterChainArgs")]);
     ("registerNtt", [("args", INamed "RegisterNttArgs")]);
     ("deregisterNtt", [("args", INamed "DeregisterNttArgs")]);
     ("updateSolPrice", [("args", INamed "UpdateSolPriceArgs")]);
     ("updateChainPrices", [("args", INamed "UpdateChainPricesArgs")]);
     ("updateChainParams", [("args", INamed "UpdateChainParamsArgs")])]
  | Gen2, AGovernance =>
    [("governance", [])]
  | Gen2, AHook =>
    [("initializeExtraAccountMetaList", []);
     ("transferHook", [("amount", IU 8)])]
  | _, ATransceiver => []
  end.
Definition old_lists (n : generation) (p : program) : list (string * list field) :=
  match n, p with
  | Gen1, AManager =>
    [("initialize", [SW "payer"; S "deployer"; R "programData"; W "config"; R "mint"; W "rateLimit"; R "tokenAuthority"; W "custody"; R "tokenProgram"; R "associatedTokenProgram"; R "bpfLoaderUpgradeableProgram"; R "systemProgram"]);
     ("version", []);
     ("transferBurn", [SW "common.payer"; R "common.config.config"; W "common.mint"; W "common.from"; R "common.tokenProgram"; SW "common.outboxItem"; W "common.outboxRateLimit"; R "common.systemProgram"; W "inboxRateLimit"; R "peer"; R "sessionAuthority"]);
     ("transferLock", [SW "common.payer"; R "common.config.config"; W "common.mint"; W "common.from"; R "common.tokenProgram"; SW "common.outboxItem"; W "common.outboxRateLimit"; R "common.systemProgram"; W "inboxRateLimit"; R "peer"; R "sessionAuthority"; W "custody"]);
     ("redeem", [SW "payer"; R "config"; R "peer"; R "transceiverMessage"; R "transceiver"; R "mint"; W "inboxItem"; W "inboxRateLimit"; W "outboxRateLimit"; R "systemProgram"]);
     ("releaseInboundMint", [SW "common.payer"; R "common.config.config"; W "common.inboxItem"; W "common.recipient"; R "common.tokenAuthority"; W "common.mint"; R "common.tokenProgram"]);
     ("releaseInboundUnlock", [SW "common.payer"; R "common.config.config"; W "common.inboxItem"; W "common.recipient"; R "common.tokenAuthority"; W "common.mint"; R "common.tokenProgram"; W "custody"]);
     ("transferOwnership", [W "config"; S "owner"; R "newOwner"; R "upgradeLock"; W "programData"; R "bpfLoaderUpgradeableProgram"]);
     ("claimOwnership", [W "config"; R "upgradeLock"; S "newOwner"; W "programData"; R "bpfLoaderUpgradeableProgram"]);
     ("setPaused", [S "owner"; W "config"]);
     ("setPeer", [SW "payer"; S "owner"; R "config"; W "peer"; W "inboxRateLimit"; R "systemProgram"]);
     ("registerTransceiver", [W "config"; S "owner"; SW "payer"; R "transceiver"; W "registeredTransceiver"; R "systemProgram"]);
     ("setOutboundLimit", [R "config"; S "owner"; W "rateLimit"]);
     ("setInboundLimit", [R "config"; S "owner"; W "rateLimit"]);
     ("setWormholePeer", [R "config"; S "owner"; SW "payer"; W "peer"; R "systemProgram"]);
     ("receiveWormholeMessage", [SW "payer"; R "config.config"; R "peer"; R "vaa"; W "transceiverMessage"; R "systemProgram"]);
     ("releaseWormholeOutbound", [SW "payer"; R "config.config"; W "outboxItem"; R "transceiver"; W "wormholeMessage"; R "emitter"; W "wormhole.bridge"; W "wormhole.feeCollector"; W "wormhole.sequence"; R "wormhole.program"; R "wormhole.systemProgram"; R "wormhole.clock"; R "wormhole.rent"]);
     ("broadcastWormholeId", [SW "payer"; R "config"; R "mint"; SW "wormholeMessage"; R "emitter"; W "wormhole.bridge"; W "wormhole.feeCollector"; W "wormhole.sequence"; R "wormhole.program"; R "wormhole.systemProgram"; R "wormhole.clock"; R "wormhole.rent"]);
     ("broadcastWormholePeer", [SW "payer"; R "config"; R "peer"; SW "wormholeMessage"; R "emitter"; W "wormhole.bridge"; W "wormhole.feeCollector"; W "wormhole.sequence"; R "wormhole.program"; R "wormhole.systemProgram"; R "wormhole.clock"; R "wormhole.rent"])]
  | Gen1, AQuoter =>
    [("requestRelay", [SW "payer"; R "instance"; R "registeredChain"; R "registeredNtt"; R "outboxItem"; W "relayRequest"; R "systemProgram"]);
     ("closeRelay", [S "authority"; R "instance"; W "feeRecipient"; W "relayRequest"; R "systemProgram"]);
     ("initialize", [SW "owner"; W "instance"; R "feeRecipient"; W "programData"; R "systemProgram"]);
     ("setAssistant", [S "owner"; W "instance"; R "assistant"]);
     ("setFeeRecipient", [S "owner"; W "instance"; R "feeRecipient"]);
     ("registerChain", [SW "authority"; R "instance"; W "registeredChain"; R "systemProgram"]);
     ("registerNtt", [SW "authority"; R "instance"; W "registeredNtt"; R "systemProgram"]);
     ("deregisterNtt", [SW "authority"; R "instance"; W "registeredNtt"; R "systemProgram"]);
     ("updateSolPrice", [S "authority"; W "instance"]);
     ("updateChainPrices", [S "authority"; R "instance"; W "registeredChain"]);
     ("updateChainParams", [S "authority"; R "instance"; W "registeredChain"])]
  | Gen1, AGovernance =>
    [("governance", [SW "payer"; W "governance"; R "vaa"; R "program"; W "replay"; R "systemProgram"])]
  | Gen1, AHook =>
    [("initializeExtraAccountMetaList", [SW "payer"; W "extraAccountMetaList"; R "mint"; R "tokenProgram"; R "associatedTokenProgram"; W "counter"; R "systemProgram"]);
     ("transferHook", [R "sourceToken"; R "mint"; R "destinationToken"; R "authority"; R "extraAccountMetaList"; R "dummyAccount"; W "counter"])]
  | Gen2, AManager =>
    [("initialize", [SW "payer"; S "deployer"; R "programData"; W "config"; R "mint"; W "rateLimit"; R "tokenAuthority"; W "custody"; R "tokenProgram"; R "associatedTokenProgram"; R "bpfLoaderUpgradeableProgram"; R "systemProgram"]);
     ("initializeLut", [SW "payer"; R "authority"; W "lutAddress"; W "lut"; R "lutProgram"; R "systemProgram"; R "entries.config"; R "entries.custody"; R "entries.tokenProgram"; R "entries.mint"; R "entries.tokenAuthority"; R "entries.outboxRateLimit"; W "entries.wormhole.bridge"; W "entries.wormhole.feeCollector"; W "entries.wormhole.sequence"; R "entries.wormhole.program"; R "entries.wormhole.systemProgram"; R "entries.wormhole.clock"; R "entries.wormhole.rent"]);
     ("version", []);
     ("transferBurn", [SW "common.payer"; R "common.config.config"; W "common.mint"; W "common.from"; R "common.tokenProgram"; SW "common.outboxItem"; W "common.outboxRateLimit"; W "common.custody"; R "common.systemProgram"; W "inboxRateLimit"; R "peer"; R "sessionAuthority"; R "tokenAuthority"]);
     ("transferLock", [SW "common.payer"; R "common.config.config"; W "common.mint"; W "common.from"; R "common.tokenProgram"; SW "common.outboxItem"; W "common.outboxRateLimit"; W "common.custody"; R "common.systemProgram"; W "inboxRateLimit"; R "peer"; R "sessionAuthority"]);
     ("redeem", [SW "payer"; R "config"; R "peer"; R "transceiverMessage"; R "transceiver"; R "mint"; W "inboxItem"; W "inboxRateLimit"; W "outboxRateLimit"; R "systemProgram"]);
     ("releaseInboundMint", [SW "common.payer"; R "common.config.config"; W "common.inboxItem"; W "common.recipient"; R "common.tokenAuthority"; W "common.mint"; R "common.tokenProgram"; W "common.custody"]);
     ("releaseInboundUnlock", [SW "common.payer"; R "common.config.config"; W "common.inboxItem"; W "common.recipient"; R "common.tokenAuthority"; W "common.mint"; R "common.tokenProgram"; W "common.custody"]);
     ("transferOwnership", [W "config"; S "owner"; R "newOwner"; R "upgradeLock"; W "programData"; R "bpfLoaderUpgradeableProgram"]);
     ("claimOwnership", [W "config"; R "upgradeLock"; S "newOwner"; W "programData"; R "bpfLoaderUpgradeableProgram"]);
     ("setPaused", [S "owner"; W "config"]);
     ("setPeer", [SW "payer"; S "owner"; R "config"; W "peer"; W "inboxRateLimit"; R "systemProgram"]);
     ("registerTransceiver", [W "config"; S "owner"; SW "payer"; R "transceiver"; W "registeredTransceiver"; R "systemProgram"]);
     ("setOutboundLimit", [R "config"; S "owner"; W "rateLimit"]);
     ("setInboundLimit", [R "config"; S "owner"; W "rateLimit"]);
     ("setWormholePeer", [R "config"; S "owner"; SW "payer"; W "peer"; R "systemProgram"]);
     ("receiveWormholeMessage", [SW "payer"; R "config.config"; R "peer"; R "vaa"; W "transceiverMessage"; R "systemProgram"]);
     ("releaseWormholeOutbound", [SW "payer"; R "config.config"; W "outboxItem"; R "transceiver"; W "wormholeMessage"; R "emitter"; W "wormhole.bridge"; W "wormhole.feeCollector"; W "wormhole.sequence"; R "wormhole.program"; R "wormhole.systemProgram"; R "wormhole.clock"; R "wormhole.rent"]);
     ("broadcastWormholeId", [SW "payer"; R "config"; R "mint"; SW "wormholeMessage"; R "emitter"; W "wormhole.bridge"; W "wormhole.feeCollector"; W "wormhole.sequence"; R "wormhole.program"; R "wormhole.systemProgram"; R "wormhole.clock"; R "wormhole.rent"]);
     ("broadcastWormholePeer", [SW "payer"; R "config"; R "peer"; SW "wormholeMessage"; R "emitter"; W "wormhole.bridge"; W "wormhole.feeCollector"; W "wormhole.sequence"; R "wormhole.program"; R "wormhole.systemProgram"; R "wormhole.clock"; R "wormhole.rent"])]
  | Gen2, AQuoter =>
    [("requestRelay", [SW "payer"; R "instance"; R "registeredChain"; R "registeredNtt"; R "outboxItem"; W "relayRequest"; R "systemProgram"]);
     ("closeRelay", [S "authority"; R "instance"; W "feeRecipient"; W "relayRequest"; R "systemProgram"]);
     ("initialize", [SW "owner"; W "instance"; R "feeRecipient"; W "programData"; R "systemProgram"]);
     ("setAssistant", [S "owner"; W "instance"; R "assistant"]);
     ("setFeeRecipient", [S "owner"; W "instance"; R "feeRecipient"]);
     ("registerChain", [SW "authority"; R "instance"; W "registeredChain"; R "systemProgram"]);
     ("registerNtt", [SW "authority"; R "instance"; W "registeredNtt"; R "systemProgram"]);
     ("deregisterNtt", [SW "authority"; R "instance"; W "registeredNtt"; R "systemProgram"]);
     ("updateSolPrice", [S "authority"; W "instance"]);
     ("updateChainPrices", [S "authority"; R "instance"; W "registeredChain"]);
     ("updateChainParams", [S "authority"; R "instance"; W "registeredChain"])]
  | Gen2, AGovernance =>
    [("governance", [SW "payer"; W "governance"; R "vaa"; R "program"; W "replay"; R "systemProgram"])]
  | Gen2, AHook =>
    [("initializeExtraAccountMetaList", [SW "payer"; W "extraAccountMetaList"; R "mint"; R "tokenProgram"; R "associatedTokenProgram"; W "counter"; R "systemProgram"]);
     ("transferHook", [R "sourceToken"; R "mint"; R "destinationToken"; R "authority"; R "extraAccountMetaList"; R "dummyAccount"; W "counter"])]
  | _, ATransceiver => []
  end.

(** What a client makes of an interface: the data of a call, and the list of its accounts, which it knows by the names given there. *)
Definition old_data (n : generation) (p : program) (g : gcall) (data : bytes) : Prop :=
  exists fs b, entry_for (fst (published g)) (old_arguments n p) = Some fs /\ encodes_fields (old_types n p) fs (snd (published g)) b /\
    data = call_header (fst (published g)) ++ b.
Definition made (l : list field) (acc : string -> handle) : list meta := map (fun f => Meta (acc (fl_name f)) (fl_signer f) (fl_writable f)) l.
Definition q_made (l : list field) (acc : string -> qaddr) : list qmeta := map (fun f => QMeta (acc (fl_name f)) (fl_signer f) (fl_writable f)) l.
Definition q_made_now (l : list q_field) (acc : string -> qaddr) : list qmeta := map (fun f => QMeta (acc (qf_name f)) (qf_signer f) (qf_writable f)) l.

(** The functions whose lists of accounts are not those of the first generation. *)
Definition rearranged (g : gcall) : Prop :=
  match g with GTransferLock _ _ _ _ | GTransferBurn _ _ _ _ | GReleaseMint _ => True | _ => False end.
(** The custody had another name then. *)
Definition old_name (n : generation) (s : string) : string :=
  match n with Gen1 => if String.eqb s "common.custody" then "custody" else s | Gen2 => s end.

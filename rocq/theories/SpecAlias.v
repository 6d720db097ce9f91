(** * One account in two places (C91).

    Anchor reads the accounts of an instruction into copies before the function runs and writes the copies back after it. If one account
    could be passed in two places that are read or written, a function would work on two copies of it and lose one of them. The model has one
    state and no copies; that is right as long as no account that an instruction rewrites can stand in two such places. *)
From Coq Require Import String.
From Verif Require Export SpecIdl QEntry SpecQEntry.
Import ListNotations.
Local Open Scope Z_scope.
Local Open Scope string_scope.

(** The accounts of which a function has a copy: those of type [Account] or [InterfaceAccount], by their names in the published interface
    (initialize.rs:24-80; luts.rs:62-67, 81, 108; transfer.rs:44-80, 120-133, 268-281; redeem.rs:25-98 with the message, which is read through
    [ValidatedTransceiverMessage]; release_inbound.rs:17-51; admin.rs:33-37, 57, 111-115, 132, 167-191, 223-227, 239-246, 269-277, 296-311, 330-334;
    mark_outbox_item_as_released.rs:18-29; transceivers/wormhole/instructions/admin.rs:9-26, receive_message.rs:21-60, release_outbound.rs:18-30,
    broadcast_id.rs:12-17, broadcast_peer.rs:15-21; transceivers/wormhole/accounts.rs:22). The bridge account of [initialize_lut] is left out:
    that it belongs to the bridge is not part of the model. *)
Definition loaded (g : gcall) : list string :=
  match g with
  | GInitialize _ _ _ => ["programData"; "config"; "mint"; "rateLimit"; "custody"]
  | GInitializeLut _ => ["lut"; "entries.config"; "entries.outboxRateLimit"]
  | GTransferBurn _ _ _ _ | GTransferLock _ _ _ _ =>
    ["common.config.config"; "common.mint"; "common.from"; "common.outboxItem"; "common.outboxRateLimit"; "common.custody"; "inboxRateLimit"; "peer"]
  | GRedeem => ["config"; "peer"; "transceiverMessage"; "transceiver"; "mint"; "inboxItem"; "inboxRateLimit"; "outboxRateLimit"]
  | GReleaseMint _ | GReleaseUnlock _ => ["common.config.config"; "common.inboxItem"; "common.recipient"; "common.mint"; "common.custody"]
  | GTransferOwnership | GTransferOwnershipOneStep | GClaimOwnership => ["config"; "programData"]
  | GSetPaused _ => ["config"]
  | GSetPeer _ _ _ _ => ["config"; "peer"; "inboxRateLimit"]
  | GRegisterTransceiver => ["config"; "registeredTransceiver"]
  | GSetOutboundLimit _ | GSetInboundLimit _ _ => ["config"; "rateLimit"]
  | GMark => ["config.config"; "outboxItem"; "transceiver"]
  | GSetWormholePeer _ _ => ["config"; "peer"]
  | GReceive => ["config.config"; "peer"; "vaa"; "transceiverMessage"]
  | GReleaseOutbound _ => ["config.config"; "outboxItem"; "transceiver"; "wormhole.bridge"]
  | GBroadcastId => ["config"; "mint"; "wormhole.bridge"]
  | GBroadcastPeer _ => ["config"; "peer"; "wormhole.bridge"]
  | _ => []
  end.

(** An address holds an account of one program: data, a token account or a mint. *)
Definition one_kind (s : state) : Prop := forall a,
  (st_accts s a <> None -> st_toks s a = None /\ st_mints s a = None) /\ (st_toks s a <> None -> st_mints s a = None).

(** The exception: a release to the manager's own custody. *)
Definition to_custody (s : state) (p : program) (g : gcall) (ms : list meta) (n n' : string) : Prop :=
  (exists r, g = GReleaseMint r \/ g = GReleaseUnlock r) /\
  (n = "common.recipient" /\ n' = "common.custody" \/ n = "common.custody" /\ n' = "common.recipient") /\
  exists a it, passed p g ms "common.inboxItem" (HA a) /\ st_accts s a = Some (Acct PManager (DInboxItem it)) /\ ib_recipient it = token_authority.

(** The quoter's copies: admin.rs:20, 37, 56, 76, 107, 116, 143, 152, 178, 186; update_prices.rs:20, 44, 47, 70, 73; request_relay.rs:41-74 with the outbox
    item, which is read in request_relay.rs:43-61; close_relay.rs:13, 20. *)
Definition q_loaded (g : gcall) : list string :=
  match g with
  | Dispatch.QInitialize => ["instance"; "programData"]
  | Dispatch.QSetAssistant | Dispatch.QSetFeeRecipient | Dispatch.QUpdateSolPrice _ => ["instance"]
  | Dispatch.QRegisterChain _ | Dispatch.QUpdateChainPrices _ _ | Dispatch.QUpdateChainParams _ _ => ["instance"; "registeredChain"]
  | Dispatch.QRegisterNtt _ _ _ | Dispatch.QDeregisterNtt _ => ["instance"; "registeredNtt"]
  | Dispatch.QRequestRelay _ _ => ["instance"; "registeredChain"; "registeredNtt"; "outboxItem"; "relayRequest"]
  | Dispatch.QCloseRelay => ["instance"; "relayRequest"]
  | _ => []
  end.

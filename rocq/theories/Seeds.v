(** * Seeds of program-derived addresses.

    Every [seeds = [...]] in the four programs. [Pubkey::create_program_address] (Solana) hashes the concatenation of the
    seeds, the bump seed, the program id and a fixed marker, without separators. Keys and digests are 32-byte strings. *)
From Coq Require Import String.
From Verif Require Export Bytes Sha256.
Import ListNotations.
Local Open Scope Z_scope.

Inductive purpose :=
  (** programs/example-native-token-transfers: initialize.rs:35, 52, 58 *)
  | SConfig | SOutboxRateLimit | STokenAuthority
  (** transfer.rs:122, 130, 136-140; redeem.rs:32, 65-69, 89-93; admin.rs:176, 185, 305 *)
  | SInboxRateLimit (chain : Z) | SPeer (chain : Z) | SSession (owner args : bytes) | SInboxItem (digest : bytes)
  (** admin.rs:45, 118, 243; mark_outbox_item_as_released.rs:12; luts.rs:45, 64 *)
  | SUpgradeLock | SRegistered (transceiver : bytes) | SOutboxSigner | SLutAuthority | SLut
  (** transceivers/wormhole/instructions (and programs/ntt-transceiver/src/wormhole/instructions):
      admin.rs:23, receive_message.rs:24, 48-52, release_outbound.rs:34, 41 *)
  | SXPeer (chain : Z) | SVtm (chain : Z) (id : bytes) | SMessage (item : bytes) | SEmitter
  (** programs/ntt-quoter/src: admin.rs:17, 113, 149; request_relay.rs:44, 58, 71 *)
  | SInstance | SRegChain (chain : Z) | SRegNtt (program : bytes) | SRelayRequest (item : bytes)
  (** programs/wormhole-governance/src/instructions/governance.rs:45, 67-72 *)
  | SGovernance | SReplay (chain : Z) (emitter : bytes) (sequence : Z).

Definition seeds (p : purpose) : list bytes :=
  match p with
  | SConfig => [str "config"]
  | SOutboxRateLimit => [str "outbox_rate_limit"]
  | STokenAuthority => [str "token_authority"]
  | SInboxRateLimit c => [str "inbox_rate_limit"; be_enc 2 c]
  | SPeer c => [str "peer"; be_enc 2 c]
  | SSession o a => [str "session_authority"; o; a]
  | SInboxItem d => [str "inbox_item"; d]
  | SUpgradeLock => [str "upgrade_lock"]
  | SRegistered t => [str "registered_transceiver"; t]
  | SOutboxSigner => [str "outbox_item_signer"]
  | SLutAuthority => [str "lut_authority"]
  | SLut => [str "lut"]
  | SXPeer c => [str "transceiver_peer"; be_enc 2 c]
  | SVtm c i => [str "transceiver_message"; be_enc 2 c; i]
  | SMessage i => [str "message"; i]
  | SEmitter => [str "emitter"]
  | SInstance => [str "instance"]
  | SRegChain c => [str "registered_chain"; be_enc 2 c]
  | SRegNtt p => [str "registered_ntt"; p]
  | SRelayRequest i => [str "relay_request"; i]
  | SGovernance => [str "governance"]
  | SReplay c e q => [str "replay"; be_enc 2 c; e; be_enc 8 q]
  end.

(** Parameters within their Rust types. *)
Definition wf_purpose (p : purpose) : Prop :=
  let k (b : bytes) := List.length b = 32%nat in
  match p with
  | SInboxRateLimit c | SPeer c | SXPeer c | SRegChain c => is_u16 c
  | SSession o a => k o /\ k a
  | SInboxItem d | SRegistered d | SMessage d | SRegNtt d | SRelayRequest d => k d
  | SVtm c i => is_u16 c /\ k i
  | SReplay c e q => is_u16 c /\ k e /\ is_u64 q
  | _ => True
  end.

(** solana-program 1.18 [Pubkey::create_program_address]: the hashed bytes. *)
Definition pda_preimage (program : bytes) (p : purpose) (bump : byte) : bytes :=
  List.concat (seeds p) ++ [bump] ++ program ++ str "ProgramDerivedAddress".

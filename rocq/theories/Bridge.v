(** * From symbolic messages to bytes.

    Chain.v keeps addresses symbolic and treats keccak-256 as an arbitrary function of a message. Here both get a byte form:
    [key] gives the 32 bytes of an address, and the hashes of Chain.v become a hash [K] of the byte strings of Wire.v. *)
From Verif Require Export SpecTransfer Wire SpecWire.
Local Open Scope Z_scope.

(** The byte form of the messages of Chain.v. release_outbound.rs:69-86 leaves the transceiver payload empty. *)
Definition wire_msg (key : addr -> bytes) (m : ntt_msg) : std_nmm :=
  Nmm (key (nm_id m)) (key (nm_sender m)) (Ntt (nm_amount m) (key (nm_token m)) (nm_to_chain m) (key (nm_to m)) tt).
Definition wire_tm (key : addr -> bytes) (m : tr_msg) : std_tmsg :=
  Tmsg (Tmd (key (tm_source m)) (key (tm_recipient m)) (wire_msg key (tm_msg m))) [].
Definition wire_args (key : addr -> bytes) (a : targs) : transfer_args := TArgs (ar_amount a) (ar_chain a) (key (ar_to a)) (ar_queue a).

(** The bytes of a message handed to the core bridge: release_outbound.rs:87-100, broadcast_id.rs:30-45, broadcast_peer.rs:38-53. *)
Definition wire_payload (key : addr -> bytes) (pl : post_payload) : option bytes :=
  match pl with
  | PPTransfer m => write_std (wire_tm key m)
  | PPInfo mgr md tok dec => write_wt_info (WtInfo (key mgr) md (key tok) dec)
  | PPReg ch a => write_wt_reg (WtReg ch (key a))
  | PPOther _ => None
  end.

(** A digest as an address: ntt_manager.rs:26-31 and transfer.rs:94-107 with [K] for keccak-256. *)
Definition digest (b : bytes) : addr := ARaw (Z.to_nat (be_dec b)).
Definition byte_hashes (K : bytes -> bytes) (key : addr -> bytes) : hashes :=
  Hashes (fun ch m => match nmm_preimage std_payload ch (wire_msg key m) with Some b => digest (K b) | None => ANull end)
         (fun a => digest (K (args_preimage (wire_args key a)))).

(** ** Vocabulary *)
Definition keys32 (key : addr -> bytes) : Prop := forall a, length (key a) = 32%nat.
Definition hash32 (K : bytes -> bytes) : Prop := forall b, length (K b) = 32%nat.
(** Program [p] handed [pl] to the core bridge. *)
Definition posted_by (s : state) (p : prog) (pl : post_payload) : Prop := In (Post (pda_emitter p) pl) (st_posted s).

(** The documented layout of a published transfer: docs/Transceiver.md and docs/NttManager.md, all offsets absolute. *)
Definition transfer_layout (b : bytes) (source recipient id sender token to : bytes) (decimals amount to_chain : Z) : Prop :=
  length b = 217%nat /\
  sub 0 4 b = [x99; x45; xff; x10]%byte /\
  sub 4 32 b = source /\
  sub 36 32 b = recipient /\
  num 68 2 b = 145 /\
  sub 70 32 b = id /\
  sub 102 32 b = sender /\
  num 134 2 b = 79 /\
  sub 136 4 b = [x99; x4e; x54; x54]%byte /\
  num 140 1 b = decimals /\
  num 141 8 b = amount /\
  sub 149 32 b = token /\
  sub 181 32 b = to /\
  num 213 2 b = to_chain /\
  num 215 2 b = 0.

(** Same source chain and same bytes, or two different strings of hashed bytes with the same hash. *)
Definition same_or_collision (K : bytes -> bytes) (key : addr -> bytes) (ch : Z) (nm : ntt_msg) (ch' : Z) (nm' : ntt_msg) : Prop :=
  (ch = ch' /\ wire_msg key nm = wire_msg key nm') \/
  exists b b', nmm_preimage std_payload ch (wire_msg key nm) = Some b /\ nmm_preimage std_payload ch' (wire_msg key nm') = Some b' /\
    b <> b' /\ K b = K b'.
(** Among the messages delivered in [tr], different ones have different bytes, and different bytes have different hashes. *)
Definition separate_keys (key : addr -> bytes) (tr : list ev) : Prop := forall e e' p p' ch nm ch' nm', In e tr -> In e' tr ->
  delivery e p ch nm -> delivery e' p' ch' nm' -> wire_msg key nm = wire_msg key nm' -> nm = nm'.
Definition separate_hashes (K : bytes -> bytes) (key : addr -> bytes) (tr : list ev) : Prop := forall e e' p p' ch nm ch' nm' b b', In e tr -> In e' tr ->
  delivery e p ch nm -> delivery e' p' ch' nm' -> nmm_preimage std_payload ch (wire_msg key nm) = Some b ->
  nmm_preimage std_payload ch' (wire_msg key nm') = Some b' -> K b = K b' -> b = b'.

(** * Wire codecs.

    Model of solana/modules/ntt-messages/src/{trimmed_amount,chain_id,mode,ntt,ntt_manager,transceiver}.rs and
    solana/modules/ntt-messages/src/transceivers/wormhole.rs. A Rust [u8; 32] is a byte list; the length 32 is part of
    the well-formedness predicates ([wf_*]) which hold of every Rust value of the type. Readers are over an
    in-memory byte string (all callers read from slices or [Vec]s). *)
From Verif Require Export Bytes Trimmed.
Local Open Scope Z_scope.

(** ** Payload types: wormhole-io's [Readable + Writeable + TypePrefixedPayload].
    [p_size] is [Readable::SIZE], [p_type] is [TypePrefixedPayload::TYPE]. *)
Record payload (A : Type) := Payload {
  p_size : option Z;
  p_type : option byte;
  p_read : reader A;
  p_write : A -> option bytes;
  p_wsize : A -> Z }.
Arguments p_size {A}. Arguments p_type {A}. Arguments p_read {A}. Arguments p_write {A}. Arguments p_wsize {A}.

(** [TypePrefixedPayload::read_payload] (wormhole-io): check the type byte if there is one, then [read]. *)
Definition read_payload {A} (c : payload A) : reader A :=
  match p_type c with
  | None => p_read c
  | Some t => do b <- take 1; do _ <- rguard (bytes_eqb b [t]); p_read c
  end.

(** [TypePrefixedPayload::write_payload] (wormhole-io). *)
Definition write_payload {A} (c : payload A) (a : A) : option bytes :=
  match p_type c with
  | None => p_write c a
  | Some t => Some [t] +++ p_write c a
  end.

(** [A::SIZE != Some(0)] *)
Definition nonempty_size {A} (c : payload A) : bool :=
  match p_size c with Some 0 => false | _ => true end.

(** ** TrimmedAmount on the wire: trimmed_amount.rs:122-155 (decimals first, then the amount). *)
Definition read_trimmed : reader trimmed :=
  do d <- be_u8; do a <- be_u64; rret (Trim a d).
Definition write_trimmed (t : trimmed) : option bytes :=
  Some (be_enc 1 (ta_decimals t)) +++ Some (be_enc 8 (ta_amount t)).
Definition trimmed_SIZE : Z := 1 + 8.

(** ** Mode: mode.rs:11-60 *)
Inductive mode := Locking | Burning.
Definition mode_byte (m : mode) : Z := match m with Locking => 0 | Burning => 1 end.
Definition read_mode : reader mode :=
  do b <- be_u8;
  match b with 0 => rret Locking | 1 => rret Burning | _ => rfail end.
Definition write_mode (m : mode) : option bytes := Some (be_enc 1 (mode_byte m)).

(** ** NativeTokenTransfer: ntt.rs:15-27 *)
Record ntt (A : Type) := Ntt {
  n_amount : trimmed;
  n_source_token : bytes;
  n_to_chain : Z;
  n_to : bytes;
  n_payload : A }.
Arguments Ntt {A}. Arguments n_amount {A}. Arguments n_source_token {A}. Arguments n_to_chain {A}.
Arguments n_to {A}. Arguments n_payload {A}.

(** ntt.rs:26 *)
Definition NTT_PREFIX : bytes := [x99; x4e; x54; x54]%byte.

(** ntt.rs:36-69 *)
Definition read_ntt {A} (c : payload A) : reader (ntt A) :=
  do prefix <- take 4;
  do _ <- rguard (bytes_eqb prefix NTT_PREFIX);
  do amount <- read_trimmed;
  do source_token <- take 32;
  do to <- take 32;
  do to_chain <- be_u16;
  do _ <- (if nonempty_size c then (do _ <- be_u16; rret tt) else rret tt);
  do p <- read_payload c;
  rret (Ntt amount source_token to_chain to p).

(** ntt.rs:73-84 *)
Definition ntt_wsize {A} (c : payload A) (m : ntt A) : Z :=
  4 + trimmed_SIZE + 32 + 32 + 2
  + (if nonempty_size c then 2 + p_wsize c (n_payload m) else 0).

(** ntt.rs:86-112 *)
Definition write_ntt {A} (c : payload A) (m : ntt A) : option bytes :=
  Some NTT_PREFIX +++ write_trimmed (n_amount m) +++ Some (n_source_token m) +++ Some (n_to m)
  +++ Some (be_enc 2 (n_to_chain m))
  +++ (if nonempty_size c
       then w_u16_checked (p_wsize c (n_payload m)) +++ write_payload c (n_payload m)
       else Some []).

(** NativeTokenTransfer as a payload itself: ntt.rs:29-34 (TYPE = None, SIZE = None). *)
Definition ntt_payload {A} (c : payload A) : payload (ntt A) :=
  Payload (ntt A) None None (read_ntt c) (write_ntt c) (ntt_wsize c).

(** EmptyPayload: ntt.rs:115-153 *)
Definition empty_payload : payload unit :=
  Payload unit (Some 0) None (rret tt) (fun _ => Some []) (fun _ => 0).

(** ** NttManagerMessage: ntt_manager.rs:15-19 *)
Record nmm (A : Type) := Nmm { m_id : bytes; m_sender : bytes; m_payload : A }.
Arguments Nmm {A}. Arguments m_id {A}. Arguments m_sender {A}. Arguments m_payload {A}.

(** ntt_manager.rs:41-57; the payload length is read and ignored. *)
Definition read_nmm {A} (c : payload A) : reader (nmm A) :=
  do id <- take 32;
  do sender <- take 32;
  do _ <- be_u16;
  do p <- read_payload c;
  rret (Nmm id sender p).

(** ntt_manager.rs:61-66 *)
Definition nmm_wsize {A} (c : payload A) (m : nmm A) : Z :=
  32 + 32 + 2 + p_wsize c (m_payload m).

(** ntt_manager.rs:68-84 *)
Definition write_nmm {A} (c : payload A) (m : nmm A) : option bytes :=
  Some (m_id m) +++ Some (m_sender m)
  +++ w_u16_checked (p_wsize c (m_payload m)) +++ write_payload c (m_payload m).

(** ntt_manager.rs:26-31 [keccak256]: the hashed bytes. TYPE is None (34-36), so [to_vec_payload] is [write]. *)
Definition nmm_preimage {A} (c : payload A) (chain_id : Z) (m : nmm A) : option bytes :=
  Some (be_enc 2 chain_id) +++ write_nmm c m.

(** ** TransceiverMessage: transceiver.rs:20-24 and 64-69 *)
Record tmd (A : Type) := Tmd { t_source : bytes; t_recipient : bytes; t_nmm : nmm A }.
Arguments Tmd {A}. Arguments t_source {A}. Arguments t_recipient {A}. Arguments t_nmm {A}.
Record tmsg (A : Type) := Tmsg { t_data : tmd A; t_payload : bytes }.
Arguments Tmsg {A}. Arguments t_data {A}. Arguments t_payload {A}.

(** transceiver.rs:141-170; [E::PREFIX] is the argument [prefix]. *)
Definition read_tmsg {A} (E : bytes) (c : payload A) : reader (tmsg A) :=
  do prefix <- take 4;
  do _ <- rguard (bytes_eqb prefix E);
  do source <- take 32;
  do recipient <- take 32;
  do _ <- be_u16;
  do m <- read_nmm c;
  do len <- be_u16;
  do tp <- take (Z.to_nat len);
  rret (Tmsg (Tmd source recipient m) tp).

(** transceiver.rs:177-182 *)
Definition tmsg_wsize {A} (c : payload A) (m : tmsg A) : Z :=
  4 + 32 + 2 + nmm_wsize c (t_nmm (t_data m)).

(** transceiver.rs:184-213 *)
Definition write_tmsg {A} (E : bytes) (c : payload A) (m : tmsg A) : option bytes :=
  Some E +++ Some (t_source (t_data m)) +++ Some (t_recipient (t_data m))
  +++ w_u16_checked (nmm_wsize c (t_nmm (t_data m))) +++ write_nmm c (t_nmm (t_data m))
  +++ w_u16_checked (Z.of_nat (length (t_payload m))) +++ Some (t_payload m).

(** transceivers/wormhole.rs:15, 19, 21 *)
Definition WH_PREFIX : bytes := [x99; x45; xff; x10]%byte.
Definition WH_INFO_PREFIX : bytes := [x9c; x23; xbd; x3b]%byte.
Definition WH_PEER_INFO_PREFIX : bytes := [x18; xfc; x67; xc2]%byte.

(** ** WormholeTransceiverInfo: transceivers/wormhole.rs:26-93 *)
Record wt_info := WtInfo { wi_manager : bytes; wi_mode : mode; wi_token : bytes; wi_decimals : Z }.

(** wormhole.rs:51-75 *)
Definition read_wt_info : reader wt_info :=
  do prefix <- take 4;
  do _ <- rguard (bytes_eqb prefix WH_INFO_PREFIX);
  do m <- take 32; do md <- read_mode; do t <- take 32; do d <- be_u8;
  rret (WtInfo m md t d).
(** wormhole.rs:49, 79-81 *)
Definition wt_info_wsize (_ : wt_info) : Z := 32 + 1 + 32 + 1.
(** wormhole.rs:83-92 *)
Definition write_wt_info (i : wt_info) : option bytes :=
  Some WH_INFO_PREFIX +++ Some (wi_manager i) +++ write_mode (wi_mode i) +++ Some (wi_token i)
  +++ Some (be_enc 1 (wi_decimals i)).

(** ** WormholeTransceiverRegistration: transceivers/wormhole.rs:101-160 *)
Record wt_reg := WtReg { wr_chain : Z; wr_address : bytes }.

(** wormhole.rs:124-144 *)
Definition read_wt_reg : reader wt_reg :=
  do prefix <- take 4;
  do _ <- rguard (bytes_eqb prefix WH_PEER_INFO_PREFIX);
  do c <- be_u16; do a <- take 32;
  rret (WtReg c a).
(** wormhole.rs:122, 148-150 *)
Definition wt_reg_wsize (_ : wt_reg) : Z := 2 + 32.
(** wormhole.rs:152-159 *)
Definition write_wt_reg (r : wt_reg) : option bytes :=
  Some WH_PEER_INFO_PREFIX +++ Some (be_enc 2 (wr_chain r)) +++ Some (wr_address r).

(** ** The instantiations used by the programs: transfer.rs [Payload = EmptyPayload]. *)
Definition std_ntt := ntt unit.
Definition std_nmm := nmm (ntt unit).
Definition std_tmsg := tmsg (ntt unit).
Definition std_payload : payload (ntt unit) := ntt_payload empty_payload.
Definition read_std : reader std_tmsg := read_tmsg WH_PREFIX std_payload.
Definition write_std : std_tmsg -> option bytes := write_tmsg WH_PREFIX std_payload.

(** ** Ranges enforced by the Rust types. *)
Definition wf_trimmed (t : trimmed) : Prop := is_u64 (ta_amount t) /\ is_u8 (ta_decimals t).
Definition is32 (b : bytes) : Prop := length b = 32%nat.
Definition wf_ntt {A} (wfA : A -> Prop) (m : ntt A) : Prop :=
  wf_trimmed (n_amount m) /\ is32 (n_source_token m) /\ is_u16 (n_to_chain m) /\ is32 (n_to m) /\ wfA (n_payload m).
Definition wf_nmm {A} (wfA : A -> Prop) (m : nmm A) : Prop :=
  is32 (m_id m) /\ is32 (m_sender m) /\ wfA (m_payload m).
Definition wf_tmsg {A} (wfA : A -> Prop) (m : tmsg A) : Prop :=
  is32 (t_source (t_data m)) /\ is32 (t_recipient (t_data m)) /\ wf_nmm wfA (t_nmm (t_data m)).
Definition wf_info (i : wt_info) : Prop := is32 (wi_manager i) /\ is32 (wi_token i) /\ is_u8 (wi_decimals i).
Definition wf_reg (r : wt_reg) : Prop := is_u16 (wr_chain r) /\ is32 (wr_address r).
Definition no_constraint {A} (_ : A) : Prop := True.

(** ** TransferArgs: programs/example-native-token-transfers/src/instructions/transfer.rs:85-108 *)
Record transfer_args := TArgs { a_amount : Z; a_chain : Z; a_recipient : bytes; a_queue : bool }.
Definition wf_args (a : transfer_args) : Prop := is_u64 (a_amount a) /\ is_u16 (a_chain a) /\ is32 (a_recipient a).
(** transfer.rs:94-107 [keccak256]: the hashed bytes. *)
Definition args_preimage (a : transfer_args) : bytes :=
  be_enc 8 (a_amount a) ++ be_enc 2 (a_chain a) ++ a_recipient a ++ [if a_queue a then x01 else x00].

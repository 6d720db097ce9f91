(** * Specification of the wire formats, written without the codec functions.

    The layouts are those of docs/NttManager.md and docs/Transceiver.md: fields at fixed offsets, big-endian
    integers, two-byte length prefixes. *)
From Verif Require Import Bytes Wire.
Local Open Scope Z_scope.

(** [sub off len b]: the [len] bytes of [b] from offset [off]. *)
Definition sub (off len : nat) (b : bytes) : bytes := firstn len (skipn off b).

(** The value of a big-endian field. *)
Fixpoint value_be (acc : Z) (b : bytes) : Z :=
  match b with [] => acc | x :: r => value_be (256 * acc + Z.of_N (Byte.to_N x)) r end.

Definition num (off len : nat) (b : bytes) : Z := value_be 0 (sub off len b).

(** A reader and a partial writer round-trip on values satisfying [wf], whatever follows. *)
Definition round_trips {A} (rd : reader A) (wr : A -> option bytes) (wf : A -> Prop) : Prop :=
  forall a b rest, wf a -> wr a = Some b -> rd (b ++ rest) = Some (a, rest).

(** What the generic messages ask of an additional-payload type. A type that announces size zero must
    really be empty on the wire (the messages then omit its length prefix and its bytes). *)
Definition lawful_payload {A} (c : payload A) (wf : A -> Prop) : Prop :=
  round_trips (p_read c) (p_write c) wf /\
  (p_size c = Some 0 -> p_type c = None /\ forall a, wf a -> p_write c a = Some []).

(** The announced size is the number of bytes written. *)
Definition sized {A} (wr : A -> option bytes) (size : A -> Z) : Prop :=
  forall a b, wr a = Some b -> size a = Z.of_nat (length b).

(** ** Layout of the 79-byte NativeTokenTransfer (no additional payload), docs/NttManager.md. *)
Definition ntt_layout (b : bytes) (m : ntt unit) : Prop :=
  length b = 79%nat /\
  sub 0 4 b = [x99; x4e; x54; x54]%byte /\
  num 4 1 b = ta_decimals (n_amount m) /\
  num 5 8 b = ta_amount (n_amount m) /\
  sub 13 32 b = n_source_token m /\
  sub 45 32 b = n_to m /\
  num 77 2 b = n_to_chain m.

(** ** NativeTokenTransfer with an additional payload whose own bytes are [p]. *)
Definition ntt_layout_ext {A} (b : bytes) (m : ntt A) (p : bytes) : Prop :=
  length b = (81 + length p)%nat /\
  ntt_layout (sub 0 79 b) (Ntt (n_amount m) (n_source_token m) (n_to_chain m) (n_to m) tt) /\
  num 79 2 b = Z.of_nat (length p) /\
  sub 81 (length p) b = p.

(** ** NttManagerMessage around payload bytes [p]. *)
Definition nmm_layout {A} (b : bytes) (m : nmm A) (p : bytes) : Prop :=
  length b = (66 + length p)%nat /\
  sub 0 32 b = m_id m /\
  sub 32 32 b = m_sender m /\
  num 64 2 b = Z.of_nat (length p) /\
  sub 66 (length p) b = p.

(** ** TransceiverMessage around manager-message bytes [p], docs/Transceiver.md. *)
Definition tmsg_layout {A} (prefix b : bytes) (m : tmsg A) (p : bytes) : Prop :=
  length b = (72 + length p + length (t_payload m))%nat /\
  sub 0 4 b = prefix /\
  sub 4 32 b = t_source (t_data m) /\
  sub 36 32 b = t_recipient (t_data m) /\
  num 68 2 b = Z.of_nat (length p) /\
  sub 70 (length p) b = p /\
  num (70 + length p) 2 b = Z.of_nat (length (t_payload m)) /\
  sub (72 + length p) (length (t_payload m)) b = t_payload m.

(** ** The strings accepted by the transceiver-message decoder of the programs (no additional payload): the
    documented layout in which the two inner length prefixes [l1], [l2] are arbitrary. *)
Definition accepted_std (l1 l2 : bytes) (m : std_tmsg) : bytes :=
  let d := t_data m in let n := m_payload (t_nmm d) in
  [x99; x45; xff; x10]%byte ++ t_source d ++ t_recipient d ++ l1
  ++ m_id (t_nmm d) ++ m_sender (t_nmm d) ++ l2
  ++ [x99; x4e; x54; x54]%byte ++ be_enc 1 (ta_decimals (n_amount n)) ++ be_enc 8 (ta_amount (n_amount n))
  ++ n_source_token n ++ n_to n ++ be_enc 2 (n_to_chain n)
  ++ be_enc 2 (Z.of_nat (length (t_payload m))) ++ t_payload m.

(** ** The wormhole transceiver's own messages, docs/Transceiver.md. *)
Definition info_layout (b : bytes) (i : wt_info) : Prop :=
  length b = 70%nat /\
  sub 0 4 b = [x9c; x23; xbd; x3b]%byte /\
  sub 4 32 b = wi_manager i /\
  num 36 1 b = (match wi_mode i with Locking => 0 | Burning => 1 end) /\
  sub 37 32 b = wi_token i /\
  num 69 1 b = wi_decimals i.

Definition reg_layout (b : bytes) (r : wt_reg) : Prop :=
  length b = 38%nat /\
  sub 0 4 b = [x18; xfc; x67; xc2]%byte /\
  num 4 2 b = wr_chain r /\
  sub 6 32 b = wr_address r.

(** The announced size is the number of bytes written, for values satisfying [wf]. *)
Definition sized_on {A} (wf : A -> Prop) (wr : A -> option bytes) (size : A -> Z) : Prop :=
  forall a b, wf a -> wr a = Some b -> size a = Z.of_nat (length b).

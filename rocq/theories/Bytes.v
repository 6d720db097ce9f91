(** * Byte strings, fixed-width integers, reader combinators.

    Models the primitives of wormhole-io 0.1.3 ([Readable]/[Writeable] of integers and arrays: big-endian,
    [read_exact]) and of Borsh (little-endian). Neither crate is part of the repository; their behaviour is
    in the trusted base. A reader returns [None] on [io::Error]. *)
From Coq.Strings Require Export Byte.
From Verif Require Export Base.
Local Open Scope Z_scope.

Definition bytes := list byte.

Definition Z_of_byte (b : byte) : Z := Z.of_N (Byte.to_N b).
Definition byte_of_Z (z : Z) : byte :=
  match Byte.of_N (Z.to_N (z mod 256)) with Some b => b | None => x00 end.

(** Big-endian encoding of [z] in [n] bytes, and its reading. *)
Fixpoint be_enc (n : nat) (z : Z) : bytes :=
  match n with
  | O => []
  | S k => byte_of_Z (z / 256 ^ Z.of_nat k) :: be_enc k (z mod 256 ^ Z.of_nat k)
  end.

Fixpoint be_dec (l : bytes) : Z :=
  match l with
  | [] => 0
  | b :: r => Z_of_byte b * 256 ^ Z.of_nat (length r) + be_dec r
  end.

(** Little-endian encoding: the reverse byte order. *)
Definition le_enc (n : nat) (z : Z) : bytes := rev (be_enc n z).
Definition le_dec (l : bytes) : Z := be_dec (rev l).

(** ** Readers *)
Definition reader (A : Type) := bytes -> option (A * bytes).

Definition rret {A} (a : A) : reader A := fun l => Some (a, l).
Definition rfail {A} : reader A := fun _ => None.
Definition rbind {A B} (r : reader A) (f : A -> reader B) : reader B :=
  fun l => match r l with Some (a, l') => f a l' | None => None end.

Notation "'do' x '<-' a ';' b" := (rbind a (fun x => b))
  (at level 200, x pattern, a at level 100, b at level 200, right associativity).

(** [Read::read_exact] of [n] bytes. *)
Definition take (n : nat) : reader bytes :=
  fun l => if (n <=? length l)%nat then Some (firstn n l, skipn n l) else None.

Definition rguard (b : bool) : reader unit := if b then rret tt else rfail.

(** Big-endian integers (wormhole-io). *)
Definition be_u (n : nat) : reader Z := do l <- take n; rret (be_dec l).
Definition be_u8 : reader Z := be_u 1.
Definition be_u16 : reader Z := be_u 2.
Definition be_u64 : reader Z := be_u 8.

(** Little-endian integers (Borsh). *)
Definition le_u (n : nat) : reader Z := do l <- take n; rret (le_dec l).

(** Byte-string equality. *)
Fixpoint bytes_eqb (a b : bytes) : bool :=
  match a, b with
  | [], [] => true
  | x :: a', y :: b' => Byte.eqb x y && bytes_eqb a' b'
  | _, _ => false
  end.

(** ** Writers: [None] is a panic or [io::Error]. *)
Definition wapp (a b : option bytes) : option bytes :=
  match a, b with Some x, Some y => Some (x ++ y) | _, _ => None end.
Infix "+++" := wapp (at level 60, right associativity).

(** [u16::try_from(n).expect(..)] followed by [write]. *)
Definition w_u16_checked (n : Z) : option bytes :=
  if (0 <=? n) && (n <=? u16_max) then Some (be_enc 2 n) else None.

(** * Hexadecimal literals, used for test vectors in examples only. *)
From Coq Require Import Ascii String.
From Verif Require Import Bytes BytesFacts.
Local Open Scope Z_scope.

Definition nibble (c : ascii) : Z :=
  let n := Z.of_N (N_of_ascii c) in
  if n <=? 57 then n - 48 else n - 87.
Fixpoint hex_go (s : string) : bytes :=
  match s with
  | String a (String b r) => byte_of_Z (16 * nibble a + nibble b) :: hex_go r
  | _ => []
  end.
Definition hex (s : string) : bytes := hex_go s.
Arguments hex s%string.
Lemma Bytes_take_app n b r : length b = n -> take n (b ++ r) = Some (b, r).
Proof. exact (take_app n b r). Qed.

(** * Borsh codecs (the serialisation used by Anchor accounts).

    Borsh is not part of the repository; this models the derive used by [AnchorSerialize]/[AnchorDeserialize]:
    little-endian integers, fixed arrays as raw bytes, [Option] and enums with a one-byte tag, structs as the
    concatenation of their fields in declaration order; [bool] and tags other than the defined ones are errors. *)
From Verif Require Export Bytes Wire.
Local Open Scope Z_scope.

(** [c_space] is Anchor's [InitSpace::INIT_SPACE]. *)
Record codec (A : Type) := Codec { c_enc : A -> bytes; c_dec : reader A; c_space : nat }.
Arguments c_enc {A}. Arguments c_dec {A}. Arguments c_space {A}. Arguments Codec {A}.

Definition c_u (n : nat) : codec Z := Codec (le_enc n) (le_u n) n.
Definition c_u8 := c_u 1. Definition c_u16 := c_u 2. Definition c_u32 := c_u 4. Definition c_u64 := c_u 8. Definition c_u128 := c_u 16.
(** Two's complement. *)
Definition c_i64 : codec Z :=
  Codec (fun z => le_enc 8 (z mod 2 ^ 64))
        (do x <- le_u 8; rret (if x <? 2 ^ 63 then x else x - 2 ^ 64)) 8.
Definition c_bool : codec bool :=
  Codec (fun b => [if b : bool then x01 else x00])
        (do b <- take 1; match b with [x01] => rret true | [x00] => rret false | _ => rfail end) 1.
Definition c_b32 : codec bytes := Codec (fun b => b) (take 32) 32.
Definition c_unit : codec unit := Codec (fun _ => []) (rret tt) 0.
Definition c_pair {A B} (a : codec A) (b : codec B) : codec (A * B) :=
  Codec (fun p => c_enc a (fst p) ++ c_enc b (snd p)) (do x <- c_dec a; do y <- c_dec b; rret (x, y)) (c_space a + c_space b).
Infix "**" := c_pair (at level 61, right associativity).
Definition c_option {A} (a : codec A) : codec (option A) :=
  Codec (fun o => match o with None => [x00] | Some x => x01 :: c_enc a x end)
        (do t <- take 1; match t with [x00] => rret None | [x01] => do x <- c_dec a; rret (Some x) | _ => rfail end)
        (1 + c_space a).
(** A struct: an isomorphism with a tuple of fields. *)
Definition c_iso {A B} (f : A -> B) (g : B -> A) (a : codec A) : codec B :=
  Codec (fun b => c_enc a (g b)) (do x <- c_dec a; rret (f x)) (c_space a).

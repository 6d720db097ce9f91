(** * Bitmaps of transceivers.

    Model of solana/programs/example-native-token-transfers/src/bitmap.rs. A bitmap is the [Z] value of its u128.
    The crate `bitmaps` 3.2.1 (set, get, bit-and, len = count_ones, is_empty) is not part of the repository. *)
From Verif Require Export Base.
Local Open Scope Z_scope.

(** bitmap.rs:17 *)
Definition BITS : Z := 128.

(** bitmap.rs:19-21 *)
Definition bm_new : Z := 0.

(** bitmap.rs:27-35 *)
Definition bm_set (m index : Z) (value : bool) : result Z :=
  if BITS <=? index then Err BitmapIndexOutOfBounds
  else Ok (if value then Z.setbit m index else Z.clearbit m index).

(** bitmap.rs:37-42 *)
Definition bm_get (m index : Z) : result bool :=
  if BITS <=? index then Err BitmapIndexOutOfBounds
  else Ok (Z.testbit m index).

(** u128::count_ones, used by `bitmaps::Bitmap::len`. *)
Fixpoint pos_ones (p : positive) : Z :=
  match p with xH => 1 | xO q => pos_ones q | xI q => 1 + pos_ones q end.
Definition ones (z : Z) : Z := match z with Zpos p => pos_ones p | _ => 0 end.

(** bitmap.rs:44-49; [try_into().expect(..)]: panics if the count exceeds u8. *)
Definition bm_count_enabled_votes (m enabled : Z) : result Z :=
  plain u8_max (ones (Z.land m enabled)).

(** bitmap.rs:51-57 *)
Definition bm_len (m : Z) : Z := ones m.
Definition bm_is_empty (m : Z) : bool := m =? 0.

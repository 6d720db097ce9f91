(** * Specification vocabulary for bitmaps. *)
From Verif Require Import Base Bitmap.
Local Open Scope Z_scope.

(** Cast votes one after the other. *)
Fixpoint cast (ids : list Z) (m : Z) : result Z :=
  match ids with
  | [] => Ok m
  | i :: r => let? m' := bm_set m i true in cast r m'
  end.

(** A sequence of set/clear operations, and the value a set would have at [j] afterwards. *)
Fixpoint sets (ops : list (Z * bool)) (m : Z) : result Z :=
  match ops with
  | [] => Ok m
  | (i, v) :: r => let? m' := bm_set m i v in sets r m'
  end.

Fixpoint last_value (ops : list (Z * bool)) (j : Z) (initial : bool) : bool :=
  match ops with
  | [] => initial
  | (i, v) :: r => last_value r j (if j =? i then v else initial)
  end.

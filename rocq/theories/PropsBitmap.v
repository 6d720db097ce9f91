(** * Properties C15-C16: bitmaps and votes. *)
From Verif Require Import Base Bitmap SpecBitmap BitmapFacts.
Local Open Scope Z_scope.

(** C15. One write: the written index has the new value, every other index its old one; u128 is preserved. *)
Theorem C15_get_after_set : forall m i v j m',
  is_u8 i -> is_u8 j -> bm_set m i v = Ok m' ->
  bm_get m' j = if j =? i then Ok v else bm_get m j.
Proof. exact bm_get_set. Qed.
Print Assumptions C15_get_after_set.
Example C15_case : bm_set 5 127 true = Ok 170141183460469231731687303715884105733 /\ bm_get 170141183460469231731687303715884105733 2 = Ok true.
Proof. split; vm_compute; reflexivity. Qed.

(** C15. Any sequence of writes to indices below 128 succeeds, stays a u128, and each index then holds the last value
    written to it. *)
Theorem C15_sequences : forall ops m,
  Forall (fun o => 0 <= fst o < 128) ops -> is_u128 m ->
  exists m', sets ops m = Ok m' /\ is_u128 m' /\
  forall j, 0 <= j < 128 -> bm_get m' j = Ok (last_value ops j (Z.testbit m j)).
Proof. exact sets_spec. Qed.
Print Assumptions C15_sequences.
Example C15_sequences_case : sets [(3, true); (127, true); (3, false)] 0 = Ok (2 ^ 127). Proof. vm_compute. reflexivity. Qed.

(** C15. Indices of 128 and more are refused by both operations. *)
Theorem C15_out_of_range : forall m i v,
  128 <= i -> bm_set m i v = Err BitmapIndexOutOfBounds /\ bm_get m i = Err BitmapIndexOutOfBounds.
Proof. exact bm_out_of_range. Qed.
Print Assumptions C15_out_of_range.
Example C15_range_case : bm_set 0 128 true = Err BitmapIndexOutOfBounds. Proof. reflexivity. Qed.

(** C15. Emptiness test. *)
Theorem C15_is_empty : forall m, is_u128 m ->
  (bm_is_empty m = true <-> forall i, 0 <= i < 128 -> Z.testbit m i = false).
Proof. exact bm_is_empty_spec. Qed.
Print Assumptions C15_is_empty.
Example C15_empty_case : bm_is_empty bm_new = true /\ bm_is_empty 4 = false. Proof. split; reflexivity. Qed.

(** C16. After any sequence of votes the count is the number of distinct voters that are enabled; no panic. *)
Theorem C16_distinct_enabled : forall ids enabled,
  Forall (fun i => 0 <= i < 128) ids -> is_u128 enabled ->
  exists m, cast ids bm_new = Ok m /\
  bm_count_enabled_votes m enabled
  = Ok (Z.of_nat (length (nodup Z.eq_dec (filter (Z.testbit enabled) ids)))).
Proof. exact votes_distinct. Qed.
Print Assumptions C16_distinct_enabled.
Example C16_case : exists m, cast [0; 5; 0; 9] bm_new = Ok m /\ bm_count_enabled_votes m 33 = Ok 2.
Proof. eexists. split; vm_compute; reflexivity. Qed.

Theorem C16_at_most_enabled : forall m e n,
  is_u128 m -> is_u128 e -> bm_count_enabled_votes m e = Ok n -> 0 <= n <= bm_len e /\ n <= bm_len m.
Proof. exact votes_le_enabled. Qed.
Print Assumptions C16_at_most_enabled.
Example C16_bound_case : bm_count_enabled_votes 255 6 = Ok 2 /\ bm_len 6 = 2. Proof. split; reflexivity. Qed.

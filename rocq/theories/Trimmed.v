(** * Trimmed amounts.

    Model of solana/modules/ntt-messages/src/trimmed_amount.rs. Amounts and decimals are [Z]; the ranges u64 and u8
    are stated in theorems. [ScalingError] is mapped to [error] as in
    solana/programs/example-native-token-transfers/src/error.rs ([impl From<ScalingError> for NTTError]). *)
From Verif Require Export Base.
Local Open Scope Z_scope.

(** trimmed_amount.rs:19 *)
Definition TRIMMED_DECIMALS : Z := 8.

(** trimmed_amount.rs:26-29 *)
Record trimmed := Trim { ta_amount : Z; ta_decimals : Z }.

(** [10u64.checked_pow(power)], trimmed_amount.rs:66-68 and 75-77. *)
Definition checked_pow10 (power : Z) : option Z := checked u64_max (10 ^ power).

(** trimmed_amount.rs:59-83 [TrimmedAmount::scale]. *)
Definition scale (amount from_decimals to_decimals : Z) : result Z :=
  if from_decimals =? to_decimals then Ok amount
  else if to_decimals <? from_decimals then
    let? f := ok_or (checked_pow10 (from_decimals - to_decimals)) OverflowExponent in
    Ok (amount / f)
  else
    let? f := ok_or (checked_pow10 (to_decimals - from_decimals)) OverflowExponent in
    ok_or (checked u64_max (amount * f)) OverflowScaledAmount.

(** trimmed_amount.rs:85-96 [TrimmedAmount::trim]. *)
Definition trim (amount from_decimals to_decimals : Z) : result trimmed :=
  let to' := Z.min (Z.min TRIMMED_DECIMALS from_decimals) to_decimals in
  let? a := scale amount from_decimals to' in
  Ok (Trim a to').

(** trimmed_amount.rs:98-100 [TrimmedAmount::untrim]. *)
Definition untrim (t : trimmed) (to_decimals : Z) : result Z :=
  scale (ta_amount t) (ta_decimals t) to_decimals.

(** trimmed_amount.rs:45-54 [TrimmedAmount::change_decimals]. *)
Definition change_decimals (t : trimmed) (new_decimals : Z) : result trimmed :=
  if new_decimals =? ta_decimals t then Ok t
  else let? a := untrim t new_decimals in Ok (Trim a new_decimals).

(** trimmed_amount.rs:107-115 [TrimmedAmount::remove_dust]; the first component is the new value of the
    [&mut u64] argument. *)
Definition remove_dust (amount from_decimals to_decimals : Z) : result (Z * trimmed) :=
  let? t := trim amount from_decimals to_decimals in
  let? a := untrim t from_decimals in
  Ok (a, t).

(** trimmed_amount.rs:31-36 [PartialEq::eq]: [assert_eq!] on the decimals, then comparison of amounts. *)
Definition trimmed_eq (a b : trimmed) : result bool :=
  if ta_decimals a =? ta_decimals b then Ok (ta_amount a =? ta_amount b) else Err Panic.

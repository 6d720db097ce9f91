(** * Properties C01-C05: amounts. *)
From Verif Require Import Base Trimmed TrimmedFacts.
Local Open Scope Z_scope.

(** C01. Trimming is floor division to min(8, from, to) decimals; it fails exactly when the power of ten exceeds u64. *)
Theorem C01_trim_exact : forall amount from to,
  is_u64 amount -> is_u8 from -> is_u8 to ->
  trim amount from to =
    let d := Z.min 8 (Z.min from to) in
    if from - d <? 20 then Ok (Trim (amount / 10 ^ (from - d)) d) else Err OverflowExponent.
Proof. exact trim_exact. Qed.
Print Assumptions C01_trim_exact.
Example C01_case : is_u64 123456789012 /\ is_u8 12 /\ is_u8 6 /\ trim 123456789012 12 6 = Ok (Trim 123456 6).
Proof. repeat split; try ilia; reflexivity. Qed.
Example C01_case_error : trim 5 40 8 = Err OverflowExponent. Proof. reflexivity. Qed.

(** C02. Untrimming is exact multiplication (or floor division), or an error; never a wrapped value. *)
Theorem C02_untrim_exact : forall amount d to,
  is_u64 amount -> is_u8 d -> is_u8 to ->
  untrim (Trim amount d) to =
    if to <=? d then
      if d - to <? 20 then Ok (amount / 10 ^ (d - to)) else Err OverflowExponent
    else
      if 20 <=? to - d then Err OverflowExponent
      else if amount * 10 ^ (to - d) <=? u64_max then Ok (amount * 10 ^ (to - d))
      else Err OverflowScaledAmount.
Proof. exact untrim_exact. Qed.
Print Assumptions C02_untrim_exact.
Example C02_case : untrim (Trim 18446744073 8) 17 = Ok 18446744073000000000 /\ untrim (Trim 18446744074 8) 17 = Err OverflowScaledAmount.
Proof. split; reflexivity. Qed.

Theorem C02_change_decimals_exact : forall amount d to,
  is_u64 amount -> is_u8 d -> is_u8 to ->
  change_decimals (Trim amount d) to =
    match untrim (Trim amount d) to with Ok x => Ok (Trim x to) | Err e => Err e end.
Proof. exact change_decimals_exact. Qed.
Print Assumptions C02_change_decimals_exact.
Example C02_change_case : change_decimals (Trim 100 7) 9 = Ok (Trim 10000 9). Proof. reflexivity. Qed.

(** C03. Dust removal: the charged amount [a'] is the largest multiple of the wire unit not above the request,
    equals the wire amount's value, and the dust is less than one wire unit. *)
Theorem C03_remove_dust_greatest : forall amount from to a' w,
  is_u64 amount -> is_u8 from -> is_u8 to ->
  remove_dust amount from to = Ok (a', w) ->
  let unit := 10 ^ (from - ta_decimals w) in
  ta_decimals w = Z.min 8 (Z.min from to) /\
  a' = ta_amount w * unit /\
  0 <= a' <= amount /\ amount - a' < unit /\
  (forall k, k * unit <= amount -> k * unit <= a') /\
  is_u64 (ta_amount w) /\
  untrim w from = Ok a'.
Proof. exact remove_dust_greatest. Qed.
Print Assumptions C03_remove_dust_greatest.
Example C03_case : is_u64 1050 /\ is_u8 9 /\ is_u8 7 /\ remove_dust 1050 9 7 = Ok (1000, Trim 10 7).
Proof. repeat split; try ilia; reflexivity. Qed.

(** C03. It succeeds exactly when trimming does. *)
Theorem C03_remove_dust_exact : forall amount from to,
  is_u64 amount -> is_u8 from -> is_u8 to ->
  remove_dust amount from to =
    let d := Z.min 8 (Z.min from to) in
    if from - d <? 20
    then Ok (amount / 10 ^ (from - d) * 10 ^ (from - d), Trim (amount / 10 ^ (from - d)) d)
    else Err OverflowExponent.
Proof. exact remove_dust_exact. Qed.
Print Assumptions C03_remove_dust_exact.
Example C03_exact_case : remove_dust 154 9 7 = Ok (100, Trim 1 7). Proof. reflexivity. Qed.

(** C03. Removing dust twice changes nothing. *)
Theorem C03_remove_dust_idempotent : forall amount from to a' w,
  is_u64 amount -> is_u8 from -> is_u8 to ->
  remove_dust amount from to = Ok (a', w) -> remove_dust a' from to = Ok (a', w).
Proof. exact remove_dust_idem. Qed.
Print Assumptions C03_remove_dust_idempotent.
Example C03_idem_case : remove_dust 105 9 7 = Ok (100, Trim 1 7) /\ remove_dust 100 9 7 = Ok (100, Trim 1 7).
Proof. split; reflexivity. Qed.

(** C04. Source amount [a'] in [f] decimals, destination amount [b] in [g] decimals; [p] is the registered peer
    decimals, which may differ from [g]. Values are compared by cross multiplication: b / 10^g <= a' / 10^f. *)
Theorem C04_no_value_created : forall amount f p a' w g b,
  is_u64 amount -> is_u8 f -> is_u8 p -> is_u8 g ->
  remove_dust amount f p = Ok (a', w) ->
  untrim w g = Ok b ->
  b * 10 ^ f <= a' * 10 ^ g /\
  (ta_decimals w <= g -> b * 10 ^ f = a' * 10 ^ g).
Proof. exact cross_chain_value. Qed.
Print Assumptions C04_no_value_created.
Example C04_case : remove_dust 123456789 9 18 = Ok (123456780, Trim 12345678 8)
  /\ untrim (Trim 12345678 8) 18 = Ok 123456780000000000.
Proof. split; reflexivity. Qed.
Example C04_case_misregistered : remove_dust 123456789 9 18 = Ok (123456780, Trim 12345678 8)
  /\ untrim (Trim 12345678 8) 3 = Ok 123.
Proof. split; reflexivity. Qed.

(** C05. The statement "equality of trimmed amounts always returns a boolean" is false: amounts of different decimals
    make the comparison panic. What holds: it returns exactly when the decimals agree, and then says whether the amounts are equal. *)
Theorem C05_equality_total_refuted : exists a b,
  is_u64 (ta_amount a) /\ is_u8 (ta_decimals a) /\ is_u64 (ta_amount b) /\ is_u8 (ta_decimals b) /\
  trimmed_eq a b = Err Panic.
Proof. exists (Trim 1 7), (Trim 10 8). repeat split; cbn; try ilia; reflexivity. Qed.
Print Assumptions C05_equality_total_refuted.

Theorem C05_equality_defined_iff : forall a b r,
  trimmed_eq a b = Ok r <-> ta_decimals a = ta_decimals b /\ (r = true <-> a = b).
Proof. exact trimmed_eq_exact. Qed.
Print Assumptions C05_equality_defined_iff.
Example C05_case : trimmed_eq (Trim 5 8) (Trim 5 8) = Ok true /\ trimmed_eq (Trim 5 8) (Trim 6 8) = Ok false. Proof. split; reflexivity. Qed.

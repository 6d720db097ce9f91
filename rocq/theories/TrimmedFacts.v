(** * Proofs about trimmed amounts. *)
From Verif Require Import Base Trimmed.
Local Open Scope Z_scope.

Lemma pow10_pos k : 0 <= k -> 0 < 10 ^ k.
Proof. intros; apply Z.pow_pos_nonneg; lia. Qed.

Lemma pow10_add a b : 0 <= a -> 0 <= b -> 10 ^ (a + b) = 10 ^ a * 10 ^ b.
Proof. intros; apply Z.pow_add_r; lia. Qed.

Lemma pow10_19 : 10 ^ 19 = 10000000000000000000. Proof. reflexivity. Qed.
Lemma pow10_20 : 10 ^ 20 = 100000000000000000000. Proof. reflexivity. Qed.

Lemma pow10_fits k : 0 <= k -> (10 ^ k <= u64_max <-> k < 20).
Proof.
  intros Hk. split; intros H.
  - destruct (Z_lt_ge_dec k 20) as [|Hge]; [assumption|].
    assert (10 ^ 20 <= 10 ^ k) by (apply Z.pow_le_mono_r; lia).
    rewrite pow10_20 in *. unfold u64_max in *. lia.
  - assert (10 ^ k <= 10 ^ 19) by (apply Z.pow_le_mono_r; lia).
    rewrite pow10_19 in *. unfold u64_max. lia.
Qed.

Lemma checked_pow10_ok k : 0 <= k < 20 -> checked_pow10 k = Some (10 ^ k).
Proof.
  intros Hk. unfold checked_pow10, checked.
  assert (10 ^ k <= u64_max) by (apply pow10_fits; lia).
  assert (0 < 10 ^ k) by (apply pow10_pos; lia).
  destruct (0 <=? 10 ^ k) eqn:E1, (10 ^ k <=? u64_max) eqn:E2; cbn; try reflexivity; lia.
Qed.

Lemma checked_pow10_bad k : 20 <= k -> checked_pow10 k = None.
Proof.
  intros Hk. unfold checked_pow10, checked.
  assert (~ 10 ^ k <= u64_max) by (rewrite pow10_fits; lia).
  destruct (10 ^ k <=? u64_max) eqn:E2; [lia|]. now rewrite andb_false_r.
Qed.

(** Exact behaviour of [scale]. *)
Lemma scale_down a f t :
  is_u64 a -> 0 <= t <= f ->
  scale a f t = if f - t <? 20 then Ok (a / 10 ^ (f - t)) else Err OverflowExponent.
Proof.
  intros Ha Hft. unfold scale.
  destruct (f =? t) eqn:E.
  - assert (f = t) by lia. subst. rewrite Z.sub_diag. cbn. now rewrite Z.div_1_r.
  - destruct (t <? f) eqn:E2; [|lia].
    destruct (f - t <? 20) eqn:E3.
    + rewrite checked_pow10_ok by lia. reflexivity.
    + rewrite checked_pow10_bad by lia. reflexivity.
Qed.

Lemma scale_up a f t :
  is_u64 a -> 0 <= f < t ->
  scale a f t =
    if f + 20 <=? t then Err OverflowExponent
    else if a * 10 ^ (t - f) <=? u64_max then Ok (a * 10 ^ (t - f))
    else Err OverflowScaledAmount.
Proof.
  intros Ha Hft. unfold scale.
  destruct (f =? t) eqn:E; [lia|].
  destruct (t <? f) eqn:E2; [lia|].
  destruct (f + 20 <=? t) eqn:E3.
  - rewrite checked_pow10_bad by lia. reflexivity.
  - rewrite checked_pow10_ok by lia. cbn [ok_or bind].
    unfold checked. unfold is_u64 in Ha.
    assert (0 < 10 ^ (t - f)) by (apply pow10_pos; lia).
    assert (0 <= a * 10 ^ (t - f)) by nia.
    destruct (0 <=? a * 10 ^ (t - f)) eqn:E4; [|lia].
    cbn [andb]. destruct (a * 10 ^ (t - f) <=? u64_max) eqn:E5; reflexivity.
Qed.

Definition wire_decimals (f t : Z) : Z := Z.min 8 (Z.min f t).

Lemma trim_exact a f t :
  is_u64 a -> is_u8 f -> is_u8 t ->
  trim a f t =
    let d := Z.min 8 (Z.min f t) in
    if f - d <? 20 then Ok (Trim (a / 10 ^ (f - d)) d) else Err OverflowExponent.
Proof.
  intros Ha Hf Ht. unfold is_u8, u8_max in *. cbv zeta. unfold trim.
  replace (Z.min (Z.min TRIMMED_DECIMALS f) t) with (Z.min 8 (Z.min f t)) by (unfold TRIMMED_DECIMALS; lia).
  rewrite scale_down by (try assumption; lia).
  destruct (f - Z.min 8 (Z.min f t) <? 20); reflexivity.
Qed.

Lemma untrim_exact a d t :
  is_u64 a -> is_u8 d -> is_u8 t ->
  untrim (Trim a d) t =
    if t <=? d then
      if d - t <? 20 then Ok (a / 10 ^ (d - t)) else Err OverflowExponent
    else
      if 20 <=? t - d then Err OverflowExponent
      else if a * 10 ^ (t - d) <=? u64_max then Ok (a * 10 ^ (t - d))
      else Err OverflowScaledAmount.
Proof.
  intros Ha Hd Ht. unfold is_u8, u8_max in *. unfold untrim. cbn [ta_amount ta_decimals].
  destruct (t <=? d) eqn:E.
  - apply scale_down; [assumption|lia].
  - rewrite scale_up by (try assumption; lia).
    destruct (d + 20 <=? t) eqn:E1, (20 <=? t - d) eqn:E2; try reflexivity; lia.
Qed.

Lemma change_decimals_exact a d t :
  is_u64 a -> is_u8 d -> is_u8 t ->
  change_decimals (Trim a d) t =
    match untrim (Trim a d) t with Ok x => Ok (Trim x t) | Err e => Err e end.
Proof.
  intros Ha Hd Ht. unfold change_decimals. cbn [ta_decimals].
  destruct (t =? d) eqn:E.
  - assert (t = d) by lia. subst. unfold untrim, scale. cbn. now rewrite Z.eqb_refl.
  - destruct (untrim (Trim a d) t); reflexivity.
Qed.

Lemma remove_dust_exact a f t :
  is_u64 a -> is_u8 f -> is_u8 t ->
  remove_dust a f t =
    let d := Z.min 8 (Z.min f t) in
    if f - d <? 20
    then Ok (a / 10 ^ (f - d) * 10 ^ (f - d), Trim (a / 10 ^ (f - d)) d)
    else Err OverflowExponent.
Proof.
  intros Ha Hf Ht. unfold remove_dust. rewrite trim_exact by assumption. cbv zeta.
  set (d := Z.min 8 (Z.min f t)). unfold is_u8, u8_max in *.
  destruct (f - d <? 20) eqn:E; cbn [bind]; [|reflexivity].
  assert (Hp : 0 < 10 ^ (f - d)) by (apply pow10_pos; lia).
  set (p := 10 ^ (f - d)) in *.
  assert (Hm : a / p * p <= a) by (rewrite Z.mul_comm; apply Z.mul_div_le; lia).
  unfold is_u64 in Ha.
  assert (Hq : 0 <= a / p <= a) by (split; [apply Z.div_pos; lia | apply Z.div_le_upper_bound; nia]).
  rewrite untrim_exact by (ilia).
  fold p.
  destruct (f <=? d) eqn:E1.
  - assert (f = d) by lia. subst p.
    replace (d - f) with 0 by lia. replace (f - d) with 0 by lia.
    cbn. rewrite !Z.div_1_r, Z.mul_1_r. reflexivity.
  - destruct (20 <=? f - d) eqn:E2; [lia|].
    destruct (a / p * p <=? u64_max) eqn:E3; [reflexivity|lia].
Qed.

(** The charged amount is the largest multiple of the wire unit not above the requested amount. *)
Lemma remove_dust_greatest a f t a' w :
  is_u64 a -> is_u8 f -> is_u8 t ->
  remove_dust a f t = Ok (a', w) ->
  let unit := 10 ^ (f - ta_decimals w) in
  ta_decimals w = Z.min 8 (Z.min f t) /\
  a' = ta_amount w * unit /\
  0 <= a' <= a /\ a - a' < unit /\
  (forall k, k * unit <= a -> k * unit <= a') /\
  is_u64 (ta_amount w) /\
  untrim w f = Ok a'.
Proof.
  intros Ha Hf Ht H. pose proof H as Hdust.
  rewrite remove_dust_exact in H by assumption. cbv zeta in H.
  set (d := Z.min 8 (Z.min f t)) in *. unfold is_u8, u8_max in *.
  destruct (f - d <? 20) eqn:E; [|discriminate]. injection H as <- <-. cbn [ta_decimals ta_amount]. cbv zeta.
  assert (Hp : 0 < 10 ^ (f - d)) by (apply pow10_pos; lia).
  unfold remove_dust in Hdust.
  destruct (trim a f t) as [w|]; [|discriminate]. cbn [bind] in Hdust.
  destruct (untrim w f) as [x|] eqn:Hu; [|discriminate]. cbn [bind] in Hdust.
  injection Hdust as Hx Hw. rewrite <- Hw, Hu.
  set (p := 10 ^ (f - d)) in *. unfold is_u64 in *.
  pose proof (Z.mul_div_le a p Hp). pose proof (Z.mul_succ_div_gt a p Hp).
  assert (Hq : 0 <= a / p <= a) by (split; [apply Z.div_pos; lia | apply Z.div_le_upper_bound; nia]).
  repeat split; try nia.
  - intros k Hk. assert (k <= a / p) by (apply Z.div_le_lower_bound; lia). nia.
  - now rewrite Hx.
Qed.

Lemma remove_dust_idem a f t a' w :
  is_u64 a -> is_u8 f -> is_u8 t ->
  remove_dust a f t = Ok (a', w) -> remove_dust a' f t = Ok (a', w).
Proof.
  intros Ha Hf Ht H. pose proof H as H0.
  rewrite remove_dust_exact in H by assumption. cbv zeta in H.
  apply remove_dust_greatest in H0; try assumption.
  destruct H0 as (_ & _ & Hr & _).
  assert (is_u64 a') by (unfold is_u64 in *; lia).
  rewrite remove_dust_exact by assumption. cbv zeta.
  set (d := Z.min 8 (Z.min f t)) in *. unfold is_u8, u8_max in *.
  destruct (f - d <? 20) eqn:E; [|discriminate]. injection H as <- <-.
  assert (Hp : 0 < 10 ^ (f - d)) by (apply pow10_pos; lia).
  rewrite Z.div_mul by lia. reflexivity.
Qed.

Lemma remove_dust_total a f t :
  is_u64 a -> is_u8 f -> is_u8 t -> f <= 27 -> f - Z.min 8 (Z.min f t) < 20 ->
  exists a' w, remove_dust a f t = Ok (a', w).
Proof.
  intros Ha Hf Ht _ H. rewrite remove_dust_exact by assumption. cbv zeta.
  destruct (f - Z.min 8 (Z.min f t) <? 20) eqn:E; [|lia]. eauto.
Qed.

(** Cross-chain value. [a / 10^p] and [b / 10^q] compared by cross multiplication. *)
Lemma untrim_value_le w t b :
  is_u64 (ta_amount w) -> is_u8 (ta_decimals w) -> is_u8 t ->
  untrim w t = Ok b ->
  b * 10 ^ ta_decimals w <= ta_amount w * 10 ^ t /\
  (ta_decimals w <= t -> b * 10 ^ ta_decimals w = ta_amount w * 10 ^ t).
Proof.
  destruct w as [a d]; cbn [ta_amount ta_decimals]. intros Ha Hd Ht H.
  rewrite untrim_exact in H by assumption. unfold is_u8, u8_max, is_u64 in *.
  destruct (t <=? d) eqn:E.
  - destruct (d - t <? 20) eqn:E2; [|discriminate]. injection H as <-.
    assert (Hp : 0 < 10 ^ (d - t)) by (apply pow10_pos; lia).
    assert (Hpt : 0 < 10 ^ t) by (apply pow10_pos; lia).
    replace (10 ^ d) with (10 ^ (d - t) * 10 ^ t) by (rewrite <- pow10_add by lia; f_equal; lia).
    pose proof (Z.mul_div_le a _ Hp). split; [nia|].
    intros Hle. assert (d = t) by lia. subst. rewrite Z.sub_diag. cbn [Z.pow Z.pow_pos Pos.iter].
    rewrite Z.div_1_r. lia.
  - destruct (20 <=? t - d) eqn:E2; [discriminate|].
    destruct (a * 10 ^ (t - d) <=? u64_max) eqn:E3; [|discriminate]. injection H as <-.
    replace (10 ^ t) with (10 ^ (t - d) * 10 ^ d) by (rewrite <- pow10_add by lia; f_equal; lia).
    split; [|intros _]; lia.
Qed.

Lemma cross_chain_value a f p a' w g b :
  is_u64 a -> is_u8 f -> is_u8 p -> is_u8 g ->
  remove_dust a f p = Ok (a', w) ->
  untrim w g = Ok b ->
  b * 10 ^ f <= a' * 10 ^ g /\
  (ta_decimals w <= g -> b * 10 ^ f = a' * 10 ^ g).
Proof.
  intros Ha Hf Hp Hg Hr Hu.
  apply remove_dust_greatest in Hr; try assumption. cbv zeta in Hr.
  destruct Hr as (Hd & He & _ & _ & _ & Hw & _).
  unfold is_u8, u8_max in *.
  apply untrim_value_le in Hu; try (ilia).
  destruct Hu as [Hle Heq].
  set (d := ta_decimals w) in *.
  replace (10 ^ f) with (10 ^ (f - d) * 10 ^ d) by (rewrite <- pow10_add by lia; f_equal; lia).
  assert (Hq : 0 < 10 ^ (f - d)) by (apply pow10_pos; lia).
  subst a'. split; [nia|]. intros Hdg. specialize (Heq Hdg). nia.
Qed.

Lemma trimmed_eq_exact a b r :
  trimmed_eq a b = Ok r <-> ta_decimals a = ta_decimals b /\ (r = true <-> a = b).
Proof.
  unfold trimmed_eq. destruct a as [x d], b as [y e]; cbn [ta_amount ta_decimals]. destruct (d =? e) eqn:E.
  - apply Z.eqb_eq in E. subst e. split.
    + intros H. injection H as <-. split; [reflexivity|]. rewrite Z.eqb_eq. split; congruence.
    + intros [_ H]. f_equal. destruct (x =? y) eqn:X, r; try reflexivity.
      * apply Z.eqb_eq in X. subst y. symmetry. apply H. reflexivity.
      * assert (K : Trim x d = Trim y d) by (apply H; reflexivity). injection K as ->. rewrite Z.eqb_refl in X. discriminate.
  - split; [discriminate|]. intros [-> _]. rewrite Z.eqb_refl in E. discriminate.
Qed.

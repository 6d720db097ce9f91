(** * Proofs about bitmaps. *)
From Coq Require Import FinFun Permutation.
From Verif Require Import Base Bitmap SpecBitmap.
Local Open Scope Z_scope.

Lemma bm_set_ok m i (v : bool) : 0 <= i < 128 ->
  bm_set m i v = Ok (if v then Z.setbit m i else Z.clearbit m i).
Proof. intros H. unfold bm_set, BITS. destruct (128 <=? i) eqn:E; [lia|reflexivity]. Qed.

Lemma bm_get_ok m i : 0 <= i < 128 -> bm_get m i = Ok (Z.testbit m i).
Proof. intros H. unfold bm_get, BITS. destruct (128 <=? i) eqn:E; [lia|reflexivity]. Qed.

Lemma testbit_set m i (v : bool) j : 0 <= i -> 0 <= j ->
  Z.testbit (if v then Z.setbit m i else Z.clearbit m i) j = if j =? i then v else Z.testbit m j.
Proof.
  intros Hi Hj. destruct v.
  - rewrite Z.setbit_eqb by lia. rewrite (Z.eqb_sym i j). destruct (j =? i); reflexivity.
  - rewrite Z.clearbit_eqb by lia. rewrite (Z.eqb_sym i j). destruct (j =? i); cbn.
    + apply andb_false_r.
    + apply andb_true_r.
Qed.

Lemma bm_get_set m i v j m' :
  is_u8 i -> is_u8 j -> bm_set m i v = Ok m' ->
  bm_get m' j = if j =? i then Ok v else bm_get m j.
Proof.
  intros Hi Hj H. unfold bm_set in H. unfold bm_get. unfold BITS in *.
  destruct (128 <=? i) eqn:E; [discriminate|]. injection H as <-.
  destruct (128 <=? j) eqn:E2.
  - destruct (j =? i) eqn:E3; [lia|reflexivity].
  - rewrite testbit_set by ilia. destruct (j =? i); reflexivity.
Qed.

(** A value is a u128 iff all bits from 128 on are clear. *)
Lemma u128_bits m : 0 <= m -> (m <= u128_max <-> forall j, 128 <= j -> Z.testbit m j = false).
Proof.
  intros Hm. change u128_max with (2 ^ 128 - 1). split.
  - intros H j Hj. destruct (Z.eq_dec m 0) as [->|Hne]; [apply Z.testbit_0_l|].
    apply Z.bits_above_log2; [lia|].
    assert (Z.log2 m < 128) by (apply Z.log2_lt_pow2; lia). lia.
  - intros H. destruct (Z.eq_dec m 0) as [->|Hne]; [lia|].
    assert (Z.log2 m < 128); [|assert (m < 2 ^ 128) by (apply Z.log2_lt_pow2; lia); lia].
    destruct (Z_lt_ge_dec (Z.log2 m) 128) as [|Hge]; [assumption|].
    specialize (H (Z.log2 m) ltac:(lia)). rewrite Z.bit_log2 in H by lia. discriminate.
Qed.

Lemma bm_set_u128 m i v m' : is_u128 m -> is_u8 i -> bm_set m i v = Ok m' -> is_u128 m'.
Proof.
  intros [Hm0 Hm] Hi H. unfold bm_set, BITS in H. destruct (128 <=? i) eqn:E; [discriminate|]. injection H as <-.
  assert (Hi' : 0 <= i < 128) by ilia.
  assert (H0 : 0 <= (if v then Z.setbit m i else Z.clearbit m i)).
  { destruct v.
    - unfold Z.setbit. rewrite Z.lor_nonneg. split; [lia|]. apply Z.shiftl_nonneg. lia.
    - unfold Z.clearbit. apply Z.ldiff_nonneg. left. lia. }
  split; [exact H0|]. apply u128_bits; [exact H0|].
  intros j Hj. rewrite testbit_set by lia. destruct (j =? i) eqn:E2; [lia|]. now apply (u128_bits m).
Qed.

(** ** Counting *)
Fixpoint count_upto (n : nat) (f : Z -> bool) : Z :=
  match n with O => 0 | S k => (if f (Z.of_nat k) then 1 else 0) + count_upto k f end.

Lemma count_upto_ext n f g : (forall i, 0 <= i < Z.of_nat n -> f i = g i) -> count_upto n f = count_upto n g.
Proof.
  induction n as [|n IH]; intros H; [reflexivity|]. cbn [count_upto].
  rewrite (H (Z.of_nat n)) by lia. rewrite IH; [reflexivity|]. intros i Hi. apply H. lia.
Qed.

Lemma count_upto_shift n f :
  count_upto (S n) f = (if f 0 then 1 else 0) + count_upto n (fun i => f (i + 1)).
Proof.
  induction n as [|n IH]; [cbn; lia|].
  cbn [count_upto] in *. replace (Z.of_nat (S n)) with (Z.of_nat n + 1) by lia. lia.
Qed.

Lemma count_upto_range n f : 0 <= count_upto n f <= Z.of_nat n.
Proof. induction n as [|n IH]; [cbn; lia|]. cbn [count_upto]. destruct (f (Z.of_nat n)); lia. Qed.

Lemma count_upto_zero n : count_upto n (fun _ => false) = 0.
Proof. induction n as [|n IH]; [reflexivity|]. cbn [count_upto]. exact IH. Qed.

Lemma ones_count n : forall z, 0 <= z < 2 ^ Z.of_nat n -> ones z = count_upto n (Z.testbit z).
Proof.
  induction n as [|n IH]; intros z Hz.
  - cbn in Hz. assert (z = 0) by lia. subst. reflexivity.
  - rewrite count_upto_shift.
    rewrite Nat2Z.inj_succ, Z.pow_succ_r in Hz by lia.
    rewrite (count_upto_ext n _ (Z.testbit (z / 2))).
    2:{ intros i Hi. change (i + 1) with (Z.succ i). symmetry. apply Z.div2_bits; lia. }
    rewrite <- IH by (split; [apply Z.div_pos; lia|apply Z.div_lt_upper_bound; lia]).
    destruct z as [|p|p]; [reflexivity| |lia].
    destruct p as [p|p|]; cbn [ones pos_ones Z.testbit Z.odd].
    + replace (Z.pos p~1 / 2) with (Z.pos p) by (apply Z.div_unique_pos with 1; lia). reflexivity.
    + replace (Z.pos p~0 / 2) with (Z.pos p) by (apply Z.div_unique_pos with 0; lia). reflexivity.
    + reflexivity.
Qed.

Lemma ones_u128 z : is_u128 z -> ones z = count_upto 128 (Z.testbit z).
Proof. intros H. apply ones_count. change (2 ^ Z.of_nat 128) with (u128_max + 1). ilia. Qed.

Lemma land_u128 a b : is_u128 a -> is_u128 b -> is_u128 (Z.land a b).
Proof.
  intros [Ha0 Ha] [Hb0 Hb]. assert (H0 : 0 <= Z.land a b) by (apply Z.land_nonneg; lia).
  split; [exact H0|]. apply u128_bits; [exact H0|]. intros j Hj. rewrite Z.land_spec.
  rewrite (proj1 (u128_bits a Ha0) Ha j Hj). reflexivity.
Qed.

Lemma count_votes_exact m e :
  is_u128 m -> is_u128 e ->
  bm_count_enabled_votes m e = Ok (count_upto 128 (fun i => Z.testbit m i && Z.testbit e i)).
Proof.
  intros Hm He. unfold bm_count_enabled_votes. rewrite ones_u128 by now apply land_u128.
  rewrite (count_upto_ext _ _ (fun i => Z.testbit m i && Z.testbit e i)).
  2:{ intros i _. apply Z.land_spec. }
  unfold plain, ok_or, checked.
  pose proof (count_upto_range 128 (fun i => Z.testbit m i && Z.testbit e i)).
  set (n := count_upto 128 _) in *.
  destruct (0 <=? n) eqn:E1, (n <=? u8_max) eqn:E2; cbn [andb]; try reflexivity; ilia.
Qed.

Lemma bm_is_empty_spec m : is_u128 m ->
  (bm_is_empty m = true <-> forall i, 0 <= i < 128 -> Z.testbit m i = false).
Proof.
  intros Hm. unfold bm_is_empty. split.
  - intros H i _. assert (m = 0) by lia. subst. apply Z.testbit_0_l.
  - intros H. apply Z.eqb_eq. apply Z.bits_inj_0. intros n.
    destruct (Z_lt_ge_dec n 0) as [|Hn]; [now apply Z.testbit_neg_r|].
    destruct (Z_lt_ge_dec n 128) as [Hlt|Hge]; [now apply H; lia|].
    destruct Hm as [H0 H1]. apply (proj1 (u128_bits m H0) H1). lia.
Qed.

(** ** Votes as sets *)
Definition indices (n : nat) : list Z := map Z.of_nat (seq 0 n).

Lemma count_upto_filter n f : count_upto n f = Z.of_nat (length (filter f (indices n))).
Proof.
  unfold indices. induction n as [|n IH]; [reflexivity|].
  rewrite seq_S, map_app, filter_app, app_length. cbn [count_upto Nat.add map filter].
  rewrite IH. destruct (f (Z.of_nat n)); cbn [length]; lia.
Qed.

Lemma indices_NoDup n : NoDup (indices n).
Proof.
  unfold indices. apply FinFun.Injective_map_NoDup; [|apply seq_NoDup]. intros a b H. lia.
Qed.

Lemma in_indices n i : In i (indices n) <-> 0 <= i < Z.of_nat n.
Proof.
  unfold indices. rewrite in_map_iff. split.
  - intros (k & <- & Hk). apply in_seq in Hk. lia.
  - intros H. exists (Z.to_nat i). split; [lia|]. apply in_seq. lia.
Qed.

Lemma cast_bits ids : forall m m', Forall (fun i => 0 <= i < 128) ids -> is_u128 m -> cast ids m = Ok m' ->
  is_u128 m' /\ forall j, 0 <= j -> Z.testbit m' j = (Z.testbit m j || existsb (Z.eqb j) ids).
Proof.
  induction ids as [|i ids IH]; intros m m' Hf Hm H; cbn in H.
  - injection H as <-. split; [assumption|]. intros j _. cbn. now rewrite orb_false_r.
  - inversion Hf as [|? ? Hi Hf']; subst. destruct (bm_set m i true) as [m1|] eqn:E; [|discriminate]. cbn in H.
    assert (Hm1 : is_u128 m1) by (eapply bm_set_u128; [exact Hm| |exact E]; ilia).
    destruct (IH _ _ Hf' Hm1 H) as [Hm' Hb]. split; [assumption|]. intros j Hj. rewrite Hb by assumption.
    rewrite bm_set_ok in E by lia. injection E as <-. rewrite (testbit_set m i true j) by lia. cbn [existsb].
    destruct (j =? i); cbn; [now rewrite orb_true_r|reflexivity].
Qed.

Lemma cast_total ids m : Forall (fun i => 0 <= i < 128) ids -> exists m', cast ids m = Ok m'.
Proof.
  revert m; induction ids as [|i ids IH]; intros m Hf; cbn; [eauto|].
  inversion Hf as [|? ? Hi Hf']; subst. rewrite bm_set_ok by lia. cbn. now apply IH.
Qed.

Lemma votes_distinct ids enabled :
  Forall (fun i => 0 <= i < 128) ids -> is_u128 enabled ->
  exists m, cast ids bm_new = Ok m /\
  bm_count_enabled_votes m enabled
  = Ok (Z.of_nat (length (nodup Z.eq_dec (filter (Z.testbit enabled) ids)))).
Proof.
  intros Hf He. destruct (cast_total ids bm_new Hf) as [m Hm]. exists m. split; [assumption|].
  assert (H0 : is_u128 bm_new) by (unfold bm_new; ilia).
  destruct (cast_bits _ _ _ Hf H0 Hm) as [Hm' Hb].
  rewrite count_votes_exact by assumption. f_equal. rewrite count_upto_filter. f_equal.
  apply Permutation.Permutation_length, NoDup_Permutation.
  - apply NoDup_filter, indices_NoDup.
  - apply NoDup_nodup.
  - intros x. rewrite nodup_In, !filter_In, in_indices. rewrite Forall_forall in Hf. split.
    + intros [Hx Hb']. apply andb_true_iff in Hb' as [H1 H2]. rewrite Hb in H1 by lia.
      unfold bm_new in H1. rewrite Z.testbit_0_l in H1. cbn in H1. apply existsb_exists in H1 as (y & Hy & Hxy).
      assert (x = y) by lia. subst. auto.
    + intros [Hx H2]. pose proof (Hf _ Hx). split; [lia|]. rewrite H2, andb_true_r, Hb by lia.
      apply orb_true_iff. right. apply existsb_exists. exists x. split; [assumption|]. lia.
Qed.

Lemma sets_last ops : forall m m', Forall (fun o => 0 <= fst o < 128) ops -> is_u128 m -> sets ops m = Ok m' ->
  is_u128 m' /\ forall j, 0 <= j < 128 -> bm_get m' j = Ok (last_value ops j (Z.testbit m j)).
Proof.
  induction ops as [|[i v] ops IH]; intros m m' Hf Hm H; cbn in H.
  - injection H as <-. split; [assumption|]. intros j Hj. now rewrite bm_get_ok.
  - inversion Hf as [|? ? Hi Hf']; subst. cbn in Hi.
    destruct (bm_set m i v) as [m1|] eqn:E; [|discriminate]. cbn in H.
    assert (Hm1 : is_u128 m1) by (eapply bm_set_u128; [exact Hm| |exact E]; ilia).
    destruct (IH _ _ Hf' Hm1 H) as [Hm' Hb]. split; [assumption|]. intros j Hj. rewrite Hb by assumption.
    rewrite bm_set_ok in E by lia. injection E as <-. rewrite (testbit_set m i v j) by lia. reflexivity.
Qed.

Lemma sets_total ops m : Forall (fun o => 0 <= fst o < 128) ops -> exists m', sets ops m = Ok m'.
Proof.
  revert m; induction ops as [|[i v] ops IH]; intros m Hf; cbn; [eauto|].
  inversion Hf as [|? ? Hi Hf']; subst. cbn in Hi. rewrite bm_set_ok by lia. cbn. now apply IH.
Qed.

Lemma sets_spec ops m : Forall (fun o => 0 <= fst o < 128) ops -> is_u128 m ->
  exists m', sets ops m = Ok m' /\ is_u128 m' /\
  forall j, 0 <= j < 128 -> bm_get m' j = Ok (last_value ops j (Z.testbit m j)).
Proof.
  intros Hf Hm. destruct (sets_total ops m Hf) as [m' E]. exists m'. split; [assumption|].
  now apply (sets_last ops m m').
Qed.

Lemma bm_out_of_range m i v : 128 <= i -> bm_set m i v = Err BitmapIndexOutOfBounds /\ bm_get m i = Err BitmapIndexOutOfBounds.
Proof. intros H. unfold bm_set, bm_get, BITS. destruct (128 <=? i) eqn:E; [auto|lia]. Qed.

Lemma votes_le_enabled m e n :
  is_u128 m -> is_u128 e -> bm_count_enabled_votes m e = Ok n -> 0 <= n <= bm_len e /\ n <= bm_len m.
Proof.
  intros Hm He H. rewrite count_votes_exact in H by assumption.
  assert (n = count_upto 128 (fun i => Z.testbit m i && Z.testbit e i)) as -> by congruence. clear H.
  unfold bm_len. rewrite !ones_u128 by assumption.
  assert (G : forall k f g, (forall i, f i = true -> g i = true) -> count_upto k f <= count_upto k g).
  { intros k f g Hfg. induction k as [|k IH]; [cbn; lia|]. cbn [count_upto].
    destruct (f (Z.of_nat k)) eqn:Ef; [rewrite (Hfg _ Ef); lia|]. destruct (g (Z.of_nat k)); lia. }
  pose proof (count_upto_range 128 (fun i => Z.testbit m i && Z.testbit e i)) as [? _].
  split; [split; [assumption|]|]; apply (G 128%nat); intros i Hi; apply andb_true_iff in Hi; tauto.
Qed.

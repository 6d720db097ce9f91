(** * Facts about byte strings and integer encodings. *)
From Verif Require Import Base Bytes.
Local Open Scope Z_scope.

Lemma Z_of_byte_range b : 0 <= Z_of_byte b < 256.
Proof. unfold Z_of_byte. pose proof (Byte.to_N_bounded b). lia. Qed.

Lemma byte_of_Z_of_byte b : byte_of_Z (Z_of_byte b) = b.
Proof.
  unfold byte_of_Z. rewrite Z.mod_small by apply Z_of_byte_range.
  unfold Z_of_byte. rewrite N2Z.id, Byte.of_to_N. reflexivity.
Qed.

Lemma Z_of_byte_of_Z z : Z_of_byte (byte_of_Z z) = z mod 256.
Proof.
  unfold byte_of_Z.
  destruct (Byte.of_N (Z.to_N (z mod 256))) as [b|] eqn:E.
  - apply Byte.to_of_N in E. unfold Z_of_byte. rewrite E. rewrite Z2N.id; [reflexivity|].
    apply Z.mod_pos_bound; lia.
  - exfalso. apply Byte.of_N_None_iff in E.
    pose proof (Z.mod_pos_bound z 256). lia.
Qed.

Lemma Z_of_byte_inj a b : Z_of_byte a = Z_of_byte b -> a = b.
Proof. intros H. rewrite <- (byte_of_Z_of_byte a), <- (byte_of_Z_of_byte b). now rewrite H. Qed.

Lemma pow256_pos n : 0 < 256 ^ Z.of_nat n.
Proof. apply Z.pow_pos_nonneg; lia. Qed.

Lemma pow256_S n : 256 ^ Z.of_nat (S n) = 256 * 256 ^ Z.of_nat n.
Proof. rewrite Nat2Z.inj_succ, Z.pow_succ_r by lia. reflexivity. Qed.

Lemma be_enc_length n z : length (be_enc n z) = n.
Proof. revert z; induction n as [|n IH]; intros z; cbn; [reflexivity|now rewrite IH]. Qed.

Lemma be_dec_range l : 0 <= be_dec l < 256 ^ Z.of_nat (length l).
Proof.
  induction l as [|b l IH]; [cbn; lia|].
  cbn [be_dec length]. rewrite pow256_S. pose proof (Z_of_byte_range b). nia.
Qed.

Lemma be_dec_enc n z : 0 <= z < 256 ^ Z.of_nat n -> be_dec (be_enc n z) = z.
Proof.
  revert z; induction n as [|n IH]; intros z Hz; [cbn in *; lia|].
  cbn [be_enc be_dec]. rewrite be_enc_length.
  pose proof (pow256_pos n) as Hp. rewrite pow256_S in Hz.
  rewrite IH by (apply Z.mod_pos_bound; lia).
  rewrite Z_of_byte_of_Z.
  rewrite Z.mod_small.
  - pose proof (Z.div_mod z (256 ^ Z.of_nat n)). lia.
  - split; [apply Z.div_pos; lia|]. apply Z.div_lt_upper_bound; lia.
Qed.

Lemma be_enc_dec l : be_enc (length l) (be_dec l) = l.
Proof.
  induction l as [|b l IH]; [reflexivity|].
  cbn [length be_enc be_dec].
  pose proof (pow256_pos (length l)) as Hp. pose proof (be_dec_range l) as Hr.
  f_equal.
  - rewrite Z.div_add_l by lia. rewrite Z.div_small by lia. rewrite Z.add_0_r. apply byte_of_Z_of_byte.
  - rewrite Z.add_comm, Z.mod_add by lia. rewrite Z.mod_small by lia. exact IH.
Qed.

Lemma be_enc_inj n a b :
  0 <= a < 256 ^ Z.of_nat n -> 0 <= b < 256 ^ Z.of_nat n -> be_enc n a = be_enc n b -> a = b.
Proof. intros Ha Hb H. rewrite <- (be_dec_enc n a), <- (be_dec_enc n b) by assumption. now rewrite H. Qed.

Lemma le_enc_length n z : length (le_enc n z) = n.
Proof. unfold le_enc. now rewrite rev_length, be_enc_length. Qed.

Lemma le_dec_enc n z : 0 <= z < 256 ^ Z.of_nat n -> le_dec (le_enc n z) = z.
Proof. intros H. unfold le_dec, le_enc. rewrite rev_involutive. now apply be_dec_enc. Qed.

Lemma le_dec_range l : 0 <= le_dec l < 256 ^ Z.of_nat (length l).
Proof. unfold le_dec. rewrite <- rev_length. apply be_dec_range. Qed.

Lemma le_enc_dec l : le_enc (length l) (le_dec l) = l.
Proof.
  unfold le_enc, le_dec. rewrite <- (rev_length l), be_enc_dec. apply rev_involutive.
Qed.

Lemma pow256_1 : 256 ^ Z.of_nat 1 = 256. Proof. reflexivity. Qed.
Lemma pow256_2 : 256 ^ Z.of_nat 2 = 65536. Proof. reflexivity. Qed.
Lemma pow256_4 : 256 ^ Z.of_nat 4 = 4294967296. Proof. reflexivity. Qed.
Lemma pow256_8 : 256 ^ Z.of_nat 8 = 18446744073709551616. Proof. reflexivity. Qed.
Lemma pow256_16 : 256 ^ Z.of_nat 16 = 340282366920938463463374607431768211456. Proof. reflexivity. Qed.

Lemma u8_pow z : is_u8 z <-> 0 <= z < 256 ^ Z.of_nat 1. Proof. rewrite pow256_1. ilia. Qed.
Lemma u16_pow z : is_u16 z <-> 0 <= z < 256 ^ Z.of_nat 2. Proof. rewrite pow256_2. ilia. Qed.
Lemma u32_pow z : is_u32 z <-> 0 <= z < 256 ^ Z.of_nat 4. Proof. rewrite pow256_4. ilia. Qed.
Lemma u64_pow z : is_u64 z <-> 0 <= z < 256 ^ Z.of_nat 8. Proof. rewrite pow256_8. ilia. Qed.
Lemma u128_pow z : is_u128 z <-> 0 <= z < 256 ^ Z.of_nat 16. Proof. rewrite pow256_16. ilia. Qed.

Lemma bytes_eqb_eq a b : bytes_eqb a b = true <-> a = b.
Proof.
  revert b; induction a as [|x a IH]; intros [|y b]; cbn; split; intros H; try congruence; try reflexivity.
  - apply andb_true_iff in H as [H1 H2]. apply Byte.byte_dec_bl in H1. apply IH in H2. congruence.
  - injection H as -> ->. rewrite Byte.byte_dec_lb by reflexivity. cbn. now apply IH.
Qed.

Lemma bytes_eqb_refl a : bytes_eqb a a = true.
Proof. now apply bytes_eqb_eq. Qed.

(** ** Readers *)
Lemma rbind_Some {A B} (r : reader A) (f : A -> reader B) l x l' :
  rbind r f l = Some (x, l') <-> exists a l1, r l = Some (a, l1) /\ f a l1 = Some (x, l').
Proof.
  unfold rbind. destruct (r l) as [[a l1]|]; split.
  - intros H. eauto.
  - intros (a' & l1' & H & H'). injection H as <- <-. exact H'.
  - discriminate.
  - intros (a' & l1' & H & _). discriminate.
Qed.

Lemma rbind_step {A B} (r : reader A) (f : A -> reader B) l a l1 :
  r l = Some (a, l1) -> rbind r f l = f a l1.
Proof. unfold rbind. now intros ->. Qed.

Lemma take_app n a r : length a = n -> take n (a ++ r) = Some (a, r).
Proof.
  intros <-. unfold take. rewrite app_length.
  destruct (Nat.leb_spec (length a) (length a + length r)) as [_|]; [|lia].
  rewrite firstn_app, firstn_all, Nat.sub_diag, skipn_app, skipn_all, Nat.sub_diag. cbn.
  now rewrite app_nil_r.
Qed.

Lemma take_inv n l a r : take n l = Some (a, r) <-> l = a ++ r /\ length a = n.
Proof.
  split.
  - unfold take. destruct (Nat.leb_spec n (length l)) as [Hle|]; [|discriminate].
    intros H. injection H as <- <-. rewrite firstn_skipn. split; [reflexivity|].
    now apply firstn_length_le.
  - intros [-> <-]. now apply take_app.
Qed.

Lemma take_short n l : (length l < n)%nat -> take n l = None.
Proof. intros H. unfold take. destruct (Nat.leb_spec n (length l)); [lia|reflexivity]. Qed.

Lemma be_u_app n z r : 0 <= z < 256 ^ Z.of_nat n -> be_u n (be_enc n z ++ r) = Some (z, r).
Proof.
  intros H. unfold be_u, rbind. rewrite take_app by apply be_enc_length.
  unfold rret. now rewrite be_dec_enc.
Qed.

Lemma be_u_inv n l z r :
  be_u n l = Some (z, r) <-> l = be_enc n z ++ r /\ 0 <= z < 256 ^ Z.of_nat n.
Proof.
  split.
  - unfold be_u. intros H. apply rbind_Some in H as (a & l1 & H & H').
    apply take_inv in H as [-> Hl]. unfold rret in H'. injection H' as <- <-.
    rewrite <- Hl, be_enc_dec. split; [reflexivity|apply be_dec_range].
  - intros [-> H]. now apply be_u_app.
Qed.

Lemma le_u_app n z r : 0 <= z < 256 ^ Z.of_nat n -> le_u n (le_enc n z ++ r) = Some (z, r).
Proof.
  intros H. unfold le_u, rbind. rewrite take_app by apply le_enc_length.
  unfold rret. now rewrite le_dec_enc.
Qed.

Lemma le_u_inv n l z r :
  le_u n l = Some (z, r) <-> l = le_enc n z ++ r /\ 0 <= z < 256 ^ Z.of_nat n.
Proof.
  split.
  - unfold le_u. intros H. apply rbind_Some in H as (a & l1 & H & H').
    apply take_inv in H as [-> Hl]. unfold rret in H'. injection H' as <- <-.
    rewrite <- Hl, le_enc_dec. split; [reflexivity|apply le_dec_range].
  - intros [-> H]. now apply le_u_app.
Qed.

Lemma rguard_inv b l x r : rguard b l = Some (x, r) <-> b = true /\ r = l.
Proof.
  destruct x. unfold rguard, rret, rfail. destruct b; split; intros H.
  - injection H as <-. auto.
  - destruct H as [_ ->]. reflexivity.
  - discriminate.
  - destruct H; discriminate.
Qed.

Lemma rret_inv {A} (a : A) l x r : rret a l = Some (x, r) <-> x = a /\ r = l.
Proof. unfold rret. split; [intros H; injection H as <- <-; auto | intros [-> ->]; reflexivity]. Qed.

(** ** Writers *)
Lemma wapp_Some a b x : a +++ b = Some x <-> exists y z, a = Some y /\ b = Some z /\ x = y ++ z.
Proof.
  unfold wapp. destruct a as [y|], b as [z|]; split; intros H; try discriminate;
    try (destruct H as (y' & z' & H1 & H2 & ->); discriminate).
  - injection H as <-. eauto.
  - destruct H as (y' & z' & H1 & H2 & ->). injection H1 as ->. injection H2 as ->. reflexivity.
Qed.

Lemma w_u16_checked_Some n b : w_u16_checked n = Some b <-> is_u16 n /\ b = be_enc 2 n.
Proof.
  unfold w_u16_checked, is_u16.
  destruct (0 <=? n) eqn:E1, (n <=? u16_max) eqn:E2; cbn [andb]; split; intros H;
    try discriminate; try (destruct H; lia).
  - injection H as <-. split; [lia|reflexivity].
  - destruct H as [_ ->]. reflexivity.
Qed.

Lemma app_inj_length {A} (a b c d : list A) :
  length a = length c -> a ++ b = c ++ d -> a = c /\ b = d.
Proof.
  revert c; induction a as [|x a IH]; intros [|y c] Hl H; cbn in *; try lia; [auto|].
  injection H as -> H. injection Hl as Hl. destruct (IH _ Hl H) as [-> ->]. auto.
Qed.

(** [injection] simplifies too eagerly; this does not. *)
Lemma Some_inj {A} (x y : A) : Some x = Some y -> x = y.
Proof. congruence. Qed.
Ltac sinj H := apply Some_inj in H; match type of H with _ = ?v => subst v end.

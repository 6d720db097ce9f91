(** * Proofs about transactions as bytes (C107). *)
From Coq Require Import Arith Lia.
From Verif Require Export TxWire.
From Verif Require Import BytesFacts CompressFacts.
Import ListNotations.
Local Open Scope nat_scope.

Lemma n8_b8 n : n < 256 -> n8 (b8 n) = n.
Proof. intros L. unfold n8, b8. rewrite Z_of_byte_of_Z, Z.mod_small by lia. apply Nat2Z.id. Qed.
Lemma n8_range b : n8 b < 256.
Proof. pose proof (Z_of_byte_range b). unfold n8. lia. Qed.
Lemma b8_n8 b : b8 (n8 b) = b.
Proof. pose proof (Z_of_byte_range b). unfold n8, b8. rewrite Z2Nat.id by lia. apply byte_of_Z_of_byte. Qed.
Lemma b8_inj m n : m < 256 -> n < 256 -> b8 m = b8 n -> m = n.
Proof. intros A B E. rewrite <- (n8_b8 m A), <- (n8_b8 n B), E. reflexivity. Qed.

(** [r] reads what [w] writes; what [r] reads is what [w] writes. *)
Definition reads {A} (r : reader A) (w : A -> option bytes) (P : A -> Prop) : Prop := forall x b rest, P x -> w x = Some b -> r (b ++ rest) = Some (x, rest).
Definition tight {A} (r : reader A) (w : A -> option bytes) : Prop := forall l x rest, r l = Some (x, rest) -> exists b, w x = Some b /\ l = b ++ rest.

Lemma u8_reads : reads r_u8 w_u8 (fun _ => True).
Proof. intros x b rest _ E. unfold w_u8 in E. destruct (x <? 256) eqn:L; [|discriminate]. apply Nat.ltb_lt in L. apply Some_inj in E. subst b. cbn. rewrite n8_b8 by exact L. reflexivity. Qed.
Lemma u8_tight : tight r_u8 w_u8.
Proof.
  intros l x rest E. destruct l as [|b l]; cbn in E; [discriminate|]. injection E as <- <-. exists [b]. split; [|reflexivity].
  unfold w_u8. rewrite (proj2 (Nat.ltb_lt _ _) (n8_range b)), b8_n8. reflexivity.
Qed.
Lemma blob_reads n : reads (take n) (w_blob n) (fun _ => True).
Proof. intros x b rest _ E. unfold w_blob in E. destruct (length x =? n) eqn:L; [|discriminate]. apply Nat.eqb_eq in L. apply Some_inj in E. subst b. now apply take_app. Qed.
Lemma blob_tight n : tight (take n) (w_blob n).
Proof. intros l x rest E. apply take_inv in E as (-> & L). exists x. split; [|reflexivity]. unfold w_blob. rewrite (proj2 (Nat.eqb_eq _ _) L). reflexivity. Qed.

(** ** Lengths *)
Lemma enc1 n f : n < 128 -> encode_length (S f) n = [b8 n].
Proof. intros L. cbn [encode_length]. rewrite Nat.div_small, Nat.mod_small by exact L. reflexivity. Qed.
Lemma encS n f : 128 <= n -> encode_length (S f) n = b8 (n mod 128 + 128) :: encode_length f (n / 128).
Proof.
  intros L. cbn [encode_length]. destruct (n / 128 =? 0) eqn:Q; [|reflexivity]. apply Nat.eqb_eq in Q. apply Nat.div_small_iff in Q; lia.
Qed.
Lemma u8_one n l : n < 256 -> r_u8 (b8 n :: l) = Some (n, l).
Proof. intros L. cbn. rewrite n8_b8 by exact L. reflexivity. Qed.
Lemma bind_u8 {A} (f : nat -> reader A) n l : n < 256 -> rbind r_u8 f (b8 n :: l) = f n l.
Proof. intros L. exact (rbind_step _ _ _ _ _ (u8_one n l L)). Qed.
Lemma length_reads : reads r_length w_length (fun n => n < 256 * 256).
Proof.
  intros n b rest L E. apply Some_inj in E. subst b. unfold r_length. destruct (Nat.lt_ge_cases n 128) as [A|A].
  - rewrite enc1 by exact A. cbn [app]. rewrite bind_u8 by lia. rewrite (proj2 (Nat.ltb_lt _ _) A). reflexivity.
  - rewrite encS by exact A. cbn [app]. pose proof (Nat.mod_upper_bound n 128 ltac:(lia)) as M. pose proof (Nat.div_mod n 128 ltac:(lia)) as D.
    rewrite bind_u8 by lia. rewrite (proj2 (Nat.ltb_ge _ _)) by lia. set (q := n / 128) in *. set (r := n mod 128) in *.
    assert (Q : 1 <= q < 512) by lia. destruct (Nat.lt_ge_cases q 128) as [B|B].
    + rewrite enc1 by exact B. cbn [app]. rewrite bind_u8 by lia. rewrite (proj2 (Nat.eqb_neq q 0)) by lia. rewrite (proj2 (Nat.ltb_lt _ _) B).
      unfold rret. do 2 f_equal. lia.
    + rewrite encS by exact B. cbn [app]. pose proof (Nat.mod_upper_bound q 128 ltac:(lia)) as M2. pose proof (Nat.div_mod q 128 ltac:(lia)) as D2.
      rewrite bind_u8 by lia. rewrite (proj2 (Nat.eqb_neq _ 0)) by lia. rewrite (proj2 (Nat.ltb_ge _ 128)) by lia.
      set (q2 := q / 128) in *. set (r2 := q mod 128) in *. assert (Q2 : 1 <= q2 < 4) by lia. rewrite enc1 by lia. cbn [app].
      rewrite bind_u8 by lia. rewrite (proj2 (Nat.eqb_neq q2 0)) by lia. rewrite (proj2 (Nat.ltb_lt q2 128)) by lia. cbn [orb negb].
      cbv zeta. assert (V : r + 128 - 128 + 128 * (r2 + 128 - 128) + 128 * 128 * q2 = n) by lia. rewrite V. rewrite (proj2 (Nat.ltb_lt _ _) L). reflexivity.
Qed.
Lemma r_u8_inv l x rest : r_u8 l = Some (x, rest) -> x < 256 /\ l = b8 x :: rest.
Proof. destruct l as [|b l]; cbn; [discriminate|]. intros [= <- <-]. split; [apply n8_range|]. now rewrite b8_n8. Qed.
Lemma length_tight : forall l n rest, r_length l = Some (n, rest) -> n < 256 * 256 /\ l = encode_length 8 n ++ rest.
Proof.
 intros l n rest E. unfold r_length in E. apply rbind_Some in E as (a & l1 & E1 & E). apply r_u8_inv in E1 as (La & ->).
  destruct (a <? 128) eqn:A; [apply Nat.ltb_lt in A|apply Nat.ltb_ge in A].
  - apply rret_inv in E as (-> & ->). split; [lia|]. rewrite enc1 by exact A. reflexivity.
  - apply rbind_Some in E as (b & l2 & E1 & E). apply r_u8_inv in E1 as (Lb & ->). destruct (b =? 0) eqn:B0; [discriminate|]. apply Nat.eqb_neq in B0.
    destruct (b <? 128) eqn:B; [apply Nat.ltb_lt in B|apply Nat.ltb_ge in B].
    + apply rret_inv in E as (-> & ->). split; [lia|]. rewrite encS by lia.
      assert (D : (a - 128 + 128 * b) / 128 = b) by (replace (a - 128 + 128 * b) with (a - 128 + b * 128) by lia; rewrite Nat.div_add by lia; rewrite Nat.div_small by lia; lia).
      assert (M : (a - 128 + 128 * b) mod 128 = a - 128) by (replace (a - 128 + 128 * b) with (a - 128 + b * 128) by lia; rewrite Nat.mod_add by lia; apply Nat.mod_small; lia).
      rewrite D, M, enc1 by exact B. replace (a - 128 + 128) with a by lia. reflexivity.
    + apply rbind_Some in E as (c & l3 & E1 & E). apply r_u8_inv in E1 as (Lc & ->). destruct (c =? 0) eqn:C0; [discriminate|]. apply Nat.eqb_neq in C0.
      destruct (c <? 128) eqn:C; [apply Nat.ltb_lt in C|discriminate]. cbn [orb negb] in E. cbv zeta in E.
      destruct (a - 128 + 128 * (b - 128) + 128 * 128 * c <? 256 * 256) eqn:V; [apply Nat.ltb_lt in V|discriminate]. apply rret_inv in E as (-> & ->). split; [exact V|].
      set (n := a - 128 + 128 * (b - 128) + 128 * 128 * c) in *.
      assert (N : n = a - 128 + (b - 128 + c * 128) * 128) by (unfold n; lia).
      assert (D : n / 128 = b - 128 + c * 128) by (rewrite N, Nat.div_add by lia; rewrite Nat.div_small by lia; lia).
      assert (M : n mod 128 = a - 128) by (rewrite N, Nat.mod_add by lia; apply Nat.mod_small; lia).
      assert (D2 : (b - 128 + c * 128) / 128 = c) by (rewrite Nat.div_add by lia; rewrite Nat.div_small by lia; lia).
      assert (M2 : (b - 128 + c * 128) mod 128 = b - 128) by (rewrite Nat.mod_add by lia; apply Nat.mod_small; lia).
      rewrite encS by lia. rewrite M, D, encS by lia. rewrite M2, D2, enc1 by exact C. replace (a - 128 + 128) with a by lia. replace (b - 128 + 128) with b by lia. reflexivity.
Qed.
Lemma encode_size n : n < 256 * 256 -> length (encode_length 8 n) = shortvec n.
Proof.
  intros L. unfold shortvec. destruct (n <? 128) eqn:A; [apply Nat.ltb_lt in A; now rewrite enc1 by exact A|]. apply Nat.ltb_ge in A. rewrite encS by exact A. cbn [length].
  destruct (n / 128 <? 128) eqn:B; [apply Nat.ltb_lt in B; now rewrite enc1 by exact B|]. apply Nat.ltb_ge in B. rewrite encS by exact B. cbn [length]. rewrite enc1; [reflexivity|].
  assert (n / 128 < 512) by (apply Nat.div_lt_upper_bound; lia). apply Nat.div_lt_upper_bound; lia.
Qed.

(** ** Lists *)
Lemma all_reads {A} (r : reader A) w P : reads r w P -> forall l b rest, Forall P l -> w_all w l = Some b -> r_all r (length l) (b ++ rest) = Some (l, rest).
Proof.
  intros R. induction l as [|x l IH]; intros b rest F E; cbn [w_all length r_all] in *; [apply Some_inj in E; subst b; reflexivity|].
  apply wapp_Some in E as (y & z & Ey & Ez & ->). inversion F; subst. rewrite <- app_assoc. rewrite (rbind_step _ _ _ _ _ (R _ _ _ H1 Ey)). rewrite (rbind_step _ _ _ _ _ (IH _ _ H2 Ez)). reflexivity.
Qed.
Lemma all_tight {A} (r : reader A) w : tight r w -> forall n l xs rest, r_all r n l = Some (xs, rest) -> length xs = n /\ exists b, w_all w xs = Some b /\ l = b ++ rest.
Proof.
  intros T. induction n as [|n IH]; intros l xs rest E; cbn [r_all] in E.
  - apply rret_inv in E as (-> & ->). split; [reflexivity|]. exists []. split; reflexivity.
  - apply rbind_Some in E as (x & l1 & E1 & E). apply rbind_Some in E as (ys & l2 & E2 & E). apply rret_inv in E as (-> & ->).
    destruct (T _ _ _ E1) as (b1 & W1 & ->). destruct (IH _ _ _ E2) as (L & b2 & W2 & ->). split; [cbn; lia|]. exists (b1 ++ b2). split; [cbn [w_all]; rewrite W1, W2; reflexivity|apply app_assoc].
Qed.
Lemma vec_reads {A} (r : reader A) w P : reads r w P -> reads (r_vec r) (w_vec w) (fun l => length l < 256 * 256 /\ Forall P l).
Proof.
  intros R l b rest (L & F) E. unfold w_vec in E. apply wapp_Some in E as (y & z & Ey & Ez & ->). unfold r_vec. rewrite <- app_assoc.
  rewrite (rbind_step _ _ _ _ _ (length_reads _ _ _ L Ey)). exact (all_reads r w P R _ _ _ F Ez).
Qed.
Lemma vec_tight {A} (r : reader A) w : tight r w -> tight (r_vec r) (w_vec w).
Proof.
  intros T l xs rest E. unfold r_vec in E. apply rbind_Some in E as (n & l1 & E1 & E). destruct (length_tight _ _ _ E1) as (_ & ->). destruct (all_tight _ _ T _ _ _ _ E) as (<- & b & W & ->).
  exists (encode_length 8 (length xs) ++ b). split; [unfold w_vec, w_length; rewrite W; reflexivity|apply app_assoc].
Qed.

(** ** Instructions, lookups, messages *)
Definition small_ix (x : nat * list nat * bytes) : Prop := length (snd (fst x)) < 256 * 256 /\ length (snd x) < 256 * 256.
Definition small_lookup (x : lookup_ bytes) : Prop := length (lk_writable x) < 256 * 256 /\ length (lk_readonly x) < 256 * 256.
Definition small_message (g : message bytes) : Prop :=
  length (mg_static g) < 256 * 256 /\ (length (mg_ixs g) < 256 * 256 /\ Forall small_ix (mg_ixs g)) /\ (length (mg_lookups g) < 256 * 256 /\ Forall small_lookup (mg_lookups g)).
Lemma trivially {A} (l : list A) : Forall (fun _ => True) l. Proof. now apply Forall_forall. Qed.
Lemma ix_reads : reads r_ix w_ix small_ix.
Proof.
  intros [[p is] d] b rest (S1 & S2) E. cbn [fst snd] in *. unfold w_ix in E. apply wapp_Some in E as (b1 & b2 & E1 & E2 & ->). apply wapp_Some in E2 as (b3 & b4 & E3 & E4 & ->).
  apply wapp_Some in E4 as (b5 & b6 & E5 & E6 & ->). apply Some_inj in E6. subst b6. unfold r_ix. rewrite <- !app_assoc.
  rewrite (rbind_step _ _ _ _ _ (u8_reads _ _ _ Logic.I E1)). rewrite (rbind_step _ _ _ _ _ (vec_reads _ _ _ u8_reads _ _ _ (conj S1 (trivially _)) E3)).
  rewrite (rbind_step _ _ _ _ _ (length_reads _ _ _ S2 E5)). rewrite (rbind_step _ _ _ _ _ (take_app _ d rest eq_refl)). reflexivity.
Qed.
Lemma ix_tight : tight r_ix w_ix.
Proof.
  intros l x rest E. unfold r_ix in E. apply rbind_Some in E as (p & l1 & E1 & E). apply rbind_Some in E as (is & l2 & E2 & E). apply rbind_Some in E as (n & l3 & E3 & E).
  apply rbind_Some in E as (d & l4 & E4 & E). apply rret_inv in E as (-> & ->). destruct (u8_tight _ _ _ E1) as (b1 & W1 & ->). destruct (vec_tight _ _ u8_tight _ _ _ E2) as (b2 & W2 & ->).
  destruct (length_tight _ _ _ E3) as (_ & ->). apply take_inv in E4 as (-> & <-). exists (b1 ++ b2 ++ encode_length 8 (length d) ++ d). split; [|now rewrite <- !app_assoc].
  unfold w_ix. rewrite W1, W2. reflexivity.
Qed.
Lemma lookup_reads : reads r_lookup w_lookup small_lookup.
Proof.
  intros [k ws rs] b rest (S1 & S2) E. cbn [lk_writable lk_readonly] in *. unfold w_lookup in E. cbn [lk_table lk_writable lk_readonly] in E.
  apply wapp_Some in E as (b1 & b2' & E1 & E2' & ->). apply wapp_Some in E2' as (b2 & b3 & E2 & E3 & ->). unfold r_lookup. rewrite <- !app_assoc.
  rewrite (rbind_step _ _ _ _ _ (blob_reads 32 _ _ _ Logic.I E1)). rewrite (rbind_step _ _ _ _ _ (vec_reads _ _ _ u8_reads _ _ _ (conj S1 (trivially _)) E2)).
  rewrite (rbind_step _ _ _ _ _ (vec_reads _ _ _ u8_reads _ _ _ (conj S2 (trivially _)) E3)). reflexivity.
Qed.
Lemma lookup_tight : tight r_lookup w_lookup.
Proof.
  intros l x rest E. unfold r_lookup in E. apply rbind_Some in E as (k & l1 & E1 & E). apply rbind_Some in E as (ws & l2 & E2 & E). apply rbind_Some in E as (rs & l3 & E3 & E).
  apply rret_inv in E as (-> & ->). destruct (blob_tight _ _ _ _ E1) as (b1 & W1 & ->). destruct (vec_tight _ _ u8_tight _ _ _ E2) as (b2 & W2 & ->). destruct (vec_tight _ _ u8_tight _ _ _ E3) as (b3 & W3 & ->).
  exists (b1 ++ b2 ++ b3). split; [|now rewrite <- !app_assoc]. unfold w_lookup. cbn [lk_table lk_writable lk_readonly]. rewrite W1, W2, W3. reflexivity.
Qed.

(** ** Sizes *)
Lemma all_size {A} (w : A -> option bytes) (f : A -> nat) l b : (forall x y, In x l -> w x = Some y -> length y = f x) -> w_all w l = Some b -> length b = list_sum (map f l).
Proof.
  revert b. induction l as [|x l IH]; intros b S E; cbn [w_all] in E; [apply Some_inj in E; subst b; reflexivity|]. apply wapp_Some in E as (y & z & Ey & Ez & ->).
  rewrite app_length. rewrite (S x y (or_introl eq_refl) Ey), (IH z (fun x y I => S x y (or_intror I)) Ez). reflexivity.
Qed.
Lemma all_least {A} (w : A -> option bytes) (n : nat) l b : (forall x y, w x = Some y -> n <= length y) -> w_all w l = Some b -> n * length l <= length b.
Proof.
  intros S. revert b. induction l as [|x l IH]; intros b E; cbn [w_all length] in *; [lia|]. apply wapp_Some in E as (y & z & Ey & Ez & ->). rewrite app_length.
  pose proof (S _ _ Ey). pose proof (IH _ Ez). lia.
Qed.
Lemma all_part {A} (w : A -> option bytes) l b : w_all w l = Some b -> forall x, In x l -> exists y, w x = Some y /\ length y <= length b.
Proof.
  revert b. induction l as [|x l IH]; intros b E k I; [destruct I|]. destruct I as [<-|I]; cbn [w_all] in E; apply wapp_Some in E as (y & z & Ey & Ez & ->); rewrite app_length.
  - exists y. split; [exact Ey|lia].
  - destruct (IH _ Ez _ I) as (y' & E' & L). exists y'. split; [exact E'|lia].
Qed.
Lemma vec_inv {A} (w : A -> option bytes) l b : w_vec w l = Some b -> exists c, w_all w l = Some c /\ b = encode_length 8 (length l) ++ c.
Proof. intros E. unfold w_vec in E. apply wapp_Some in E as (y & z & Ey & Ez & ->). apply Some_inj in Ey. subst y. eauto. Qed.
Lemma vec_size {A} (w : A -> option bytes) (f : A -> nat) l b : length l < 256 * 256 -> (forall x y, In x l -> w x = Some y -> length y = f x) -> w_vec w l = Some b ->
  length b = shortvec (length l) + list_sum (map f l).
Proof. intros L S E. apply vec_inv in E as (c & E & ->). rewrite app_length, encode_size by exact L. now rewrite (all_size w f l c S E). Qed.
Lemma vec_least {A} (w : A -> option bytes) (n : nat) l b : (forall x y, w x = Some y -> n <= length y) -> w_vec w l = Some b -> n * length l <= length b.
Proof. intros S E. apply vec_inv in E as (c & E & ->). rewrite app_length. pose proof (all_least w n l c S E). lia. Qed.
Lemma u8_len n b : w_u8 n = Some b -> length b = 1.
Proof. unfold w_u8. destruct (n <? 256); [|discriminate]. intros E. apply Some_inj in E. now subst b. Qed.
Lemma blob_len n x b : w_blob n x = Some b -> length b = n /\ b = x.
Proof. unfold w_blob. destruct (length x =? n) eqn:L; [|discriminate]. apply Nat.eqb_eq in L. intros E. apply Some_inj in E. now subst b. Qed.
Lemma sum_const {A} (n : nat) (l : list A) : list_sum (map (fun _ => n) l) = n * length l.
Proof. induction l as [|x l IH]; cbn [map list_sum fold_right length]; [lia|]. change (fold_right Nat.add 0) with list_sum. rewrite IH. lia. Qed.
Lemma u8s_size l b : length l < 256 * 256 -> w_vec w_u8 l = Some b -> length b = shortvec (length l) + length l.
Proof. intros L E. rewrite (vec_size w_u8 (fun _ => 1) l b L (fun x y _ => u8_len x y) E), sum_const. lia. Qed.
Lemma u8s_least l b : w_vec w_u8 l = Some b -> length l <= length b.
Proof. intros E. pose proof (vec_least w_u8 1 l b (fun x y H => Nat.eq_le_incl _ _ (eq_sym (u8_len x y H))) E). lia. Qed.

Definition ix_bytes (x : nat * list nat * bytes) : nat := 1 + shortvec (length (snd (fst x))) + length (snd (fst x)) + shortvec (length (snd x)) + length (snd x).
Definition lookup_bytes {K} (x : lookup_ K) : nat := 32 + shortvec (length (lk_writable x)) + length (lk_writable x) + shortvec (length (lk_readonly x)) + length (lk_readonly x).
Lemma ix_inv x b : w_ix x = Some b -> exists b1 b2, w_u8 (fst (fst x)) = Some b1 /\ w_vec w_u8 (snd (fst x)) = Some b2 /\ b = b1 ++ b2 ++ encode_length 8 (length (snd x)) ++ snd x.
Proof.
  destruct x as [[p is] d]. cbn [fst snd w_ix]. intros E. apply wapp_Some in E as (b1 & b2 & E1 & E2 & ->). apply wapp_Some in E2 as (b3 & b4 & E3 & E4 & ->). apply Some_inj in E4. subst b4. eauto.
Qed.
Lemma ix_size x b : small_ix x -> w_ix x = Some b -> length b = ix_bytes x.
Proof.
  intros (S1 & S2) E. apply ix_inv in E as (b1 & b2 & E1 & E2 & ->). rewrite !app_length, (u8_len _ _ E1), (u8s_size _ _ S1 E2), (encode_size _ S2). unfold ix_bytes. lia.
Qed.
Lemma ix_least x b : w_ix x = Some b -> 1 <= length b /\ length (snd (fst x)) <= length b /\ length (snd x) <= length b.
Proof. intros E. apply ix_inv in E as (b1 & b2 & E1 & E2 & ->). pose proof (u8s_least _ _ E2). rewrite !app_length, (u8_len _ _ E1). lia. Qed.
Lemma lookup_inv x b : w_lookup x = Some b -> exists b1 b2 b3, w_blob 32 (lk_table x) = Some b1 /\ w_vec w_u8 (lk_writable x) = Some b2 /\ w_vec w_u8 (lk_readonly x) = Some b3 /\ b = b1 ++ b2 ++ b3.
Proof. unfold w_lookup. intros E. apply wapp_Some in E as (b1 & b2 & E1 & E2 & ->). apply wapp_Some in E2 as (b3 & b4 & E3 & E4 & ->). repeat eexists; eassumption. Qed.
Lemma lookup_size x b : small_lookup x -> w_lookup x = Some b -> length b = lookup_bytes x.
Proof.
  intros (S1 & S2) E. apply lookup_inv in E as (b1 & b2 & b3 & E1 & E2 & E3 & ->). apply blob_len in E1 as (E1 & _). rewrite !app_length, E1, (u8s_size _ _ S1 E2), (u8s_size _ _ S2 E3). unfold lookup_bytes. lia.
Qed.
Lemma lookup_least x b : w_lookup x = Some b -> 32 <= length b /\ length (lk_writable x) <= length b /\ length (lk_readonly x) <= length b.
Proof. intros E. apply lookup_inv in E as (b1 & b2 & b3 & E1 & E2 & E3 & ->). apply blob_len in E1 as (E1 & _). pose proof (u8s_least _ _ E2). pose proof (u8s_least _ _ E3). rewrite !app_length. lia. Qed.

(** A message in its parts. *)
Lemma message_inv h v g b : w_message h v g = Some b -> exists b1 b2 b3 b4 b5 b6 b7,
  w_u8 (mg_signatures g) = Some b1 /\ w_u8 (mg_ro_signed g) = Some b2 /\ w_u8 (mg_ro_unsigned g) = Some b3 /\ w_vec (w_blob 32) (mg_static g) = Some b4 /\ w_blob 32 h = Some b5 /\
  w_vec w_ix (mg_ixs g) = Some b6 /\ (if v then w_vec w_lookup (mg_lookups g) else Some []) = Some b7 /\
  b = (if v then [b8 128] else []) ++ b1 ++ b2 ++ b3 ++ b4 ++ b5 ++ b6 ++ b7.
Proof.
  unfold w_message. intros E. apply wapp_Some in E as (b0 & c0 & E0 & E & ->). apply Some_inj in E0. subst b0. apply wapp_Some in E as (b1 & c1 & E1 & E & ->). apply wapp_Some in E as (b2 & c2 & E2 & E & ->).
  apply wapp_Some in E as (b3 & c3 & E3 & E & ->). apply wapp_Some in E as (b4 & c4 & E4 & E & ->). apply wapp_Some in E as (b5 & c5 & E5 & E & ->). apply wapp_Some in E as (b6 & b7 & E6 & E7 & ->).
  exists b1, b2, b3, b4, b5, b6, b7. repeat match goal with |- _ /\ _ => split end; assumption || reflexivity.
Qed.
Lemma blob_least n x y : w_blob n x = Some y -> n <= length y.
Proof. intros E. apply blob_len in E as (E & _). lia. Qed.
Lemma small_of (n m : nat) : n <= m -> m <= 2048 -> n < 256 * 256.
Proof. intros. apply Nat.le_lt_trans with 2048; [lia|]. apply Nat.ltb_lt. reflexivity. Qed.
Lemma message_small h v g b : w_message h v g = Some b -> length b <= 2048 -> (v = false -> mg_lookups g = []) -> small_message g.
Proof.
  intros E L V. apply message_inv in E as (b1 & b2 & b3 & b4 & b5 & b6 & b7 & _ & _ & _ & E4 & _ & E6 & E7 & ->). rewrite !app_length in L.
  repeat split.
  - pose proof (vec_least _ 32 _ _ (blob_least 32) E4). apply (small_of _ (length b4)); lia.
  - pose proof (vec_least _ 1 _ _ (fun x y H => proj1 (ix_least x y H)) E6). apply (small_of _ (length b6)); lia.
  - apply vec_inv in E6 as (c & E6 & ->). rewrite app_length in L. apply Forall_forall. intros x I. destruct (all_part _ _ _ E6 x I) as (y & Ey & Ly). destruct (ix_least _ _ Ey) as (_ & P & Q). split; apply (small_of _ (length y)); lia.
  - destruct v; [|rewrite (V eq_refl); apply Nat.ltb_lt; reflexivity]. pose proof (vec_least _ 32 _ _ (fun x y H => proj1 (lookup_least x y H)) E7). apply (small_of _ (length b7)); lia.
  - destruct v; [|rewrite (V eq_refl); constructor]. apply vec_inv in E7 as (c & E7 & ->). rewrite !app_length in L. apply Forall_forall. intros x I. destruct (all_part _ _ _ E7 x I) as (y & Ey & Ly).
    destruct (lookup_least _ _ Ey) as (_ & P & Q). split; apply (small_of _ (length y)); lia.
Qed.
Definition message_bytes {K} (g : message K) : nat :=
  1 + 3 + (shortvec (length (mg_static g)) + 32 * length (mg_static g)) + 32 + (shortvec (length (mg_ixs g)) + list_sum (map ix_bytes (mg_ixs g))) +
  (shortvec (length (mg_lookups g)) + list_sum (map lookup_bytes (mg_lookups g))).
Lemma wire_parts {K} (g : message K) : wire_size g = shortvec (mg_signatures g) + 64 * mg_signatures g + message_bytes g.
Proof.
  change (wire_size g) with (shortvec (mg_signatures g) + 64 * mg_signatures g + 1 + 3 + shortvec (length (mg_static g)) + 32 * length (mg_static g) + 32 +
    shortvec (length (mg_ixs g)) + list_sum (map ix_bytes (mg_ixs g)) + shortvec (length (mg_lookups g)) + list_sum (map lookup_bytes (mg_lookups g))).
  unfold message_bytes. lia.
Qed.
Lemma message_size h g b : small_message g -> w_message h true g = Some b -> length b = message_bytes g.
Proof.
  intros (S1 & (S2 & S3) & S4 & S5) E. apply message_inv in E as (b1 & b2 & b3 & b4 & b5 & b6 & b7 & E1 & E2 & E3 & E4 & E5 & E6 & E7 & ->). apply blob_len in E5 as (E5 & _).
  rewrite !app_length, (u8_len _ _ E1), (u8_len _ _ E2), (u8_len _ _ E3), E5.
  rewrite (vec_size _ (fun _ => 32) _ _ S1 (fun x y _ H => proj1 (blob_len 32 x y H)) E4), sum_const.
  rewrite (vec_size _ ix_bytes _ _ S2 (fun x y I H => ix_size x y (proj1 (Forall_forall _ _) S3 x I) H) E6).
  rewrite (vec_size _ lookup_bytes _ _ S4 (fun x y I H => lookup_size x y (proj1 (Forall_forall _ _) S5 x I) H) E7). unfold message_bytes. cbn [length]. lia.
Qed.

(** ** What is sent is read *)
Lemma body_reads h v g b rest b2 b3 b4 b5 b6 b7 : small_message g -> (v = false -> mg_lookups g = []) ->
  w_u8 (mg_ro_signed g) = Some b2 -> w_u8 (mg_ro_unsigned g) = Some b3 -> w_vec (w_blob 32) (mg_static g) = Some b4 -> w_blob 32 h = Some b5 ->
  w_vec w_ix (mg_ixs g) = Some b6 -> (if v then w_vec w_lookup (mg_lookups g) else Some []) = Some b7 -> b = b2 ++ b3 ++ b4 ++ b5 ++ b6 ++ b7 ->
  r_body (mg_signatures g) v (b ++ rest) = Some ((h, v, g), rest).
Proof.
  intros (S1 & S2 & S4) V E2 E3 E4 E5 E6 E7 ->. unfold r_body. rewrite <- !app_assoc. rewrite (rbind_step _ _ _ _ _ (u8_reads _ _ _ Logic.I E2)). rewrite (rbind_step _ _ _ _ _ (u8_reads _ _ _ Logic.I E3)).
  rewrite (rbind_step _ _ _ _ _ (vec_reads _ _ _ (blob_reads 32) _ _ _ (conj S1 (trivially _)) E4)). rewrite (rbind_step _ _ _ _ _ (blob_reads 32 _ _ _ Logic.I E5)).
  rewrite (rbind_step _ _ _ _ _ (vec_reads _ _ _ ix_reads _ _ _ S2 E6)). destruct g as [s rs ru st ix lk]. cbn [mg_signatures mg_ro_signed mg_ro_unsigned mg_static mg_ixs mg_lookups] in *. destruct v.
  - rewrite (rbind_step _ _ _ _ _ (vec_reads _ _ _ lookup_reads _ _ _ S4 E7)). reflexivity.
  - apply Some_inj in E7. subst b7. rewrite (V eq_refl). reflexivity.
Qed.
Lemma message_reads h v g b rest : small_message g -> (v = false -> mg_lookups g = [] /\ mg_signatures g < 128) -> w_message h v g = Some b -> r_message (b ++ rest) = Some ((h, v, g), rest).
Proof.
  intros S V E. apply message_inv in E as (b1 & b2 & b3 & b4 & b5 & b6 & b7 & E1 & E2 & E3 & E4 & E5 & E6 & E7 & ->).
  pose proof (fun r => body_reads h v g _ r b2 b3 b4 b5 b6 b7 S (fun H => proj1 (V H)) E2 E3 E4 E5 E6 E7 eq_refl) as B. unfold r_message. destruct v.
  - cbn [app]. rewrite bind_u8 by (apply Nat.ltb_lt; reflexivity). cbn [Nat.ltb Nat.leb Nat.eqb]. rewrite <- (app_assoc b1). rewrite (rbind_step _ _ _ _ _ (u8_reads _ _ _ Logic.I E1)). apply B.
  - cbn [app]. rewrite <- (app_assoc b1). rewrite (rbind_step _ _ _ _ _ (u8_reads _ _ _ Logic.I E1)). rewrite (proj2 (Nat.ltb_lt _ _) (proj2 (V eq_refl))). apply B.
Qed.
Definition well_formed (t : tx) : Prop :=
  length (tx_signatures t) = mg_signatures (tx_message t) /\ (tx_v0 t = false -> mg_lookups (tx_message t) = [] /\ mg_signatures (tx_message t) < 128).
Lemma serialize_inv t b : serialize t = Some b -> exists s m, w_message (tx_hash t) (tx_v0 t) (tx_message t) = Some m /\ w_vec (w_blob 64) (tx_signatures t) = Some s /\
  length m <= 1232 /\ length (s ++ m) <= 2048 /\ b = s ++ m.
Proof.
  unfold serialize. destruct (w_message _ _ _) as [m|]; [|discriminate]. destruct (length m <=? 1232) eqn:L; [apply Nat.leb_le in L|discriminate].
  destruct (w_vec _ _) as [s|]; [|discriminate]. destruct (length (s ++ m) <=? 2048) eqn:L2; [apply Nat.leb_le in L2|discriminate]. intros E. apply Some_inj in E. subst b. exists s, m. auto.
Qed.
Lemma sigs_small l s n : w_vec (w_blob 64) l = Some s -> length s + n <= 2048 -> length l < 256 * 256.
Proof. intros E L. pose proof (vec_least _ 64 _ _ (blob_least 64) E). apply (small_of _ (length s)); lia. Qed.
Lemma serialize_reads t b rest : well_formed t -> serialize t = Some b -> r_tx (b ++ rest) = Some (t, rest).
Proof.
  intros (N & V) E. apply serialize_inv in E as (s & m & Em & Es & L1 & L2 & ->). unfold r_tx. rewrite <- app_assoc. rewrite app_length in L2.
  rewrite (rbind_step _ _ _ _ _ (vec_reads _ _ _ (blob_reads 64) _ _ _ (conj (sigs_small _ _ _ Es L2) (trivially _)) Es)).
  rewrite (rbind_step _ _ _ _ _ (message_reads _ _ _ _ rest (message_small _ _ _ _ Em ltac:(lia) (fun H => proj1 (V H))) V Em)). destruct t as [ss h v g]. reflexivity.
Qed.
Lemma serialize_receive t b : well_formed t -> serialize t = Some b -> length b <= 1232 -> receive b = Some t.
Proof.
  intros W E L. unfold receive. rewrite (proj2 (Nat.leb_le _ _) L). pose proof (serialize_reads t b [] W E) as R. rewrite app_nil_r in R. rewrite R. rewrite (proj2 (Nat.eqb_eq _ _) (proj1 W)). reflexivity.
Qed.

(** ** What is read was written *)
Lemma body_tight n v l h v' g rest : r_body n v l = Some ((h, v', g), rest) -> v' = v /\ mg_signatures g = n /\ (v = false -> mg_lookups g = []) /\ exists b2 b3 b4 b5 b6 b7,
  w_u8 (mg_ro_signed g) = Some b2 /\ w_u8 (mg_ro_unsigned g) = Some b3 /\ w_vec (w_blob 32) (mg_static g) = Some b4 /\ w_blob 32 h = Some b5 /\
  w_vec w_ix (mg_ixs g) = Some b6 /\ (if v then w_vec w_lookup (mg_lookups g) else Some []) = Some b7 /\ l = b2 ++ b3 ++ b4 ++ b5 ++ b6 ++ b7 ++ rest.
Proof.
  intros E. unfold r_body in E. apply rbind_Some in E as (a & l1 & E1 & E). apply rbind_Some in E as (b & l2 & E2 & E). apply rbind_Some in E as (ks & l3 & E3 & E). apply rbind_Some in E as (h' & l4 & E4 & E).
  apply rbind_Some in E as (is & l5 & E5 & E). destruct (u8_tight _ _ _ E1) as (b2 & W2 & ->). destruct (u8_tight _ _ _ E2) as (b3 & W3 & ->). destruct (vec_tight _ _ (blob_tight 32) _ _ _ E3) as (b4 & W4 & ->).
  destruct (blob_tight _ _ _ _ E4) as (b5 & W5 & ->). destruct (vec_tight _ _ ix_tight _ _ _ E5) as (b6 & W6 & ->). destruct v.
  - apply rbind_Some in E as (ls & l6 & E6 & E). apply rret_inv in E as (Q & <-). injection Q as -> -> ->. destruct (vec_tight _ _ lookup_tight _ _ _ E6) as (b7 & W7 & ->).
    split; [reflexivity|]. split; [reflexivity|]. split; [discriminate|]. exists b2, b3, b4, b5, b6, b7. repeat match goal with |- _ /\ _ => split end; assumption || reflexivity.
  - apply rret_inv in E as (Q & <-). injection Q as -> -> ->. split; [reflexivity|]. split; [reflexivity|]. split; [reflexivity|]. exists b2, b3, b4, b5, b6, []. repeat match goal with |- _ /\ _ => split end; assumption || reflexivity.
Qed.
Lemma message_tight l h v g rest : r_message l = Some ((h, v, g), rest) -> (v = false -> mg_lookups g = [] /\ mg_signatures g < 128) /\ exists b, w_message h v g = Some b /\ l = b ++ rest.
Proof.
  intros E. unfold r_message in E. apply rbind_Some in E as (a & l1 & E1 & E). apply r_u8_inv in E1 as (La & ->).
  destruct (a <? 128) eqn:A; [apply Nat.ltb_lt in A|destruct (a =? 128) eqn:A2; [apply Nat.eqb_eq in A2; subst a|discriminate]].
  - apply body_tight in E as (-> & <- & V & b2 & b3 & b4 & b5 & b6 & b7 & W2 & W3 & W4 & W5 & W6 & W7 & ->). split; [intros _; split; [exact (V eq_refl)|exact A]|].
    exists (b8 (mg_signatures g) :: b2 ++ b3 ++ b4 ++ b5 ++ b6 ++ b7). split; [|cbn [app]; now rewrite <- !app_assoc]. apply Some_inj in W7. subst b7. unfold w_message. rewrite W2, W3, W4, W5, W6. unfold w_u8. rewrite (proj2 (Nat.ltb_lt _ _) La). reflexivity.
  - apply rbind_Some in E as (n & l2 & E2 & E). destruct (u8_tight _ _ _ E2) as (b1 & W1 & ->).
    apply body_tight in E as (-> & <- & V & b2 & b3 & b4 & b5 & b6 & b7 & W2 & W3 & W4 & W5 & W6 & W7 & ->). split; [discriminate|].
    exists (b8 128 :: b1 ++ b2 ++ b3 ++ b4 ++ b5 ++ b6 ++ b7). split; [|cbn [app]; now rewrite <- !app_assoc]. unfold w_message. rewrite W1, W2, W3, W4, W5, W6, W7. reflexivity.
Qed.
Lemma receive_serialize b t : receive b = Some t -> serialize t = Some b /\ well_formed t /\ length b <= 1232.
Proof.
  unfold receive. destruct (length b <=? 1232) eqn:L; [apply Nat.leb_le in L|discriminate]. destruct (r_tx b) as [[t' [|c rest]]|] eqn:R; [|discriminate|discriminate].
  destruct (_ =? _) eqn:N; [apply Nat.eqb_eq in N|discriminate]. intros E. apply Some_inj in E. subst t'. unfold r_tx in R. apply rbind_Some in R as (s & l1 & E1 & R). apply rbind_Some in R as ([[h v] g] & l2 & E2 & R).
  apply rret_inv in R as (-> & <-). cbn [fst snd] in *. destruct (vec_tight _ _ (blob_tight 64) _ _ _ E1) as (bs & Ws & ->). apply message_tight in E2 as (V & m & Wm & ->). rewrite app_nil_r in *. rewrite app_length in L.
  split; [|split; [split; [exact N|exact V]|rewrite app_length; exact L]]. unfold serialize. cbn [tx_hash tx_v0 tx_message tx_signatures]. rewrite Wm, Ws.
  rewrite (proj2 (Nat.leb_le _ _)) by lia. rewrite (proj2 (Nat.leb_le _ _)); [reflexivity|]. rewrite app_length. lia.
Qed.

(** ** The library's messages *)
Section Compiled.
Context {K : Type} (eq_dec : forall a b : K, {a = b} + {a <> b}) (key : K -> bytes).
Notation index_of := (index_of eq_dec).
Notation compile := (compile eq_dec).
Notation drain := (drain eq_dec).
Notation extract := (extract eq_dec).

Lemma index_less k l i : index_of k l = Some i -> i < length l.
Proof. intros E. apply index_nth in E. apply nth_error_Some. rewrite E. discriminate. Qed.
Lemma all_some_forall {A B} (f : A -> option B) (P : B -> Prop) l r : (forall a b, f a = Some b -> P b) -> all_some (map f l) = Some r -> Forall P r.
Proof.
  intros H. revert r. induction l as [|a l IH]; intros r E; cbn [map all_some] in E; [apply Some_inj in E; subst r; constructor|].
  destruct (f a) as [b|] eqn:F; [|discriminate]. destruct (all_some (map f l)) as [r'|]; [|discriminate]. cbn [option_map] in E. apply Some_inj in E. subst r. constructor; [exact (H _ _ F)|exact (IH _ eq_refl)].
Qed.
Lemma drain_small p en m is ks rest : drain p en m = Some (is, ks, rest) -> Forall (fun i => i < 256) is.
Proof.
  revert is ks rest. induction m as [|[k f] m IH]; intros is ks rest; cbn [Compress.drain]; [intros E; injection E as <- <- <-; constructor|].
  destruct (drain p en m) as [[[is' ks'] rest']|]; [|discriminate]. specialize (IH _ _ _ eq_refl).
  destruct (if p f then index_of k en else None) as [i|]; [|intros E; injection E as <- <- <-; exact IH]. destruct (i <? 256) eqn:L; [|discriminate]. apply Nat.ltb_lt in L. intros E. injection E as <- <- <-. constructor; assumption.
Qed.
Lemma extract_small tables m ls ws rs rest : extract tables m = Some (ls, ws, rs, rest) -> Forall (fun x => Forall (fun i => i < 256) (lk_writable x) /\ Forall (fun i => i < 256) (lk_readonly x)) ls.
Proof.
  revert m ls ws rs rest. induction tables as [|[t en] tables IH]; intros m ls ws rs rest; cbn [Compress.extract]; [intros E; injection E as <- <- <- <-; constructor|].
  destruct (drain _ en m) as [[[wi wk] m1]|] eqn:D1; [|discriminate]. destruct (drain _ en m1) as [[[ri rk] m2]|] eqn:D2; [|discriminate].
  destruct (extract tables m2) as [[[[ls' ws'] rs'] rest']|] eqn:X; [|discriminate]. specialize (IH _ _ _ _ _ X). pose proof (drain_small _ _ _ _ _ _ D1). pose proof (drain_small _ _ _ _ _ _ D2).
  intros E. injection E as <- <- <- <-. destruct wi, ri; try exact IH; (constructor; [split; assumption|exact IH]).
Qed.
Lemma part_length s w (m : list (K * keymeta)) : length (part s w m) <= length m.
Proof. unfold part. rewrite map_length. induction m as [|x m IH]; cbn [filter]; [reflexivity|]. destruct (_ && _); cbn [length]; lia. Qed.
Lemma compile_small payer l tables g : compile payer l tables = Some g ->
  mg_ro_signed g <= mg_signatures g /\ mg_signatures g + mg_ro_unsigned g <= length (mg_static g) /\
  Forall (fun x => fst (fst x) < 256 /\ Forall (fun i => i < 256) (snd (fst x))) (mg_ixs g) /\
  Forall (fun x => Forall (fun i => i < 256) (lk_writable x) /\ Forall (fun i => i < 256) (lk_readonly x)) (mg_lookups g).
Proof.
  unfold Compress.compile. destruct (extract tables _) as [[[[ls ws] rs] m]|] eqn:X; [|discriminate]. apply extract_small in X. destruct (length m <=? 256); [|discriminate].
  destruct (part true true m) as [|first more] eqn:P; [discriminate|]. destruct (eq_dec first payer); [|discriminate]. cbv zeta. rewrite <- P.
  destruct (length _ <=? 256) eqn:L; [apply Nat.leb_le in L|discriminate]. destruct (all_some _) as [is|] eqn:A; [|discriminate]. intros E. apply Some_inj in E. subst g.
  cbn [mg_signatures mg_ro_signed mg_ro_unsigned mg_static mg_ixs mg_lookups]. split; [lia|]. split; [rewrite !app_length; lia|]. split; [|exact X]. revert A. apply all_some_forall. intros x y. unfold compile_ix.
  set (keys := _ ++ _) in L |- *. destruct (index_of (cx_program x) keys) as [p|] eqn:I; [|discriminate]. destruct (all_some _) as [is'|] eqn:A; [|discriminate]. intros E. apply Some_inj in E. subst y. cbn [fst snd].
  apply index_less in I. split; [lia|]. revert A. apply all_some_forall. intros a b J. apply index_less in J. lia.
Qed.

Lemma all_total {A} (w : A -> option bytes) l : Forall (fun x => w x <> None) l -> exists b, w_all w l = Some b.
Proof. induction 1 as [|x l H F (b & E)]; cbn [w_all]; [eauto|]. destruct (w x) as [y|]; [|congruence]. rewrite E. cbn. eauto. Qed.
Lemma vec_total {A} (w : A -> option bytes) l : Forall (fun x => w x <> None) l -> exists b, w_vec w l = Some b.
Proof. intros F. destruct (all_total w l F) as (b & E). unfold w_vec. rewrite E. cbn. eauto. Qed.
Lemma u8_total n : n < 256 -> w_u8 n <> None.
Proof. intros L. unfold w_u8. rewrite (proj2 (Nat.ltb_lt _ _) L). discriminate. Qed.
Lemma u8s_total l : Forall (fun i => i < 256) l -> exists b, w_vec w_u8 l = Some b.
Proof. intros F. apply vec_total. eapply Forall_impl; [|exact F]. exact u8_total. Qed.
Lemma blob_total n b : length b = n -> w_blob n b = Some b.
Proof. intros L. unfold w_blob. rewrite (proj2 (Nat.eqb_eq _ _) L). reflexivity. Qed.
Lemma blob_total' n b : length b = n -> w_blob n b <> None.
Proof. intros L. rewrite blob_total by exact L. discriminate. Qed.
Lemma sum_in (l : list nat) n : In n l -> n <= list_sum l.
Proof. induction l as [|x l IH]; intros []; cbn [list_sum fold_right]; change (fold_right Nat.add 0 l) with (list_sum l); [subst; lia|]. specialize (IH H). lia. Qed.

Context (key32 : forall k, length (key k) = 32).
Lemma render_size (g : message K) : wire_size (render key g) = wire_size g.
Proof. unfold wire_size, render. cbn [mg_signatures mg_static mg_ixs mg_lookups]. rewrite !map_length, map_map. reflexivity. Qed.

(** A compiled message that fits a packet is sent, in as many bytes as [wire_size] says, and read. *)
Lemma compile_sent payer l tables g sigs hash : compile payer l tables = Some g -> length sigs = mg_signatures g -> Forall (fun s => length s = 64) sigs -> length hash = 32 ->
  let t := Tx sigs hash true (render key g) in
  (wire_size g <= 1232 <-> exists b, serialize t = Some b /\ length b <= 1232) /\
  (forall b, serialize t = Some b -> length b = wire_size g /\ (wire_size g <= 1232 -> receive b = Some t)).
Proof.
  intros C N S64 H32 t. destruct (compile_small _ _ _ _ C) as (R1 & R2 & Fi & Fl).
  assert (WF : well_formed t) by (split; [exact N|discriminate]).
  assert (SZ : forall b, serialize t = Some b -> length b = wire_size g).
  { intros b E. apply serialize_inv in E as (s & m & Em & Es & L1 & L2 & ->). unfold t in *. cbn [tx_hash tx_v0 tx_message tx_signatures] in *. rewrite app_length in *.
    rewrite (message_size _ _ _ (message_small _ _ _ _ Em ltac:(lia) ltac:(discriminate)) Em). rewrite (vec_size _ (fun _ => 64) _ _ (sigs_small _ _ _ Es L2) (fun x y _ H => proj1 (blob_len 64 x y H)) Es), sum_const.
    rewrite <- (render_size g), wire_parts. change (mg_signatures (render key g)) with (mg_signatures g). rewrite <- N. reflexivity. }
  split; [|intros b E; split; [exact (SZ b E)|intros L; apply serialize_receive; [exact WF|exact E|rewrite (SZ b E); exact L]]].
  split; [|intros (b & E & L); rewrite <- (SZ b E); exact L].
  intros L. pose proof (wire_parts g) as WP. assert (MB : 32 * length (mg_static g) <= message_bytes g) by (unfold message_bytes; lia).
  assert (E1 : exists m, w_message hash true (render key g) = Some m).
  { unfold w_message. cbn [render mg_signatures mg_ro_signed mg_ro_unsigned mg_static mg_ixs mg_lookups].
    destruct (w_u8 (mg_signatures g)) as [c1|] eqn:Q1; [|exfalso; revert Q1; apply u8_total; lia]. destruct (w_u8 (mg_ro_signed g)) as [c2|] eqn:Q2; [|exfalso; revert Q2; apply u8_total; lia].
    destruct (w_u8 (mg_ro_unsigned g)) as [c3|] eqn:Q3; [|exfalso; revert Q3; apply u8_total; lia].
    destruct (vec_total (w_blob 32) (map key (mg_static g))) as (c4 & ->). { apply Forall_forall. intros k I. apply in_map_iff in I as (k' & <- & _). apply blob_total', key32. }
    rewrite (blob_total 32 hash H32).
    destruct (vec_total w_ix (mg_ixs g)) as (c6 & ->). { eapply Forall_impl; [|exact Fi]. intros [[p is] d] (P & Q). cbn [fst snd] in *. unfold w_ix. destruct (w_u8 p) eqn:U; [|exfalso; revert U; now apply u8_total]. destruct (u8s_total is Q) as (c & ->). discriminate. }
    destruct (vec_total w_lookup (map (fun x => Lookup (key (lk_table x)) (lk_writable x) (lk_readonly x)) (mg_lookups g))) as (c7 & ->).
    { apply Forall_forall. intros x I. apply in_map_iff in I as (x' & <- & I). rewrite Forall_forall in Fl. destruct (Fl _ I) as (P & Q). unfold w_lookup. cbn [lk_table lk_writable lk_readonly]. rewrite (blob_total 32 _ (key32 _)).
      destruct (u8s_total _ P) as (c & ->). destruct (u8s_total _ Q) as (c' & ->). discriminate. }
    cbn. eauto. }
  destruct E1 as (m & Em).
  assert (SM : small_message (render key g)).
  { unfold small_message. cbn [render mg_static mg_ixs mg_lookups]. rewrite !map_length.
    assert (LI : forall x, In x (mg_ixs g) -> ix_bytes x <= 1232) by (intros x I; pose proof (sum_in _ _ (in_map ix_bytes _ _ I)); unfold message_bytes in WP; lia).
    assert (LL : forall x, In x (mg_lookups g) -> lookup_bytes x <= 1232) by (intros x I; pose proof (sum_in _ _ (in_map lookup_bytes _ _ I)); unfold message_bytes in WP; lia).
    assert (CI : length (mg_ixs g) <= list_sum (map ix_bytes (mg_ixs g))) by (clear; induction (mg_ixs g) as [|x r IH]; cbn [map list_sum fold_right length]; [lia|]; change (fold_right Nat.add 0) with list_sum; unfold ix_bytes at 1; lia).
    assert (CL : length (mg_lookups g) <= list_sum (map lookup_bytes (mg_lookups g))) by (clear; induction (mg_lookups g) as [|x r IH]; cbn [map list_sum fold_right length]; [lia|]; change (fold_right Nat.add 0) with list_sum; unfold lookup_bytes at 1; lia).
    unfold message_bytes in WP. repeat match goal with |- _ /\ _ => split end; try (apply (small_of _ 1232); lia).
    - apply Forall_forall. intros x I. specialize (LI x I). unfold ix_bytes in LI. split; apply (small_of _ 1232); lia.
    - apply Forall_forall. intros x I. apply in_map_iff in I as (x' & <- & I). specialize (LL x' I). unfold lookup_bytes in LL. split; cbn [lk_writable lk_readonly]; apply (small_of _ 1232); lia. }
  pose proof (message_size _ _ _ SM Em) as Lm. assert (MR : message_bytes (render key g) = message_bytes g) by (unfold message_bytes, render; cbn [mg_static mg_ixs mg_lookups]; rewrite !map_length, map_map; reflexivity).
  destruct (vec_total (w_blob 64) sigs) as (s & Es). { eapply Forall_impl; [|exact S64]. intros x. apply blob_total'. }
  assert (Ls : length s = shortvec (mg_signatures g) + 64 * mg_signatures g).
  { rewrite (vec_size _ (fun _ => 64) _ _ ltac:(rewrite N; apply (small_of _ 1232); lia) (fun x y _ H => proj1 (blob_len 64 x y H)) Es), sum_const, N. reflexivity. }
  exists (s ++ m). rewrite app_length. split; [|lia]. unfold serialize, t. cbn [tx_hash tx_v0 tx_message tx_signatures]. rewrite Em, Es. rewrite (proj2 (Nat.leb_le _ _)) by lia. rewrite (proj2 (Nat.leb_le _ _)); [reflexivity|]. rewrite app_length. lia.
Qed.
End Compiled.

(** ** From bytes to instructions *)

(** [key] tells the keys of [l] apart. *)
Definition tells {K} (key : K -> bytes) (l : list K) : Prop := forall a b, In a l -> In b l -> key a = key b -> a = b.
Section Rendered.
Context {K : Type} (eq_dec : forall a b : K, {a = b} + {a <> b}) (key : K -> bytes) (dec : forall a b : bytes, {a = b} + {a <> b}).
Lemma all_some_lift {A B C D} (f : A -> option B) (f' : C -> option D) (a : A -> C) (b : B -> D) l : (forall x, In x l -> f' (a x) = option_map b (f x)) ->
  all_some (map f' (map a l)) = option_map (map b) (all_some (map f l)).
Proof.
  induction l as [|x l IH]; intros H; cbn [map all_some]; [reflexivity|]. rewrite (H x (or_introl eq_refl)). rewrite (IH (fun y I => H y (or_intror I))). destruct (f x); cbn [option_map]; [|reflexivity].
  destruct (all_some (map f l)); reflexivity.
Qed.
Lemma nth_lift {A B} (f : A -> B) l i : nth_error (map f l) i = option_map f (nth_error l i).
Proof. revert i. induction l as [|x l IH]; intros [|i]; cbn; auto. Qed.
Lemma distinct_lift l : tells key l -> distinct dec (map key l) = distinct eq_dec l.
Proof.
  induction l as [|k l IH]; intros inj; cbn [map distinct]; [reflexivity|]. rewrite IH by (intros a b Ia Ib; apply inj; right; assumption). do 2 f_equal. clear IH.
  assert (J : forall k', In k' l -> key k = key k' -> k = k') by (intros k' I; apply inj; [left; reflexivity|right; exact I]). clear inj.
  induction l as [|k' l IH]; cbn [map existsb]; [reflexivity|]. rewrite IH by (intros k2 I; apply J; right; exact I). f_equal.
  destruct (dec (key k) (key k')) as [E|E], (eq_dec k k') as [E'|E']; try reflexivity; [destruct E'; exact (J _ (or_introl eq_refl) E)|destruct E; now subst].
Qed.
Definition lift_account (a : account K) : account bytes := Account (key (ac_key a)) (ac_signer a) (ac_writable a).
Definition lift_ix (x : cix K) : cix bytes := Cix (key (cx_program x)) (map lift_account (cx_accounts x)) (cx_data x).
Lemma load_lift g now now' : (forall x, In x (mg_lookups g) -> now' (key (lk_table x)) = option_map (map key) (now (lk_table x))) ->
  (forall keys n w, load_keys g now = Some (keys, n, w) -> tells key keys) ->
  load dec (render key g) now' = option_map (fun r => (key (fst r), map lift_ix (snd r))) (load eq_dec g now).
Proof.
  intros T J. unfold load. change (mg_ro_signed (render key g)) with (mg_ro_signed g). change (mg_signatures (render key g)) with (mg_signatures g). change (mg_ro_unsigned (render key g)) with (mg_ro_unsigned g).
  change (mg_static (render key g)) with (map key (mg_static g)). change (mg_ixs (render key g)) with (mg_ixs g). rewrite map_length.
  set (lk := fun x : lookup_ K => Lookup (key (lk_table x)) (lk_writable x) (lk_readonly x)). change (mg_lookups (render key g)) with (map lk (mg_lookups g)).
  assert (FB : forallb (fun x : lookup_ bytes => negb (match lk_writable x, lk_readonly x with [], [] => true | _, _ => false end)) (map lk (mg_lookups g)) =
               forallb (fun x : lookup_ K => negb (match lk_writable x, lk_readonly x with [], [] => true | _, _ => false end)) (mg_lookups g)) by (clear T J; induction (mg_lookups g) as [|x r IH]; cbn [map forallb]; [reflexivity|]; rewrite IH; reflexivity).
  rewrite FB. clear FB. destruct (_ && _ && _); [|reflexivity].
  assert (LK : load_keys (render key g) now' = option_map (fun r => (map key (fst (fst r)), snd (fst r), snd r)) (load_keys g now)).
  { unfold load_keys. change (mg_lookups (render key g)) with (map lk (mg_lookups g)). change (mg_static (render key g)) with (map key (mg_static g)).
    assert (LT : forall pick pick', (forall x, pick' (lk x) = pick x) -> all_some (map (load_table pick' now') (map lk (mg_lookups g))) = option_map (map (map key)) (all_some (map (load_table pick now) (mg_lookups g)))).
    { intros pick pick' P. apply all_some_lift. intros x I. unfold load_table. cbn [lk lk_table]. rewrite (T x I), P. destruct (now (lk_table x)) as [en|]; cbn [option_map]; [|reflexivity].
      rewrite <- (map_id (pick x)) at 1. apply all_some_lift. intros i _. apply nth_lift. }
    rewrite (LT (@lk_writable K) (@lk_writable bytes) (fun x => eq_refl)). rewrite (LT (@lk_readonly K) (@lk_readonly bytes) (fun x => eq_refl)).
    destruct (all_some (map (load_table lk_writable now) (mg_lookups g))) as [ws|]; cbn [option_map]; [|reflexivity]. destruct (all_some (map (load_table lk_readonly now) (mg_lookups g))) as [rs|]; cbn [option_map]; [|reflexivity].
    cbn [fst snd]. rewrite <- !concat_map, !map_app, !map_length. reflexivity. }
  rewrite LK. destruct (load_keys g now) as [[[keys n] w]|]; cbn [option_map fst snd]; [|reflexivity]. rewrite map_length, (distinct_lift keys (J _ _ _ eq_refl)). destruct (_ && _); [|reflexivity]. rewrite nth_lift.
  assert (LX : all_some (map (load_ix (render key g) (map key keys) n w) (mg_ixs g)) = option_map (map lift_ix) (all_some (map (load_ix g keys n w) (mg_ixs g)))).
  { rewrite <- (map_id (mg_ixs g)) at 1. apply all_some_lift. intros [[p is] d] _. cbn [load_ix]. destruct (_ && _); [|reflexivity]. rewrite nth_lift.
    assert (LA : all_some (map (load_account (render key g) (map key keys) n w) is) = option_map (map lift_account) (all_some (map (load_account g keys n w) is))).
    { rewrite <- (map_id is) at 1. apply all_some_lift. intros i _. unfold load_account. rewrite nth_lift. destruct (nth_error keys i); reflexivity. }
    rewrite LA. destruct (nth_error keys p); cbn [option_map]; [|reflexivity]. destruct (all_some (map (load_account g keys n w) is)); reflexivity. }
  rewrite LX. destruct (nth_error keys 0); cbn [option_map]; [|reflexivity]. destruct (all_some (map (load_ix g keys n w) (mg_ixs g))); reflexivity.
Qed.
End Rendered.

Lemma extract_tables {K} (eq_dec : forall a b : K, {a = b} + {a <> b}) tables m ls ws rs rest : Compress.extract eq_dec tables m = Some (ls, ws, rs, rest) -> Forall (fun x => In (lk_table x) (map fst tables)) ls.
Proof.
  revert m ls ws rs rest. induction tables as [|[t en] tables IH]; intros m ls ws rs rest; cbn [Compress.extract]; [intros E; injection E as <- <- <- <-; constructor|].
  destruct (drain _ _ en m) as [[[wi wk] m1]|]; [|discriminate]. destruct (drain _ _ en m1) as [[[ri rk] m2]|]; [|discriminate].
  destruct (extract _ tables m2) as [[[[ls' ws'] rs'] rest']|] eqn:X; [|discriminate]. specialize (IH _ _ _ _ _ X).
  assert (F : Forall (fun x => In (lk_table x) (map fst ((t, en) :: tables))) ls') by (eapply Forall_impl; [|exact IH]; intros x I; right; exact I).
  intros E. injection E as <- <- <- <-. destruct wi, ri; try exact F; (constructor; [left; reflexivity|exact F]).
Qed.
Lemma compile_keys {K} (eq_dec : forall a b : K, {a = b} + {a <> b}) payer l tables now g : grown tables now -> Compress.compile eq_dec payer l tables = Some g ->
  Forall (fun x => In (lk_table x) (map fst tables)) (mg_lookups g) /\ forall keys n w, load_keys g now = Some (keys, n, w) -> incl keys (keys_of payer l).
Proof.
  intros La C. pose proof (proj2 (compile_static eq_dec payer l tables now g La C)) as St. unfold Compress.compile in C. destruct (collect_spec eq_dec payer l) as (N0 & Ks & _). set (M := collect eq_dec (uses payer l)) in *.
  destruct (extract eq_dec tables M) as [[[[ls ws] rs] m]|] eqn:X; [|discriminate]. pose proof (extract_tables eq_dec _ _ _ _ _ _ X) as T.
  destruct (extract_spec eq_dec tables now M ls ws rs m La X) as ((wl & rl & F1 & F2 & F3 & F4) & _ & _ & _ & _ & E1 & E2 & _).
  destruct (length m <=? 256); [|discriminate]. destruct (part true true m) as [|first more]; [discriminate|]. destruct (eq_dec first payer); [|discriminate]. cbv zeta in C. destruct (length _ <=? 256); [|discriminate].
  destruct (all_some _) as [is|]; [|discriminate]. apply Some_inj in C. split; [subst g; exact T|]. intros keys n w L. unfold load_keys in L.
  assert (Lg : mg_lookups g = ls) by (subst g; reflexivity). rewrite Lg, F1, F2, F3, F4 in L. injection L as <- _ _.
  assert (In_M : forall k f, In (k, f) M -> In k (keys_of payer l)) by (intros k f I; apply Ks; exact (in_map fst _ _ I)).
  intros k I. apply in_app_iff in I as [I|I]; [exact (proj1 (proj1 (St k) I))|]. apply in_app_iff in I as [I|I]; [destruct (E1 k I) as (f & J & _)|destruct (E2 k I) as (f & J & _)]; exact (In_M _ _ J).
Qed.

Lemma sent_loaded {K} (eq_dec : forall a b : K, {a = b} + {a <> b}) (dec : forall a b : bytes, {a = b} + {a <> b}) (key : K -> bytes) payer l tables now now' g sigs hash :
  (forall k, length (key k) = 32) -> tells key (keys_of payer l) -> grown tables now -> (forall t, In t (map fst tables) -> now' (key t) = option_map (map key) (now t)) -> ~ invoked l payer ->
  Compress.compile eq_dec payer l tables = Some g -> length sigs = mg_signatures g -> Forall (fun s => length s = 64) sigs -> length hash = 32 -> wire_size g <= 1232 ->
  exists b t, serialize (Tx sigs hash true (render key g)) = Some b /\ length b = wire_size g /\ receive b = Some t /\ tx_signatures t = sigs /\ tx_hash t = hash /\
    Compress.load dec (tx_message t) now' = Some (key payer, map (fun x => lift_ix key (merged eq_dec payer l x)) l).
Proof.
  intros K32 Inj Gr Now NI C N S64 H32 L. destruct (compile_sent eq_dec key K32 _ _ _ _ _ _ C N S64 H32) as (X & Y). destruct (proj1 X L) as (b & E & _). destruct (Y b E) as (Lb & R).
  exists b, (Tx sigs hash true (render key g)). split; [exact E|]. split; [exact Lb|]. split; [exact (R L)|]. split; [reflexivity|]. split; [reflexivity|]. cbn [tx_message].
  destruct (compile_keys eq_dec payer l tables now g Gr C) as (T & J).
  rewrite (load_lift eq_dec key dec g now now'), (compile_load eq_dec _ _ _ _ _ Gr NI C).
  - cbn [option_map fst snd]. rewrite map_map. reflexivity.
  - intros x I. apply Now. rewrite Forall_forall in T. exact (T x I).
  - intros keys n w Lk a a' Ia Ib. exact (Inj a a' (J _ _ _ Lk _ Ia) (J _ _ _ Lk _ Ib)).
Qed.

(** * Facts about account storage. *)
From Coq Require Import String.
From Verif Require Import Bytes BytesFacts Wire Borsh Accounts.
Import ListNotations.
Local Open Scope Z_scope.

Definition law {A} (c : codec A) (wf : A -> Prop) : Prop :=
  forall a r, wf a -> c_dec c (c_enc c a ++ r) = Some (a, r) /\ (length (c_enc c a) <= c_space c)%nat.

Lemma law_u n : law (c_u n) (fun z => 0 <= z < 256 ^ Z.of_nat n).
Proof. intros z r Hz. cbn. split; [now apply le_u_app|]. now rewrite le_enc_length. Qed.

Lemma law_weaken {A} (c : codec A) (P Q : A -> Prop) : law c P -> (forall a, Q a -> P a) -> law c Q.
Proof. intros H HQ a r Ha. apply H, HQ, Ha. Qed.

Lemma law_u8 : law c_u8 is_u8. Proof. eapply law_weaken; [apply law_u|]. intros a. apply u8_pow. Qed.
Lemma law_u16 : law c_u16 is_u16. Proof. eapply law_weaken; [apply law_u|]. intros a. apply u16_pow. Qed.
Lemma law_u64 : law c_u64 is_u64. Proof. eapply law_weaken; [apply law_u|]. intros a. apply u64_pow. Qed.
Lemma law_u128 : law c_u128 is_u128. Proof. eapply law_weaken; [apply law_u|]. intros a. apply u128_pow. Qed.
Lemma law_u32 : law c_u32 (fun z => 0 <= z < 2 ^ 32).
Proof. eapply law_weaken; [apply law_u|]. intros a. rewrite pow256_4. lia. Qed.

Lemma law_i64 : law c_i64 is_i64.
Proof.
  intros z r Hz. cbn [c_enc c_dec c_space c_i64]. split; [|now rewrite le_enc_length].
  assert (Hm : 0 <= z mod 2 ^ 64 < 256 ^ Z.of_nat 8).
  { rewrite pow256_8. apply Z.mod_pos_bound. reflexivity. }
  rewrite (rbind_step _ _ _ _ _ (le_u_app 8 _ _ Hm)). unfold rret. f_equal. f_equal.
  change (2 ^ 64) with 18446744073709551616. change (2 ^ 63) with 9223372036854775808.
  assert (-9223372036854775808 <= z <= 9223372036854775807) by ilia.
  destruct (Z.lt_ge_cases z 0).
  - rewrite (Z.mod_eq z 18446744073709551616) by lia.
    assert (z / 18446744073709551616 = -1) as -> by (symmetry; apply Z.div_unique with (z + 18446744073709551616); lia).
    destruct (_ <? _) eqn:E; lia.
  - rewrite Z.mod_small by lia. destruct (_ <? _) eqn:E; lia.
Qed.

Lemma law_b32 : law c_b32 is32.
Proof. intros b r Hb. cbn. split; [now apply take_app|]. unfold is32 in Hb. lia. Qed.

Lemma law_bool : law c_bool (fun _ => True).
Proof. intros [] r _; cbn [c_enc c_dec c_space c_bool]; split; try (cbn; lia); reflexivity. Qed.

Lemma law_mode : law c_mode (fun _ => True).
Proof. intros [] r _; cbn [c_enc c_dec c_space c_mode]; split; try (cbn; lia); reflexivity. Qed.

Lemma law_unit : law c_unit (fun _ => True).
Proof. intros [] r _; split; [reflexivity|cbn; lia]. Qed.

Lemma law_pair {A B} (a : codec A) (b : codec B) P Q :
  law a P -> law b Q -> law (a ** b) (fun p => P (fst p) /\ Q (snd p)).
Proof.
  intros Ha Hb [x y] r [Hx Hy]. cbn [c_enc c_dec c_space c_pair fst snd] in *. split.
  - rewrite <- app_assoc. rewrite (rbind_step _ _ _ _ _ (proj1 (Ha _ _ Hx))).
    rewrite (rbind_step _ _ _ _ _ (proj1 (Hb _ _ Hy))). reflexivity.
  - rewrite app_length. pose proof (proj2 (Ha _ [] Hx)). pose proof (proj2 (Hb _ [] Hy)). lia.
Qed.

Lemma take1_step {B} (f : bytes -> reader B) b l : rbind (take 1) f (b :: l) = f [b] l.
Proof. reflexivity. Qed.

Lemma law_option {A} (a : codec A) P : law a P -> law (c_option a) (fun o => match o with Some x => P x | None => True end).
Proof.
  intros Ha [x|] r Hx; cbn [c_enc c_dec c_space c_option app].
  - split.
    + rewrite take1_step. rewrite (rbind_step _ _ _ _ _ (proj1 (Ha _ _ Hx))). reflexivity.
    + pose proof (proj2 (Ha _ [] Hx)). cbn [Datatypes.length]. lia.
  - split; [reflexivity|cbn; lia].
Qed.

Lemma law_iso {A B} (f : A -> B) (g : B -> A) (a : codec A) P :
  (forall b, f (g b) = b) -> law a P -> law (c_iso f g a) (fun b => P (g b)).
Proof.
  intros Hfg Ha b r Hb. cbn [c_enc c_dec c_space c_iso]. split; [|apply (proj2 (Ha _ [] Hb))].
  rewrite (rbind_step _ _ _ _ _ (proj1 (Ha _ r Hb))). unfold rret. now rewrite Hfg.
Qed.

Lemma law_status : law c_status (fun s => match s with ReleaseAfter t => is_i64 t | _ => True end).
Proof.
  intros [|t|] r Ht; cbn [c_enc c_dec c_space c_status app].
  - split; [reflexivity|cbn; lia].
  - split.
    + rewrite take1_step. cbv beta iota.
      rewrite (rbind_step _ _ _ _ _ (proj1 (law_i64 t r Ht))). reflexivity.
    + pose proof (proj2 (law_i64 t [] Ht)). cbn [Datatypes.length c_space c_i64] in *. lia.
  - split; [reflexivity|cbn; lia].
Qed.

Lemma law_trimmed : law c_trimmed wf_trimmed.
Proof. eapply law_weaken; [apply law_iso; [now intros []|apply law_pair; [apply law_u64|apply law_u8]]|]. intros a H; exact H. Qed.

Lemma law_rl : law c_rl wf_rl_fields.
Proof.
  eapply law_weaken; [apply law_iso; [now intros []|apply law_pair; [apply law_u64|apply law_pair; [apply law_u64|apply law_i64]]]|].
  intros a H; exact H.
Qed.

Lemma law_ntt : law c_ntt (wf_ntt no_constraint).
Proof.
  eapply law_weaken.
  - apply law_iso; [now intros []|]. apply law_pair; [apply law_trimmed|]. apply law_pair; [apply law_b32|].
    apply law_pair; [apply law_u16|]. apply law_pair; [apply law_b32|apply law_unit].
  - intros a (H1 & H2 & H3 & H4 & _). cbn. tauto.
Qed.

Lemma law_nmm : law c_nmm (wf_nmm (wf_ntt no_constraint)).
Proof.
  eapply law_weaken.
  - apply law_iso; [now intros []|]. apply law_pair; [apply law_b32|]. apply law_pair; [apply law_b32|apply law_ntt].
  - intros a (H1 & H2 & H3). cbn. tauto.
Qed.

Lemma law_tmd : law c_tmd (fun t => is32 (t_source t) /\ is32 (t_recipient t) /\ wf_nmm (wf_ntt no_constraint) (t_nmm t)).
Proof.
  eapply law_weaken.
  - apply law_iso; [now intros []|]. apply law_pair; [apply law_b32|]. apply law_pair; [apply law_b32|apply law_nmm].
  - intros a (H1 & H2 & H3). cbn. tauto.
Qed.

Ltac pairs := repeat (apply law_pair; [first [apply law_u8|apply law_u16|apply law_u32|apply law_u64|apply law_u128|apply law_i64
  |apply law_b32|apply law_bool|apply law_mode|apply law_option; apply law_b32|apply law_trimmed]|]);
  first [apply law_u8|apply law_u16|apply law_u32|apply law_u64|apply law_u128|apply law_i64|apply law_b32|apply law_bool|apply law_mode|apply law_status|apply law_rl].

Lemma law_kind k : law (codec_of k) (wf_contents k).
Proof.
  destruct k; cbn [codec_of wf_contents contents].
  - eapply law_weaken; [apply law_iso; [now intros []|pairs]|]. cbn. tauto.
  - eapply law_weaken; [apply law_iso; [now intros []|pairs]|]. cbn. tauto.
  - eapply law_weaken; [apply law_iso; [now intros []|pairs]|]. cbn. tauto.
  - apply law_rl.
  - eapply law_weaken; [apply law_iso; [now intros []|pairs]|]. cbn. tauto.
  - unfold c_inbox_rl. pairs.
  - eapply law_weaken; [apply law_iso; [now intros []|pairs]|]. cbn. tauto.
  - eapply law_weaken; [apply law_iso; [now intros []|pairs]|]. cbn. tauto.
  - intros v r Hv. destruct (law_pair _ _ _ _ law_u16 law_tmd v r) as [H1 H2].
    { split; [apply Hv|]. apply (proj2 Hv). }
    split; [exact H1|]. eapply Nat.le_trans; [exact H2|]. cbn. lia.
  - eapply law_weaken; [apply law_iso; [now intros []|pairs]|]. cbn. tauto.
  - eapply law_weaken; [apply law_iso; [now intros []|pairs]|]. cbn. tauto.
  - eapply law_weaken; [apply law_iso; [now intros []|pairs]|]. cbn. tauto.
  - eapply law_weaken; [apply law_iso; [now intros []|pairs]|]. cbn. tauto.
  - eapply law_weaken; [apply law_iso; [now intros []|apply law_u64]|]. cbn. tauto.
  - apply law_u8.
Qed.

(** ** Discriminators *)
Definition all_kinds : list kind :=
  [KConfig; KPeer; KOutboxItem; KOutboxRateLimit; KInboxItem; KInboxRateLimit; KRegistered; KXPeer; KVtm; KLut;
   KInstance; KRegChain; KRegNtt; KRelayRequest; KReplay].

Definition disc_table : list (list Z) := Eval vm_compute in map (fun k => map Z_of_byte (discriminator k)) all_kinds.
Definition kind_no (k : kind) : nat :=
  match k with
  | KConfig => 0 | KPeer => 1 | KOutboxItem => 2 | KOutboxRateLimit => 3 | KInboxItem => 4 | KInboxRateLimit => 5
  | KRegistered => 6 | KXPeer => 7 | KVtm => 8 | KLut => 9 | KInstance => 10 | KRegChain => 11 | KRegNtt => 12
  | KRelayRequest => 13 | KReplay => 14 end.
Lemma disc_table_ok k : map Z_of_byte (discriminator k) = nth (kind_no k) disc_table [].
Proof. destruct k; vm_compute; reflexivity. Qed.

Lemma discriminator_inj k k' : discriminator k = discriminator k' -> k = k'.
Proof.
  intros H. apply (f_equal (map Z_of_byte)) in H. rewrite !disc_table_ok in H.
  destruct k, k'; try reflexivity; vm_compute in H; discriminate H.
Qed.

Lemma discriminator_length k : length (discriminator k) = 8%nat.
Proof. rewrite <- (map_length Z_of_byte), disc_table_ok. destruct k; reflexivity. Qed.

Opaque discriminator.

(** ** Storage *)
Lemma overwrite_length d n d' : overwrite d n = Some d' -> length d' = length d.
Proof.
  unfold overwrite. destruct (_ <=? _)%nat eqn:E; [|discriminate]. intros H; injection H as <-.
  apply Nat.leb_le in E. rewrite app_length, skipn_length. lia.
Qed.

Lemma store_fits k data a : wf_contents k a -> (space k <= length data)%nat ->
  exists data', store k data a = Some data' /\ length data' = length data.
Proof.
  intros Ha Hl. unfold store, overwrite.
  assert ((length (discriminator k ++ c_enc (codec_of k) a) <=? length data)%nat = true) as ->.
  { apply Nat.leb_le. rewrite app_length, discriminator_length. pose proof (proj2 (law_kind k a [] Ha)).
    unfold space in Hl. lia. }
  eexists. split; [reflexivity|]. rewrite app_length, skipn_length.
  pose proof (proj2 (law_kind k a [] Ha)). unfold space in Hl. rewrite app_length, discriminator_length. lia.
Qed.

Lemma firstn_disc k l : firstn 8 (discriminator k ++ l) = discriminator k.
Proof. rewrite firstn_app, (firstn_all2 (discriminator k)), discriminator_length by (rewrite discriminator_length; lia). cbn [Nat.sub firstn]. apply app_nil_r. Qed.
Lemma skipn_disc k l : skipn 8 (discriminator k ++ l) = l.
Proof. rewrite skipn_app, (skipn_all2 (discriminator k)), discriminator_length by (rewrite discriminator_length; lia). reflexivity. Qed.
Lemma len8_disc k l : (8 <=? length (discriminator k ++ l))%nat = true.
Proof. apply Nat.leb_le. rewrite app_length, discriminator_length. lia. Qed.

Lemma load_store k data a data' : wf_contents k a -> store k data a = Some data' -> load k data' = Some a.
Proof.
  intros Ha H. unfold store, overwrite in H. destruct (_ <=? _)%nat; [|discriminate]. apply Some_inj in H. subst data'.
  unfold load. rewrite <- app_assoc, len8_disc, firstn_disc, bytes_eqb_refl, skipn_disc. cbn [andb].
  now rewrite (proj1 (law_kind k a _ Ha)).
Qed.

Lemma load_wrong_kind k k' data a data' : k <> k' -> store k data a = Some data' -> load k' data' = None.
Proof.
  intros Hk H. unfold store, overwrite in H. destruct (_ <=? _)%nat; [|discriminate]. apply Some_inj in H. subst data'.
  unfold load. rewrite <- app_assoc, len8_disc, firstn_disc. cbn [andb].
  destruct (bytes_eqb _ _) eqn:E; [|reflexivity]. apply bytes_eqb_eq, discriminator_inj in E. contradiction.
Qed.

(** Data of an account that has never been written (all zero) is of no kind. *)
Lemma load_zeroed k n : load k (repeat x00 n) = None.
Proof.
  unfold load. destruct (8 <=? _)%nat eqn:E; [|reflexivity]. cbn [andb].
  destruct (bytes_eqb _ _) eqn:B; [|reflexivity]. exfalso. apply bytes_eqb_eq in B.
  apply Nat.leb_le in E. rewrite repeat_length in E.
  assert (firstn 8 (repeat x00 n) = repeat x00 8) as F.
  { replace n with (8 + (n - 8))%nat by lia. reflexivity. }
  rewrite F in B. apply (f_equal (map Z_of_byte)) in B. rewrite disc_table_ok in B.
  destruct k; vm_compute in B; discriminate B.
Qed.

(** ** In-place accessors *)
Lemma slice_inv a b l x : slice a b l = Some x <-> (a <= b <= length l)%nat /\ x = firstn (b - a) (skipn a l).
Proof.
  unfold slice. destruct ((a <=? b)%nat && (b <=? length l)%nat) eqn:E.
  - apply andb_true_iff in E as [E1 E2]. apply Nat.leb_le in E1, E2. split; [intros H; injection H as <-; auto|intros [_ ->]; auto].
  - split; [discriminate|]. intros [[H1 H2] _]. apply Nat.leb_le in H1, H2. rewrite H1, H2 in E. discriminate.
Qed.

Lemma skipn_plus {A} a b (l : list A) : skipn (a + b) l = skipn a (skipn b l).
Proof.
  revert l; induction b as [|b IH]; intros l; [now rewrite Nat.add_0_r|].
  rewrite Nat.add_succ_r. destruct l; [now rewrite !skipn_nil|]. apply IH.
Qed.

Lemma firstn_exact {A} n (a b : list A) : length a = n -> firstn n (a ++ b) = a.
Proof. intros <-. rewrite firstn_app, Nat.sub_diag, firstn_all. apply app_nil_r. Qed.
Lemma skipn_exact {A} n (a b : list A) : length a = n -> skipn n (a ++ b) = b.
Proof. intros <-. rewrite skipn_app, Nat.sub_diag, skipn_all. reflexivity. Qed.

Lemma accessors_agree data chain m : load KVtm data = Some (chain, m) ->
  acc_from_chain data = Some chain /\
  exists span, acc_message data = Some span /\
    acc_source span = Some (t_source m) /\ acc_recipient span = Some (t_recipient m) /\ acc_payload span = Some (t_nmm m).
Proof.
  unfold load, acc_from_chain, acc_message, discriminator_check.
  destruct (_ && _) eqn:E; [|discriminate].
  apply andb_true_iff in E as [E _]. apply Nat.leb_le in E.
  remember (skipn 8 data) as l eqn:El. 
  assert (Hlen : length data = (8 + length l)%nat) by (rewrite El, skipn_length; lia).
  cbn [codec_of c_vtm c_dec]. destruct (c_dec (c_u16 ** c_tmd) l) as [[v rest]|] eqn:D; [|discriminate].
  intros H; injection H as ->.
  cbn [c_pair c_dec] in D. apply rbind_Some in D as (ch & l1 & D1 & D). apply rbind_Some in D as (m' & l2 & D2 & D).
  apply rret_inv in D as [D ->]. injection D as <- <-.
  assert (D1' := D1). unfold c_u16, c_u in D1. cbn [c_dec] in D1. unfold le_u in D1.
  apply rbind_Some in D1 as (b2 & l1' & D1 & Dr). apply rret_inv in Dr as [-> <-]. apply take_inv in D1 as [Hl Hb2].
  cbn [c_tmd c_iso c_dec] in D2. apply rbind_Some in D2 as ([s [r' n]] & l3 & D2 & Dr). apply rret_inv in Dr as [-> ->].
  cbn [c_pair c_dec] in D2. apply rbind_Some in D2 as (s' & l4 & D3 & D2). apply rbind_Some in D2 as (p & l5 & D4 & Dr).
  apply rret_inv in Dr as [Dr <-]. injection Dr as <- <-.
  apply rbind_Some in D4 as (r'' & l6 & D4 & D5). apply rbind_Some in D5 as (n' & l7 & D5 & Dr).
  apply rret_inv in Dr as [Dr ->]. injection Dr as <- <-.
  cbn [c_b32 c_dec] in D3, D4. apply take_inv in D3 as [-> Hs]. apply take_inv in D4 as [-> Hr].
  rewrite Hl in Hlen. rewrite !app_length in Hlen. rewrite El in Hl.
  assert (Hd10 : skipn 10 data = s ++ r' ++ l6).
  { rewrite (skipn_plus 2 8), Hl. rewrite skipn_app, Hb2, (skipn_all2 b2) by lia. reflexivity. }
  split.
  - assert (slice 8 10 data = Some b2) as ->; [|reflexivity].
    apply slice_inv. split; [lia|]. rewrite Hl. change (10 - 8)%nat with 2%nat.
    now rewrite firstn_exact.
  - exists (s ++ r' ++ l6). split; [|split; [|split]].
    + unfold slice_from. apply slice_inv. split; [lia|]. rewrite Hd10. symmetry. apply firstn_all2.
      rewrite !app_length. lia.
    + unfold acc_source. apply slice_inv. rewrite !app_length. split; [lia|]. cbn [skipn t_source].
      change (32 - 0)%nat with 32%nat. now rewrite firstn_exact.
    + unfold acc_recipient. apply slice_inv. rewrite !app_length. split; [lia|]. cbn [t_recipient].
      change (64 - 32)%nat with 32%nat. now rewrite skipn_exact, firstn_exact.
    + unfold acc_payload, slice_from.
      assert (slice 64 (length (s ++ r' ++ l6)) (s ++ r' ++ l6) = Some l6) as ->.
      { apply slice_inv. rewrite !app_length. split; [lia|]. rewrite (skipn_plus 32 32), !skipn_exact by assumption.
        symmetry. apply firstn_all2. lia. }
      now rewrite D5.
Qed.

Lemma wrong_discriminator_rejected data : firstn 8 data <> discriminator KVtm ->
  acc_from_chain data = None /\ acc_message data = None /\ load KVtm data = None.
Proof.
  intros H. unfold acc_from_chain, acc_message, discriminator_check, load.
  destruct (bytes_eqb (firstn 8 data) _) eqn:E; [apply bytes_eqb_eq in E; contradiction|].
  now rewrite !andb_false_r.
Qed.

Lemma short_account_rejected data : (length data < 8)%nat ->
  acc_from_chain data = None /\ acc_message data = None /\ load KVtm data = None.
Proof.
  intros H. unfold acc_from_chain, acc_message, discriminator_check, load.
  assert ((8 <=? length data)%nat = false) as -> by (apply Nat.leb_gt; lia). auto.
Qed.

Lemma wrong_owner_rejected {O} (eqb : O -> O -> bool) owner expected data :
  (forall a b, eqb a b = true <-> a = b) -> owner <> expected -> vtm_try_from eqb owner expected data = None.
Proof.
  intros H Hne. unfold vtm_try_from. destruct (eqb owner expected) eqn:E; [|reflexivity]. apply H in E. contradiction.
Qed.

(** * Proofs about the wire codecs. *)
From Verif Require Import Base Bytes BytesFacts Trimmed Wire SpecWire.
Local Open Scope Z_scope.

(** ** Building blocks *)
Lemma value_be_acc b acc : value_be acc b = acc * 256 ^ Z.of_nat (length b) + be_dec b.
Proof.
  revert acc; induction b as [|x b IH]; intros acc; cbn [value_be be_dec length].
  - cbn. lia.
  - rewrite IH, pow256_S. unfold Z_of_byte. lia.
Qed.

Lemma value_be_dec b : value_be 0 b = be_dec b.
Proof. rewrite value_be_acc. lia. Qed.

Lemma read_trimmed_app t b rest :
  wf_trimmed t -> write_trimmed t = Some b -> read_trimmed (b ++ rest) = Some (t, rest).
Proof.
  intros [Ha Hd] H. unfold write_trimmed in H. cbn [wapp] in H. sinj H.
  unfold read_trimmed, be_u8, be_u64. rewrite <- app_assoc.
  rewrite (rbind_step _ _ _ _ _ (be_u_app 1 _ _ (proj1 (u8_pow _) Hd))).
  rewrite (rbind_step _ _ _ _ _ (be_u_app 8 _ _ (proj1 (u64_pow _) Ha))).
  destruct t; reflexivity.
Qed.

Lemma read_trimmed_inv l t r :
  read_trimmed l = Some (t, r) ->
  l = be_enc 1 (ta_decimals t) ++ be_enc 8 (ta_amount t) ++ r /\ wf_trimmed t.
Proof.
  unfold read_trimmed, be_u8, be_u64. intros H.
  apply rbind_Some in H as (d & l1 & H1 & H). apply rbind_Some in H as (a & l2 & H2 & H).
  apply be_u_inv in H1 as [-> Hd]. apply be_u_inv in H2 as [-> Ha].
  apply rret_inv in H as [-> ->]. cbn [ta_amount ta_decimals].
  split; [reflexivity|]. split; cbn; [now apply u64_pow|now apply u8_pow].
Qed.

Lemma read_mode_app m b rest : write_mode m = Some b -> read_mode (b ++ rest) = Some (m, rest).
Proof. destruct m; intros H; sinj H; reflexivity. Qed.

Lemma read_payload_app {A} (c : payload A) wf a b rest :
  lawful_payload c wf -> wf a -> write_payload c a = Some b -> read_payload c (b ++ rest) = Some (a, rest).
Proof.
  intros [Hrt _] Hwf H. unfold write_payload, read_payload in *.
  destruct (p_type c) as [t|].
  - apply wapp_Some in H as (y & z & Hy & Hz & ->). injection Hy as <-.
    rewrite <- app_assoc. rewrite (rbind_step _ _ _ _ _ (take_app 1 [t] _ eq_refl)).
    rewrite bytes_eqb_refl. unfold rguard.
    rewrite (rbind_step (rret tt) _ _ tt _ eq_refl). now apply Hrt.
  - now apply Hrt.
Qed.

Lemma nonempty_size_false {A} (c : payload A) : nonempty_size c = false -> p_size c = Some 0.
Proof. unfold nonempty_size. destruct (p_size c) as [[| |]|]; try discriminate; reflexivity. Qed.

(** ** NativeTokenTransfer *)
Lemma ntt_round_trips {A} (c : payload A) wf :
  lawful_payload c wf -> round_trips (read_ntt c) (write_ntt c) (wf_ntt wf).
Proof.
  intros Hc m b rest (Ha & Hs & Hch & Ht & Hp) H.
  unfold write_ntt in H.
  apply wapp_Some in H as (b0 & r0 & E & H & ->). sinj E.
  apply wapp_Some in H as (b1 & r1 & E1 & H & ->).
  apply wapp_Some in H as (b2 & r2 & E & H & ->). sinj E.
  apply wapp_Some in H as (b3 & r3 & E & H & ->). sinj E.
  apply wapp_Some in H as (b4 & r4 & E & H & ->). sinj E.
  unfold read_ntt. rewrite <- !app_assoc.
  rewrite (rbind_step _ _ _ _ _ (take_app 4 NTT_PREFIX _ eq_refl)).
  rewrite bytes_eqb_refl. unfold rguard at 1. rewrite (rbind_step (rret tt) _ _ tt _ eq_refl).
  rewrite (rbind_step _ _ _ _ _ (read_trimmed_app _ _ _ Ha E1)).
  rewrite (rbind_step _ _ _ _ _ (take_app 32 _ _ Hs)).
  rewrite (rbind_step _ _ _ _ _ (take_app 32 _ _ Ht)).
  unfold be_u16. rewrite (rbind_step _ _ _ _ _ (be_u_app 2 _ _ (proj1 (u16_pow _) Hch))).
  destruct (nonempty_size c) eqn:Ene.
  - apply wapp_Some in H as (b5 & b6 & E5 & E6 & ->).
    apply w_u16_checked_Some in E5 as [Hlen ->].
    rewrite <- app_assoc.
    assert (Hst : (do _ <- be_u 2; rret tt) (be_enc 2 (p_wsize c (n_payload m)) ++ b6 ++ rest)
                  = Some (tt, b6 ++ rest)).
    { now rewrite (rbind_step _ _ _ _ _ (be_u_app 2 _ _ (proj1 (u16_pow _) Hlen))). }
    rewrite (rbind_step _ _ _ _ _ Hst).
    rewrite (rbind_step _ _ _ _ _ (read_payload_app c wf _ _ _ Hc Hp E6)).
    destruct m; reflexivity.
  - sinj H. cbn [app].
    rewrite (rbind_step (rret tt) _ _ tt _ eq_refl).
    apply nonempty_size_false in Ene. pose proof Hc as [Hrt Hz]. destruct (Hz Ene) as [Hty Hw].
    unfold read_payload. rewrite Hty.
    pose proof (Hrt _ _ rest Hp (Hw _ Hp)) as Hrd. cbn [app] in Hrd.
    rewrite (rbind_step _ _ _ _ _ Hrd). destruct m; reflexivity.
Qed.

Lemma ntt_lawful {A} (c : payload A) wf : lawful_payload c wf -> lawful_payload (ntt_payload c) (wf_ntt wf).
Proof. intros Hc. split; [now apply ntt_round_trips|]. cbn. discriminate. Qed.

Lemma empty_lawful : lawful_payload empty_payload no_constraint.
Proof.
  split.
  - intros [] b rest _ H. sinj H. reflexivity.
  - intros _. split; reflexivity.
Qed.

(** ** NttManagerMessage *)
Lemma nmm_round_trips {A} (c : payload A) wf :
  lawful_payload c wf -> round_trips (read_nmm c) (write_nmm c) (wf_nmm wf).
Proof.
  intros Hc m b rest (Hi & Hs & Hp) H. unfold write_nmm in H.
  apply wapp_Some in H as (b0 & r0 & E & H & ->). sinj E.
  apply wapp_Some in H as (b1 & r1 & E & H & ->). sinj E.
  apply wapp_Some in H as (b2 & b3 & E2 & E3 & ->).
  apply w_u16_checked_Some in E2 as [Hlen ->].
  unfold read_nmm. rewrite <- !app_assoc.
  rewrite (rbind_step _ _ _ _ _ (take_app 32 _ _ Hi)).
  rewrite (rbind_step _ _ _ _ _ (take_app 32 _ _ Hs)).
  unfold be_u16. rewrite (rbind_step _ _ _ _ _ (be_u_app 2 _ _ (proj1 (u16_pow _) Hlen))).
  rewrite (rbind_step _ _ _ _ _ (read_payload_app c wf _ _ _ Hc Hp E3)).
  destruct m; reflexivity.
Qed.

(** ** TransceiverMessage *)
Lemma tmsg_round_trips {A} E (c : payload A) wf :
  length E = 4%nat -> lawful_payload c wf -> round_trips (read_tmsg E c) (write_tmsg E c) (wf_tmsg wf).
Proof.
  intros HE Hc m b rest (Hs & Hr & Hm) H. unfold write_tmsg in H.
  apply wapp_Some in H as (b0 & r0 & E0 & H & ->). sinj E0.
  apply wapp_Some in H as (b1 & r1 & E1 & H & ->). sinj E1.
  apply wapp_Some in H as (b2 & r2 & E2 & H & ->). sinj E2.
  apply wapp_Some in H as (b3 & r3 & E3 & H & ->). apply w_u16_checked_Some in E3 as [Hl3 ->].
  apply wapp_Some in H as (b4 & r4 & E4 & H & ->).
  apply wapp_Some in H as (b5 & b6 & E5 & E6 & ->). apply w_u16_checked_Some in E5 as [Hl5 ->].
  sinj E6.
  unfold read_tmsg. rewrite <- !app_assoc.
  rewrite (rbind_step _ _ _ _ _ (take_app 4 E _ HE)).
  rewrite bytes_eqb_refl. unfold rguard at 1. rewrite (rbind_step (rret tt) _ _ tt _ eq_refl).
  rewrite (rbind_step _ _ _ _ _ (take_app 32 _ _ Hs)).
  rewrite (rbind_step _ _ _ _ _ (take_app 32 _ _ Hr)).
  unfold be_u16. rewrite (rbind_step _ _ _ _ _ (be_u_app 2 _ _ (proj1 (u16_pow _) Hl3))).
  rewrite (rbind_step _ _ _ _ _ (nmm_round_trips c wf Hc _ _ _ Hm E4)).
  rewrite (rbind_step _ _ _ _ _ (be_u_app 2 _ _ (proj1 (u16_pow _) Hl5))).
  rewrite Nat2Z.id.
  rewrite (rbind_step _ _ _ _ _ (take_app _ _ _ eq_refl)).
  destruct m as [[] ]; reflexivity.
Qed.

Lemma info_round_trips : round_trips read_wt_info write_wt_info wf_info.
Proof.
  intros i b rest (Hm & Ht & Hd) H. unfold write_wt_info in H.
  apply wapp_Some in H as (b0 & r0 & E & H & ->). sinj E.
  apply wapp_Some in H as (b1 & r1 & E & H & ->). sinj E.
  apply wapp_Some in H as (b2 & r2 & E2 & H & ->).
  apply wapp_Some in H as (b3 & b4 & E3 & E4 & ->). sinj E3. sinj E4.
  unfold read_wt_info. rewrite <- !app_assoc.
  rewrite (rbind_step _ _ _ _ _ (take_app 4 WH_INFO_PREFIX _ eq_refl)).
  rewrite bytes_eqb_refl. unfold rguard at 1. rewrite (rbind_step (rret tt) _ _ tt _ eq_refl).
  rewrite (rbind_step _ _ _ _ _ (take_app 32 _ _ Hm)).
  rewrite (rbind_step _ _ _ _ _ (read_mode_app _ _ _ E2)).
  rewrite (rbind_step _ _ _ _ _ (take_app 32 _ _ Ht)).
  unfold be_u8. rewrite (rbind_step _ _ _ _ _ (be_u_app 1 _ _ (proj1 (u8_pow _) Hd))).
  destruct i; reflexivity.
Qed.

Lemma reg_round_trips : round_trips read_wt_reg write_wt_reg wf_reg.
Proof.
  intros i b rest (Hc & Ha) H. unfold write_wt_reg in H. cbn [wapp] in H. sinj H.
  unfold read_wt_reg. change (x18 :: xfc :: x67 :: xc2 :: be_enc 2 (wr_chain i) ++ wr_address i)%byte
    with (WH_PEER_INFO_PREFIX ++ be_enc 2 (wr_chain i) ++ wr_address i).
  rewrite <- !app_assoc.
  rewrite (rbind_step _ _ _ _ _ (take_app 4 WH_PEER_INFO_PREFIX _ eq_refl)).
  rewrite bytes_eqb_refl. unfold rguard at 1. rewrite (rbind_step (rret tt) _ _ tt _ eq_refl).
  unfold be_u16. rewrite (rbind_step _ _ _ _ _ (be_u_app 2 _ _ (proj1 (u16_pow _) Hc))).
  rewrite (rbind_step _ _ _ _ _ (take_app 32 _ _ Ha)).
  destruct i; reflexivity.
Qed.

(** ** Sizes *)
Lemma write_trimmed_length t b : write_trimmed t = Some b -> length b = 9%nat.
Proof. unfold write_trimmed. cbn [wapp]. intros H; sinj H. rewrite app_length, !be_enc_length. reflexivity. Qed.

Lemma ntt_sized {A} (c : payload A) wf :
  p_type c = None -> sized_on wf (p_write c) (p_wsize c) -> sized_on (wf_ntt wf) (write_ntt c) (ntt_wsize c).
Proof.
  intros Hty Hsz m b (Ha & Hs & Hch & Ht & Hp) H. unfold write_ntt in H.
  apply wapp_Some in H as (b0 & r0 & E & H & ->). sinj E.
  apply wapp_Some in H as (b1 & r1 & E1 & H & ->). apply write_trimmed_length in E1.
  apply wapp_Some in H as (b2 & r2 & E & H & ->). sinj E.
  apply wapp_Some in H as (b3 & r3 & E & H & ->). sinj E.
  apply wapp_Some in H as (b4 & r4 & E & H & ->). sinj E.
  unfold ntt_wsize, trimmed_SIZE. unfold is32 in *. rewrite !app_length, E1, Hs, Ht, be_enc_length.
  destruct (nonempty_size c).
  - apply wapp_Some in H as (b5 & b6 & E5 & E6 & ->). apply w_u16_checked_Some in E5 as [_ ->].
    unfold write_payload in E6. rewrite Hty in E6. rewrite (Hsz _ _ Hp E6).
    rewrite app_length, be_enc_length. cbn [length NTT_PREFIX]. lia.
  - sinj H. cbn. lia.
Qed.

Lemma nmm_sized {A} (c : payload A) wf :
  p_type c = None -> sized_on wf (p_write c) (p_wsize c) -> sized_on (wf_nmm wf) (write_nmm c) (nmm_wsize c).
Proof.
  intros Hty Hsz m b (Hi & Hs & Hp) H. unfold write_nmm in H.
  apply wapp_Some in H as (b0 & r0 & E & H & ->). sinj E.
  apply wapp_Some in H as (b1 & r1 & E & H & ->). sinj E.
  apply wapp_Some in H as (b2 & b3 & E2 & E3 & ->). apply w_u16_checked_Some in E2 as [_ ->].
  unfold write_payload in E3. rewrite Hty in E3.
  unfold nmm_wsize. unfold is32 in *. rewrite !app_length, Hi, Hs, be_enc_length, (Hsz _ _ Hp E3). lia.
Qed.

Lemma tmsg_size_gap {A} E (c : payload A) wf :
  length E = 4%nat -> p_type c = None -> sized_on wf (p_write c) (p_wsize c) ->
  forall m b, wf_tmsg wf m -> write_tmsg E c m = Some b ->
  Z.of_nat (length b) = tmsg_wsize c m + 34 + Z.of_nat (length (t_payload m)).
Proof.
  intros HE Hty Hsz m b (Hs & Hr & Hm) H. unfold write_tmsg in H.
  apply wapp_Some in H as (b0 & r0 & E0 & H & ->). sinj E0.
  apply wapp_Some in H as (b1 & r1 & E1 & H & ->). sinj E1.
  apply wapp_Some in H as (b2 & r2 & E2 & H & ->). sinj E2.
  apply wapp_Some in H as (b3 & r3 & E3 & H & ->). apply w_u16_checked_Some in E3 as [Hl3 ->].
  apply wapp_Some in H as (b4 & r4 & E4 & H & ->).
  apply wapp_Some in H as (b5 & b6 & E5 & E6 & ->). apply w_u16_checked_Some in E5 as [Hl5 ->].
  sinj E6.
  unfold tmsg_wsize. rewrite (nmm_sized c wf Hty Hsz _ _ Hm E4).
  unfold is32 in *. rewrite !app_length, HE, Hs, Hr, !be_enc_length. lia.
Qed.

Lemma empty_sized : sized_on no_constraint (p_write empty_payload) (p_wsize empty_payload).
Proof. intros a b _ H. sinj H. reflexivity. Qed.

(** ** Layouts *)
Lemma sub_0 n b r : length b = n -> sub 0 n (b ++ r) = b.
Proof. intros <-. unfold sub. cbn. rewrite firstn_app, firstn_all, Nat.sub_diag. cbn. apply app_nil_r. Qed.

Lemma sub_skip a off n b : length a = off -> forall k, sub (off + k) n (a ++ b) = sub k n b.
Proof.
  intros <- k. unfold sub. f_equal. rewrite skipn_app.
  rewrite skipn_all2 by lia. cbn. f_equal. lia.
Qed.

Lemma sub_all n b : length b = n -> sub 0 n b = b.
Proof. intros <-. unfold sub. cbn. apply firstn_all. Qed.

Lemma num_enc n z r : 0 <= z < 256 ^ Z.of_nat n -> num 0 n (be_enc n z ++ r) = z.
Proof. intros H. unfold num. rewrite sub_0 by apply be_enc_length. rewrite value_be_dec. now apply be_dec_enc. Qed.

Lemma num_skip a off n b : length a = off -> forall k, num (off + k) n (a ++ b) = num k n b.
Proof. intros H k. unfold num. now rewrite (sub_skip a off). Qed.

Lemma app_nil_end' {A} (l : list A) : l = l ++ []. Proof. now rewrite app_nil_r. Qed.

Lemma write_ntt_empty_eq m :
  write_ntt empty_payload m
  = Some (NTT_PREFIX ++ be_enc 1 (ta_decimals (n_amount m)) ++ be_enc 8 (ta_amount (n_amount m))
          ++ n_source_token m ++ n_to m ++ be_enc 2 (n_to_chain m)).
Proof.
  unfold write_ntt, write_trimmed. cbn [nonempty_size empty_payload p_size wapp].
  rewrite app_nil_r, <- !app_assoc. reflexivity.
Qed.

Lemma ntt_fields_layout (m : ntt unit) :
  wf_ntt no_constraint m ->
  ntt_layout (NTT_PREFIX ++ be_enc 1 (ta_decimals (n_amount m)) ++ be_enc 8 (ta_amount (n_amount m))
          ++ n_source_token m ++ n_to m ++ be_enc 2 (n_to_chain m)) m.
Proof.
  intros ((Ha & Hd) & Hs & Hc & Ht & _). unfold is32 in *.
  unfold ntt_layout. repeat split.
  - rewrite !app_length, !be_enc_length, Hs, Ht. reflexivity.
  - rewrite (num_skip NTT_PREFIX 4 1 _ eq_refl 0). apply num_enc. now apply u8_pow.
  - rewrite (num_skip NTT_PREFIX 4 8 _ eq_refl 1).
    rewrite (num_skip _ 1 8 _ (be_enc_length _ _) 0). apply num_enc. now apply u64_pow.
  - rewrite (sub_skip NTT_PREFIX 4 32 _ eq_refl 9).
    rewrite (sub_skip _ 1 32 _ (be_enc_length _ _) 8).
    rewrite (sub_skip _ 8 32 _ (be_enc_length _ _) 0). now apply sub_0.
  - rewrite (sub_skip NTT_PREFIX 4 32 _ eq_refl 41).
    rewrite (sub_skip _ 1 32 _ (be_enc_length _ _) 40).
    rewrite (sub_skip _ 8 32 _ (be_enc_length _ _) 32).
    rewrite (sub_skip _ 32 32 _ Hs 0). now apply sub_0.
  - rewrite (num_skip NTT_PREFIX 4 2 _ eq_refl 73).
    rewrite (num_skip _ 1 2 _ (be_enc_length _ _) 72).
    rewrite (num_skip _ 8 2 _ (be_enc_length _ _) 64).
    rewrite (num_skip _ 32 2 _ Hs 32).
    rewrite (num_skip _ 32 2 _ Ht 0). rewrite (app_nil_end' (be_enc 2 _)).
    apply num_enc. now apply u16_pow.
Qed.

Lemma ntt_layout_ok m b :
  wf_ntt no_constraint m -> write_ntt empty_payload m = Some b -> ntt_layout b m.
Proof. intros Hwf H. rewrite write_ntt_empty_eq in H. sinj H. now apply ntt_fields_layout. Qed.

Lemma ntt_layout_ext_ok {A} (c : payload A) wf m b :
  p_type c = None -> sized_on wf (p_write c) (p_wsize c) -> p_size c <> Some 0 ->
  wf_ntt wf m -> write_ntt c m = Some b ->
  exists p, p_write c (n_payload m) = Some p /\ ntt_layout_ext b m p.
Proof.
  intros Hty Hsz Hne ((Ha & Hd) & Hs & Hch & Ht & Hp) H.
  assert (Ene : nonempty_size c = true).
  { unfold nonempty_size. destruct (p_size c) as [[| |]|]; congruence. }
  unfold write_ntt, write_trimmed in H. rewrite Ene in H.
  apply wapp_Some in H as (b0 & r0 & E & H & ->). sinj E.
  apply wapp_Some in H as (b1 & r1 & E1 & H & ->). cbn [wapp] in E1. sinj E1.
  apply wapp_Some in H as (b2 & r2 & E & H & ->). sinj E.
  apply wapp_Some in H as (b3 & r3 & E & H & ->). sinj E.
  apply wapp_Some in H as (b4 & r4 & E & H & ->). sinj E.
  apply wapp_Some in H as (b5 & p & E5 & E6 & ->). apply w_u16_checked_Some in E5 as [Hlen ->].
  unfold write_payload in E6. rewrite Hty in E6. exists p. split; [assumption|].
  rewrite (Hsz _ _ Hp E6) in *.
  set (m0 := Ntt (n_amount m) (n_source_token m) (n_to_chain m) (n_to m) tt).
  assert (Hm0 : wf_ntt no_constraint m0) by (repeat split; try assumption; try apply Ha; try apply Hd; try apply Hch).
  apply ntt_fields_layout in Hm0. subst m0. cbn [n_amount n_source_token n_to n_to_chain] in Hm0.
  match type of Hm0 with ntt_layout ?h _ => set (hd := h) in * end.
  assert (Hhd : length hd = 79%nat) by apply Hm0.
  match goal with |- ntt_layout_ext ?b _ _ =>
    replace b with (hd ++ be_enc 2 (Z.of_nat (length p)) ++ p) by (subst hd; rewrite <- !app_assoc; reflexivity) end.
  unfold ntt_layout_ext. split; [|split; [|split]].
  - rewrite !app_length, be_enc_length, Hhd. lia.
  - rewrite sub_0 by assumption. exact Hm0.
  - rewrite (num_skip hd 79 2 _ Hhd 0). apply num_enc. now apply u16_pow.
  - rewrite (sub_skip hd 79 _ _ Hhd 2). rewrite (sub_skip _ 2 _ _ (be_enc_length _ _) 0). now apply sub_all.
Qed.

Lemma nmm_layout_ok {A} (c : payload A) wf m b :
  p_type c = None -> sized_on wf (p_write c) (p_wsize c) ->
  wf_nmm wf m -> write_nmm c m = Some b ->
  exists p, p_write c (m_payload m) = Some p /\ nmm_layout b m p.
Proof.
  intros Hty Hsz (Hi & Hs & Hp) H. unfold write_nmm in H. unfold is32 in *.
  apply wapp_Some in H as (b0 & r0 & E & H & ->). sinj E.
  apply wapp_Some in H as (b1 & r1 & E & H & ->). sinj E.
  apply wapp_Some in H as (b2 & p & E2 & E3 & ->). apply w_u16_checked_Some in E2 as [Hlen ->].
  unfold write_payload in E3. rewrite Hty in E3. exists p. split; [assumption|].
  rewrite (Hsz _ _ Hp E3) in *.
  unfold nmm_layout. repeat split.
  - rewrite !app_length, be_enc_length, Hi, Hs. lia.
  - now apply sub_0.
  - rewrite (sub_skip _ 32 32 _ Hi 0). now apply sub_0.
  - rewrite (num_skip _ 32 2 _ Hi 32). rewrite (num_skip _ 32 2 _ Hs 0). apply num_enc. now apply u16_pow.
  - rewrite (sub_skip _ 32 _ _ Hi 34). rewrite (sub_skip _ 32 _ _ Hs 2).
    rewrite (sub_skip _ 2 _ _ (be_enc_length _ _) 0). now apply sub_all.
Qed.

Lemma tmsg_layout_ok {A} E (c : payload A) wf m b :
  length E = 4%nat -> p_type c = None -> sized_on wf (p_write c) (p_wsize c) ->
  wf_tmsg wf m -> write_tmsg E c m = Some b ->
  exists p, write_nmm c (t_nmm (t_data m)) = Some p /\ tmsg_layout E b m p.
Proof.
  intros HE Hty Hsz (Hs & Hr & Hm) H. unfold write_tmsg in H. unfold is32 in *.
  apply wapp_Some in H as (b0 & r0 & E0 & H & ->). sinj E0.
  apply wapp_Some in H as (b1 & r1 & E1 & H & ->). sinj E1.
  apply wapp_Some in H as (b2 & r2 & E2 & H & ->). sinj E2.
  apply wapp_Some in H as (b3 & r3 & E3 & H & ->). apply w_u16_checked_Some in E3 as [Hl3 ->].
  apply wapp_Some in H as (p & r4 & E4 & H & ->).
  apply wapp_Some in H as (b5 & b6 & E5 & E6 & ->). apply w_u16_checked_Some in E5 as [Hl5 ->].
  sinj E6.
  exists p. split; [assumption|].
  rewrite (nmm_sized c wf Hty Hsz _ _ Hm E4) in *.
  unfold tmsg_layout. repeat split.
  - rewrite !app_length, !be_enc_length, HE, Hs, Hr. lia.
  - now apply sub_0.
  - rewrite (sub_skip _ 4 32 _ HE 0). now apply sub_0.
  - rewrite (sub_skip _ 4 32 _ HE 32). rewrite (sub_skip _ 32 32 _ Hs 0). now apply sub_0.
  - rewrite (num_skip _ 4 2 _ HE 64). rewrite (num_skip _ 32 2 _ Hs 32). rewrite (num_skip _ 32 2 _ Hr 0).
    apply num_enc. now apply u16_pow.
  - rewrite (sub_skip _ 4 _ _ HE 66). rewrite (sub_skip _ 32 _ _ Hs 34). rewrite (sub_skip _ 32 _ _ Hr 2).
    rewrite (sub_skip _ 2 _ _ (be_enc_length _ _) 0). now apply sub_0.
  - rewrite (num_skip _ 4 2 _ HE (66 + length p)).
    change (66 + length p)%nat with (32 + (34 + length p))%nat. rewrite (num_skip _ 32 2 _ Hs).
    change (34 + length p)%nat with (32 + (2 + length p))%nat. rewrite (num_skip _ 32 2 _ Hr).
    rewrite (num_skip _ 2 2 _ (be_enc_length _ _)).
    replace (length p) with (length p + 0)%nat by lia.
    rewrite (num_skip p (length p) 2 _ eq_refl). apply num_enc. now apply u16_pow.
  - rewrite (sub_skip _ 4 _ _ HE (68 + length p)).
    change (68 + length p)%nat with (32 + (36 + length p))%nat. rewrite (sub_skip _ 32 _ _ Hs).
    change (36 + length p)%nat with (32 + (4 + length p))%nat. rewrite (sub_skip _ 32 _ _ Hr).
    change (4 + length p)%nat with (2 + (2 + length p))%nat. rewrite (sub_skip _ 2 _ _ (be_enc_length _ _)).
    replace (2 + length p)%nat with (length p + 2)%nat by lia.
    rewrite (sub_skip p (length p) _ _ eq_refl).
    rewrite (sub_skip _ 2 _ _ (be_enc_length _ _) 0). now apply sub_all.
Qed.

(** ** When encoding panics *)
Lemma write_std_eq m :
  write_std m =
    if Z.of_nat (length (t_payload m)) <=? u16_max
    then Some (accepted_std (be_enc 2 145) (be_enc 2 79) m) else None.
Proof.
  unfold write_std, write_tmsg, write_nmm, std_payload. cbn [ntt_payload p_wsize p_type p_write write_payload m_payload].
  rewrite write_ntt_empty_eq.
  assert (Hn : nmm_wsize (ntt_payload empty_payload) (t_nmm (t_data m)) = 145) by reflexivity.
  assert (Ht : ntt_wsize empty_payload (m_payload (t_nmm (t_data m))) = 79) by reflexivity.
  rewrite Hn, Ht.
  change (w_u16_checked 145) with (Some (be_enc 2 145)). change (w_u16_checked 79) with (Some (be_enc 2 79)).
  unfold w_u16_checked.
  destruct (0 <=? Z.of_nat (length (t_payload m))) eqn:E0; [|lia]. cbn [andb].
  destruct (Z.of_nat (length (t_payload m)) <=? u16_max) eqn:E1; cbn [wapp]; [|reflexivity].
  unfold accepted_std, NTT_PREFIX, WH_PREFIX. cbv zeta. rewrite <- !app_assoc. reflexivity.
Qed.

Lemma write_tmsg_None {A} E (c : payload A) m :
  write_tmsg E c m = None <->
  nmm_wsize c (t_nmm (t_data m)) > u16_max \/ nmm_wsize c (t_nmm (t_data m)) < 0 \/
  write_nmm c (t_nmm (t_data m)) = None \/ Z.of_nat (length (t_payload m)) > u16_max.
Proof.
  unfold write_tmsg, w_u16_checked. cbn [wapp].
  destruct (0 <=? nmm_wsize c (t_nmm (t_data m))) eqn:E1, (nmm_wsize c (t_nmm (t_data m)) <=? u16_max) eqn:E2; cbn [andb wapp].
  - destruct (write_nmm c (t_nmm (t_data m))) eqn:E3; cbn [wapp].
    + destruct (0 <=? Z.of_nat (length (t_payload m))) eqn:E4; [|lia].
      destruct (Z.of_nat (length (t_payload m)) <=? u16_max) eqn:E5; cbn [andb wapp]; split; intros H;
        try discriminate; try reflexivity.
      * destruct H as [?|[?|[?|?]]]; try lia; discriminate.
      * right; right; right; lia.
    + split; intros _; [auto|reflexivity].
  - split; intros _; [left; lia|reflexivity].
  - split; intros _; [right; left; lia|reflexivity].
  - split; intros _; [left; lia|reflexivity].
Qed.

(** ** Acceptance *)
Lemma read_ntt_empty_inv l m r :
  read_ntt empty_payload l = Some (m, r) <->
  l = NTT_PREFIX ++ be_enc 1 (ta_decimals (n_amount m)) ++ be_enc 8 (ta_amount (n_amount m))
      ++ n_source_token m ++ n_to m ++ be_enc 2 (n_to_chain m) ++ r
  /\ wf_ntt no_constraint m.
Proof.
  split.
  - unfold read_ntt. intros H.
    apply rbind_Some in H as (px & l1 & H1 & H). apply take_inv in H1 as [-> Hpx].
    apply rbind_Some in H as ([] & l2 & H1 & H). apply rguard_inv in H1 as [He ->].
    apply bytes_eqb_eq in He. subst px.
    apply rbind_Some in H as (a & l3 & H1 & H). apply read_trimmed_inv in H1 as [-> Ha].
    apply rbind_Some in H as (s & l4 & H1 & H). apply take_inv in H1 as [-> Hs].
    apply rbind_Some in H as (t & l5 & H1 & H). apply take_inv in H1 as [-> Ht].
    apply rbind_Some in H as (ch & l6 & H1 & H). apply be_u_inv in H1 as [-> Hc].
    cbn in H.
    apply rret_inv in H as [-> ->]. cbn [n_amount n_source_token n_to n_to_chain].
    split; [reflexivity|]. repeat split; cbn; try assumption; try apply Ha; apply u16_pow, Hc.
  - intros [-> Hwf].
    pose proof (ntt_round_trips empty_payload _ empty_lawful m _ r Hwf (write_ntt_empty_eq m)) as H.
    rewrite <- !app_assoc in H. exact H.
Qed.

Lemma read_std_inv l m r :
  read_std l = Some (m, r) <->
  wf_tmsg (wf_ntt no_constraint) m /\ Z.of_nat (length (t_payload m)) <= u16_max /\
  exists l1 l2, length l1 = 2%nat /\ length l2 = 2%nat /\ l = accepted_std l1 l2 m ++ r.
Proof.
  split.
  - unfold read_std, read_tmsg, std_payload, be_u16. intros H.
    apply rbind_Some in H as (px & k1 & H1 & H). apply take_inv in H1 as [-> Hpx].
    apply rbind_Some in H as ([] & k2 & H1 & H). apply rguard_inv in H1 as [He ->].
    apply bytes_eqb_eq in He. subst px.
    apply rbind_Some in H as (s & k3 & H1 & H). apply take_inv in H1 as [-> Hs].
    apply rbind_Some in H as (rc & k4 & H1 & H). apply take_inv in H1 as [-> Hrc].
    apply rbind_Some in H as (n1 & k5 & H1 & H). apply be_u_inv in H1 as [-> Hn1].
    apply rbind_Some in H as (nm & k6 & H1 & H).
    unfold read_nmm, be_u16 in H1.
    apply rbind_Some in H1 as (id & j1 & G & H1). apply take_inv in G as [-> Hid].
    apply rbind_Some in H1 as (sd & j2 & G & H1). apply take_inv in G as [-> Hsd].
    apply rbind_Some in H1 as (n2 & j3 & G & H1). apply be_u_inv in G as [-> Hn2].
    apply rbind_Some in H1 as (p & j4 & G & H1). unfold read_payload in G. cbn [ntt_payload p_type p_read] in G.
    apply read_ntt_empty_inv in G as [-> Hp]. apply rret_inv in H1 as [-> ->].
    apply rbind_Some in H as (ln & k7 & H1 & H). apply be_u_inv in H1 as [-> Hln].
    apply rbind_Some in H as (tp & k8 & H1 & H). apply take_inv in H1 as [-> Htp].
    apply rret_inv in H as [-> ->]. cbn [t_data t_payload t_source t_recipient t_nmm].
    rewrite pow256_2 in Hln.
    split; [|split].
    + repeat split; cbn; try assumption; apply Hp.
    + rewrite Htp. unfold u16_max. lia.
    + exists (be_enc 2 n1), (be_enc 2 n2). rewrite !be_enc_length. split; [reflexivity|]. split; [reflexivity|].
      unfold accepted_std. cbn [t_data t_payload t_source t_recipient t_nmm m_id m_sender m_payload]. cbv zeta.
      rewrite Htp, Z2Nat.id by lia. rewrite <- !app_assoc. reflexivity.
  - intros ((Hs & Hr & Hi & Hsd & Hn) & Htp & l1 & l2 & Hl1 & Hl2 & ->).
    unfold read_std, read_tmsg, std_payload, be_u16, accepted_std. cbv zeta. rewrite <- !app_assoc.
    rewrite (rbind_step _ _ _ _ _ (take_app 4 [x99; x45; xff; x10]%byte _ eq_refl)).
    change (rguard (bytes_eqb [x99; x45; xff; x10]%byte WH_PREFIX)) with (rret tt).
    rewrite (rbind_step (rret tt) _ _ tt _ eq_refl).
    rewrite (rbind_step _ _ _ _ _ (take_app 32 _ _ Hs)).
    rewrite (rbind_step _ _ _ _ _ (take_app 32 _ _ Hr)).
    assert (Hb : forall x y, length x = 2%nat -> be_u 2 (x ++ y) = Some (be_dec x, y)).
    { intros x y Hx. unfold be_u. rewrite (rbind_step _ _ _ _ _ (take_app 2 _ _ Hx)). reflexivity. }
    rewrite (rbind_step _ _ _ _ _ (Hb _ _ Hl1)).
    set (tail := be_enc 2 (Z.of_nat (length (t_payload m))) ++ t_payload m ++ r).
    match goal with |- rbind (read_nmm ?c) _ ?L = _ =>
      assert (Hnm : read_nmm c L = Some (t_nmm (t_data m), tail)) end.
    { unfold read_nmm, be_u16.
      rewrite (rbind_step _ _ _ _ _ (take_app 32 _ _ Hi)).
      rewrite (rbind_step _ _ _ _ _ (take_app 32 _ _ Hsd)).
      rewrite (rbind_step _ _ _ _ _ (Hb _ _ Hl2)).
      unfold read_payload. cbn [ntt_payload p_type p_read].
      rewrite (rbind_step _ _ _ _ _ (proj2 (read_ntt_empty_inv _ (m_payload (t_nmm (t_data m))) tail) (conj eq_refl Hn))).
      destruct (t_nmm (t_data m)); reflexivity. }
    rewrite (rbind_step _ _ _ _ _ Hnm). subst tail.
    rewrite (rbind_step _ _ _ _ _ (be_u_app 2 _ _ (proj1 (u16_pow _) (conj (Nat2Z.is_nonneg _) Htp)))).
    rewrite Nat2Z.id. rewrite (rbind_step _ _ _ _ _ (take_app _ _ _ eq_refl)).
    destruct m as [[] ]; reflexivity.
Qed.

(** ** Digest preimages *)
Lemma round_trips_inj {A} (rd : reader A) wr wf a a' b :
  round_trips rd wr wf -> wf a -> wf a' -> wr a = Some b -> wr a' = Some b -> a = a'.
Proof.
  intros H Ha Ha' E E'. pose proof (H _ _ [] Ha E) as H1. pose proof (H _ _ [] Ha' E') as H2. congruence.
Qed.

Lemma preimage_inj {A} (c : payload A) wf ch ch' m m' b :
  lawful_payload c wf -> is_u16 ch -> is_u16 ch' -> wf_nmm wf m -> wf_nmm wf m' ->
  nmm_preimage c ch m = Some b -> nmm_preimage c ch' m' = Some b -> ch = ch' /\ m = m'.
Proof.
  intros Hc Hch Hch' Hm Hm' H H'. unfold nmm_preimage in *.
  apply wapp_Some in H as (y & z & Ey & Ez & ->). sinj Ey.
  apply wapp_Some in H' as (y & z' & Ey & Ez' & Heq). sinj Ey.
  apply app_inj_length in Heq as [H1 H2]; [|now rewrite !be_enc_length]. subst z'.
  split.
  - eapply be_enc_inj; [| |exact H1]; now apply u16_pow.
  - eapply round_trips_inj; [apply (nmm_round_trips c wf Hc)| | | |]; eassumption.
Qed.

(** Two byte strings of the same accepted message. *)
Lemma non_canonical :
  exists b1 b2 m, b1 <> b2 /\ read_std b1 = Some (m, []) /\ read_std b2 = Some (m, []).
Proof.
  set (z32 := repeat x00 32).
  set (m := Tmsg (Tmd z32 z32 (Nmm z32 z32 (Ntt (Trim 5 8) z32 2 z32 tt))) [] : std_tmsg).
  exists (accepted_std (be_enc 2 145) (be_enc 2 79) m), (accepted_std (be_enc 2 0) (be_enc 2 0) m), m.
  split; [|split].
  - intros H. vm_compute in H. discriminate.
  - vm_compute. reflexivity.
  - vm_compute. reflexivity.
Qed.

Lemma args_preimage_inj a a' : wf_args a -> wf_args a' -> args_preimage a = args_preimage a' -> a = a'.
Proof.
  intros (H1 & H2 & H3) (H1' & H2' & H3') H. unfold args_preimage, is32 in *.
  apply app_inj_length in H as [E1 H]; [|now rewrite !be_enc_length].
  apply app_inj_length in H as [E2 H]; [|now rewrite !be_enc_length].
  apply app_inj_length in H as [E3 H]; [|congruence].
  apply be_enc_inj in E1; [|now apply u64_pow|now apply u64_pow].
  apply be_enc_inj in E2; [|now apply u16_pow|now apply u16_pow].
  destruct a as [? ? ? []], a' as [? ? ? []]; cbn in *; try discriminate; congruence.
Qed.

Lemma info_layout_ok i b : wf_info i -> write_wt_info i = Some b -> info_layout b i.
Proof.
  intros (Hm & Ht & Hd) H. unfold write_wt_info, write_mode in H. unfold is32 in *.
  apply wapp_Some in H as (b0 & r0 & E & H & ->). sinj E.
  apply wapp_Some in H as (b1 & r1 & E & H & ->). sinj E.
  apply wapp_Some in H as (b2 & r2 & E & H & ->). sinj E.
  apply wapp_Some in H as (b3 & r3 & E & H & ->). sinj E. sinj H.
  unfold info_layout. split; [|split; [|split; [|split; [|split]]]].
  - rewrite !app_length, !be_enc_length, Hm, Ht. reflexivity.
  - now apply (sub_0 4).
  - rewrite (sub_skip WH_INFO_PREFIX 4 32 _ eq_refl 0). now apply sub_0.
  - rewrite (num_skip WH_INFO_PREFIX 4 1 _ eq_refl 32), (num_skip (wi_manager i) 32 1 _ Hm 0).
    destruct (wi_mode i); apply (num_enc 1); cbn; lia.
  - rewrite (sub_skip WH_INFO_PREFIX 4 32 _ eq_refl 33), (sub_skip (wi_manager i) 32 32 _ Hm 1),
      (sub_skip _ 1 32 _ (be_enc_length 1 _) 0). now apply sub_0.
  - rewrite (num_skip WH_INFO_PREFIX 4 1 _ eq_refl 65), (num_skip (wi_manager i) 32 1 _ Hm 33),
      (num_skip _ 1 1 _ (be_enc_length 1 _) 32), (num_skip (wi_token i) 32 1 _ Ht 0).
    rewrite <- (app_nil_r (be_enc 1 _)). apply num_enc. now apply u8_pow.
Qed.

Lemma reg_layout_ok r b : wf_reg r -> write_wt_reg r = Some b -> reg_layout b r.
Proof.
  intros (Hc & Ha) H. unfold write_wt_reg in H. unfold is32 in *.
  apply wapp_Some in H as (b0 & r0 & E & H & ->). sinj E.
  apply wapp_Some in H as (b1 & r1 & E & H & ->). sinj E. sinj H.
  unfold reg_layout. split; [|split; [|split]].
  - rewrite !app_length, !be_enc_length, Ha. reflexivity.
  - now apply (sub_0 4).
  - rewrite (num_skip WH_PEER_INFO_PREFIX 4 2 _ eq_refl 0). apply num_enc. now apply u16_pow.
  - rewrite (sub_skip WH_PEER_INFO_PREFIX 4 32 _ eq_refl 2), (sub_skip _ 2 32 _ (be_enc_length 2 _) 0).
    now apply sub_all.
Qed.

Lemma info_size_gap i b : wf_info i -> write_wt_info i = Some b -> Z.of_nat (length b) = wt_info_wsize i + 4.
Proof. intros Hw H. destruct (info_layout_ok i b Hw H) as [-> _]. reflexivity. Qed.

Lemma reg_size_gap r b : wf_reg r -> write_wt_reg r = Some b -> Z.of_nat (length b) = wt_reg_wsize r + 4.
Proof. intros Hw H. destruct (reg_layout_ok r b Hw H) as [-> _]. reflexivity. Qed.

Lemma accepted_length l1 l2 m : wf_tmsg (wf_ntt no_constraint) m -> length l1 = 2%nat -> length l2 = 2%nat ->
  length (accepted_std l1 l2 m) = (217 + length (t_payload m))%nat.
Proof.
  intros (Hs & Hr & Hi & Hse & Ht & Hso & Hc & Hto & _) H1 H2. unfold accepted_std, is32 in *. cbv zeta.
  rewrite !app_length, !be_enc_length, Hs, Hr, Hi, Hse, Hso, Hto, H1, H2. cbn [length]. lia.
Qed.

Lemma read_std_short l : (length l < 217)%nat -> read_std l = None.
Proof.
  intros Hl. destruct (read_std l) as [[m r]|] eqn:E; [|reflexivity].
  apply read_std_inv in E as (Hw & _ & l1 & l2 & H1 & H2 & ->).
  rewrite app_length, (accepted_length l1 l2 m Hw H1 H2) in Hl. lia.
Qed.

Lemma read_std_prefix l m r : read_std l = Some (m, r) ->
  sub 0 4 l = [x99; x45; xff; x10]%byte /\ sub 136 4 l = [x99; x4e; x54; x54]%byte.
Proof.
  intros E. apply read_std_inv in E as (Hw & _ & l1 & l2 & H1 & H2 & ->).
  destruct Hw as (Hs & Hr & Hi & Hse & _). unfold is32 in *. unfold accepted_std. cbv zeta. rewrite <- !app_assoc.
  split; [now apply (sub_0 4)|].
  rewrite (sub_skip [x99; x45; xff; x10]%byte 4 4 _ eq_refl 132), (sub_skip _ 32 4 _ Hs 100), (sub_skip _ 32 4 _ Hr 68),
    (sub_skip _ 2 4 _ H1 66), (sub_skip _ 32 4 _ Hi 34), (sub_skip _ 32 4 _ Hse 2), (sub_skip _ 2 4 _ H2 0).
  now apply (sub_0 4).
Qed.

(** What is left over is a suffix, and what was consumed is the encoding up to the two ignored fields. *)
Lemma read_std_write l m : read_std l = Some (m, []) ->
  exists b, write_std m = Some b /\ length b = length l /\
  forall k, k <> 68%nat -> k <> 69%nat -> k <> 134%nat -> k <> 135%nat -> nth_error b k = nth_error l k.
Proof.
  intros E. apply read_std_inv in E as (Hw & Hp & l1 & l2 & H1 & H2 & ->). rewrite app_nil_r.
  rewrite write_std_eq. destruct (_ <=? u16_max) eqn:Eq; [|lia]. eexists. split; [reflexivity|].
  split; [now rewrite !accepted_length|].
  intros k K1 K2 K3 K4. destruct Hw as (Hs & Hr & Hi & Hse & _). unfold is32 in *.
  unfold accepted_std. cbv zeta.
  destruct l1 as [|a1 [|a2 [|]]]; try discriminate. destruct l2 as [|c1 [|c2 [|]]]; try discriminate.
  set (p4 := [x99; x45; xff; x10]%byte).
  assert (L4 : length p4 = 4%nat) by reflexivity.
  destruct (Nat.lt_ge_cases k 68) as [Hk|Hk].
  { rewrite !(app_assoc p4), !(app_assoc (p4 ++ _)). rewrite !(nth_error_app1 ((p4 ++ _) ++ _)); [reflexivity|..];
    rewrite !app_length, L4, Hs, Hr; lia. }
  rewrite !(app_assoc p4), !(app_assoc (p4 ++ _)).
  set (P := (p4 ++ _) ++ _). assert (LP : length P = 68%nat) by (unfold P; rewrite !app_length, L4, Hs, Hr; lia).
  rewrite !(nth_error_app2 P) by lia. rewrite LP.
  rewrite !(nth_error_app2 _ _ (n := k - 68)) by (rewrite ?be_enc_length; cbn [length]; lia).
  rewrite be_enc_length. change (length [a1; a2]) with 2%nat.
  set (M := m_id _). set (S := m_sender _). fold M S in Hi, Hse.
  destruct (Nat.lt_ge_cases k 134) as [Hk2|Hk2].
  { rewrite !(app_assoc M). rewrite !(nth_error_app1 (M ++ S)); [reflexivity|..]; rewrite !app_length, Hi, Hse; lia. }
  rewrite !(app_assoc M). assert (LM : length (M ++ S) = 64%nat) by (rewrite app_length, Hi, Hse; lia).
  rewrite !(nth_error_app2 (M ++ S)) by lia. rewrite LM.
  rewrite (nth_error_app2 (be_enc 2 79)) by (rewrite be_enc_length; lia).
  rewrite (nth_error_app2 [c1; c2]) by (cbn [length]; lia).
  rewrite be_enc_length. reflexivity.
Qed.

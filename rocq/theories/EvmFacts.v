(** * Facts about the EVM side and the agreement of the two. *)
From Verif Require Export BytesFacts SpecEvm TrimmedFacts.
Local Open Scope Z_scope.

(** ** Packed amounts *)
Lemma pack_add a d : is_u8 d -> e_pack a d = a * 256 + d.
Proof.
  intros Hd. unfold e_pack. rewrite Z.shiftl_mul_pow2 by lia. change (2 ^ 8) with 256.
  assert (K : Z.land (a * 256) d = 0).
  2:{ rewrite <- Z.lxor_lor by exact K. symmetry. now apply Z.add_nocarry_lxor. }
  apply Z.bits_inj'. intros i Hi. rewrite Z.land_spec, Z.bits_0.
  destruct (Z.lt_ge_cases i 8) as [L|L].
  - change 256 with (2 ^ 8). rewrite Z.mul_pow2_bits_low by exact L. reflexivity.
  - rewrite Bool.andb_false_iff. right.
    rewrite Z.testbit_eqb by exact Hi. rewrite Z.div_small; [reflexivity|].
    unfold is_u8, u8_max in Hd. split; [lia|]. apply Z.lt_le_trans with (2 ^ 8); [change (2 ^ 8) with 256; lia|]. apply Z.pow_le_mono_r; lia.
Qed.

Lemma amount_pack a d : is_u64 a -> is_u8 d -> e_amount (e_pack a d) = a.
Proof.
  intros Ha Hd. rewrite pack_add by exact Hd. unfold e_amount. rewrite Z.shiftr_div_pow2 by lia. change (2 ^ 8) with 256.
  unfold is_u64, u64_max, is_u8, u8_max in *.
  rewrite Z.div_add_l by lia. rewrite (Z.div_small d) by lia. rewrite Z.add_0_r. apply Z.mod_small. change (2 ^ 64) with 18446744073709551616. lia.
Qed.

Lemma decimals_pack a d : is_u8 d -> e_decimals (e_pack a d) = d.
Proof.
  intros Hd. rewrite pack_add by exact Hd. unfold e_decimals. change 255 with (Z.ones 8). rewrite Z.land_ones by lia. change (2 ^ 8) with 256.
  unfold is_u8, u8_max in Hd. rewrite Z.add_comm, Z.mod_add by lia. apply Z.mod_small. lia.
Qed.

Lemma same_pack x : is_u64 (ta_amount x) -> is_u8 (ta_decimals x) -> same_amount x (e_pack (ta_amount x) (ta_decimals x)).
Proof. intros Ha Hd. split; [now apply amount_pack|now apply decimals_pack]. Qed.

(** ** Codecs *)
Lemma whole_Some {A} (r : reader A) b a : e_whole r b = Some a <-> r b = Some (a, []).
Proof.
  unfold e_whole. destruct (r b) as [[x [|]]|]; split; intros H; try discriminate; injection H as ->; reflexivity.
Qed.

Lemma length_Some x n : e_length x = Some n <-> Z.of_nat (length x) <= u16_max /\ n = be_enc 2 (Z.of_nat (length x)).
Proof.
  unfold e_length. destruct (Z.of_nat (length x) <=? u16_max) eqn:E; split.
  - intros H. apply Some_inj in H. split; [lia|now symmetry].
  - intros [_ ->]. reflexivity.
  - discriminate.
  - lia.
Qed.

(** A length and that many bytes. *)
Lemma counted_inv l x r :
  (do n <- be_u16; take (Z.to_nat n)) l = Some (x, r) <->
  Z.of_nat (length x) <= u16_max /\ l = be_enc 2 (Z.of_nat (length x)) ++ x ++ r.
Proof.
  split.
  - intros H. apply rbind_Some in H as (n & k & H1 & H2). apply be_u_inv in H1 as [-> Hn]. apply take_inv in H2 as [-> Hx].
    rewrite pow256_2 in Hn. rewrite Hx, Z2Nat.id by lia. split; [unfold u16_max; lia|reflexivity].
  - intros [Hx ->]. unfold be_u16.
    rewrite (rbind_step _ _ _ _ _ (be_u_app 2 (Z.of_nat (length x)) (x ++ r) ltac:(rewrite pow256_2; unfold u16_max in Hx; lia))).
    apply take_app. lia.
Qed.

Lemma parse_tm_inv E b t : length E = 4%nat ->
  e_parse_tm E b = Some t <->
  is32 (et_source t) /\ is32 (et_recipient t) /\ Z.of_nat (length (et_manager t)) <= u16_max /\ Z.of_nat (length (et_payload t)) <= u16_max /\
  b = E ++ et_source t ++ et_recipient t ++ be_enc 2 (Z.of_nat (length (et_manager t))) ++ et_manager t
      ++ be_enc 2 (Z.of_nat (length (et_payload t))) ++ et_payload t.
Proof.
  intros HE. unfold e_parse_tm. rewrite whole_Some. split.
  - intros H.
    apply rbind_Some in H as (px & k1 & H1 & H). apply take_inv in H1 as [-> Hpx].
    apply rbind_Some in H as ([] & k2 & H1 & H). apply rguard_inv in H1 as [He ->]. apply bytes_eqb_eq in He. subst px.
    apply rbind_Some in H as (s & k3 & H1 & H). apply take_inv in H1 as [-> Hs].
    apply rbind_Some in H as (r & k4 & H1 & H). apply take_inv in H1 as [-> Hr].
    apply rbind_Some in H as (n & k5 & H1 & H). apply rbind_Some in H as (m & k6 & H2 & H).
    pose proof (proj1 (counted_inv k4 m k6) ltac:(now rewrite (rbind_step _ _ _ _ _ H1))) as [Hm ->]. clear H1 H2.
    apply rbind_Some in H as (k & k7 & H1 & H). apply rbind_Some in H as (p & k8 & H2 & H).
    pose proof (proj1 (counted_inv k6 p k8) ltac:(now rewrite (rbind_step _ _ _ _ _ H1))) as [Hp ->]. clear H1 H2.
    apply rret_inv in H as [-> <-]. cbn [et_source et_recipient et_manager et_payload]. rewrite app_nil_r. repeat split; assumption.
  - destruct t as [s r m p]. cbn [et_source et_recipient et_manager et_payload]. intros (Hs & Hr & Hm & Hp & ->). unfold u16_max in *.
    rewrite (rbind_step _ _ _ _ _ (take_app 4 E _ HE)).
    rewrite bytes_eqb_refl. unfold rguard at 1. rewrite (rbind_step (rret tt) _ _ tt _ eq_refl).
    rewrite (rbind_step _ _ _ _ _ (take_app 32 s _ Hs)). rewrite (rbind_step _ _ _ _ _ (take_app 32 r _ Hr)). unfold be_u16.
    rewrite (rbind_step _ _ _ _ _ (be_u_app 2 (Z.of_nat (length m)) _ ltac:(rewrite pow256_2; lia))).
    rewrite (rbind_step _ _ _ _ _ (take_app (Z.to_nat (Z.of_nat (length m))) m _ (eq_sym (Nat2Z.id _)))).
    rewrite (rbind_step _ _ _ _ _ (be_u_app 2 (Z.of_nat (length p)) _ ltac:(rewrite pow256_2; lia))).
    rewrite <- (app_nil_r p) at 2.
    rewrite (rbind_step _ _ _ _ _ (take_app (Z.to_nat (Z.of_nat (length p))) p [] (eq_sym (Nat2Z.id _)))). reflexivity.
Qed.

Lemma parse_nmm_inv b n :
  e_parse_nmm b = Some n <->
  is32 (en_id n) /\ is32 (en_sender n) /\ Z.of_nat (length (en_payload n)) <= u16_max /\
  b = en_id n ++ en_sender n ++ be_enc 2 (Z.of_nat (length (en_payload n))) ++ en_payload n.
Proof.
  unfold e_parse_nmm. rewrite whole_Some. split.
  - intros H.
    apply rbind_Some in H as (s & k3 & H1 & H). apply take_inv in H1 as [-> Hs].
    apply rbind_Some in H as (r & k4 & H1 & H). apply take_inv in H1 as [-> Hr].
    apply rbind_Some in H as (k & k5 & H1 & H). apply rbind_Some in H as (m & k6 & H2 & H).
    pose proof (proj1 (counted_inv k4 m k6) ltac:(now rewrite (rbind_step _ _ _ _ _ H1))) as [Hm ->]. clear H1 H2.
    apply rret_inv in H as [-> <-]. cbn [en_id en_sender en_payload]. rewrite app_nil_r. repeat split; assumption.
  - destruct n as [s r m]. cbn [en_id en_sender en_payload]. intros (Hs & Hr & Hm & ->). unfold u16_max in *.
    rewrite (rbind_step _ _ _ _ _ (take_app 32 s _ Hs)). rewrite (rbind_step _ _ _ _ _ (take_app 32 r _ Hr)). unfold be_u16.
    rewrite (rbind_step _ _ _ _ _ (be_u_app 2 (Z.of_nat (length m)) _ ltac:(rewrite pow256_2; lia))).
    rewrite <- (app_nil_r m) at 2.
    rewrite (rbind_step _ _ _ _ _ (take_app (Z.to_nat (Z.of_nat (length m))) m [] (eq_sym (Nat2Z.id _)))). reflexivity.
Qed.

(** The 79 bytes of a transfer. *)
Definition head (x : trimmed) (token to : bytes) (chain : Z) : bytes :=
  E_NTT_PREFIX ++ be_enc 1 (ta_decimals x) ++ be_enc 8 (ta_amount x) ++ token ++ to ++ be_enc 2 chain.
Lemma head_length x token to chain : is32 token -> is32 to -> length (head x token to chain) = 79%nat.
Proof. unfold is32, head. intros H K. rewrite !app_length, !be_enc_length, H, K. reflexivity. Qed.

Lemma parse_ntt_inv b p :
  e_parse_ntt b = Some p <->
  exists x, wf_trimmed x /\ ee_amount p = e_pack (ta_amount x) (ta_decimals x) /\
  is32 (ee_token p) /\ is32 (ee_to p) /\ is_u16 (ee_chain p) /\
  (ee_extra p = [] /\ b = head x (ee_token p) (ee_to p) (ee_chain p) \/
   Z.of_nat (length (ee_extra p)) <= u16_max /\
   b = head x (ee_token p) (ee_to p) (ee_chain p) ++ be_enc 2 (Z.of_nat (length (ee_extra p))) ++ ee_extra p).
Proof.
  unfold e_parse_ntt. rewrite whole_Some. split.
  - intros H.
    apply rbind_Some in H as (px & k1 & H1 & H). apply take_inv in H1 as [-> Hpx].
    apply rbind_Some in H as ([] & k2 & H1 & H). apply rguard_inv in H1 as [He ->]. apply bytes_eqb_eq in He. subst px.
    apply rbind_Some in H as (d & k3 & H1 & H). apply be_u_inv in H1 as [-> Hd].
    apply rbind_Some in H as (a & k4 & H1 & H). apply be_u_inv in H1 as [-> Ha].
    apply rbind_Some in H as (s & k5 & H1 & H). apply take_inv in H1 as [-> Hs].
    apply rbind_Some in H as (r & k6 & H1 & H). apply take_inv in H1 as [-> Hr].
    apply rbind_Some in H as (c & k7 & H1 & H). apply be_u_inv in H1 as [-> Hc].
    apply rbind_Some in H as (e & k8 & H1 & H). apply rret_inv in H as [-> <-].
    exists (Trim a d). unfold wf_trimmed, head. cbn [ee_amount ee_token ee_to ee_chain ee_extra ta_amount ta_decimals].
    split; [split; [now apply u64_pow|now apply u8_pow]|]. split; [reflexivity|]. split; [exact Hs|]. split; [exact Hr|].
    split; [now apply u16_pow|].
    destruct (2 <=? length k7)%nat eqn:L.
    + right. apply counted_inv in H1 as [He ->]. rewrite app_nil_r. split; [exact He|]. rewrite <- !app_assoc. reflexivity.
    + left. injection H1 as <- ->. split; [reflexivity|]. now rewrite app_nil_r.
  - destruct p as [v s r c e]. cbn [ee_amount ee_token ee_to ee_chain ee_extra].
    intros ([a d] & (Ha & Hd) & -> & Hs & Hr & Hc & Hb). cbn [ta_amount ta_decimals] in *.
    assert (Hk : exists k, b = head (Trim a d) s r c ++ k /\
       (fun l => if (2 <=? length l)%nat then (do n <- be_u16; take (Z.to_nat n)) l else Some ([], l)) k = Some (e, [])).
    { destruct Hb as [(-> & ->)|(He & ->)].
      - exists []. split; [now rewrite app_nil_r|reflexivity].
      - eexists. split; [reflexivity|]. cbv beta. rewrite app_length, be_enc_length. cbn [Nat.leb plus].
        apply counted_inv. rewrite app_nil_r. split; [exact He|reflexivity]. }
    destruct Hk as (k & -> & Hk). unfold head. cbn [ta_amount ta_decimals]. rewrite <- !app_assoc.
    rewrite (rbind_step _ _ _ _ _ (take_app 4 E_NTT_PREFIX _ (be_enc_length 4 _))).
    rewrite bytes_eqb_refl. unfold rguard at 1. rewrite (rbind_step (rret tt) _ _ tt _ eq_refl). unfold be_u8, be_u64.
    rewrite (rbind_step _ _ _ _ _ (be_u_app 1 d _ (proj1 (u8_pow _) Hd))).
    rewrite (rbind_step _ _ _ _ _ (be_u_app 8 a _ (proj1 (u64_pow _) Ha))).
    rewrite (rbind_step _ _ _ _ _ (take_app 32 s _ Hs)). rewrite (rbind_step _ _ _ _ _ (take_app 32 r _ Hr)). unfold be_u16 at 1.
    rewrite (rbind_step _ _ _ _ _ (be_u_app 2 c _ (proj1 (u16_pow _) Hc))).
    rewrite (rbind_step _ _ _ _ _ Hk). reflexivity.
Qed.

Lemma ntt_prefix : E_NTT_PREFIX = [x99; x4e; x54; x54]%byte. Proof. reflexivity. Qed.
Lemma payload_prefix : E_PAYLOAD_PREFIX = [x99; x45; xff; x10]%byte. Proof. reflexivity. Qed.

Definition head_of (m : std_tmsg) : bytes :=
  let q := m_payload (t_nmm (t_data m)) in head (n_amount q) (n_source_token q) (n_to q) (n_to_chain q).

Lemma accepted_head l1 l2 m :
  accepted_std l1 l2 m =
  E_PAYLOAD_PREFIX ++ t_source (t_data m) ++ t_recipient (t_data m) ++ l1
  ++ m_id (t_nmm (t_data m)) ++ m_sender (t_nmm (t_data m)) ++ l2 ++ head_of m
  ++ be_enc 2 (Z.of_nat (length (t_payload m))) ++ t_payload m.
Proof. rewrite payload_prefix. unfold accepted_std, head_of, head. rewrite ntt_prefix. cbv zeta. rewrite <- !app_assoc. reflexivity. Qed.

Lemma head_of_length m : wf_tmsg (wf_ntt no_constraint) m -> length (head_of m) = 79%nat.
Proof. intros (_ & _ & _ & _ & _ & Ht & _ & Hto & _). unfold head_of. cbv zeta. now apply head_length. Qed.

Lemma encode_ntt_of m : wf_tmsg (wf_ntt no_constraint) m -> e_encode_ntt (e_of m) = Some (head_of m).
Proof.
  intros (_ & _ & _ & _ & (Ha & Hd) & _). unfold e_encode_ntt, e_of, head_of, head. cbv zeta.
  cbn [ee_amount ee_token ee_to ee_chain ee_extra]. rewrite amount_pack, decimals_pack by assumption. reflexivity.
Qed.

(** The manager's message of [m], the bytes hashed less the chain. *)
Definition inner (m : std_tmsg) : bytes := m_id (t_nmm (t_data m)) ++ m_sender (t_nmm (t_data m)) ++ be_enc 2 79 ++ head_of m.
Lemma inner_length m : wf_tmsg (wf_ntt no_constraint) m -> length (inner m) = 145%nat.
Proof.
  intros W. unfold inner. rewrite !app_length, be_enc_length, (head_of_length m W).
  destruct W as (_ & _ & Hi & Hs & _). unfold is32 in *. now rewrite Hi, Hs.
Qed.

Lemma encode_nmm_of m : wf_tmsg (wf_ntt no_constraint) m ->
  e_encode_nmm (ENmm (m_id (t_nmm (t_data m))) (m_sender (t_nmm (t_data m))) (head_of m)) = Some (inner m).
Proof.
  intros W. unfold e_encode_nmm. cbn [en_id en_sender en_payload]. unfold e_length. rewrite (head_of_length m W). reflexivity.
Qed.

Lemma write_inner m : write_nmm std_payload (t_nmm (t_data m)) = Some (inner m).
Proof.
  unfold write_nmm, std_payload. cbn [ntt_payload p_wsize p_type p_write write_payload].
  rewrite write_ntt_empty_eq.
  assert (Ht : ntt_wsize empty_payload (m_payload (t_nmm (t_data m))) = 79) by reflexivity.
  rewrite Ht. change (w_u16_checked 79) with (Some (be_enc 2 79)). cbn [wapp]. unfold inner, head_of, head. rewrite ntt_prefix. cbv zeta. reflexivity.
Qed.

Lemma preimage_of chain m : nmm_preimage std_payload chain (t_nmm (t_data m)) = Some (be_enc 2 chain ++ inner m).
Proof. unfold nmm_preimage. rewrite write_inner. reflexivity. Qed.

(** ** The same bytes leave *)
Lemma same_bytes m : wf_tmsg (wf_ntt no_constraint) m ->
  e_sent (t_source (t_data m)) (t_recipient (t_data m)) (m_id (t_nmm (t_data m))) (m_sender (t_nmm (t_data m))) (e_of m) (t_payload m) = write_std m.
Proof.
  intros W. unfold e_sent. rewrite (encode_ntt_of m W), (encode_nmm_of m W), write_std_eq.
  unfold e_encode_tm. cbn [et_source et_recipient et_manager et_payload].
  unfold e_length at 1. rewrite (inner_length m W). change (Z.of_nat 145 <=? u16_max) with true. cbv iota.
  unfold e_length. destruct (_ <=? u16_max); [|reflexivity].
  rewrite accepted_head. unfold inner. rewrite <- !app_assoc. reflexivity.
Qed.

(** ** From Solana to the EVM *)
Lemma arrives_evm m b : wf_tmsg (wf_ntt no_constraint) m -> write_std m = Some b ->
  exists t n p, e_arrives b = Some (t, n, p) /\ same_transfer m t n p /\ e_plain n /\ ee_extra p = [] /\ et_payload t = t_payload m /\
    forall chain, e_preimage chain n = nmm_preimage std_payload chain (t_nmm (t_data m)).
Proof.
  intros W H. rewrite write_std_eq in H. destruct (_ <=? u16_max) eqn:L; [|discriminate]. apply Some_inj in H. subst b.
  pose proof (inner_length m W) as Li. pose proof (head_of_length m W) as Lh.
  pose proof W as (Hs & Hr & Hi & Hse & (Ha & Hd) & Ht & Hc & Hto & _).
  exists (ETm (t_source (t_data m)) (t_recipient (t_data m)) (inner m) (t_payload m)),
    (ENmm (m_id (t_nmm (t_data m))) (m_sender (t_nmm (t_data m))) (head_of m)), (e_of m).
  split; [|split; [|split; [exact Lh|split; [reflexivity|split; [reflexivity|]]]]].
  - unfold e_arrives.
    rewrite (proj2 (parse_tm_inv E_PAYLOAD_PREFIX _ (ETm (t_source (t_data m)) (t_recipient (t_data m)) (inner m) (t_payload m)) (be_enc_length 4 _))).
    2:{ cbn [et_source et_recipient et_manager et_payload]. rewrite Li. split; [exact Hs|]. split; [exact Hr|]. split; [unfold u16_max; lia|]. split; [lia|].
        rewrite accepted_head. unfold inner. rewrite <- !app_assoc. reflexivity. }
    cbn [et_manager].
    rewrite (proj2 (parse_nmm_inv _ (ENmm (m_id (t_nmm (t_data m))) (m_sender (t_nmm (t_data m))) (head_of m)))).
    2:{ cbn [en_id en_sender en_payload]. rewrite Lh. split; [exact Hi|]. split; [exact Hse|]. split; [unfold u16_max; lia|reflexivity]. }
    cbn [en_payload].
    rewrite (proj2 (parse_ntt_inv _ (e_of m))); [reflexivity|].
    exists (n_amount (m_payload (t_nmm (t_data m)))). split; [split; assumption|]. split; [reflexivity|]. split; [exact Ht|]. split; [exact Hto|].
    split; [exact Hc|]. left. split; reflexivity.
  - unfold same_transfer, e_of. cbv zeta. cbn [et_source et_recipient en_id en_sender ee_amount ee_token ee_to ee_chain].
    repeat (split; [reflexivity|]). split; [now apply same_pack|]. repeat split.
  - intros chain. rewrite preimage_of. unfold e_preimage. rewrite (encode_nmm_of m W). reflexivity.
Qed.

(** ** From the EVM to Solana *)
Lemma arrives_inv b t n p : e_arrives b = Some (t, n, p) ->
  is32 (et_source t) /\ is32 (et_recipient t) /\ is32 (en_id n) /\ is32 (en_sender n) /\
  Z.of_nat (length (et_manager t)) <= u16_max /\ Z.of_nat (length (et_payload t)) <= u16_max /\ Z.of_nat (length (en_payload n)) <= u16_max /\
  b = E_PAYLOAD_PREFIX ++ et_source t ++ et_recipient t ++ be_enc 2 (Z.of_nat (length (et_manager t))) ++ et_manager t
      ++ be_enc 2 (Z.of_nat (length (et_payload t))) ++ et_payload t /\
  et_manager t = en_id n ++ en_sender n ++ be_enc 2 (Z.of_nat (length (en_payload n))) ++ en_payload n /\
  e_parse_ntt (en_payload n) = Some p.
Proof.
  unfold e_arrives. destruct (e_parse_tm E_PAYLOAD_PREFIX b) as [t'|] eqn:E1; [|discriminate].
  destruct (e_parse_nmm (et_manager t')) as [n'|] eqn:E2; [|discriminate].
  destruct (e_parse_ntt (en_payload n')) as [p'|] eqn:E3; [|discriminate].
  intros H. injection H as -> -> ->.
  apply (parse_tm_inv _ _ _ (be_enc_length 4 _)) in E1 as (A1 & A2 & A3 & A4 & A5). apply parse_nmm_inv in E2 as (B1 & B2 & B3 & B4).
  repeat (split; [assumption|]). assumption.
Qed.

Lemma arrives_solana b t n p : e_arrives b = Some (t, n, p) ->
  exists m rest, read_std b = Some (m, rest) /\ same_transfer m t n p /\
    (e_plain n /\ ee_extra p = [] /\ t_payload m = et_payload t /\ rest = [] /\ et_manager t = inner m \/
     ~ e_plain n /\ length (en_payload n) = (81 + length (ee_extra p))%nat /\
       t_payload m = ee_extra p /\ rest = be_enc 2 (Z.of_nat (length (et_payload t))) ++ et_payload t).
Proof.
  intros H. apply arrives_inv in H as (Hs & Hr & Hi & Hse & Lm & Lp & Ln & -> & Em & H).
  apply parse_ntt_inv in H as (x & Hx & Hv & Ht & Hto & Hc & Hb).
  set (mk tp := Tmsg (Tmd (et_source t) (et_recipient t) (Nmm (en_id n) (en_sender n) (Ntt x (ee_token p) (ee_chain p) (ee_to p) tt))) tp : std_tmsg).
  assert (W : forall tp, wf_tmsg (wf_ntt no_constraint) (mk tp)) by (intros tp; exact (conj Hs (conj Hr (conj Hi (conj Hse (conj Hx (conj Ht (conj Hc (conj Hto I))))))))).
  assert (S : forall tp, same_transfer (mk tp) t n p).
  { intros tp. unfold same_transfer, mk. cbn [t_data t_source t_recipient t_nmm m_id m_sender m_payload n_amount n_source_token n_to n_to_chain].
    repeat (split; [reflexivity|]). split; [rewrite Hv; apply same_pack; apply Hx|]. repeat split. }
  pose proof (head_length x (ee_token p) (ee_to p) (ee_chain p) Ht Hto) as Lh.
  destruct Hb as [(He & Hb)|(He & Hb)].
  - exists (mk (et_payload t)), []. split; [|split; [apply S|left]].
    + apply read_std_inv. split; [apply W|]. split; [exact Lp|].
      exists (be_enc 2 (Z.of_nat (length (et_manager t)))), (be_enc 2 (Z.of_nat (length (en_payload n)))).
      split; [apply be_enc_length|]. split; [apply be_enc_length|].
      rewrite app_nil_r, accepted_head. set (l1 := be_enc 2 (Z.of_nat (length (et_manager t)))). rewrite Em.
      set (l2 := be_enc 2 (Z.of_nat (length (en_payload n)))). rewrite Hb. unfold mk, head_of.
      cbn [t_data t_payload t_source t_recipient t_nmm m_id m_sender m_payload n_amount n_source_token n_to n_to_chain].
      rewrite <- !app_assoc. reflexivity.
    + unfold e_plain. rewrite Hb. split; [exact Lh|]. split; [exact He|]. split; [reflexivity|]. split; [reflexivity|].
      rewrite Em, Hb, Lh. reflexivity.
  - exists (mk (ee_extra p)), (be_enc 2 (Z.of_nat (length (et_payload t))) ++ et_payload t). split; [|split; [apply S|right]].
    + apply read_std_inv. split; [apply W|]. split; [exact He|].
      exists (be_enc 2 (Z.of_nat (length (et_manager t)))), (be_enc 2 (Z.of_nat (length (en_payload n)))).
      split; [apply be_enc_length|]. split; [apply be_enc_length|].
      rewrite accepted_head. set (l1 := be_enc 2 (Z.of_nat (length (et_manager t)))). rewrite Em.
      set (l2 := be_enc 2 (Z.of_nat (length (en_payload n)))). rewrite Hb. unfold mk, head_of.
      cbn [t_data t_payload t_source t_recipient t_nmm m_id m_sender m_payload n_amount n_source_token n_to n_to_chain].
      rewrite <- !app_assoc. reflexivity.
    + assert (L : length (en_payload n) = (81 + length (ee_extra p))%nat).
      { rewrite Hb, !app_length, Lh, be_enc_length. lia. }
      unfold e_plain. split; [lia|]. split; [exact L|]. split; reflexivity.
Qed.

(** ** The digests agree exactly for plain transfers *)
Lemma digests b t n p m rest chain : e_arrives b = Some (t, n, p) -> read_std b = Some (m, rest) ->
  e_preimage chain n = Some (be_enc 2 chain ++ et_manager t) /\
  (e_plain n <-> nmm_preimage std_payload chain (t_nmm (t_data m)) = e_preimage chain n).
Proof.
  intros H R. pose proof (arrives_inv _ _ _ _ H) as (_ & _ & Hi & Hse & _ & _ & Ln & _ & Em & _).
  assert (P : e_preimage chain n = Some (be_enc 2 chain ++ et_manager t)).
  { unfold e_preimage, e_encode_nmm, e_length. destruct (_ <=? u16_max) eqn:L; [|lia]. now rewrite Em. }
  split; [exact P|]. rewrite P, preimage_of.
  apply arrives_solana in H as (m' & rest' & R' & S & D). rewrite R in R'. injection R' as <- <-.
  destruct D as [(Hp & _ & _ & _ & E)|(Hp & L & _)].
  - split; intros _; [now rewrite E|exact Hp].
  - split; [contradiction|]. intros K. apply Some_inj in K. apply app_inv_head in K. exfalso.
    apply (f_equal (@length byte)) in K. apply read_std_inv in R as (W & _). rewrite (inner_length m W), Em, !app_length, be_enc_length, L in K.
    unfold is32 in *. rewrite Hi, Hse in K. lia.
Qed.

(** ** What both sides take *)
Lemma evm_reads b :
  (exists t n p, e_arrives b = Some (t, n, p) /\ e_plain n) <-> exists m, wf_tmsg (wf_ntt no_constraint) m /\ write_std m = Some b.
Proof.
  split.
  - intros (t & n & p & H & Hp). pose proof H as H'. apply arrives_solana in H as (m & rest & R & S & [(_ & _ & Et & _ & Ei)|(N & _)]); [|contradiction].
    apply read_std_inv in R as (W & L & _). exists m. split; [exact W|]. rewrite write_std_eq. destruct (_ <=? u16_max) eqn:L'; [|lia].
    f_equal. rewrite accepted_head. apply arrives_inv in H' as (_ & _ & _ & _ & _ & _ & _ & -> & _).
    destruct S as (<- & <- & _). rewrite Ei, <- Et, (inner_length m W). unfold inner. rewrite <- !app_assoc. reflexivity.
  - intros (m & W & H). destruct (arrives_evm m b W H) as (t & n & p & A & _ & Hp & _). exists t, n, p. split; assumption.
Qed.

(** ** Broadcasts *)
Lemma same_info i : write_wt_info i = Some (e_encode_init (EInit E_INIT_PREFIX (wi_manager i) (e_mode (wi_mode i)) (wi_token i) (wi_decimals i))).
Proof. unfold write_wt_info, e_encode_init. cbn [ei_prefix ei_manager ei_mode ei_token ei_decimals]. destruct (wi_mode i); reflexivity. Qed.
Lemma same_reg r : write_wt_reg r = Some (e_encode_reg (EReg E_REGISTRATION_PREFIX (wr_chain r) (wr_address r))).
Proof. reflexivity. Qed.

Lemma decode_init_encode i : length (ei_prefix i) = 4%nat -> is32 (ei_manager i) -> is_u8 (ei_mode i) -> is32 (ei_token i) -> is_u8 (ei_decimals i) ->
  e_decode_init (e_encode_init i) = Some i.
Proof.
  destruct i as [p m md t d]. cbn [ei_prefix ei_manager ei_mode ei_token ei_decimals]. intros Hp Hm Hmd Ht Hd.
  apply whole_Some. unfold e_encode_init, be_u8. cbn [ei_prefix ei_manager ei_mode ei_token ei_decimals].
  rewrite (rbind_step _ _ _ _ _ (take_app 4 p _ Hp)). rewrite (rbind_step _ _ _ _ _ (take_app 32 m _ Hm)).
  rewrite (rbind_step _ _ _ _ _ (be_u_app 1 md _ (proj1 (u8_pow _) Hmd))). rewrite (rbind_step _ _ _ _ _ (take_app 32 t _ Ht)).
  rewrite <- (app_nil_r (be_enc 1 d)).
  rewrite (rbind_step _ _ _ _ _ (be_u_app 1 d [] (proj1 (u8_pow _) Hd))). reflexivity.
Qed.
Lemma decode_reg_encode r : length (er_prefix r) = 4%nat -> is_u16 (er_chain r) -> is32 (er_address r) -> e_decode_reg (e_encode_reg r) = Some r.
Proof.
  destruct r as [p c a]. cbn [er_prefix er_chain er_address]. intros Hp Hc Ha.
  apply whole_Some. unfold e_encode_reg, be_u16. cbn [er_prefix er_chain er_address].
  rewrite (rbind_step _ _ _ _ _ (take_app 4 p _ Hp)). rewrite (rbind_step _ _ _ _ _ (be_u_app 2 c _ (proj1 (u16_pow _) Hc))).
  rewrite <- (app_nil_r a). rewrite (rbind_step _ _ _ _ _ (take_app 32 a [] Ha)). now rewrite app_nil_r.
Qed.

(** ** Amounts *)
Lemma u256_eq : u256_max = 115792089237316195423570985008687907853269984665640564039457584007913129639935. Proof. reflexivity. Qed.

Lemma checked_pow k : 0 <= k -> e_checked (10 ^ k) = if k <? 78 then Some (10 ^ k) else None.
Proof.
  intros Hk. unfold e_checked. destruct (k <? 78) eqn:L.
  - assert (10 ^ k <= 10 ^ 77) by (apply Z.pow_le_mono_r; lia).
    assert (10 ^ 77 <= u256_max) by (apply Z.leb_le; reflexivity).
    destruct (10 ^ k <=? u256_max) eqn:E; [reflexivity|lia].
  - assert (10 ^ 78 <= 10 ^ k) by (apply Z.pow_le_mono_r; lia).
    assert (u256_max < 10 ^ 78) by (apply Z.ltb_lt; reflexivity).
    destruct (10 ^ k <=? u256_max) eqn:E; [lia|reflexivity].
Qed.

Lemma e_scale_down a f t : 0 <= t <= f -> e_scale a f t = if f - t <? 78 then Some (a / 10 ^ (f - t)) else None.
Proof.
  intros H. unfold e_scale. destruct (f =? t) eqn:E.
  - assert (f = t) by lia. subst. rewrite Z.sub_diag. cbn. now rewrite Z.div_1_r.
  - destruct (t <? f) eqn:E2; [|lia]. rewrite checked_pow by lia. destruct (_ <? 78); reflexivity.
Qed.

Lemma e_scale_up a f t : 0 <= f < t -> e_scale a f t = if t - f <? 78 then e_checked (a * 10 ^ (t - f)) else None.
Proof.
  intros H. unfold e_scale. destruct (f =? t) eqn:E; [lia|]. destruct (t <? f) eqn:E2; [lia|].
  rewrite checked_pow by lia. destruct (_ <? 78); reflexivity.
Qed.

Lemma div_le a k : 0 <= a -> 0 <= k -> 0 <= a / 10 ^ k <= a.
Proof.
  intros Ha Hk. pose proof (pow10_pos k Hk). split; [apply Z.div_pos; lia|]. apply Z.div_le_upper_bound; nia.
Qed.

Lemma e_trim_exact a f t : 0 <= a -> is_u8 f -> is_u8 t ->
  e_trim a f t =
    let d := Z.min 8 (Z.min f t) in
    if f - d <? 78 then if a / 10 ^ (f - d) <=? u64_max then Some (e_pack (a / 10 ^ (f - d)) d) else None else None.
Proof.
  intros Ha Hf Ht. unfold is_u8, u8_max in *. cbv zeta. unfold e_trim.
  replace (Z.min (Z.min 8 f) t) with (Z.min 8 (Z.min f t)) by lia. rewrite e_scale_down by lia.
  destruct (_ <? 78); [|reflexivity]. unfold e_u64. destruct (_ <=? u64_max); reflexivity.
Qed.

(** The EVM side trims an amount that fits into 64 bits as Solana does; it also goes on where Solana stops, and gets zero. *)
Lemma trim_agrees a f t : is_u64 a -> is_u8 f -> is_u8 t ->
  (forall x, trim a f t = Ok x -> e_trim a f t = Some (e_pack (ta_amount x) (ta_decimals x))) /\
  (forall v, e_trim a f t = Some v ->
     (exists x, trim a f t = Ok x /\ v = e_pack (ta_amount x) (ta_decimals x)) \/
     trim a f t = Err OverflowExponent /\ 20 <= f - e_decimals v /\ e_amount v = 0).
Proof.
  intros Ha Hf Ht. rewrite trim_exact by assumption. rewrite e_trim_exact by (try assumption; apply Ha). cbv zeta.
  set (d := Z.min 8 (Z.min f t)). assert (Hd : is_u8 d) by (unfold is_u8, u8_max, d in *; lia).
  assert (Hk : 0 <= f - d) by (unfold is_u8, u8_max, d in *; lia).
  pose proof (div_le a (f - d) ltac:(apply Ha) Hk) as Hq. unfold is_u64 in Ha.
  destruct (a / 10 ^ (f - d) <=? u64_max) eqn:Q; [|lia].
  destruct (f - d <? 20) eqn:L.
  - destruct (f - d <? 78) eqn:L2; [|lia]. split.
    + intros x H. injection H as <-. reflexivity.
    + intros v H. apply Some_inj in H. left. eexists. split; [reflexivity|]. symmetry. exact H.
  - split; [discriminate|]. intros v H. right. destruct (f - d <? 78) eqn:L2; [|discriminate]. apply Some_inj in H. subst v.
    assert (Z0 : a / 10 ^ (f - d) = 0).
    { apply Z.div_small. split; [lia|]. apply Z.le_lt_trans with u64_max; [lia|]. apply Z.lt_le_trans with (10 ^ 20).
      - apply Z.ltb_lt. reflexivity.
      - apply Z.pow_le_mono_r; lia. }
    rewrite Z0. rewrite decimals_pack by exact Hd. split; [reflexivity|]. split; [lia|]. apply amount_pack; [ilia|exact Hd].
Qed.

Lemma e_untrim_pack x t : wf_trimmed x -> e_untrim (e_pack (ta_amount x) (ta_decimals x)) t = e_scale (ta_amount x) (ta_decimals x) t.
Proof. intros [Ha Hd]. unfold e_untrim. now rewrite amount_pack, decimals_pack by assumption. Qed.

Lemma untrim_agrees x t a : wf_trimmed x -> is_u8 t ->
  untrim x t = Ok a <->
  e_untrim (e_pack (ta_amount x) (ta_decimals x)) t = Some a /\ a <= u64_max /\ Z.abs (ta_decimals x - t) < 20.
Proof.
  intros W Ht. rewrite (e_untrim_pack x t W). destruct x as [q d]. destruct W as [Ha Hd]. cbn [ta_amount ta_decimals] in *.
  rewrite untrim_exact by assumption. unfold is_u8, u8_max, is_u64 in *.
  destruct (t <=? d) eqn:E.
  - rewrite e_scale_down by lia. pose proof (div_le q (d - t) ltac:(lia) ltac:(lia)).
    destruct (d - t <? 20) eqn:L.
    + destruct (d - t <? 78) eqn:L2; [|lia]. split.
      * intros H1. injection H1 as <-. split; [reflexivity|]. lia.
      * intros (H1 & _). injection H1 as <-. reflexivity.
    + split; [discriminate|]. lia.
  - rewrite e_scale_up by lia. destruct (20 <=? t - d) eqn:L.
    + split; [discriminate|]. lia.
    + destruct (t - d <? 78) eqn:L2; [|lia]. unfold e_checked.
      assert (0 < 10 ^ (t - d)) by (apply pow10_pos; lia).
      assert (u64_max <= u256_max) by (apply Z.leb_le; reflexivity).
      destruct (q * 10 ^ (t - d) <=? u64_max) eqn:M.
      * destruct (_ <=? u256_max) eqn:M2; [|lia]. split.
        -- intros H1. injection H1 as <-. split; [reflexivity|]. lia.
        -- intros (H1 & _). injection H1 as <-. reflexivity.
      * split; [discriminate|]. destruct (_ <=? u256_max) eqn:M2; [|intros (H1 & _); discriminate].
        intros (H1 & H2 & _). injection H1 as <-. lia.
Qed.

(** ** From the EVM to Solana *)
Lemma send_exact A f t v : 0 <= A -> is_u8 f -> is_u8 t -> e_send A f t = Some v ->
  t <> 0 /\ exists q, is_u64 q /\ v = e_pack q (Z.min 8 (Z.min f t)) /\ A = q * 10 ^ (f - Z.min 8 (Z.min f t)).
Proof.
  intros HA Hf Ht. unfold e_send. destruct (t =? 0) eqn:T; [discriminate|].
  rewrite e_trim_exact by assumption. cbv zeta. set (d := Z.min 8 (Z.min f t)).
  assert (Hd : is_u8 d) by (unfold is_u8, u8_max, d in *; lia).
  assert (Hk : 0 <= f - d) by (unfold is_u8, u8_max, d in *; lia).
  pose proof (div_le A (f - d) HA Hk) as Hq.
  destruct (f - d <? 78) eqn:L; [|discriminate]. destruct (_ <=? u64_max) eqn:Q; [|discriminate].
  set (q := A / 10 ^ (f - d)) in *. assert (Uq : is_u64 q) by (unfold is_u64; lia).
  unfold e_untrim. rewrite amount_pack, decimals_pack by assumption.
  destruct (Z.eq_dec f d) as [Efd|Nfd].
  - rewrite e_scale_down by (unfold is_u8 in *; lia). replace (d - f) with 0 by lia. change (10 ^ 0) with 1. rewrite Z.div_1_r.
    change (0 <? 78) with true. cbv iota. destruct (q =? A) eqn:E; [|discriminate]. intros H. apply Some_inj in H. split; [lia|].
    exists q. split; [exact Uq|]. split; [now symmetry|]. replace (f - d) with 0 by lia. change (10 ^ 0) with 1. lia.
  - rewrite e_scale_up by (unfold is_u8 in *; lia). rewrite L. unfold e_checked. destruct (_ <=? u256_max); [|discriminate].
    destruct (q * 10 ^ (f - d) =? A) eqn:E; [|discriminate]. intros H. apply Some_inj in H. split; [lia|].
    exists q. split; [exact Uq|]. split; [now symmetry|lia].
Qed.

Lemma evm_to_solana A f t v g : 0 <= A -> is_u8 f -> is_u8 t -> is_u8 g -> e_send A f t = Some v ->
  let x := Trim (e_amount v) (e_decimals v) in
  wf_trimmed x /\ e_decimals v <= 8 /\ e_decimals v <= f /\ e_decimals v <= t /\
  e_amount v * 10 ^ f = A * 10 ^ e_decimals v /\
  (forall a, untrim x g = Ok a -> a * 10 ^ f <= A * 10 ^ g /\ (e_decimals v <= g -> a * 10 ^ f = A * 10 ^ g)).
Proof.
  intros HA Hf Ht Hg H. cbv zeta. apply send_exact in H as (_ & q & Uq & -> & E); try assumption.
  set (d := Z.min 8 (Z.min f t)) in *. assert (Hd : is_u8 d) by (unfold is_u8, u8_max, d in *; lia).
  assert (Hk : 0 <= f - d) by (unfold is_u8, u8_max, d in *; lia).
  rewrite amount_pack, decimals_pack by assumption. split; [split; assumption|]. split; [lia|]. split; [lia|]. split; [lia|].
  assert (P : 10 ^ f = 10 ^ (f - d) * 10 ^ d) by (rewrite <- pow10_add by (unfold is_u8 in *; lia); f_equal; lia).
  split; [rewrite E, P; ring|]. intros a H. apply untrim_value_le in H; [|assumption..]. cbn [ta_amount ta_decimals] in H.
  destruct H as [H1 H2]. pose proof (pow10_pos (f - d) Hk). rewrite E, P. split; [nia|]. intros L. specialize (H2 L). nia.
Qed.

(** With the decimals of the peer set to those it has, the transfer can be redeemed exactly when its value fits. *)
Lemma evm_arrives_iff A f g v a : 0 <= A -> is_u8 f -> is_u8 g -> e_send A f g = Some v -> g - e_decimals v < 20 ->
  untrim (Trim (e_amount v) (e_decimals v)) g = Ok a <-> a * 10 ^ f = A * 10 ^ g /\ a <= u64_max.
Proof.
  intros HA Hf Hg H L. destruct (evm_to_solana A f g v g HA Hf Hg Hg H) as ([Wa Wd] & _ & _ & Ld & E & K). cbn [ta_amount ta_decimals] in Wa, Wd.
  assert (Pf : 0 < 10 ^ f) by (apply pow10_pos; unfold is_u8 in Hf; lia).
  split.
  - intros U. split; [now apply K|]. apply (untrim_agrees (Trim (e_amount v) (e_decimals v)) g a (conj Wa Wd) Hg) in U. apply U.
  - intros [V B]. rewrite untrim_exact by assumption. unfold is_u8, is_u64 in *.
    assert (P : 10 ^ g = 10 ^ (g - e_decimals v) * 10 ^ e_decimals v) by (rewrite <- pow10_add by lia; f_equal; lia).
    assert (Ea : a = e_amount v * 10 ^ (g - e_decimals v)).
    { rewrite P in V. assert (a * 10 ^ f = e_amount v * 10 ^ (g - e_decimals v) * 10 ^ f) by nia. nia. }
    destruct (g <=? e_decimals v) eqn:G.
    + assert (G' : g = e_decimals v) by lia. rewrite <- G', Z.sub_diag in *. change (10 ^ 0) with 1 in *. rewrite Z.div_1_r. change (0 <? 20) with true.
      cbv iota. f_equal. lia.
    + destruct (20 <=? g - e_decimals v) eqn:G2; [lia|]. rewrite <- Ea. destruct (a <=? u64_max) eqn:G3; [reflexivity|lia].
Qed.

(** ** From Solana to the EVM *)
Lemma receive_exact x g : wf_trimmed x -> ta_decimals x <= 8 -> is_u8 g -> g <= 57 ->
  e_receive (e_pack (ta_amount x) (ta_decimals x)) g =
    if g <=? ta_decimals x then Some (ta_amount x / 10 ^ (ta_decimals x - g))
    else if ta_amount x * 10 ^ (Z.min 8 g - ta_decimals x) <=? u64_max then Some (ta_amount x * 10 ^ (g - ta_decimals x)) else None.
Proof.
  intros W H8 Hg Hg57. unfold e_receive. rewrite (e_untrim_pack x g W). destruct x as [q d]. destruct W as [Ha Hd].
  cbn [ta_amount ta_decimals] in *. unfold is_u8, u8_max, is_u64 in *.
  destruct (g <=? d) eqn:E.
  - rewrite e_scale_down by lia. destruct (d - g <? 78) eqn:L; [|lia].
    pose proof (div_le q (d - g) ltac:(lia) ltac:(lia)) as Hq. set (a := q / 10 ^ (d - g)) in *.
    rewrite e_trim_exact by (unfold is_u8, u8_max; lia). cbv zeta. replace (Z.min 8 (Z.min g g)) with g by lia. rewrite Z.sub_diag.
    change (10 ^ 0) with 1. rewrite Z.div_1_r. change (0 <? 78) with true. cbv iota. destruct (a <=? u64_max) eqn:M; [|lia].
    unfold e_untrim. rewrite amount_pack, decimals_pack by (unfold is_u64, is_u8, u8_max; lia).
    rewrite e_scale_down by lia. rewrite Z.sub_diag. change (10 ^ 0) with 1. rewrite Z.div_1_r. reflexivity.
  - rewrite e_scale_up by lia. destruct (g - d <? 78) eqn:L; [|lia]. unfold e_checked at 1.
    assert (P : 0 < 10 ^ (g - d)) by (apply pow10_pos; lia).
    assert (B : 10 ^ (g - d) <= 10 ^ 57) by (apply Z.pow_le_mono_r; lia).
    assert (B2 : u64_max * 10 ^ 57 <= u256_max) by (apply Z.leb_le; reflexivity).
    assert (B3 : q * 10 ^ (g - d) <= u256_max) by nia.
    destruct (q * 10 ^ (g - d) <=? u256_max) eqn:M; [|lia].
    rewrite e_trim_exact by (unfold is_u8, u8_max; nia). cbv zeta. replace (Z.min 8 (Z.min g g)) with (Z.min 8 g) by lia.
    set (e := Z.min 8 g). assert (He : d <= e <= g /\ e <= 8) by (unfold e; lia).
    assert (Pe : 0 < 10 ^ (g - e)) by (apply pow10_pos; lia).
    assert (S : 10 ^ (g - d) = 10 ^ (e - d) * 10 ^ (g - e)) by (rewrite <- pow10_add by lia; f_equal; lia).
    rewrite S, Z.mul_assoc, Z.div_mul by lia.
    destruct (g - e <? 78) eqn:L2; [|lia]. set (w := q * 10 ^ (e - d)) in *.
    assert (0 <= w) by (unfold w; pose proof (pow10_pos (e - d) ltac:(lia)); nia).
    destruct (w <=? u64_max) eqn:M2; [|reflexivity].
    unfold e_untrim. rewrite amount_pack, decimals_pack by (unfold is_u64, is_u8, u8_max; lia).
    destruct (Z.eq_dec g e) as [G|G].
    + rewrite e_scale_down by lia. replace (e - g) with 0 by lia. replace (g - e) with 0 by lia. change (10 ^ 0) with 1. rewrite Z.div_1_r, Z.mul_1_r. reflexivity.
    + rewrite e_scale_up by lia. rewrite L2. unfold e_checked. destruct (w * 10 ^ (g - e) <=? u256_max) eqn:M3; [reflexivity|]. unfold w in M3. rewrite <- Z.mul_assoc, <- S in M3. lia.
Qed.

Lemma solana_to_evm A f t g A' x : is_u64 A -> is_u8 f -> is_u8 t -> is_u8 g -> g <= 57 -> remove_dust A f t = Ok (A', x) ->
  (forall a, e_receive (e_pack (ta_amount x) (ta_decimals x)) g = Some a ->
     a * 10 ^ f <= A' * 10 ^ g /\ (ta_decimals x <= g -> a * 10 ^ f = A' * 10 ^ g)) /\
  (e_receive (e_pack (ta_amount x) (ta_decimals x)) g = None <->
     ta_decimals x < g /\ u64_max < ta_amount x * 10 ^ (Z.min 8 g - ta_decimals x)).
Proof.
  intros HA Hf Ht Hg H57 H. rewrite remove_dust_exact in H by assumption. cbv zeta in H.
  set (d := Z.min 8 (Z.min f t)) in *. destruct (f - d <? 20) eqn:L; [|discriminate]. injection H as <- <-.
  assert (Hd : is_u8 d) by (unfold is_u8, u8_max, d in *; lia). assert (D8 : d <= 8) by (unfold d; lia).
  assert (Hk : 0 <= f - d) by (unfold is_u8, u8_max, d in *; lia). clearbody d.
  pose proof (div_le A (f - d) ltac:(apply HA) Hk) as Hq. unfold is_u64 in HA.
  set (q := A / 10 ^ (f - d)) in *. clearbody q.
  assert (W : wf_trimmed (Trim q d)) by (split; [unfold is_u64; cbn [ta_amount]; lia|exact Hd]).
  rewrite receive_exact by (try assumption). cbn [ta_amount ta_decimals]. unfold is_u8 in *.
  assert (Pf : 10 ^ f = 10 ^ (f - d) * 10 ^ d) by (rewrite <- pow10_add by lia; f_equal; lia).
  assert (P0 : 0 < 10 ^ (f - d)) by (apply pow10_pos; lia).
  destruct (g <=? d) eqn:E.
  - split.
    + intros a Ea. apply Some_inj in Ea. subst a.
      assert (Pd : 10 ^ d = 10 ^ (d - g) * 10 ^ g) by (rewrite <- pow10_add by lia; f_equal; lia).
      assert (P1 : 0 < 10 ^ (d - g)) by (apply pow10_pos; lia).
      assert (P2 : 0 < 10 ^ g) by (apply pow10_pos; lia).
      pose proof (Z.mul_div_le q _ P1) as M. rewrite Pf, Pd. split; [|intros G].
      * assert (0 <= q / 10 ^ (d - g)) by (apply Z.div_pos; lia).
        replace (q / 10 ^ (d - g) * (10 ^ (f - d) * (10 ^ (d - g) * 10 ^ g))) with ((10 ^ (d - g) * (q / 10 ^ (d - g))) * (10 ^ (f - d) * 10 ^ g)) by ring.
        replace (q * 10 ^ (f - d) * 10 ^ g) with (q * (10 ^ (f - d) * 10 ^ g)) by ring.
        apply Z.mul_le_mono_nonneg_r; [nia|exact M].
      * assert (d = g) by lia. subst g. rewrite Z.sub_diag. change (10 ^ 0) with 1. rewrite Z.div_1_r. ring.
    + split; [discriminate|lia].
  - assert (Pg : 10 ^ g = 10 ^ (g - d) * 10 ^ d) by (rewrite <- pow10_add by lia; f_equal; lia).
    destruct (_ <=? u64_max) eqn:M.
    + split.
      * intros a Ea. apply Some_inj in Ea. subst a. rewrite Pf, Pg.
        assert (K : q * 10 ^ (g - d) * (10 ^ (f - d) * 10 ^ d) = q * 10 ^ (f - d) * (10 ^ (g - d) * 10 ^ d)) by ring. rewrite K.
        split; [lia|reflexivity].
      * split; [discriminate|lia].
    + split; [discriminate|]. split; [intros _; lia|reflexivity].
Qed.

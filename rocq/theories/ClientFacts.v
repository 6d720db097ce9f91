(** * Facts about the client library. *)
From Verif Require Export SpecClient.
From Coq Require Import String.
Import ListNotations.
Local Open Scope Z_scope.
Notation length := List.length.

Lemma fits_in_iff n z : fits_in n z = true <-> 0 <= z < 256 ^ Z.of_nat n.
Proof. unfold fits_in. rewrite Bool.andb_true_iff, Z.leb_le, Z.ltb_lt. reflexivity. Qed.

(** ** Additional payloads *)
Lemma take2 n y : firstn 2 (be_enc 2 n ++ y) = be_enc 2 n /\ skipn 2 (be_enc 2 n ++ y) = y.
Proof. split; reflexivity. Qed.
Lemma extra_to_means x extra : extra_to x = extra <-> tail_means x extra.
Proof.
  unfold extra_to, tail_means. destruct (2 <=? length x)%nat eqn:L.
  - apply Nat.leb_le in L. split.
    + intros <-. right. exists (be_dec (firstn 2 x)), (skipn 2 x).
      assert (K : length (firstn 2 x) = 2%nat) by (rewrite firstn_length; lia).
      pose proof (be_dec_range (firstn 2 x)) as R. rewrite K, pow256_2 in R. split; [exact R|]. split; [|reflexivity].
      rewrite <- (firstn_skipn 2 x) at 1. f_equal. rewrite <- (be_enc_dec (firstn 2 x)) at 1. now rewrite K.
    + intros [[H _]|(n & y & Hn & -> & ->)]; [lia|].
      destruct (take2 n y) as [-> ->]. rewrite be_dec_enc by (rewrite pow256_2; exact Hn). reflexivity.
  - apply Nat.leb_gt in L. split.
    + intros <-. left. split; [exact L|reflexivity].
    + intros [[_ ->]|(n & y & _ & -> & _)]; [reflexivity|]. rewrite app_length, be_enc_length in L. lia.
Qed.

Lemma means_short x extra : tail_means x extra -> (length extra <= length x)%nat.
Proof.
  intros [[_ ->]|(n & y & _ & -> & ->)]; [cbn; lia|]. rewrite app_length, firstn_length. lia.
Qed.

(** ** Reading *)
Lemma sized_inv n s k l v r known :
  c_read known (LSized n s k) l = Some (v, r) <->
  exists x a w t, 0 <= Z.of_nat (length x) < 256 ^ Z.of_nat n /\ l = be_enc n (Z.of_nat (length x)) ++ x ++ t /\
    c_read known s x = Some (a, []) /\ c_read known k t = Some (w, r) /\ v = a ++ w.
Proof.
  cbn [c_read]. split.
  - intros H. apply rbind_Some in H as (z & k1 & H1 & H). apply be_u_inv in H1 as [-> Hz].
    apply rbind_Some in H as (x & k2 & H1 & H). apply take_inv in H1 as [-> Hx].
    apply rbind_Some in H as (a & k3 & H1 & H). destruct (c_read known s x) as [[a' [|]]|] eqn:E; try discriminate.
    apply Some_inj in H1. injection H1 as -> ->.
    apply rbind_Some in H as (w & k4 & H1 & H). apply rret_inv in H as [-> ->].
    assert (Hl : Z.of_nat (length x) = z) by (rewrite Hx; apply Z2Nat.id; lia).
    exists x, a, w, k3. rewrite Hl. repeat split; auto; lia.
  - intros (x & a & w & t & Hz & -> & E & K & ->).
    rewrite (rbind_step _ _ _ _ _ (be_u_app n (Z.of_nat (length x)) _ Hz)).
    rewrite (rbind_step _ _ _ _ _ (take_app (Z.to_nat (Z.of_nat (length x))) x t (eq_sym (Nat2Z.id _)))).
    unfold rbind at 1. rewrite E. rewrite (rbind_step _ _ _ _ _ K). reflexivity.
Qed.

Ltac spl := repeat match goal with |- _ /\ _ => split end.

Lemma read_ntt_inv known l v r :
  c_read known c_ntt l = Some (v, r) <->
  exists d a token to chain x, is_u8 d /\ is_u64 a /\ is32 token /\ is32 to /\ is_u16 chain /\ known chain = true /\ r = [] /\
    l = [x99; x4e; x54; x54]%byte ++ be_enc 1 d ++ be_enc 8 a ++ token ++ to ++ be_enc 2 chain ++ x /\
    v = [VN d; VN a; VB token; VB to; VN chain; VB (extra_to x)].
Proof.
  unfold c_ntt, c_amount. cbn [c_read]. split.
  - intros H.
    apply rbind_Some in H as (px & k1 & H1 & H). apply take_inv in H1 as [-> Hpx].
    apply rbind_Some in H as ([] & k2 & H1 & H). apply rguard_inv in H1 as [He ->]. apply bytes_eqb_eq in He. subst px.
    apply rbind_Some in H as (d & k3 & H1 & H). apply be_u_inv in H1 as [-> Hd].
    apply rbind_Some in H as (v1 & r1 & H & H2). apply rret_inv in H2 as [-> ->].
    apply rbind_Some in H as (a & k4 & H1 & H). apply be_u_inv in H1 as [-> Ha].
    apply rbind_Some in H as (v2 & r2 & H & H2). apply rret_inv in H2 as [-> ->].
    apply rbind_Some in H as (token & k5 & H1 & H). apply take_inv in H1 as [-> Ht].
    apply rbind_Some in H as (v3 & r3 & H & H2). apply rret_inv in H2 as [-> ->].
    apply rbind_Some in H as (to & k6 & H1 & H). apply take_inv in H1 as [-> Hto].
    apply rbind_Some in H as (v4 & r4 & H & H2). apply rret_inv in H2 as [-> ->].
    apply rbind_Some in H as (chain & k7 & H1 & H). apply be_u_inv in H1 as [-> Hc].
    apply rbind_Some in H as ([] & k8 & H1 & H). apply rguard_inv in H1 as [He ->].
    apply rbind_Some in H as (v5 & r5 & H & H2). apply rret_inv in H2 as [-> ->].
    apply Some_inj in H. injection H as <- <-.
    exists d, a, token, to, chain, k7. spl; try assumption; try reflexivity;
      [now apply u8_pow|now apply u64_pow|now apply u16_pow].
  - intros (d & a & token & to & chain & x & Hd & Ha & Ht & Hto & Hc & Hk & -> & -> & ->).
    rewrite (rbind_step _ _ _ _ _ (take_app 4 [x99; x4e; x54; x54]%byte _ eq_refl)).
    rewrite bytes_eqb_refl. unfold rguard at 1. rewrite (rbind_step (rret tt) _ _ tt _ eq_refl).
    rewrite (rbind_step _ _ _ _ _ (be_u_app 1 d _ (proj1 (u8_pow _) Hd))).
    unfold rbind at 1. rewrite (rbind_step _ _ _ _ _ (be_u_app 8 a _ (proj1 (u64_pow _) Ha))).
    unfold rbind at 1. rewrite (rbind_step _ _ _ _ _ (take_app 32 token _ Ht)).
    unfold rbind at 1. rewrite (rbind_step _ _ _ _ _ (take_app 32 to _ Hto)).
    unfold rbind at 1. rewrite (rbind_step _ _ _ _ _ (be_u_app 2 chain _ (proj1 (u16_pow _) Hc))).
    rewrite Hk. reflexivity.
Qed.

Lemma read_nmm_inv known l v r :
  c_read known c_nmm l = Some (v, r) <->
  exists id sender x w, is32 id /\ is32 sender /\ Z.of_nat (length x) < 65536 /\
    l = id ++ sender ++ be_enc 2 (Z.of_nat (length x)) ++ x ++ r /\ c_read known c_ntt x = Some (w, []) /\
    v = VB id :: VB sender :: w.
Proof.
  unfold c_nmm. remember c_ntt as s eqn:Es. cbn [c_read]. fold (c_read known). split.
  - intros H.
    apply rbind_Some in H as (id & k1 & H1 & H). apply take_inv in H1 as [-> Hi].
    apply rbind_Some in H as (v1 & r1 & H & H2). apply rret_inv in H2 as [-> ->].
    apply rbind_Some in H as (sender & k2 & H1 & H). apply take_inv in H1 as [-> Hs].
    apply rbind_Some in H as (v2 & r2 & H & H2). apply rret_inv in H2 as [-> ->].
    apply (proj1 (sized_inv 2 s LEnd k2 v2 r2 known)) in H as (x & a & w & t & Hz & -> & E & K & ->).
    apply rret_inv in K as [-> ->]. rewrite app_nil_r. rewrite pow256_2 in Hz.
    exists id, sender, x, a. spl; try assumption; try reflexivity. lia.
  - intros (id & sender & x & w & Hi & Hs & Hz & -> & E & ->).
    rewrite (rbind_step _ _ _ _ _ (take_app 32 id _ Hi)).
    unfold rbind at 1. rewrite (rbind_step _ _ _ _ _ (take_app 32 sender _ Hs)).
    unfold rbind at 1.
    assert (K : c_read known (LSized 2 s LEnd) (be_enc 2 (Z.of_nat (length x)) ++ x ++ r) = Some (w, r)).
    { apply sized_inv. exists x, w, [], r. rewrite pow256_2. spl; try reflexivity; try lia; [exact E|now rewrite app_nil_r]. }
    cbn [c_read] in K. rewrite K. reflexivity.
Qed.

Lemma client_reads known b v :
  c_deserialize known c_wh b = Some v <->
  exists m x extra, wf_tmsg (wf_ntt no_constraint) m /\ t_payload m = [] /\ known (n_to_chain (m_payload (t_nmm (t_data m)))) = true /\
    145 + Z.of_nat (length x) <= u16_max /\ tail_means x extra /\ v = c_values m extra /\ b = framed m x.
Proof.
  unfold c_deserialize. split.
  - destruct (c_read known c_wh b) as [[v' [|]]|] eqn:H; try discriminate. intros K. apply Some_inj in K. subst v'.
    unfold c_wh in H. remember c_nmm as s eqn:Es. cbn [c_read] in H. fold (c_read known) in H.
    apply rbind_Some in H as (px & k1 & H1 & H). apply take_inv in H1 as [-> Hpx].
    apply rbind_Some in H as ([] & k2 & H1 & H). apply rguard_inv in H1 as [He ->]. apply bytes_eqb_eq in He. subst px.
    apply rbind_Some in H as (so & k3 & H1 & H). apply take_inv in H1 as [-> Hso].
    apply rbind_Some in H as (v1 & r1 & H & H2). apply rret_inv in H2 as [-> <-].
    apply rbind_Some in H as (re & k4 & H1 & H). apply take_inv in H1 as [-> Hre].
    apply rbind_Some in H as (v2 & r2 & H & H2). apply rret_inv in H2 as [-> <-].
    apply (proj1 (sized_inv 2 s (LFixed 2 [] LEnd) k4 v2 [] known)) in H as (y & a & w & t & Hz & -> & E & K & ->).
    cbn [c_read] in K. apply rbind_Some in K as (z & k5 & H1 & K). apply be_u_inv in H1 as [-> Hz5].
    apply rbind_Some in K as (tp & k6 & H1 & K). apply take_inv in H1 as [-> Htp].
    apply rbind_Some in K as ([] & k7 & H1 & K). apply rguard_inv in H1 as [He ->]. apply bytes_eqb_eq in He. subst tp.
    unfold rbind in K. cbn [rret] in K. apply Some_inj in K. injection K as <- ->.
    assert (Hz0 : z = 0) by (cbn in Htp; lia). subst z s.
    apply read_nmm_inv in E as (id & sender & q & w' & Hi & Hs & Hq & -> & E & ->).
    apply read_ntt_inv in E as (d & am & token & to & chain & x & Hd & Ha & Ht & Hto & Hc & Hk & _ & -> & ->).
    pose proof (be_enc_length 1 d) as L1. pose proof (be_enc_length 8 am) as L8. pose proof (be_enc_length 2 chain) as L2. unfold is32 in *.
    exists (Tmsg (Tmd so re (Nmm id sender (Ntt (Trim am d) token chain to tt))) []), x, (extra_to x).
    unfold c_values, nmm_values, framed, wf_tmsg, wf_nmm, wf_ntt, wf_trimmed, no_constraint, is32. cbv zeta.
    cbn [t_data t_source t_recipient t_nmm m_id m_sender m_payload n_amount n_source_token n_to_chain n_to n_payload t_payload ta_amount ta_decimals].
    rewrite !app_length, Hi, Hs, be_enc_length in Hz. rewrite !app_length, L1, L8, Ht, Hto, L2 in *. cbn [List.length] in *. rewrite pow256_2 in Hz.
    spl; try assumption; try reflexivity; try exact I.
    + unfold u16_max. lia.
    + now apply extra_to_means.
    + replace (Z.of_nat (4 + _)) with (79 + Z.of_nat (length x)) by lia.
      rewrite Hi, Hs, be_enc_length.
      match goal with |- _ ++ _ ++ _ ++ be_enc 2 ?z ++ _ = _ => replace z with (145 + Z.of_nat (length x)) by lia end.
      rewrite !app_nil_r, <- !app_assoc. reflexivity.
  - intros (m & x & extra & W & Hp & Hk & Hx & He & -> & ->). apply extra_to_means in He as <-.
    destruct W as (Hso & Hre & Hi & Hs & (Ha & Hd) & Ht & Hc & Hto & _).
    destruct m as [[so re [id sender [[am d] token chain to []]]] tp].
    unfold c_values, nmm_values, framed. cbv zeta.
    cbn [t_data t_source t_recipient t_nmm m_id m_sender m_payload n_amount n_source_token n_to_chain n_to n_payload t_payload ta_amount ta_decimals] in *.
    set (q := [x99; x4e; x54; x54]%byte ++ be_enc 1 d ++ be_enc 8 am ++ token ++ to ++ be_enc 2 chain ++ x).
    assert (Lq : Z.of_nat (length q) = 79 + Z.of_nat (length x)).
    { unfold q, is32 in *. rewrite !app_length, !be_enc_length, Ht, Hto. cbn [List.length]. lia. }
    set (y := id ++ sender ++ be_enc 2 (Z.of_nat (length q)) ++ q).
    assert (Ly : Z.of_nat (length y) = 145 + Z.of_nat (length x)).
    { unfold y, is32 in *. rewrite !app_length, be_enc_length, Hi, Hs. lia. }
    unfold u16_max in Hx.
    assert (Eq : c_read known c_ntt q = Some ([VN d; VN am; VB token; VB to; VN chain; VB (extra_to x)], [])).
    { apply read_ntt_inv. exists d, am, token, to, chain, x. spl; try assumption; reflexivity. }
    assert (Ey : c_read known c_nmm y = Some (VB id :: VB sender :: [VN d; VN am; VB token; VB to; VN chain; VB (extra_to x)], [])).
    { apply read_nmm_inv. eexists id, sender, q, _. spl; try eassumption; try reflexivity; [lia|]. unfold y. now rewrite app_nil_r. }
    assert (Ew : c_read known (LSized 2 c_nmm (LFixed 2 [] LEnd)) (be_enc 2 (Z.of_nat (length y)) ++ y ++ be_enc 2 0)
      = Some ((VB id :: VB sender :: [VN d; VN am; VB token; VB to; VN chain; VB (extra_to x)]) ++ [VB []], [])).
    { apply sized_inv. exists y. eexists _, _, (be_enc 2 0). split; [rewrite pow256_2; lia|]. split; [reflexivity|]. split; [exact Ey|].
      split; [|reflexivity]. vm_compute. reflexivity. }
    replace (be_enc 2 (145 + Z.of_nat (length x)) ++ _) with (be_enc 2 (Z.of_nat (length y)) ++ y ++ be_enc 2 0).
    2:{ rewrite Ly, <- Lq. unfold y, q. rewrite <- !app_assoc. reflexivity. }
    unfold c_wh. remember (LSized 2 c_nmm (LFixed 2 [] LEnd)) as t eqn:Et. cbn [c_read].
    rewrite (rbind_step _ _ _ _ _ (take_app 4 [x99; x45; xff; x10]%byte _ eq_refl)).
    rewrite bytes_eqb_refl. unfold rguard at 1. rewrite (rbind_step (rret tt) _ _ tt _ eq_refl).
    rewrite (rbind_step _ _ _ _ _ (take_app 32 so _ Hso)). unfold rbind at 1.
    rewrite (rbind_step _ _ _ _ _ (take_app 32 re _ Hre)). unfold rbind at 1. rewrite Ew. reflexivity.
Qed.

(** ** What the programs write the client reads, and the other way round *)
Lemma framed_nil m : wf_tmsg (wf_ntt no_constraint) m -> t_payload m = [] -> write_std m = Some (framed m []).
Proof.
  intros W Hp. rewrite write_std_eq, Hp. cbn [List.length]. change (Z.of_nat 0 <=? u16_max) with true. cbv iota.
  unfold accepted_std, framed. cbv zeta. rewrite Hp. cbn [List.length app]. rewrite !app_nil_r. reflexivity.
Qed.

Lemma tail_nil : tail_means [] [].
Proof. left. split; [cbn; lia|reflexivity]. Qed.

Lemma client_writes_nmm known n extra : wf_nmm (wf_ntt no_constraint) n -> known (n_to_chain (m_payload n)) = true ->
  79 + 2 + Z.of_nat (length extra) <= u16_max ->
  c_serialize known c_nmm (nmm_values n extra) =
  Some (m_id n ++ m_sender n ++ be_enc 2 (79 + match extra with [] => 0 | _ => 2 + Z.of_nat (length extra) end) ++
        head (n_amount (m_payload n)) (n_source_token (m_payload n)) (n_to (m_payload n)) (n_to_chain (m_payload n)) ++
        match extra with [] => [] | _ => be_enc 2 (Z.of_nat (length extra)) ++ extra end).
Proof.
  intros (Hi & Hs & (Ha & Hd) & Ht & Hc & Hto & _) Hk He. unfold c_serialize, c_nmm, c_ntt, c_amount, nmm_values. cbv zeta. cbn [c_write].
  unfold is32 in *. rewrite Hi, Hs, Ht, Hto. cbn [Nat.eqb].
  rewrite (proj2 (fits_in_iff 1 _) (proj1 (u8_pow _) Hd)), (proj2 (fits_in_iff 8 _) (proj1 (u64_pow _) Ha)),
    (proj2 (fits_in_iff 2 _) (proj1 (u16_pow _) Hc)), Hk. cbn [andb].
  unfold u16_max in He.
  assert (X : extra_from extra = Some (match extra with [] => [] | _ => be_enc 2 (Z.of_nat (length extra)) ++ extra end)).
  { destruct extra as [|c e]; [reflexivity|]. unfold extra_from. replace (_ <? 65536) with true by (symmetry; apply Z.ltb_lt; lia). reflexivity. }
  rewrite X. set (t := match extra with [] => [] | _ => be_enc 2 (Z.of_nat (length extra)) ++ extra end).
  assert (Lt : Z.of_nat (length t) = match extra with [] => 0 | _ => 2 + Z.of_nat (length extra) end).
  { unfold t. destruct extra; [reflexivity|]. rewrite app_length, be_enc_length. lia. }
  assert (Lb : Z.of_nat (length ([x99; x4e; x54; x54]%byte ++ be_enc 1 (ta_decimals (n_amount (m_payload n))) ++ be_enc 8 (ta_amount (n_amount (m_payload n)))
      ++ n_source_token (m_payload n) ++ n_to (m_payload n) ++ be_enc 2 (n_to_chain (m_payload n)) ++ t))
    = 79 + match extra with [] => 0 | _ => 2 + Z.of_nat (length extra) end).
  { rewrite <- Lt, !app_length, !be_enc_length, Ht, Hto. cbn [List.length]. lia. }
  rewrite Lb. rewrite (proj2 (fits_in_iff 2 _)) by (rewrite pow256_2; destruct extra; lia).
  unfold head. rewrite ntt_prefix, !app_nil_r, <- !app_assoc. reflexivity.
Qed.

Lemma preimages known chain m extra : wf_tmsg (wf_ntt no_constraint) m -> known (n_to_chain (m_payload (t_nmm (t_data m)))) = true -> is_u16 chain ->
  79 + 2 + Z.of_nat (length extra) <= u16_max ->
  c_preimage known chain (nmm_values (t_nmm (t_data m)) extra) = nmm_preimage std_payload chain (t_nmm (t_data m)) <-> extra = [].
Proof.
  intros W Hk Hc He. unfold c_preimage, to_bytes. rewrite (proj2 (fits_in_iff 2 _) (proj1 (u16_pow _) Hc)), preimage_of.
  rewrite client_writes_nmm; [|apply W|exact Hk|exact He]. cbn [wapp].
  pose proof (inner_length m W) as Li. split.
  - intros H. apply Some_inj in H. apply app_inv_head in H. destruct extra as [|c e]; [reflexivity|].
    apply (f_equal (@List.length _)) in H. rewrite Li in H. rewrite !app_length, !be_enc_length in H.
    destruct W as (_ & _ & Hi & Hs & _ & Ht & _ & Hto & _). rewrite (head_length _ _ _ _ Ht Hto) in H. unfold is32 in *. cbn [List.length] in H. lia.
  - intros ->. f_equal. f_equal. unfold inner, head_of. cbv zeta. rewrite app_nil_r. reflexivity.
Qed.

Lemma from_programs known m : wf_tmsg (wf_ntt no_constraint) m -> t_payload m = [] -> known (n_to_chain (m_payload (t_nmm (t_data m)))) = true ->
  exists b, write_std m = Some b /\ c_deserialize known c_wh b = Some (c_values m []).
Proof.
  intros W Hp Hk. exists (framed m []). split; [now apply framed_nil|]. apply client_reads. exists m, [], [].
  repeat split; try assumption; try apply tail_nil; try apply W. cbn. unfold u16_max. lia.
Qed.

Lemma client_writes known m extra : wf_tmsg (wf_ntt no_constraint) m -> known (n_to_chain (m_payload (t_nmm (t_data m)))) = true ->
  145 + 2 + Z.of_nat (length extra) <= u16_max ->
  c_serialize known c_wh (c_values m extra) =
  Some (framed m match extra with [] => [] | _ => be_enc 2 (Z.of_nat (length extra)) ++ extra end).
Proof.
  intros W Hk He. unfold u16_max in He.
  pose proof (client_writes_nmm known (t_nmm (t_data m)) extra ltac:(apply W) Hk ltac:(unfold u16_max; lia)) as E.
  unfold c_serialize in E |- *.
  assert (G : forall v r b, c_write known c_nmm v = Some (b, []) -> c_write known c_nmm (v ++ r) = Some (b, r)).
  { clear. intros v r b. unfold c_nmm, c_ntt, c_amount.
    destruct v as [|[?|id] v]; cbn [c_write app]; try discriminate.
    destruct (_ =? 32)%nat; [|discriminate].
    destruct v as [|[?|s] v]; cbn [app]; try discriminate.
    destruct (_ =? 32)%nat; [|discriminate].
    destruct v as [|[d|?] v]; cbn [app]; try discriminate. destruct (fits_in 1 d); [|discriminate].
    destruct v as [|[a|?] v]; cbn [app]; try discriminate. destruct (fits_in 8 a); [|discriminate].
    destruct v as [|[?|t] v]; cbn [app]; try discriminate. destruct (_ =? 32)%nat; [|discriminate].
    destruct v as [|[?|o] v]; cbn [app]; try discriminate. destruct (_ =? 32)%nat; [|discriminate].
    destruct v as [|[c|?] v]; cbn [app]; try discriminate. destruct (fits_in 2 c && known c); [|discriminate].
    destruct v as [|[?|e] v]; cbn [app]; try discriminate. destruct (extra_from e); [|discriminate].
    destruct (fits_in 2 _); [|discriminate]. intros H. apply Some_inj in H. injection H as <- ->. reflexivity. }
  destruct (c_write known c_nmm (nmm_values (t_nmm (t_data m)) extra)) as [[b [|]]|] eqn:Eb; try discriminate.
  apply Some_inj in E. specialize (G _ [VB []] _ Eb).
  unfold c_wh, c_values. remember (LFixed 2 [] LEnd) as fx eqn:Ef. remember c_nmm as s eqn:Es.
  cbn [c_write app]. destruct W as (Hso & Hre & Hi & Hs & Ha & Ht & Hc & Hto & _). unfold is32 in *. rewrite Hso, Hre. cbn [Nat.eqb].
  replace (c_write known s _) with (Some (b, [VB []])).
  assert (Lb : Z.of_nat (length b) = 145 + Z.of_nat (length (match extra with [] => [] | _ => be_enc 2 (Z.of_nat (length extra)) ++ extra end))).
  { subst b. rewrite !app_length, Hi, Hs, be_enc_length, (head_length _ _ _ _ Ht Hto). lia. }
  rewrite (proj2 (fits_in_iff 2 _)).
  2:{ rewrite Lb, pow256_2. destruct extra; [cbn; lia|]. rewrite app_length, be_enc_length. lia. }
  subst fx. cbn [c_write bytes_eqb List.length app andb]. change (fits_in 2 (Z.of_nat 0)) with true. cbv iota.
  f_equal. unfold framed. cbv zeta. rewrite Lb, E.
  assert (Lx : 79 + match extra with [] => 0 | _ => 2 + Z.of_nat (length extra) end
    = 79 + Z.of_nat (length (match extra with [] => [] | _ => be_enc 2 (Z.of_nat (length extra)) ++ extra end))).
  { destruct extra; [reflexivity|]. rewrite app_length, be_enc_length. lia. }
  rewrite Lx. unfold head. rewrite ntt_prefix, app_nil_r. change (Z.of_nat 0) with 0.
  repeat (cbn [List.length app]; rewrite <- ?app_assoc). reflexivity.
Qed.

(** Whatever both read says the same to both; the hashed bytes differ exactly when the library sees an additional payload. *)
Lemma both_read known b v m rest : c_deserialize known c_wh b = Some v -> read_std b = Some (m, rest) ->
  exists extra, v = c_values m extra /\
    forall chain, is_u16 chain ->
      (c_preimage known chain (nmm_values (t_nmm (t_data m)) extra) = nmm_preimage std_payload chain (t_nmm (t_data m)) <-> extra = []).
Proof.
  intros Hv Hr. apply client_reads in Hv as (m' & x & extra & W' & Hp & Hk & Hx & He & -> & ->).
  apply read_std_inv in Hr as (W & Hl & l1 & l2 & L1 & L2 & E).
  assert (D : t_data m' = t_data m).
  { unfold framed, accepted_std in E. cbv zeta in E. rewrite <- !app_assoc in E. apply app_inv_head in E.
    pose proof W as (Hso & Hre & Hi & Hs & (Ha & Hd) & Ht & Hc & Hto & _). pose proof W' as (Hso' & Hre' & Hi' & Hs' & (Ha' & Hd') & Ht' & Hc' & Hto' & _).
    destruct m as [[so re [id sender [[am d] token chain to []]]] tp]. destruct m' as [[so' re' [id' sender' [[am' d'] token' chain' to' []]]] tp'].
    unfold is32 in *.
    cbn [t_data t_source t_recipient t_nmm m_id m_sender m_payload n_amount n_source_token n_to_chain n_to n_payload t_payload ta_amount ta_decimals] in *.
    apply app_inj_length in E as [-> E]; [|congruence]. apply app_inj_length in E as [-> E]; [|congruence].
    apply app_inj_length in E as [_ E]; [|now rewrite be_enc_length].
    apply app_inj_length in E as [-> E]; [|congruence]. apply app_inj_length in E as [-> E]; [|congruence].
    apply app_inj_length in E as [_ E]; [|now rewrite be_enc_length]. apply app_inv_head in E.
    apply app_inj_length in E as [Ed E]; [|now rewrite !be_enc_length]. apply app_inj_length in E as [Ea E]; [|now rewrite !be_enc_length].
    apply app_inj_length in E as [-> E]; [|congruence]. apply app_inj_length in E as [-> E]; [|congruence].
    apply app_inj_length in E as [Ec E]; [|now rewrite !be_enc_length].
    apply be_enc_inj in Ed; [|now apply u8_pow|now apply u8_pow]. apply be_enc_inj in Ea; [|now apply u64_pow|now apply u64_pow].
    apply be_enc_inj in Ec; [|now apply u16_pow|now apply u16_pow]. subst. reflexivity. }
  exists extra. split.
  - unfold c_values. now rewrite D.
  - intros chain Hc. rewrite <- D. apply preimages; [exact W'|exact Hk|exact Hc|].
    pose proof (means_short _ _ He) as Hs. unfold u16_max in *. lia.
Qed.

(** ** The transceiver's own messages *)
Lemma reads_info known i : wf_info i -> exists b, write_wt_info i = Some b /\
  c_deserialize known c_info b = Some [VB (wi_manager i); VN (mode_byte (wi_mode i)); VB (wi_token i); VN (wi_decimals i)] /\
  c_serialize known c_info [VB (wi_manager i); VN (mode_byte (wi_mode i)); VB (wi_token i); VN (wi_decimals i)] = Some b.
Proof.
  destruct i as [m md t d]. intros (Hm & Ht & Hd). cbn [wi_manager wi_mode wi_token wi_decimals] in *. unfold is32 in *.
  assert (Hb : 0 <= mode_byte md < 256 ^ Z.of_nat 1) by (rewrite pow256_1; destruct md; cbn; lia).
  exists ([x9c; x23; xbd; x3b]%byte ++ m ++ be_enc 1 (mode_byte md) ++ t ++ be_enc 1 d). split; [reflexivity|]. split.
  - unfold c_deserialize, c_info. cbn [c_read].
    rewrite (rbind_step _ _ _ _ _ (take_app 4 [x9c; x23; xbd; x3b]%byte _ eq_refl)).
    rewrite bytes_eqb_refl. unfold rguard at 1. rewrite (rbind_step (rret tt) _ _ tt _ eq_refl).
    rewrite (rbind_step _ _ _ _ _ (take_app 32 m _ Hm)). unfold rbind at 1.
    rewrite (rbind_step _ _ _ _ _ (be_u_app 1 _ _ Hb)). unfold rbind at 1.
    rewrite (rbind_step _ _ _ _ _ (take_app 32 t _ Ht)). unfold rbind at 1.
    rewrite <- (app_nil_r (be_enc 1 d)).
    rewrite (rbind_step _ _ _ _ _ (be_u_app 1 d [] (proj1 (u8_pow _) Hd))). reflexivity.
  - unfold c_serialize, c_info. cbn [c_write]. rewrite Hm, Ht, (proj2 (fits_in_iff 1 _) Hb), (proj2 (fits_in_iff 1 _) (proj1 (u8_pow _) Hd)). cbn [Nat.eqb].
    rewrite app_nil_r. reflexivity.
Qed.

Lemma reads_reg known r : wf_reg r -> known (wr_chain r) = true -> exists b, write_wt_reg r = Some b /\
  c_deserialize known c_reg b = Some [VN (wr_chain r); VB (wr_address r)] /\ c_serialize known c_reg [VN (wr_chain r); VB (wr_address r)] = Some b.
Proof.
  destruct r as [c a]. intros (Hc & Ha) Hk. cbn [wr_chain wr_address] in *. unfold is32 in *.
  exists ([x18; xfc; x67; xc2]%byte ++ be_enc 2 c ++ a). split; [reflexivity|]. split.
  - unfold c_deserialize, c_reg. cbn [c_read].
    rewrite (rbind_step _ _ _ _ _ (take_app 4 [x18; xfc; x67; xc2]%byte _ eq_refl)).
    rewrite bytes_eqb_refl. unfold rguard at 1. rewrite (rbind_step (rret tt) _ _ tt _ eq_refl).
    rewrite (rbind_step _ _ _ _ _ (be_u_app 2 c _ (proj1 (u16_pow _) Hc))). rewrite Hk. unfold rguard, rbind at 1. cbn [rret]. unfold rbind at 1.
    rewrite <- (app_nil_r a) at 1. rewrite (rbind_step _ _ _ _ _ (take_app 32 a [] Ha)). reflexivity.
  - unfold c_serialize, c_reg. cbn [c_write]. rewrite Ha, Hk, (proj2 (fits_in_iff 2 _) (proj1 (u16_pow _) Hc)). cbn [Nat.eqb andb]. rewrite app_nil_r. reflexivity.
Qed.

(** ** Session authorities *)
Lemma be_enc_snoc n a : 0 <= a -> be_enc (S n) a = be_enc n (a / 256) ++ [byte_of_Z (a mod 256)].
Proof.
  revert a. induction n as [|n IH]; intros a Ha.
  - cbn [be_enc app]. change (256 ^ Z.of_nat 0) with 1. rewrite Z.div_1_r. f_equal.
    unfold byte_of_Z. now rewrite Z.mod_mod by lia.
  - change (be_enc (S (S n)) a) with (byte_of_Z (a / 256 ^ Z.of_nat (S n)) :: be_enc (S n) (a mod 256 ^ Z.of_nat (S n))).
    pose proof (pow256_pos n) as P. pose proof (pow256_pos (S n)) as PS.
    rewrite IH by (apply Z.mod_pos_bound; lia). cbn [be_enc app]. rewrite pow256_S.
    assert (D : (a mod (256 * 256 ^ Z.of_nat n)) / 256 = a / 256 mod 256 ^ Z.of_nat n).
    { rewrite Z.rem_mul_r by lia. rewrite Z.mul_comm, Z.div_add by lia. rewrite Z.div_small by (apply Z.mod_pos_bound; lia). lia. }
    assert (M : (a mod (256 * 256 ^ Z.of_nat n)) mod 256 = a mod 256).
    { rewrite Z.rem_mul_r by lia. rewrite Z.mul_comm, Z.mod_add by lia. apply Z.mod_mod; lia. }
    rewrite D, M. rewrite Z.div_div by lia. reflexivity.
Qed.

Lemma be_enc_0 n : be_enc n 0 = repeat x00 n.
Proof. induction n as [|n IH]; [reflexivity|]. cbn [be_enc repeat]. rewrite Z.div_0_l, Z.mod_0_l by (pose proof (pow256_pos n); lia). now rewrite IH. Qed.

Lemma to_array_be n f a : (n <= f)%nat -> 0 <= a < 256 ^ Z.of_nat (S n) ->
  (length (to_array (S f) a) <= S n)%nat /\ repeat x00 (S n - length (to_array (S f) a)) ++ to_array (S f) a = be_enc (S n) a.
Proof.
  revert f a. induction n as [|n IH]; intros f a Hf Ha.
  - change (256 ^ Z.of_nat 1) with 256 in Ha. cbn [to_array]. replace (a <? 256) with true by (symmetry; apply Z.ltb_lt; lia).
    cbn [List.length Nat.sub repeat app]. split; [lia|]. cbn [be_enc]. change (256 ^ Z.of_nat 0) with 1. now rewrite Z.div_1_r.
  - destruct f as [|f]; [lia|]. cbn [to_array]. fold (to_array (S f)). destruct (a <? 256) eqn:E.
    + apply Z.ltb_lt in E. cbn [List.length]. split; [lia|]. rewrite be_enc_snoc by lia. rewrite Z.div_small, Z.mod_small by lia.
      rewrite be_enc_0. now replace (S (S n) - 1)%nat with (S n) by lia.
    + apply Z.ltb_ge in E. destruct (IH f (a / 256)) as [L R]; [lia| |].
      { rewrite pow256_S in Ha. split; [apply Z.div_pos; lia|]. apply Z.div_lt_upper_bound; lia. }
      cbn [to_array] in L, R. rewrite app_length. cbn [List.length]. split; [lia|].
      rewrite be_enc_snoc by lia. rewrite <- R, <- app_assoc. do 2 f_equal. lia.
Qed.

Lemma same_args a : wf_args a -> c_args_preimage a = Some (args_preimage a).
Proof.
  destruct a as [am ch re q]. intros (Ha & Hc & Hr). unfold c_args_preimage, args_preimage. cbn [a_amount a_chain a_recipient a_queue] in *.
  destruct (to_array_be 7 31 am) as [L R]; [lia|now apply u64_pow|]. unfold zpad. rewrite (proj2 (Nat.leb_le _ _) L), R.
  unfold to_bytes. rewrite (proj2 (fits_in_iff 2 _) (proj1 (u16_pow _) Hc)). reflexivity.
Qed.

(** ** Addresses *)
Lemma same_seeds a : wf_purpose (used_for a) -> c_seeds a = Some (seeds (used_for a)).
Proof.
  destruct a; cbn [used_for wf_purpose c_seeds seeds]; intros W; try reflexivity; unfold to_bytes;
    (rewrite (proj2 (fits_in_iff 2 _) (proj1 (u16_pow _) W)) || rewrite (proj2 (fits_in_iff 2 _) (proj1 (u16_pow _) (proj1 W)))); reflexivity.
Qed.

Lemma inbox_item known (K : bytes -> bytes) b v m rest chain : c_deserialize known c_wh b = Some v -> read_std b = Some (m, rest) -> is_u16 chain ->
  exists extra p q, v = c_values m extra /\ c_preimage known chain (nmm_values (t_nmm (t_data m)) extra) = Some p /\
    nmm_preimage std_payload chain (t_nmm (t_data m)) = Some q /\
    (extra = [] -> c_seeds (inboxItemAccount (K p)) = Some (seeds (SInboxItem (K q)))) /\
    (extra <> [] -> c_seeds (inboxItemAccount (K p)) = Some (seeds (SInboxItem (K q))) -> p <> q /\ K p = K q).
Proof.
  intros Hv Hr Hc. destruct (both_read _ _ _ _ _ Hv Hr) as (extra & -> & P). specialize (P chain Hc).
  apply client_reads in Hv as (m' & x & e & W & Hp & Hk & Hx & He & Ev & _).
  assert (X : t_nmm (t_data m') = t_nmm (t_data m) /\ e = extra).
  { unfold c_values, nmm_values in Ev. cbv zeta in Ev. cbn [app] in Ev. injection Ev. intros.
    destruct (t_nmm (t_data m)) as [i s [[a d] t c o []]], (t_nmm (t_data m')) as [i' s' [[a' d'] t' c' o' []]].
    cbn [m_id m_sender m_payload n_amount ta_amount ta_decimals n_source_token n_to n_to_chain] in *. subst. split; reflexivity. }
  destruct X as [D ->]. rewrite <- D in *.
  pose proof (preimage_of chain m') as Q. rewrite Q in *.
  pose proof (means_short _ _ He) as Hs. unfold u16_max in Hx.
  assert (S : c_preimage known chain (nmm_values (t_nmm (t_data m')) extra) <> None).
  { unfold c_preimage, to_bytes. rewrite (proj2 (fits_in_iff 2 _) (proj1 (u16_pow _) Hc)). rewrite client_writes_nmm; [discriminate|apply W|exact Hk|unfold u16_max; lia]. }
  destruct (c_preimage known chain (nmm_values (t_nmm (t_data m')) extra)) as [p|] eqn:E; [|contradiction].
  eexists extra, p, _. split; [reflexivity|]. split; [exact E|]. split; [reflexivity|]. split.
  - intros X. apply P in X. apply Some_inj in X. now rewrite X.
  - intros X Y. apply Some_inj in Y. unfold seeds in Y. injection Y as Y. split; [|exact Y]. intros Z. apply X. apply P. now rewrite Z.
Qed.

(** ** Program data *)
Lemma no_program_data known b : (41 < length b)%nat -> c_deserialize known c_program_data b = None.
Proof.
  intros L. unfold c_deserialize. destruct (c_read known c_program_data b) as [[v [|]]|] eqn:H; try reflexivity. exfalso.
  unfold c_program_data in H. cbn [c_read] in H.
  apply rbind_Some in H as (z & k1 & H1 & H). apply le_u_inv in H1 as [-> Hz]. rewrite app_length, le_enc_length in L.
  apply rbind_Some in H as (v1 & r1 & H & H2). apply rret_inv in H2 as [-> <-].
  apply rbind_Some in H as (o & k2 & H1 & H). apply be_u_inv in H1 as [-> Ho]. rewrite app_length, be_enc_length in L. rewrite pow256_1 in Ho.
  destruct o as [|o|o]; [|destruct o; try discriminate|lia].
  - unfold rbind in H. cbn [rret] in H. apply Some_inj in H. injection H as _ ->. cbn in L. lia.
  - apply rbind_Some in H as (a & k3 & H1 & H). apply rbind_Some in H1 as (x & k4 & H1 & H3). apply take_inv in H1 as [-> Hx].
    apply rbind_Some in H3 as (v3 & r3 & H3 & H4). apply rret_inv in H4 as [-> ->]. apply rret_inv in H3 as [-> ->].
    unfold rbind in H. cbn [rret] in H. apply Some_inj in H. injection H as _ ->. rewrite app_length, Hx in L. cbn in L. lia.
Qed.

Lemma program_data_exact known b v : c_deserialize known c_program_data b = Some v <->
  exists slot, is_u64 slot /\ (b = le_enc 8 slot ++ [x00] /\ v = [VN slot; VN 0] \/
    exists o, length o = 32%nat /\ b = le_enc 8 slot ++ [x01] ++ o /\ v = [VN slot; VN 1; VB o]).
Proof.
  unfold c_deserialize. split.
  - destruct (c_read known c_program_data b) as [[v0 [|]]|] eqn:H; try discriminate. intros Q. apply Some_inj in Q. subst v0.
    unfold c_program_data in H. cbn [c_read] in H.
    apply rbind_Some in H as (z & k1 & H1 & H). apply le_u_inv in H1 as [-> Hz].
    apply rbind_Some in H as (v1 & r1 & H & H2). apply rret_inv in H2 as [-> <-].
    apply rbind_Some in H as (o & k2 & H1 & H). apply be_u_inv in H1 as [-> Ho]. rewrite pow256_1 in Ho.
    exists z. split; [split; [apply Hz|]; unfold u64_max; change (256 ^ Z.of_nat 8) with (2 ^ 64) in Hz; lia|].
    destruct o as [|o|o]; [|destruct o; try discriminate|lia].
    + unfold rbind in H. cbn [rret] in H. apply Some_inj in H. injection H as <- ->. left. split; reflexivity.
    + right. apply rbind_Some in H as (a & k3 & H1 & H). apply rbind_Some in H1 as (x & k4 & H1 & H3). apply take_inv in H1 as [-> Hx].
      apply rbind_Some in H3 as (v3 & r3 & H3 & H4). apply rret_inv in H4 as [-> ->]. apply rret_inv in H3 as [-> ->].
      unfold rbind in H. cbn [rret] in H. apply Some_inj in H. injection H as <- ->. exists x. rewrite app_nil_r. auto.
  - intros (z & (U1 & U2) & X). assert (Hz : 0 <= z < 256 ^ Z.of_nat 8) by (change (256 ^ Z.of_nat 8) with (2 ^ 64); unfold u64_max in U2; lia).
    assert (E : c_read known c_program_data b = Some (v, [])); [|rewrite E; reflexivity]. unfold c_program_data. cbn [c_read]. apply rbind_Some.
    destruct X as [(-> & ->)|(o & Lo & -> & ->)].
    + exists z, [x00]. split; [apply le_u_inv; split; [reflexivity|exact Hz]|]. reflexivity.
    + exists z, ([x01] ++ o). split; [apply le_u_inv; split; [reflexivity|exact Hz]|]. apply rbind_Some. exists [VN 1; VB o], []. split; [|reflexivity].
      apply rbind_Some. exists 1, o. split; [reflexivity|]. cbn match. apply rbind_Some. exists [VB o], []. split; [|reflexivity].
      apply rbind_Some. exists o, []. split; [|reflexivity]. apply take_inv. rewrite app_nil_r. auto.
Qed.
Lemma program_data_written known b v : c_deserialize known c_program_data b = Some v -> c_serialize known c_program_data v = Some b.
Proof.
  intros E. apply program_data_exact in E as (z & (U1 & U2) & X). assert (F : fits_in 8 z = true) by (apply fits_in_iff; change (256 ^ Z.of_nat 8) with (2 ^ 64); unfold u64_max in U2; lia).
  unfold c_serialize, c_program_data. destruct X as [(-> & ->)|(o & Lo & -> & ->)]; cbn [c_write]; rewrite F; [reflexivity|]. rewrite Lo. cbn [Nat.eqb]. rewrite !app_nil_r. reflexivity.
Qed.

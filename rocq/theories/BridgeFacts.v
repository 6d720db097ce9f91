(** * Facts about the byte forms (C62, C63, C64). *)
From Verif Require Import BytesFacts WireFacts.
From Verif Require Export Bridge AdminFacts VtmFacts InFacts.
Local Open Scope Z_scope.

(** ** What the programs posted *)
Definition truthful (s : state) (p : prog) (pl : post_payload) : Prop :=
  match pl with
  | PPTransfer m => typed_tm m = true
  | PPInfo mgr md tok dec => exists c m, mgr = AProg PManager /\ config_at s pda_config c /\ md = cf_mode c /\ tok = cf_mint c /\
      st_mints s tok = Some m /\ dec = mt_decimals m
  | PPReg ch a => is_u16 ch /\ exists xp, st_accts s (pda_xpeer p ch) = Some (Acct p (DXPeer xp)) /\ a = xp_address xp
  | PPOther _ => False
  end.

Lemma truthful_kept H s c s' p pl : reachable H s -> step H s c = Ok s' -> is_ntt_prog p = true -> truthful s p pl -> truthful s' p pl.
Proof.
  intros Hr Hs Hp. destruct pl; cbn [truthful]; try tauto.
  - intros (cf & m0 & E1 & E2 & E3 & E4 & E5 & E6).
    destruct (config_step _ _ _ _ _ (reachable_inv _ _ Hr) Hs E2) as (cf' & E2' & Q).
    pose proof (step_ledger _ _ _ _ (reachable_inv _ _ Hr) Hs) as (_ & MM & _).
    destruct (MM _ _ E5) as (m' & F1 & _ & F2 & _).
    assert (S : cfg_same cf cf') by (destruct Q as [->|Q]; [repeat split|eapply cfg_change_same; eassumption]).
    destruct S as (S1 & _ & S2 & _). exists cf', m'. repeat (split; [first [assumption|congruence]|]). congruence.
  - intros (Hc & xp & E & ->). split; [exact Hc|]. exists xp. split; [eapply xpeer_kept; eassumption|reflexivity].
Qed.

Lemma u16b_ok z : u16b z = true -> is_u16 z.
Proof. unfold u16b. intros E. bools. ints. lia. Qed.

Lemma posted_truthful H s p pl : reachable H s -> is_ntt_prog p = true -> posted_by s p pl -> truthful s p pl.
Proof.
  intros Hr Hp. revert pl. revert s Hr. apply (reach_ind H (fun s => forall pl, posted_by s p pl -> truthful s p pl)).
  - intros s Hi pl Hin. exfalso. apply (ini_posted _ Hi _ Hin). destruct p; try discriminate; exact I.
  - intros s c s' Hr IH Hs pl Hin. pose proof (step_inv _ _ _ _ Hs) as (Hsg & Hty & _).
    assert (K : posted_by s p pl -> truthful s' p pl) by (intros Q; eapply truthful_kept; eauto).
    pose proof (step_rest _ _ _ _ Hs) as R. destruct c as [sg i]. cbn [signers ins] in *. unfold posted_by in *.
    inversion R; subst; match goal with Q : _ = st_posted s' |- _ => rewrite <- Q in Hin end; try (apply K; exact Hin);
      destruct Hin as [Hin|Hin]; try (apply K; exact Hin); inversion Hin; subst; clear Hin.
    + match goal with F : outbound_facts _ _ _ _ _ _ _ |- _ => pose proof (of_item _ _ _ _ _ _ _ F) as Hit end.
      destruct (inv_mgr _ _ _ (reachable_inv _ _ Hr) Hit) as (_ & A1 & A2 & A3 & _).
      unfold truthful, outbound_message, typed_tm. cbn [tm_msg nm_amount nm_to_chain]. unfold u64b, u8b, u16b. rewrite !andb_true_iff, !Z.leb_le. ints. lia.
    + eapply truthful_kept; [exact Hr|exact Hs|assumption|]. cbn [truthful]. exists c, mt.
      match goal with F : has _ _ _ _ |- _ => destruct (inv_mgr _ _ _ (reachable_inv _ _ Hr) F) end. auto 10.
    + eapply truthful_kept; [exact Hr|exact Hs|assumption|]. cbn [truthful]. cbn [typed] in Hty. bools.
      split; [now apply u16b_ok|]. eauto.
    + exfalso. match goal with Q : signed sg _ = true |- _ => apply (signed_can _ _ Hsg) in Q; destruct p; discriminate end.
Qed.

(** C62 *)
Lemma info_true H s p mgr md tok dec : reachable H s -> is_ntt_prog p = true -> posted_by s p (PPInfo mgr md tok dec) ->
  exists c m, mgr = AProg PManager /\ config_at s pda_config c /\ md = cf_mode c /\ tok = cf_mint c /\
    st_mints s tok = Some m /\ dec = mt_decimals m.
Proof. intros Hr Hp Hin. exact (posted_truthful _ _ _ _ Hr Hp Hin). Qed.
Lemma reg_true H s p ch a : reachable H s -> is_ntt_prog p = true -> posted_by s p (PPReg ch a) ->
  exists xp, st_accts s (pda_xpeer p ch) = Some (Acct p (DXPeer xp)) /\ a = xp_address xp.
Proof. intros Hr Hp Hin. apply (posted_truthful _ _ _ _ Hr Hp Hin). Qed.
Lemma other_never H s p n : reachable H s -> is_ntt_prog p = true -> ~ posted_by s p (PPOther n).
Proof. intros Hr Hp Hin. exact (posted_truthful _ _ _ _ Hr Hp Hin). Qed.

Lemma info_unique H s p q mgr md tok dec mgr' md' tok' dec' : reachable H s -> is_ntt_prog p = true -> is_ntt_prog q = true ->
  posted_by s p (PPInfo mgr md tok dec) -> posted_by s q (PPInfo mgr' md' tok' dec') -> mgr = mgr' /\ md = md' /\ tok = tok' /\ dec = dec'.
Proof.
  intros Hr Hp Hq I J. destruct (info_true _ _ _ _ _ _ _ Hr Hp I) as (c & m & -> & Hc & -> & -> & Hm & ->).
  destruct (info_true _ _ _ _ _ _ _ Hr Hq J) as (c' & m' & -> & Hc' & -> & -> & Hm' & ->).
  destruct (config_one _ _ _ _ _ _ Hr Hc Hc') as (_ & <-). assert (m = m') as <- by congruence. auto.
Qed.
Lemma reg_unique H s p ch a a' : reachable H s -> is_ntt_prog p = true -> posted_by s p (PPReg ch a) -> posted_by s p (PPReg ch a') -> a = a'.
Proof.
  intros Hr Hp I J. destruct (reg_true _ _ _ _ _ Hr Hp I) as (x & E & ->). destruct (reg_true _ _ _ _ _ Hr Hp J) as (y & F & ->).
  rewrite E in F. now inversion F.
Qed.

(** ** Bytes *)
Lemma wire_wf key tm : keys32 key -> typed_tm tm = true -> wf_tmsg (wf_ntt no_constraint) (wire_tm key tm).
Proof.
  intros Hk T. apply typed_tm_ranges in T as (A1 & A2 & A3). unfold wf_tmsg, wf_nmm, wf_ntt, wf_trimmed, is32, wire_tm, wire_msg. cbn.
  repeat split; auto; try apply Hk; try apply A1; try apply A2; try apply A3.
Qed.

Ltac walk := repeat match goal with
  | HP : length ?p = ?n |- context [sub ?o ?l (?p ++ ?r)] =>
      let t := eval compute in (Nat.leb n o) in match t with true => let k := eval compute in (o - n)%nat in replace (sub o l (p ++ r)) with (sub k l r) by (symmetry; exact (sub_skip p n l r HP k)) end
  | HP : length ?p = ?n |- context [num ?o ?l (?p ++ ?r)] =>
      let t := eval compute in (Nat.leb n o) in match t with true => let k := eval compute in (o - n)%nat in replace (num o l (p ++ r)) with (num k l r) by (symmetry; exact (num_skip p n l r HP k)) end
  end.

Lemma transfer_layout_ok key tm : keys32 key -> typed_tm tm = true -> exists b, write_std (wire_tm key tm) = Some b /\
  transfer_layout b (key (tm_source tm)) (key (tm_recipient tm)) (key (nm_id (tm_msg tm))) (key (nm_sender (tm_msg tm)))
    (key (nm_token (tm_msg tm))) (key (nm_to (tm_msg tm))) (ta_decimals (nm_amount (tm_msg tm))) (ta_amount (nm_amount (tm_msg tm)))
    (nm_to_chain (tm_msg tm)).
Proof.
  intros Hk T. rewrite write_std_eq. cbn [wire_tm t_payload length]. change (Z.of_nat 0 <=? u16_max) with true. cbv iota.
  eexists. split; [reflexivity|].
  apply typed_tm_ranges in T as (A1 & A2 & A3).
  unfold accepted_std. cbv zeta. unfold wire_tm, wire_msg. cbn [t_data t_nmm t_source t_recipient m_id m_sender m_payload n_amount n_source_token n_to n_to_chain t_payload].
  pose proof (Hk (tm_source tm)) as K1. pose proof (Hk (tm_recipient tm)) as K2. pose proof (Hk (nm_id (tm_msg tm))) as K3.
  pose proof (Hk (nm_sender (tm_msg tm))) as K4. pose proof (Hk (nm_token (tm_msg tm))) as K5. pose proof (Hk (nm_to (tm_msg tm))) as K6.
  pose proof (be_enc_length 2 145) as L1. pose proof (be_enc_length 2 79) as L2. pose proof (be_enc_length 1 (ta_decimals (nm_amount (tm_msg tm)))) as L3.
  pose proof (be_enc_length 8 (ta_amount (nm_amount (tm_msg tm)))) as L4. pose proof (be_enc_length 2 (nm_to_chain (tm_msg tm))) as L5.
  change (Z.of_nat (@length byte [])) with 0. pose proof (be_enc_length 2 0) as L6.
  apply u64_pow in A1. apply u8_pow in A2. apply u16_pow in A3.
  assert (P1 : length [x99; x45; xff; x10]%byte = 4%nat) by reflexivity. assert (P2 : length [x99; x4e; x54; x54]%byte = 4%nat) by reflexivity.
  unfold transfer_layout. repeat split; walk; try (apply sub_0; assumption); try (apply num_enc; first [assumption|cbn; lia]).
  rewrite !app_length, K1, K2, K3, K4, K5, K6, L1, L2, L3, L4, L5, L6. reflexivity.
Qed.

Lemma std_decode key tm b : keys32 key -> typed_tm tm = true -> write_std (wire_tm key tm) = Some b -> read_std b = Some (wire_tm key tm, []).
Proof.
  intros Hk T E. rewrite <- (app_nil_r b). eapply (tmsg_round_trips WH_PREFIX std_payload (wf_ntt no_constraint)); [reflexivity| |apply wire_wf; assumption|exact E].
  apply ntt_lawful. apply empty_lawful.
Qed.

(** The three kinds start differently. *)
Ltac prefixed E := apply rbind_Some in E as (?q & ?l & ?T & E); apply rbind_Some in E as (?u & ?l' & ?G & E);
  match goal with G : rguard _ _ = _ |- _ => apply rguard_inv in G as (G & _); apply bytes_eqb_eq in G; subst end;
  match goal with T : take 4 _ = _ |- _ => apply take_inv in T as (-> & T); now apply sub_0 end.
Lemma std_prefix b x : read_std b = Some x -> sub 0 4 b = WH_PREFIX.
Proof. destruct x as [x r]. intros E. unfold read_std, read_tmsg in E. prefixed E. Qed.
Lemma info_prefix b x : read_wt_info b = Some x -> sub 0 4 b = WH_INFO_PREFIX.
Proof. destruct x as [x r]. intros E. unfold read_wt_info in E. prefixed E. Qed.
Lemma reg_prefix b x : read_wt_reg b = Some x -> sub 0 4 b = WH_PEER_INFO_PREFIX.
Proof. destruct x as [x r]. intros E. unfold read_wt_reg in E. prefixed E. Qed.

Ltac kinds := repeat match goal with
  | |- read_std ?b = None => let X := fresh in destruct (read_std b) eqn:X; [exfalso; apply std_prefix in X|reflexivity]
  | |- read_wt_info ?b = None => let X := fresh in destruct (read_wt_info b) eqn:X; [exfalso; apply info_prefix in X|reflexivity]
  | |- read_wt_reg ?b = None => let X := fresh in destruct (read_wt_reg b) eqn:X; [exfalso; apply reg_prefix in X|reflexivity]
  end; try (match goal with P : sub 0 4 _ = _, Q : sub 0 4 _ = _ |- False => rewrite P in Q; discriminate Q end).

(** C63 *)
Lemma posted_transfer H s p m key : reachable H s -> is_ntt_prog p = true -> keys32 key -> posted_by s p (PPTransfer m) ->
  exists b, wire_payload key (PPTransfer m) = Some b /\
    transfer_layout b (key (tm_source m)) (key (tm_recipient m)) (key (nm_id (tm_msg m))) (key (nm_sender (tm_msg m)))
      (key (nm_token (tm_msg m))) (key (nm_to (tm_msg m))) (ta_decimals (nm_amount (tm_msg m))) (ta_amount (nm_amount (tm_msg m)))
      (nm_to_chain (tm_msg m)) /\
    read_std b = Some (wire_tm key m, []) /\ read_wt_info b = None /\ read_wt_reg b = None.
Proof.
  intros Hr Hp Hk Hin. pose proof (posted_truthful _ _ _ _ Hr Hp Hin) as T. cbn [truthful] in T.
  destruct (transfer_layout_ok key m Hk T) as (b & E & L). exists b. split; [exact E|]. split; [exact L|].
  split; [now apply std_decode|]. destruct L as (_ & L & _). split; kinds.
Qed.
Lemma posted_info H s p mgr md tok dec key : reachable H s -> is_ntt_prog p = true -> keys32 key -> posted_by s p (PPInfo mgr md tok dec) ->
  exists b, wire_payload key (PPInfo mgr md tok dec) = Some b /\ info_layout b (WtInfo (key mgr) md (key tok) dec) /\
    read_wt_info b = Some (WtInfo (key mgr) md (key tok) dec, []) /\ read_std b = None /\ read_wt_reg b = None.
Proof.
  intros Hr Hp Hk Hin. destruct (info_true _ _ _ _ _ _ _ Hr Hp Hin) as (c & m & -> & Hc & -> & -> & Hm & ->).
  assert (W : wf_info (WtInfo (key (AProg PManager)) (cf_mode c) (key (cf_mint c)) (mt_decimals m))).
  { split; [apply Hk|]. split; [apply Hk|]. apply (proj2 (inv_ledger _ (reachable_inv _ _ Hr)) _ _ Hm). }
  cbn [wire_payload]. destruct (write_wt_info _) as [b|] eqn:E; [|discriminate E].
  pose proof (info_layout_ok _ _ W E) as L. exists b. split; [reflexivity|]. split; [exact L|].
  split; [rewrite <- (app_nil_r b); exact (info_round_trips _ _ _ W E)|]. destruct L as (_ & L & _). split; kinds.
Qed.
Lemma posted_reg H s p ch a key : reachable H s -> is_ntt_prog p = true -> keys32 key -> posted_by s p (PPReg ch a) ->
  exists b, wire_payload key (PPReg ch a) = Some b /\ reg_layout b (WtReg ch (key a)) /\
    read_wt_reg b = Some (WtReg ch (key a), []) /\ read_std b = None /\ read_wt_info b = None.
Proof.
  intros Hr Hp Hk Hin. pose proof (posted_truthful _ _ _ _ Hr Hp Hin) as (Hc & _).
  assert (W : wf_reg (WtReg ch (key a))) by (split; [exact Hc|apply Hk]).
  cbn [wire_payload]. destruct (write_wt_reg _) as [b|] eqn:E; [|discriminate E].
  pose proof (reg_layout_ok _ _ W E) as L. exists b. split; [reflexivity|]. split; [exact L|].
  split; [rewrite <- (app_nil_r b); exact (reg_round_trips _ _ _ W E)|]. destruct L as (_ & L & _). split; kinds.
Qed.

(** ** Digests *)
Lemma digest_inj b b' : length b = length b' -> digest b = digest b' -> b = b'.
Proof.
  intros L E. unfold digest in E. injection E as E. assert (be_dec b = be_dec b') by (pose proof (be_dec_range b); pose proof (be_dec_range b'); lia).
  rewrite <- (be_enc_dec b), <- (be_enc_dec b'). congruence.
Qed.


Lemma preimage_some key ch nm : exists b, nmm_preimage std_payload ch (wire_msg key nm) = Some b.
Proof.
  unfold nmm_preimage, write_nmm, std_payload. cbn [ntt_payload p_wsize p_type p_write write_payload m_payload wire_msg]. rewrite write_ntt_empty_eq.
  change (w_u16_checked (ntt_wsize empty_payload _)) with (Some (be_enc 2 79)). cbn [wapp]. eauto.
Qed.

Lemma wire_msg_wf key m : keys32 key -> typed_tm m = true -> wf_nmm (wf_ntt no_constraint) (wire_msg key (tm_msg m)).
Proof. intros Hk T. exact (proj2 (proj2 (wire_wf key m Hk T))). Qed.

Lemma same_digest K key ch m ch' m' : hash32 K -> keys32 key -> is_u16 ch -> is_u16 ch' -> typed_tm m = true -> typed_tm m' = true ->
  h_msg (byte_hashes K key) ch (tm_msg m) = h_msg (byte_hashes K key) ch' (tm_msg m') -> same_or_collision K key ch (tm_msg m) ch' (tm_msg m').
Proof.
  intros Hh Hk Hc Hc' T T' E. cbn [byte_hashes h_msg] in E. unfold same_or_collision.
  destruct (preimage_some key ch (tm_msg m)) as (b & Eb). destruct (preimage_some key ch' (tm_msg m')) as (b' & Eb'). rewrite Eb, Eb' in E.
  apply digest_inj in E; [|now rewrite !Hh]. destruct (bytes_eqb b b') eqn:B.
  - apply bytes_eqb_eq in B. subst b'. left. eapply preimage_inj; [apply ntt_lawful, empty_lawful|exact Hc|exact Hc'| | |exact Eb|exact Eb']; now apply wire_msg_wf.
  - right. exists b, b'. repeat (split; [assumption|]). split; [|exact E]. intros C. rewrite (proj2 (bytes_eqb_eq _ _) C) in B. discriminate.
Qed.

Lemma session_inj o x o' y : pda_session o x = pda_session o' y -> o = o' /\ x = y.
Proof. intros E. inversion E. auto. Qed.
Lemma same_session K key o ar o' ar' : hash32 K -> keys32 key -> is_u64 (ar_amount ar) -> is_u16 (ar_chain ar) -> is_u64 (ar_amount ar') -> is_u16 (ar_chain ar') ->
  pda_session o (h_args (byte_hashes K key) ar) = pda_session o' (h_args (byte_hashes K key) ar') ->
  o = o' /\ (wire_args key ar = wire_args key ar' \/
             args_preimage (wire_args key ar) <> args_preimage (wire_args key ar') /\ K (args_preimage (wire_args key ar)) = K (args_preimage (wire_args key ar'))).
Proof.
  intros Hh Hk A1 A2 B1 B2 E. cbn [byte_hashes h_args] in E. apply session_inj in E as (Eo & E). split; [exact Eo|].
  apply digest_inj in E; [|now rewrite !Hh]. destruct (bytes_eqb (args_preimage (wire_args key ar)) (args_preimage (wire_args key ar'))) eqn:B.
  - left. apply args_preimage_inj; [| |now apply bytes_eqb_eq]; repeat split; try apply Hk; cbn; try apply A1; try apply A2; try apply B1; try apply B2.
  - right. split; [|exact E]. intros C. rewrite (proj2 (bytes_eqb_eq _ _) C) in B. discriminate.
Qed.

Lemma delivery_typed H s0 tr s e p ch nm : reachable H s0 -> run H s0 tr s -> In e tr -> delivery e p ch nm ->
  is_u16 ch /\ exists m, typed_tm m = true /\ tm_msg m = nm.
Proof.
  intros Hr R Hin (x & tm & c & rt & pe & _ & D & <-). destruct (In_split_run _ _ _ _ _ R Hin) as (tr2 & tr1 & _ & R1 & _).
  destruct (vtm_typed _ _ _ _ _ (reachable_inv _ _ (run_reachable _ _ _ _ Hr R1)) (dl_message _ _ _ _ _ _ _ _ D)). eauto.
Qed.

Lemma shared_item K key s0 tr s e e' p p' ch nm ch' nm' : hash32 K -> keys32 key -> reachable (byte_hashes K key) s0 -> run (byte_hashes K key) s0 tr s ->
  In e tr -> In e' tr -> delivery e p ch nm -> delivery e' p' ch' nm' -> item_of (byte_hashes K key) ch nm = item_of (byte_hashes K key) ch' nm' ->
  same_or_collision K key ch nm ch' nm'.
Proof.
  intros Hh Hk Hr R I I' D D' E. destruct (delivery_typed _ _ _ _ _ _ _ _ Hr R I D) as (U & m & T & <-).
  destruct (delivery_typed _ _ _ _ _ _ _ _ Hr R I' D') as (U' & m' & T' & <-). apply same_digest; try assumption. apply inbox_inj. exact E.
Qed.

Lemma no_collision_bytes K key s0 tr s : hash32 K -> keys32 key -> reachable (byte_hashes K key) s0 -> run (byte_hashes K key) s0 tr s ->
  separate_keys key tr -> separate_hashes K key tr -> no_collision (byte_hashes K key) tr.
Proof.
  intros Hh Hk Hr R SK SH e e' p p' ch nm ch' nm' I I' D D' E.
  assert (Ei : item_of (byte_hashes K key) ch nm = item_of (byte_hashes K key) ch' nm') by (unfold item_of; congruence).
  destruct (shared_item K key s0 tr s e e' p p' ch nm ch' nm' Hh Hk Hr R I I' D D' Ei) as [(-> & W)|(b & b' & Eb & Eb' & N & C)].
  - split; [reflexivity|]. exact (SK e e' p p' _ _ _ _ I I' D D' W).
  - exfalso. apply N. exact (SH e e' p p' _ _ _ _ _ _ I I' D D' Eb Eb' C).
Qed.

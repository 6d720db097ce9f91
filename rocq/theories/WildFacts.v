(** * What remains true when the ledger changes in any way (C108).

    The invariant of [Inv.v] without its ledger, preserved by instructions and by [wild] changes; then the lemmas of [AdminFacts],
    [OutFacts], [LogFacts] and [InFacts] that are about the programs' own accounts, from it. *)
From Verif Require Export LiveFacts Wild.
Local Open Scope Z_scope.

Record wconfig_ok (s : state) (c : config addr) : Prop := {
  wco_next : 0 <= cf_next c <= 128;
  wco_threshold : 0 < cf_threshold c;
  wco_enabled : is_u128 (cf_enabled c) /\ (forall i, Z.testbit (cf_enabled c) i = true -> 0 <= i < cf_next c) }.

Record winv (s : state) : Prop := {
  winv_now : is_i64 (st_now s);
  winv_dec : forall a m, st_mints s a = Some m -> is_u8 (mt_decimals m);
  winv_shape : forall a ac, st_accts s a = Some ac -> shape a ac;
  winv_config : forall c, has s pda_config PManager (DConfig c) -> wconfig_ok s c;
  winv_reg : forall p r, has s (pda_reg (AProg p)) PManager (DReg r) ->
              exists c, has s pda_config PManager (DConfig c) /\ 0 <= rt_id r < cf_next c;
  winv_reg_inj : forall p q r r', has s (pda_reg (AProg p)) PManager (DReg r) -> has s (pda_reg (AProg q)) PManager (DReg r') ->
              rt_id r = rt_id r' -> p = q }.


(** Decimals stay one byte. *)
Definition dec_ok (s : state) : Prop := forall a m, st_mints s a = Some m -> is_u8 (mt_decimals m).
Lemma dec_put s s' a m0 m1 : dec_ok s -> st_mints s a = Some m0 -> st_mints s' = upd (st_mints s) a (Some m1) -> mt_decimals m1 = mt_decimals m0 -> dec_ok s'.
Proof.
  intros D E M' Q b m. rewrite M', upd_eq. destruct (addr_eq_dec b a); [|apply D]. intros M. apply Some_inj in M. subst m. rewrite Q. exact (D _ _ E).
Qed.
Lemma dec_op s o s' : dec_ok s -> run_op s o = Ok s' -> (forall p a d au, o = OInitMint p a d au -> is_u8 d) -> dec_ok s'.
Proof.
  intros D E Q. destruct o; cbn [run_op] in E.
  - unfold tok_transfer in E. binds E. gets. bools. repeat match type of E with (if ?b then _ else _) = _ => destruct b end; binds E; try apply Ok_inj in E; subst s'; try exact D;
      try (eapply dec_put; [exact D|eassumption|reflexivity|reflexivity]).
  - apply tok_mint_to_ok in E. decompose [ex and] E. match goal with M : st_mints s' = upd _ ?b (Some (with_supply ?m _)), E1 : st_mints s ?b = Some ?m |- _ => exact (dec_put _ _ _ _ _ D E1 M eq_refl) end.
  - apply tok_burn_ok in E. decompose [ex and] E. match goal with M : st_mints s' = upd _ ?b (Some (with_supply ?m _)), E1 : st_mints s ?b = Some ?m |- _ => exact (dec_put _ _ _ _ _ D E1 M eq_refl) end.
  - unfold tok_init in E. binds E. try apply Ok_inj in E. subst s'. exact D.
  - binds E. bools. subst s'. exact D.
  - binds E. bools. subst s'. exact D.
  - binds E. gets. bools. subst s'. eapply dec_put; [exact D|eassumption|reflexivity|reflexivity].
  - binds E. bools. subst s'. exact D.
  - binds E. bools. subst s'. exact D.
  - binds E. bools. subst s'. intros b m. cbn. rewrite upd_eq. destruct (addr_eq_dec b a); [|apply D]. intros M. apply Some_inj in M. subst m. exact (Q _ _ _ _ eq_refl).
  - binds E. gets. bools. subst s'. eapply dec_put; [exact D|eassumption|reflexivity|reflexivity].
  - binds E. gets. bools. subst s'. eapply dec_put; [exact D|eassumption|reflexivity|reflexivity].
Qed.
Lemma dec_ops os : forall s s', dec_ok s -> run_ops s os = Ok s' -> (forall p a d au, In (OInitMint p a d au) os -> is_u8 d) -> dec_ok s'.
Proof.
  induction os as [|o os IH]; cbn [run_ops]; intros s s' D E Q; [apply Ok_inj in E; now subst|]. apply bind_ok in E. destruct E as (s1 & E1 & E2).
  eapply IH; [|exact E2|intros p a d au Hin; eapply Q; right; exact Hin]. eapply dec_op; [exact D|exact E1|]. intros p a d au ->. eapply Q. left. reflexivity.
Qed.
Lemma dec_step H s c s' : dec_ok s -> step H s c = Ok s' -> dec_ok s'.
Proof.
  intros D Hs. pose proof (step_inv _ _ _ _ Hs) as (_ & Hty & _). destruct (step_ops _ _ _ _ Hs) as (os & s1 & Ho & (_ & Hsame) & Hw).
  assert (D1 : dec_ok s1); [|intros a m E; rewrite Hsame in E; exact (D1 _ _ E)].
  eapply dec_ops; [exact D|exact Ho|]. intros p a d au Hin. destruct Hw; cbn [In] in Hin; repeat match goal with Q : _ \/ _ |- _ => destruct Q end; try discriminate; try contradiction.
  subst o. destruct i; try discriminate. match goal with Q : env_op _ = Some _ |- _ => cbn in Q; apply Some_inj in Q; inversion Q; subst end. cbn [typed] in Hty. bools. widths. assumption.
Qed.

(** ** The invariant without a ledger *)
Lemma winv_mgr s a d : winv s -> has s a PManager d -> mgr_shape a d.
Proof. intros Hi E. exact (winv_shape _ Hi _ _ E). Qed.

Lemma config_addr s a c : winv s -> has s a PManager (DConfig c) -> a = pda_config.
Proof. intros Hi E. exact (winv_mgr _ _ _ Hi E). Qed.

Lemma orl_addr s a r : winv s -> has s a PManager (DOutboxRL r) -> a = pda_outbox_rl /\ wf_rl r.
Proof. intros Hi E. exact (winv_mgr _ _ _ Hi E). Qed.

Lemma irl_wf s a r : winv s -> has s a PManager (DInboxRL r) -> wf_rl r.
Proof. intros Hi E. apply winv_mgr in E; [|assumption]. destruct E as (?&?&?&?). assumption. Qed.

Lemma item_addr s a i : winv s -> has s a PManager (DInboxItem i) -> (exists d, a = pda_inbox d) /\ wf_item i.
Proof. intros Hi E. exact (winv_mgr _ _ _ Hi E). Qed.

Lemma reg_addr s a r : winv s -> has s a PManager (DReg r) -> exists p, a = pda_reg (AProg p) /\ rt_address r = AProg p.
Proof. intros Hi E. exact (winv_mgr _ _ _ Hi E). Qed.

Lemma reg_id s a r : winv s -> has s a PManager (DReg r) -> 0 <= rt_id r < 128.
Proof.
  intros Hi E. destruct (reg_addr _ _ _ Hi E) as (p & -> & _). destruct (winv_reg _ Hi _ _ E) as (c & Hc & Hr).
  pose proof (wco_next _ _ (winv_config _ Hi _ Hc)). lia.
Qed.

Lemma peer_dec s a p : winv s -> has s a PManager (DPeer p) -> is_u8 (pe_decimals p).
Proof. intros Hi E. apply winv_mgr in E; [|assumption]. destruct E as (?&?&?&?). assumption. Qed.

Lemma vtm_typed s a p ch tm : winv s -> has s a p (DVtm ch tm) -> is_u16 ch /\ typed_tm tm = true.
Proof.
  intros Hi E. apply (winv_shape _ Hi) in E. unfold shape in E. cbn in E.
  destruct p; try (destruct E as [(_&_&E)|(E&_)]; [exact E|discriminate]); destruct E as (?&_&?); auto.
Qed.

Lemma mint_dec s a m : winv s -> st_mints s a = Some m -> is_u8 (mt_decimals m).
Proof. intros Hi. apply (winv_dec _ Hi). Qed.

Lemma config_ok_at s a c : winv s -> has s a PManager (DConfig c) -> a = pda_config /\ wconfig_ok s c.
Proof. intros Hi E. pose proof (config_addr _ _ _ Hi E). subst. split; [reflexivity|]. now apply winv_config. Qed.

Lemma transfer_ranges s sg x a md c mt f pe amount t orl irl orl' irl' ts : winv s -> is_u64 (ar_amount a) ->
  transfer_facts s sg x a md c mt f pe amount t orl irl orl' irl' ts ->
  is_u64 amount /\ is_u64 (ta_amount t) /\ is_u8 (ta_decimals t) /\ is_i64 ts /\ wf_rl orl' /\ wf_rl irl'.
Proof.
  intros Hi Ha F. destruct F.
  destruct (dust_range _ _ _ _ _ Ha (mint_dec _ _ _ Hi tf_mint) (peer_dec _ _ _ Hi tf_peer) tf_dust) as (H1 & H2 & H3 & _).
  pose proof (orl_addr _ _ _ Hi tf_orl) as [_ Wo]. pose proof (irl_wf _ _ _ Hi tf_irl) as Wi. pose proof (winv_now _ Hi) as Hn.
  repeat (split; [assumption|]). destruct tf_limits as [(Hc & Hr)|(Hc & Hq & ->)].
  - pose proof (consume_time _ _ _ _ _ Hn Hc) as Ht. cbn in Ht. split; [assumption|].
    exact (conj (RateLimitFacts.consume_wf _ _ _ _ _ Wo Hn H1 Hc) (RateLimitFacts.refill_wf _ _ _ _ Wi Ht H1 Hr)).
  - pose proof (consume_time _ _ _ _ _ Hn Hc) as Ht. cbn in Ht. split; [assumption|].
    exact (conj (RateLimitFacts.consume_wf _ _ _ _ _ Wo Hn H1 Hc) Wi).
Qed.

Lemma redeem_ranges H s x c rt p chain tm pe mt old new irl orl amount n : winv s ->
  redeem_facts H s x c rt p chain tm pe mt old new irl orl amount n ->
  is_u64 amount /\ wf_item new /\ is_u16 chain /\ wf_rl irl /\ wf_rl orl /\ ra_outbox_rl x = pda_outbox_rl /\ ra_config x = pda_config.
Proof.
  intros Hi F. destruct F. destruct (vtm_typed _ _ _ _ _ Hi rf_msg) as [Hch Hty].
  destruct (typed_tm_ranges _ Hty) as (Ha & Hd & _).
  pose proof (untrim_range _ _ _ Ha Hd (mint_dec _ _ _ Hi rf_mint) rf_amount) as Hx.
  split; [exact Hx|]. split; [|split; [exact Hch|]].
  - cbv zeta in rf_new. destruct rf_new as (votes & Hv & ->).
    pose proof (reg_id _ _ _ Hi rf_reg) as Hid.
    assert (Hold : ib_init old = true -> wf_item old).
    { destruct rf_item as [[_ ->]|E]; [discriminate|]. intros _. apply (item_addr _ _ _ Hi E). }
    assert (Hw : is_u128 votes).
    { eapply BitmapFacts.bm_set_u128; [| |exact Hv]; [|ilia].
      destruct (ib_init old); [apply Hold; reflexivity|cbn; unfold bm_new; ilia]. }
    unfold wf_item; cbn. destruct (ib_init old) eqn:Ei.
    + destruct (Hold eq_refl) as (?&?&?&?). auto.
    + cbn. split; [reflexivity|]. split; [assumption|]. split; [assumption|]. discriminate.
  - split; [eapply irl_wf; eassumption|]. destruct (orl_addr _ _ _ Hi rf_orl). split; [assumption|]. split; [assumption|].
    eapply config_addr; eassumption.
Qed.

Lemma set_sent_shape s a o id r : winv s -> has s a PManager (DOutboxItem o) -> 0 <= id < 128 ->
  bm_set (ob_released o) id true = Ok r -> mgr_shape a (DOutboxItem (set_sent o r)).
Proof.
  intros Hi E Hid Hr. apply winv_mgr in E; [|assumption]. destruct E as (?&?&?&?&?&?). cbn. repeat (split; [assumption|]).
  eapply BitmapFacts.bm_set_u128; [eassumption| |eassumption]. ilia.
Qed.

Lemma change_shape H s sg i a ac : winv s -> forallb can_sign sg = true -> typed i = true ->
  change H s sg i a (st_accts s a) (Some ac) -> shape a ac.
Proof.
  intros Hi Hsg Hty C. pose proof (winv_now _ Hi) as Hnow. remember (st_accts s a) as old eqn:Eold. remember (Some ac) as new eqn:En.
  destruct C; apply Some_inj in En || discriminate En; subst ac; unfold shape; cbn [ac_owner ac_data mgr_shape].
  - reflexivity.
  - split; [reflexivity|]. now apply RateLimitFacts.rl_new_wf.
  - reflexivity.
  - assert (Hau : u64b (ar_amount a) && u16b (ar_chain a) = true) by (destruct md; cbn in H0; subst i; exact Hty).
    bools. widths. destruct (transfer_ranges _ _ _ _ _ _ _ _ _ _ _ _ _ _ _ _ Hi H2 H1) as (?&?&?&?&_).
    cbn. split; [eapply signed_can; [exact Hsg|]; apply H1|]. repeat (split; [assumption|]). unfold bm_new; ilia.
  - assert (Hau : u64b (ar_amount a) && u16b (ar_chain a) = true) by (destruct md; cbn in H0; subst i; exact Hty).
    bools. widths. destruct (transfer_ranges _ _ _ _ _ _ _ _ _ _ _ _ _ _ _ _ Hi H2 H1) as (?&?&?&?&?&?). eauto.
  - assert (Hau : u64b (ar_amount a) && u16b (ar_chain a) = true) by (destruct md; cbn in H0; subst i; exact Hty).
    bools. widths. destruct (transfer_ranges _ _ _ _ _ _ _ _ _ _ _ _ _ _ _ _ Hi H2 H1) as (?&?&?&?&?&?).
    split; [|assumption]. eapply orl_addr; [eassumption|apply H1].
  - destruct (redeem_ranges _ _ _ _ _ _ _ _ _ _ _ _ _ _ _ _ Hi H0) as (?&?&_). eauto.
  - destruct (redeem_ranges _ _ _ _ _ _ _ _ _ _ _ _ _ _ _ _ Hi H0) as (?&Hw&?&?&?&_&_).
    destruct (in_limits_ranges _ _ _ _ _ _ _ Hnow H5 H7 H8 H3) as (?&?&?).
    split; [eauto|]. destruct Hw as (?&?&?&?). unfold wf_item; cbn. repeat (split; [assumption|]). intros t Q. inversion Q; subst; assumption.
  - destruct (redeem_ranges _ _ _ _ _ _ _ _ _ _ _ _ _ _ _ _ Hi H0) as (?&Hw&?&?&?&_&_).
    destruct (in_limits_ranges _ _ _ _ _ _ _ Hnow H4 H6 H7 H3) as (?&?&?). eauto.
  - destruct (redeem_ranges _ _ _ _ _ _ _ _ _ _ _ _ _ _ _ _ Hi H0) as (?&Hw&?&?&?&?&_).
    destruct (in_limits_ranges _ _ _ _ _ _ _ Hnow H4 H6 H7 H3) as (?&?&?). eauto.
  - destruct (item_addr _ _ _ Hi (lf_item _ _ _ _ _ _ _ H1)) as (? & ?&?&?&?). split; [assumption|]. unfold wf_item; cbn.
    repeat (split; [assumption|]). discriminate.
  - eapply config_addr; eauto.
  - eapply config_addr; eauto.
  - eapply config_addr; eauto.
  - eapply config_addr; eauto.
  - cbn. eauto.
  - exists ch. auto using RateLimitFacts.rl_new_wf.
  - eapply config_addr; eauto.
  - destruct t; try discriminate. cbn. eauto.
  - pose proof (eq_sym Eold) as Er. apply (orl_addr _ _ _ Hi) in Er. destruct Er as [-> Wr]. split; [reflexivity|].
    eapply RateLimitFacts.set_limit_wf; eassumption.
  - pose proof (eq_sym Eold) as Er. apply (winv_mgr _ _ _ Hi) in Er. cbn in Er. destruct Er as (ch' & Hu & Ea & Wr). exists ch'. repeat (split; [assumption|]).
    eapply RateLimitFacts.set_limit_wf; eassumption.
  - destruct H0. eapply set_sent_shape; eauto. eapply reg_id; eauto.
  - destruct H1. eapply set_sent_shape; eauto. eapply reg_id; eauto.
  - right. eauto.
  - destruct p; try discriminate; cbn; eauto.
  - assert (Htm : is_u16 chain /\ typed_tm tm = true).
    { apply (winv_shape _ Hi) in H3. destruct H3 as [(_&_&Q)|(Q&_)]; [|discriminate]. cbn in Q. auto. }
    destruct Htm. destruct p; try discriminate; cbn; split; auto.
  - left. split; [|split; [reflexivity|exact I]]. eapply can_sign_not_reserved, signed_can; eassumption.
  - left. split; [|split; [reflexivity|exact I]]. eapply can_sign_not_reserved, signed_can; eassumption.
  - left. split; [|split; [reflexivity|exact I]]. eapply can_sign_not_reserved, signed_can; eassumption.
  - left. destruct H0 as (?&?&?&?&->). split; [intros []|]. split; [reflexivity|]. cbn. destruct m; auto.
  - left. split; [now apply can_sign_not_reserved|]. split; [reflexivity|]. cbn. destruct d; auto.
    destruct m; [discriminate|exact I].
Qed.

Lemma step_shape H s c s' : winv s -> step H s c = Ok s' -> forall a ac, st_accts s' a = Some ac -> shape a ac.
Proof.
  intros Hi Hs a ac E. pose proof (step_inv _ _ _ _ Hs) as (Hsg & Hty & _).
  destruct (step_change _ _ _ _ Hs a) as [Q|Q].
  - rewrite Q in E. eapply winv_shape; eassumption.
  - rewrite E in Q. eapply change_shape; eassumption.
Qed.

Lemma config_step H s c s' cf : winv s -> step H s c = Ok s' -> has s pda_config PManager (DConfig cf) ->
  exists cf', has s' pda_config PManager (DConfig cf') /\ (cf' = cf \/ cfg_change s (signers c) (ins c) cf cf').
Proof.
  intros Hi Hs Hd. unfold has in *. destruct (step_change _ _ _ _ Hs pda_config) as [Q|Q]; [rewrite Q, Hd; eauto|].
  rewrite Hd in Q. remember (st_accts s' pda_config) as new eqn:En. clear En.
  inversion Q; subst; try congruence; olds;
    try (eexists; split; [reflexivity|]; right; constructor; auto; fail).
  destruct t; try discriminate. eexists. split; [reflexivity|]. right. constructor; auto.
Qed.

Lemma kind_at s t z x y ac : winv s -> st_accts s (APda PManager t z x y) = Some ac ->
  match t with
  | TConfig => exists c, ac = Acct PManager (DConfig c)
  | TOutboxRL => exists r, ac = Acct PManager (DOutboxRL r)
  | TInboxRL => exists r, ac = Acct PManager (DInboxRL r)
  | TPeer => exists r, ac = Acct PManager (DPeer r)
  | TInbox => exists r, ac = Acct PManager (DInboxItem r)
  | TReg => exists r, ac = Acct PManager (DReg r)
  | TLut => exists r, ac = Acct PManager (DLut r)
  | TXPeer => exists r, ac = Acct PManager (DXPeer r)
  | TVtm => exists c m, ac = Acct PManager (DVtm c m)
  | TMessage => ac = Acct PWormhole DPosted
  | _ => False
  end.
Proof.
  intros Hi E. pose proof (winv_shape _ Hi _ _ E) as Sh. unfold shape in Sh. destruct ac as [o d]. cbn in Sh.
  destruct o; try (destruct Sh as [(Q&_)|(Ee&p&it&Hp&Q)]; [exfalso; apply Q; exact I|inversion Q; subst; try discriminate Ee]).
  - exact Ee.
  - destruct d; cbn in Sh; try contradiction.
    + inversion Sh; subst. eauto.
    + destruct Sh as (?&?&Q&?); inversion Q; subst; eauto.
    + destruct Sh; discriminate.
    + destruct Sh as [Q ?]; inversion Q; subst; eauto.
    + destruct Sh as ((?&Q)&_); inversion Q; subst; eauto.
    + destruct Sh as (?&?&Q&?); inversion Q; subst; eauto.
    + destruct Sh as (?&Q&?); inversion Q; subst; eauto.
    + inversion Sh; subst; eauto.
    + destruct Sh as (?&?&Q); inversion Q; subst; eauto.
    + destruct Sh as (?&Q&?); inversion Q; subst; eauto.
  - destruct d; cbn in Sh; try contradiction; [destruct Sh as (?&?&Q)|destruct Sh as (?&Q&?)]; discriminate.
Qed.

Lemma no_config s : winv s -> (forall c, ~ has s pda_config PManager (DConfig c)) -> st_accts s pda_config = None.
Proof.
  intros Hi Hn. destruct (st_accts s pda_config) as [ac|] eqn:E; [exfalso|reflexivity].
  destruct (kind_at _ _ _ _ _ _ Hi E) as [c ->]. eapply Hn, E.
Qed.

Lemma config_dec s : winv s -> st_accts s pda_config = None \/ exists c, has s pda_config PManager (DConfig c).
Proof.
  intros Hi. destruct (st_accts s pda_config) as [ac|] eqn:E; [right|auto].
  destruct (kind_at _ _ _ _ _ _ Hi E) as [c ->]. eauto.
Qed.

Lemma step_winv H s c s' : winv s -> step H s c = Ok s' -> winv s'.
Proof.
  intros Hi Hs. pose proof (step_inv _ _ _ _ Hs) as (Hsg & Hty & He).
  assert (Hreg : forall a r, has s' a PManager (DReg r) -> has s a PManager (DReg r) \/
            exists cf p en, has s pda_config PManager (DConfig cf) /\ a = pda_reg (AProg p) /\ r = Registered 0 (cf_next cf) (AProg p) /\
              has s' pda_config PManager (DConfig (with_next cf (cf_next cf + 1) en))).
  { intros a r E. unfold has in *. destruct (step_change _ _ _ _ Hs a) as [Q|Q]; [left; congruence|right].
    rewrite E in Q. inversion Q; subst.
    match goal with Q : _ = ins c |- _ => rewrite <- Q in He end. cbn [exec] in He.
    apply register_ok in He. destruct He as (cf' & p & en' & E1 & _ & _ & -> & _ & _ & _ & ->).
    pose proof (config_addr _ _ _ Hi E1). subst. unfold has in *. assert (cf' = c0) by congruence. subst.
    exists c0, p, en'. repeat (split; [first [assumption|reflexivity]|]). apply get_put_same. }
  constructor.
  - pose proof (step_rest _ _ _ _ Hs) as R. pose proof (winv_now _ Hi). inversion R; subst; assumption.
  - exact (dec_step _ _ _ _ (winv_dec _ Hi) Hs).
  - eapply step_shape; eassumption.
  - intros cf E. destruct (config_dec _ Hi) as [Hn|[cf0 E0]].
    + destruct (config_new _ _ _ _ _ Hs Hn E) as (d & mnt & tp & ch & l & md & mt & Hins & -> & _).
      constructor; cbn; try lia. unfold bm_new. split; [ilia|]. intros i Q. rewrite Z.testbit_0_l in Q. discriminate.
    + destruct (config_step _ _ _ _ _ Hi Hs E0) as (cf' & E' & Hch). unfold has in E, E'. assert (cf' = cf) by congruence. subst cf'.
      pose proof (winv_config _ Hi _ E0) as [N0 T0 B0].
      destruct Hch as [->|Hch]; [constructor; assumption|].
      pose proof (cfg_change_same _ _ _ _ _ Hch) as (_&_&_&_&S2&_).
      destruct (cfg_change_next _ _ _ _ _ Hch) as [(N1 & N2)|(o & p & en & _ & -> & Hen & _)].
      * constructor; [now rewrite N1|congruence|rewrite N1, N2; exact B0].
      * unfold bm_set, BITS in Hen. destruct (128 <=? cf_next cf0) eqn:Q; [discriminate|].
        constructor; cbn; [lia|exact T0|]. destruct B0 as [Hu Hb].
        split; [eapply (BitmapFacts.bm_set_u128 (cf_enabled cf0) (cf_next cf0) true); [exact Hu|ilia|]; unfold bm_set, BITS; rewrite Q; exact Hen|].
        intros i Ti. apply Ok_inj in Hen. subst en.
        destruct (Z_lt_le_dec i 0) as [Hneg|Hpos]; [rewrite Z.testbit_neg_r in Ti by assumption; discriminate|].
        rewrite Z.setbit_eqb in Ti by lia. apply orb_true_iff in Ti. destruct Ti as [Ti|Ti]; [lia|]. apply Hb in Ti. lia.
  - intros p r E. destruct (Hreg _ _ E) as [E0|(cf & q & en & E0 & Ea & -> & E1)].
    + destruct (winv_reg _ Hi _ _ E0) as (cf & Ec & Hr). destruct (config_step _ _ _ _ _ Hi Hs Ec) as (cf' & E' & Hch).
      exists cf'. split; [assumption|]. destruct Hch as [->|Hch]; [assumption|]. apply cfg_change_next in Hch.
      destruct Hch as [(-> & _)|(?&?&?&_&->&_)]; [assumption|cbn; lia].
    + exists (with_next cf (cf_next cf + 1) en). split; [assumption|]. cbn. pose proof (wco_next _ _ (winv_config _ Hi _ E0)). lia.
  - intros p q r r' Ep Eq Hid.
    destruct (Hreg _ _ Ep) as [E0|(cf & p' & en & E0 & Ea & -> & E1)], (Hreg _ _ Eq) as [F0|(cf2 & q' & en2 & F0 & Fa & -> & F1)].
    + eapply winv_reg_inj; eassumption.
    + destruct (winv_reg _ Hi _ _ E0) as (cf & Ec & Hr). cbn in Hid. unfold has in *. assert (cf2 = cf) by congruence. subst. lia.
    + destruct (winv_reg _ Hi _ _ F0) as (cf2 & Ec & Hr). cbn in Hid. unfold has in *. assert (cf2 = cf) by congruence. subst. lia.
    + unfold has in Ep, Eq. pose proof (step_change _ _ _ _ Hs (pda_reg (AProg p))) as [Q|Q].
      * rewrite Ep in Q. symmetry in Q. destruct (winv_reg _ Hi _ _ Q) as (cf3 & Ec & Hr). unfold has in *. assert (cf3 = cf) by congruence. subst. cbn in Hr. lia.
      * pose proof (step_change _ _ _ _ Hs (pda_reg (AProg q))) as [Q2|Q2].
        -- rewrite Eq in Q2. symmetry in Q2. destruct (winv_reg _ Hi _ _ Q2) as (cf3 & Ec & Hr). unfold has in *. assert (cf3 = cf2) by congruence. subst. cbn in Hr. lia.
        -- rewrite Ep in Q. rewrite Eq in Q2. inversion Q; subst. inversion Q2; subst. congruence.
Qed.


Lemma wild_winv s s' : winv s -> wild s s' -> winv s'.
Proof.
  intros Hi W. pose proof (wl_accts _ _ W) as A. constructor.
  - rewrite (wl_now _ _ W). apply Hi.
  - apply W.
  - intros a ac. rewrite A. apply Hi.
  - intros c. unfold has. rewrite A. intros E. destruct (winv_config _ Hi _ E). constructor; assumption.
  - intros p r. unfold has. rewrite A. intros E. destruct (winv_reg _ Hi _ _ E) as (c & Ec & Hr). exists c. split; [rewrite A; exact Ec|exact Hr].
  - intros p q r r'. unfold has. rewrite !A. apply (winv_reg_inj _ Hi).
Qed.
Lemma inv_winv s : inv s -> winv s.
Proof.
  intros Hi. constructor; [exact (inv_now _ Hi)| |exact (inv_shape _ Hi)| |exact (inv_reg _ Hi)|exact (inv_reg_inj _ Hi)].
  - intros a m E. apply (proj2 (inv_ledger _ Hi)) in E. apply E.
  - intros c E. destruct (inv_config _ Hi _ E). constructor; assumption.
Qed.
Lemma wild_refl s : dec_ok s -> wild s s.
Proof. intros D. constructor; auto. Qed.

Lemma wrun_app H s0 tr1 s1 tr2 s2 : wrun H s0 tr1 s1 -> wrun H s1 tr2 s2 -> wrun H s0 (tr2 ++ tr1) s2.
Proof. intros R1 R2. induction R2; cbn; [exact R1|apply wrun_step; auto|eapply wrun_wild; eauto]. Qed.
Lemma wrun_of_run H s0 tr s : run H s0 tr s -> wrun H s0 tr s.
Proof. intros R. induction R; [constructor|apply wrun_step; assumption]. Qed.
Lemma wrun_reachable H s tr s' : wreachable H s -> wrun H s tr s' -> wreachable H s'.
Proof. intros (s0 & tr0 & Hi & R0) R. exists s0, (tr ++ tr0). split; [exact Hi|]. eapply wrun_app; eassumption. Qed.
Lemma wstep_reachable H s c s' : wreachable H s -> step H s c = Ok s' -> wreachable H s'.
Proof. intros Hr E. eapply wrun_reachable; [exact Hr|]. eapply wrun_step; [constructor|exact E]. Qed.
Lemma wild_reachable H s s' : wreachable H s -> wild s s' -> wreachable H s'.
Proof. intros Hr E. eapply wrun_reachable; [exact Hr|]. eapply wrun_wild; [constructor|exact E]. Qed.
Lemma wreach_ind H (P : state -> Prop) : (forall s, initial s -> P s) ->
  (forall s c s', wreachable H s -> P s -> step H s c = Ok s' -> P s') -> (forall s s', P s -> wild s s' -> P s') -> forall s, wreachable H s -> P s.
Proof.
  intros H0 Hs Hw s (s0 & tr & Hi & R). induction R as [|tr s c s' R IH E|tr s s' R IH E]; [auto| |eauto]. eapply Hs; [|exact IH|exact E].
  exists s0, tr. auto.
Qed.
Lemma wreachable_inv H s : wreachable H s -> winv s.
Proof.
  revert s. apply wreach_ind; [intros s Hi; apply inv_winv, initial_inv, Hi|intros s c s' _ Hi E; eapply step_winv; eassumption|intros s s' Hi E; eapply wild_winv; eassumption].
Qed.
Lemma wrun_event H s0 tr s e : wrun H s0 tr s -> In e tr ->
  step H (e_pre e) (e_call e) = Ok (e_post e) /\
  exists tr1 tr2, wrun H s0 tr1 (e_pre e) /\ wrun H (e_post e) tr2 s /\ tr = tr2 ++ e :: tr1.
Proof.
  intros R Hin. induction R as [|tr s c s' R IH E|tr s s' R IH E]; [contradiction| |].
  - destruct Hin as [<-|Hin]; cbn.
    + split; [exact E|]. exists tr, []. repeat split; [exact R|constructor].
    + destruct (IH Hin) as (Hs & tr1 & tr2 & R1 & R2 & ->). split; [exact Hs|]. exists tr1, (Ev s c s' :: tr2).
      split; [exact R1|]. split; [|reflexivity]. apply wrun_step; assumption.
  - destruct (IH Hin) as (Hs & tr1 & tr2 & R1 & R2 & Et). split; [exact Hs|]. exists tr1, tr2. split; [exact R1|]. split; [|exact Et]. eapply wrun_wild; eassumption.
Qed.
Lemma wrun_split H s0 e tr1 tr2 s : wrun H s0 (tr2 ++ e :: tr1) s ->
  wrun H s0 tr1 (e_pre e) /\ step H (e_pre e) (e_call e) = Ok (e_post e) /\ wrun H (e_post e) tr2 s.
Proof.
  intros R. remember (tr2 ++ e :: tr1) as tr eqn:Et. revert tr2 Et. induction R as [|tr s c s' R IH E|tr s s' R IH E]; intros tr2 Et.
  - destruct tr2; discriminate.
  - destruct tr2 as [|e2 tr2]; cbn in Et; inversion Et; subst.
    + cbn. repeat split; [assumption|assumption|constructor].
    + destruct (IH _ eq_refl) as (A & B & C). repeat split; try assumption. apply wrun_step; assumption.
  - destruct (IH _ Et) as (A & B & C). repeat split; try assumption. eapply wrun_wild; eassumption.
Qed.
Lemma wrun_ind_from H s (P : state -> Prop) tr s' : wreachable H s -> wrun H s tr s' -> P s ->
  (forall t c t', wreachable H t -> P t -> step H t c = Ok t' -> P t') -> (forall t t', P t -> wild t t' -> P t') -> P s'.
Proof.
  intros Hr R H0 Hs Hw. induction R as [|tr t c t' R IH E|tr t t' R IH E]; [assumption| |eauto]. eapply Hs; [|exact IH|exact E].
  eapply wrun_reachable; eassumption.
Qed.
Lemma config_one H s a c b d : wreachable H s -> config_at s a c -> config_at s b d -> a = b /\ c = d.
Proof.
  intros Hr E F. apply wreachable_inv in Hr. pose proof (config_addr _ _ _ Hr E). pose proof (config_addr _ _ _ Hr F). subst.
  unfold config_at in *. split; congruence.
Qed.
Lemma config_step_at H s c s' a cf : wreachable H s -> step H s c = Ok s' -> config_at s a cf ->
  exists cf', config_at s' a cf' /\ (cf' = cf \/ cfg_change s (signers c) (ins c) cf cf').
Proof.
  intros Hr Hs E. apply wreachable_inv in Hr. pose proof (config_addr _ _ _ Hr E). subst. exact (config_step _ _ _ _ _ Hr Hs E).
Qed.
Lemma wild_config s s' a c : wild s s' -> config_at s a c -> config_at s' a c.
Proof. intros W. unfold config_at. now rewrite (wl_accts _ _ W). Qed.
Lemma config_kept H s tr s' a c : wreachable H s -> wrun H s tr s' -> config_at s a c ->
  exists c', config_at s' a c' /\ identity c' = identity c.
Proof.
  intros Hr R E. refine (wrun_ind_from _ _ (fun t => exists c', config_at t a c' /\ identity c' = identity c) _ _ Hr R (ex_intro _ c (conj E eq_refl)) _ _).
  - intros t cl t' Ht (c1 & E1 & Hid) Hs. destruct (config_step_at _ _ _ _ _ _ Ht Hs E1) as (c2 & E2 & [->|Q]); [eauto|].
    exists c2. split; [exact E2|]. rewrite <- Hid. apply cfg_change_same in Q. unfold cfg_same in Q. unfold identity. intuition congruence.
  - intros t t' (c1 & E1 & Hid) W. exists c1. split; [eapply wild_config; eassumption|exact Hid].
Qed.
Lemma wrun_config H s tr s' a c b d : wreachable H s -> wrun H s tr s' -> config_at s a c -> config_at s' b d -> identity d = identity c.
Proof.
  intros Hr R E F. destruct (config_kept _ _ _ _ _ _ Hr R E) as (c' & E' & Hid).
  destruct (config_one _ _ _ _ _ _ (wrun_reachable _ _ _ _ Hr R) E' F). congruence.
Qed.
Lemma wild_inbox s s' a it : wild s s' -> inbox_at s' a it <-> inbox_at s a it.
Proof. intros W. unfold inbox_at. now rewrite (wl_accts _ _ W). Qed.
Lemma wild_outbox s s' a it : wild s s' -> outbox_at s' a it <-> outbox_at s a it.
Proof. intros W. unfold outbox_at. now rewrite (wl_accts _ _ W). Qed.
Lemma wild_reg s s' a it : wild s s' -> reg_at s' a it <-> reg_at s a it.
Proof. intros W. unfold reg_at. now rewrite (wl_accts _ _ W). Qed.
Lemma wild_published s s' p : wild s s' -> published s' p = published s p.
Proof. intros W. unfold published. now rewrite (wl_posted _ _ W). Qed.

(** ** Settings, transfers, messages, redemptions *)

Lemma settings_owner H s c s' a : wreachable H s -> step H s c = Ok s' ->
  settings (st_accts s' a) <> settings (st_accts s a) ->
  (exists b cf o, config_at s b cf /\ admin_by (ins c) = Some o /\ In o (signers c) /\
     (o = cf_owner cf \/ (is_claim (ins c) /\ cf_pending cf = Some o))) \/
  (exists d m tp ch l md, (forall b cf, ~ config_at s b cf) /\ ins c = IInitialize d m tp ch l md /\ In d (signers c) /\ st_uauth s = Some d).
Proof.
  intros Hr Hs Hne. pose proof (wreachable_inv _ _ Hr) as Hi.
  destruct (step_change _ _ _ _ Hs a) as [Q|Q]; [congruence|].
  remember (st_accts s a) as old eqn:Eo. remember (st_accts s' a) as new eqn:En.
  destruct c as [sg i]. cbn [signers ins] in *.
  assert (Hown : forall cfg cf o, has s cfg PManager (DConfig cf) -> cf_owner cf = o -> signed sg o = true ->
     admin_by i = Some o ->
     exists b cf o, config_at s b cf /\ admin_by i = Some o /\ In o sg /\
     (o = cf_owner cf \/ (is_claim i /\ cf_pending cf = Some o))).
  { intros cfg cf o E1 E2 E3 E4. exists cfg, cf, o. apply signed_In in E3. repeat split; auto. }
  assert (Hnone : st_accts s pda_config = None -> forall b cf, ~ config_at s b cf).
  { intros N b cf E. pose proof (config_addr _ _ _ Hi E). subst. unfold config_at in E. congruence. }
  assert (Hold : old = None -> a = pda_config -> st_accts s pda_config = None) by congruence.
  assert (Hold2 : forall d, a = pda_inbox d -> old = st_accts s (pda_inbox d)) by congruence.
  clear Eo En.
  inversion Q; subst; try (exfalso; apply Hne; reflexivity); try (left; eapply Hown; try eassumption; reflexivity).
  - right. exists d, mnt, tp, ch, l, md. split; [apply Hnone; auto|]. rewrite signed_In in *. auto.
  - right. pose proof (step_inv _ _ _ _ Hs) as (Hsg & _ & He). cbn [exec signers ins] in He, Hsg.
    apply initialize_ok in He; [|assumption]. destruct He as (mt & s1 & E1 & E2 & _).
    exists d, mnt, tp, ch, l, md. split; [apply Hnone; auto|]. rewrite signed_In in *. auto.
  - exfalso. apply Hne. olds; match goal with Q : _ \/ _ |- _ => destruct Q as [Q|[? Q]]; rewrite Q; reflexivity end.
  - exfalso. apply Hne. cbn. f_equal. f_equal. match goal with F : transfer_facts _ _ _ _ _ _ _ _ _ _ _ _ _ _ _ _ |- _ => apply tf_limits, out_limits_limit in F; destruct F end. assumption.
  - exfalso. apply Hne. cbn. f_equal. f_equal. match goal with F : transfer_facts _ _ _ _ _ _ _ _ _ _ _ _ _ _ _ _ |- _ => apply tf_limits, out_limits_limit in F; destruct F end. assumption.
  - exfalso. apply Hne. match goal with F : redeem_facts _ _ _ _ _ _ _ _ _ _ _ _ _ _ _ _ |- _ => destruct (rf_item _ _ _ _ _ _ _ _ _ _ _ _ _ _ _ _ F) as [[C _]|C]; unfold has in C; rewrite C; reflexivity end.
  - exfalso. apply Hne. match goal with F : redeem_facts _ _ _ _ _ _ _ _ _ _ _ _ _ _ _ _ |- _ => destruct (rf_item _ _ _ _ _ _ _ _ _ _ _ _ _ _ _ _ F) as [[C _]|C]; unfold has in C; rewrite C; reflexivity end.
  - exfalso. apply Hne. cbn. f_equal. f_equal. match goal with F : in_limits _ _ _ _ _ _ _ |- _ => apply in_limits_limit in F; destruct F end. assumption.
  - exfalso. apply Hne. cbn. f_equal. f_equal. match goal with F : in_limits _ _ _ _ _ _ _ |- _ => apply in_limits_limit in F; destruct F end. assumption.
  - left. match goal with Q : signed _ n = true |- _ => apply signed_In in Q end. exists a, c, n. split; [assumption|].
    split; [reflexivity|]. split; [assumption|]. match goal with Q : _ \/ _ |- _ => destruct Q; [right|left; congruence] end.
    split; [|assumption]. do 2 eexists. reflexivity.
  - exfalso. apply Hne. destruct p; reflexivity.
  - exfalso. apply Hne. olds; match goal with Q : _ \/ _ |- _ => destruct Q as [Q|[? Q]]; rewrite Q; reflexivity end.
Qed.

Lemma facts_transferred s sg x a s1 md c mt f pe amount t orl irl orl' irl' ts : winv s -> is_u64 (ar_amount a) ->
  transfer_facts s sg x a md c mt f pe amount t orl irl orl' irl' ts ->
  transferred s sg x a (out_puts s1 x a f pe t orl' irl' ts) md c mt pe f (out_item f a pe t ts) amount.
Proof.
  intros Hi Ha F. pose proof (mint_dec _ _ _ Hi (tf_mint _ _ _ _ _ _ _ _ _ _ _ _ _ _ _ _ F)) as Hf.
  pose proof (peer_dec _ _ _ Hi (tf_peer _ _ _ _ _ _ _ _ _ _ _ _ _ _ _ _ F)) as Ht.
  pose proof (tf_dust _ _ _ _ _ _ _ _ _ _ _ _ _ _ _ _ F) as D.
  destruct (dust_value _ _ _ _ _ Ha Hf Ht D) as (Hx & Hw). destruct (dust_range _ _ _ _ _ Ha Hf Ht D) as (R1 & _ & _ & R2).
  destruct F. frees. constructor; try assumption; try reflexivity; try ilia.
  - now apply signed_In.
  - apply get_put_same.
  - cbn. rewrite Hw, Hx. reflexivity.
Qed.

Lemma transfer_limits H s sg i s' md x a : wreachable H s -> step H s (Call sg i) = Ok s' -> transfer_of i = Some (md, x, a) ->
  exists c m pe f o v orl irl orl' irl', transferred s sg x a s' md c m pe f o v /\
    out_limiter s orl /\ in_limiter s (ar_chain a) irl /\ out_limiter s' orl' /\ in_limiter s' (ar_chain a) irl' /\
    (v <= capacity orl (st_now s) ->
       ob_release o = st_now s /\ orl' = RL (rl_limit orl) (capacity orl (st_now s) - v) (st_now s) /\
       irl' = RL (rl_limit irl) (Z.min (capacity irl (st_now s) + v) (rl_limit irl)) (st_now s)) /\
    (capacity orl (st_now s) < v -> ar_queue a = true /\ ob_release o = st_now s + day /\ orl' = orl /\ irl' = irl) /\
    (forall b, b <> xa_outbox_item x -> b <> pda_outbox_rl -> b <> pda_inbox_rl (ar_chain a) -> st_accts s' b = st_accts s b).
Proof.
  intros Hr Hs Ht. pose proof (wreachable_inv _ _ Hr) as Hi. destruct (transfer_inv _ _ _ _ _ _ _ _ Hs Ht) as (c & mt & f & pe & am & t & orl & irl & orl' & irl' & ts & s1 & F & Hsp & -> & Ha).
  pose proof (facts_transferred s sg x a s1 _ _ _ _ _ _ _ _ _ _ _ _ Hi Ha F) as Tr.
  destruct (transfer_ranges _ _ _ _ _ _ _ _ _ _ _ _ _ _ _ _ Hi Ha F) as (Ram & _ & _ & Rts & _ & _).
  exists c, mt, pe, f, (out_item f a pe t ts), am, orl, irl, orl', irl'. split; [exact Tr|]. pose proof (winv_now _ Hi) as Hn.
  destruct F. destruct (orl_addr _ _ _ Hi tf_orl) as (Ho & Wo). pose proof (irl_wf _ _ _ Hi tf_irl) as Wi.
  unfold out_limiter, in_limiter, out_puts. rewrite Ho in *. clear Ho. frees.
  assert (N1 : pda_outbox_rl <> xa_outbox_item x) by (intros C; unfold has in tf_orl; congruence).
  assert (N2 : pda_inbox_rl (ar_chain a) <> xa_outbox_item x) by (intros C; unfold has in tf_irl; congruence).
  split; [exact tf_orl|]. split; [exact tf_irl|].
  split; [rewrite get_put_other by assumption; rewrite get_put_other by discriminate; apply get_put_same|].
  split; [rewrite get_put_other by assumption; apply get_put_same|]. cbn [out_item ob_release].
  destruct tf_limits as [(Hc & Hf)|(Hc & Hq & ->)].
  - apply RateLimitFacts.consume_consumed_inv in Hc. destruct Hc as (cap & Hcap & Hle & -> & ->).
    pose proof (capacity_spec _ _ _ Wo Hn Hcap). subst cap. split; [|split; [lia|]].
    + intros _. split; [reflexivity|]. split; [reflexivity|].
      destruct (RateLimitFacts.refill_inv _ _ _ _ Hf) as (ic & Hic & _). rewrite (RateLimitFacts.refill_exact _ _ _ _ Wi Hn Ram Hic) in Hf.
      apply Ok_inj in Hf. subst irl'. now rewrite (capacity_spec _ _ _ Wi Hn Hic).
    + intros b B1 B2 B3. rewrite !get_put_other by assumption. now rewrite (proj1 Hsp).
  - apply RateLimitFacts.consume_delayed_inv in Hc. destruct Hc as (cap & Hcap & Hlt & -> & ->).
    pose proof (capacity_spec _ _ _ Wo Hn Hcap). subst cap. split; [lia|]. split; [auto|].
    intros b B1 B2 B3. rewrite !get_put_other by assumption. now rewrite (proj1 Hsp).
Qed.

Lemma log_step H s cl s' p : wreachable H s -> step H s cl = Ok s' -> is_ntt_prog p = true ->
  published s' p = published s p \/
  exists cfg it tr rev c o rt, ins cl = IXRelease p cfg it tr rev true /\ outbound_facts s cfg it tr c o rt /\ rt_address rt = AProg p /\
    ob_release o <= st_now s /\ st_accts s (pda_message p it) = None /\ st_accts s' (pda_message p it) = Some (Acct PWormhole DPosted) /\
    published s' p = outbound_message c it o :: published s p.
Proof.
  intros Hr Hs Hp. pose proof (step_inv _ _ _ _ Hs) as (Hsg & Hty & He). destruct cl as [sg i]. cbn [signers ins] in *.
  pose proof (step_rest _ _ _ _ Hs) as R. cbn [signers ins] in R. inversion R; subst; try (left; apply published_same; congruence).
  - cbn [exec] in He. apply x_release_ok in He; [|assumption].
    destruct He as (c' & o' & rt' & F & Hra & [(-> & _)|(Ht & _ & r & Hr' & Hm & Hn & ->)]); [left; reflexivity|].
    unfold published. cbn [set_posted st_posted flat_map po_payload po_emitter].
    destruct (addr_eq_dec (pda_emitter p0) (pda_emitter p)) as [C|]; [|left; reflexivity]. inversion C; subst p0. right.
    exists cfg, it, tr, rev, c', o', rt'. repeat (split; [first [assumption|reflexivity]|]). split; [|reflexivity].
    cbn. apply upd_same.
  - left. unfold published. match goal with Q : _ = st_posted s' |- _ => rewrite <- Q end. reflexivity.
  - left. unfold published. match goal with Q : _ = st_posted s' |- _ => rewrite <- Q end. reflexivity.
  - left. unfold published. match goal with Q : _ = st_posted s' |- _ => rewrite <- Q end. cbn [flat_map po_payload po_emitter].
    destruct pl; try reflexivity. destruct (addr_eq_dec _ _) as [->|]; [|reflexivity].
    match goal with Q : signed sg _ = true |- _ => apply (signed_can _ _ Hsg) in Q; destruct p; discriminate end.
Qed.

Lemma log_once H s p : is_ntt_prog p = true -> wreachable H s ->
  NoDup (map (fun m => nm_id (tm_msg m)) (published s p)) /\
  forall m, In m (published s p) -> st_accts s (pda_message p (nm_id (tm_msg m))) = Some (Acct PWormhole DPosted).
Proof.
  intros Hp. revert s. apply wreach_ind.
  - intros s Hi. rewrite (initial_published _ _ Hi Hp). split; [constructor|intros m []].
  - intros s c s' Hr (IH1 & IH2) E.
    assert (Hk : forall m, In m (published s p) -> st_accts s' (pda_message p (nm_id (tm_msg m))) = Some (Acct PWormhole DPosted))
      by (intros m Hm; eapply wormhole_kept; eauto).
    destruct (log_step _ _ _ _ _ Hr E Hp) as [->|(cfg & it & tr & rev & cf & o & rt & _ & _ & _ & _ & N & N' & ->)]; [auto|].
    split.
    + cbn. constructor; [|exact IH1]. intros C. apply in_map_iff in C. destruct C as (m & Em & Hm). specialize (IH2 _ Hm).
      rewrite Em in IH2. congruence.
    + intros m [<-|Hm]; [exact N'|auto].
  - intros s s' (IH1 & IH2) W. rewrite (wild_published _ _ _ W). split; [exact IH1|]. intros m Hm. rewrite (wl_accts _ _ W). auto.
Qed.

Lemma item_step H s cl s' a o : wreachable H s -> step H s cl = Ok s' -> outbox_at s a o ->
  outbox_at s' a o \/
  exists c rt p r cfg tr, outbox_at s' a (set_sent o r) /\ outbound_facts s cfg a tr c o rt /\ rt_address rt = AProg p /\
    ob_release o <= st_now s /\ bm_set (ob_released o) (rt_id rt) true = Ok r /\
    ((ins cl = IMark (pda_outbox_signer p) cfg a tr /\ In (pda_outbox_signer p) (signers cl)) \/
     exists rev, is_ntt_prog p = true /\ ins cl = IXRelease p cfg a tr rev true).
Proof.
  intros Hr Hs Hd. unfold outbox_at in *. destruct (step_change _ _ _ _ Hs a) as [Q|Q]; [left; congruence|right].
  rewrite Hd in Q. remember (st_accts s' a) as new eqn:En. clear En. destruct cl as [sg i]. cbn [signers ins] in *.
  inversion Q; subst; try congruence; olds.
  - match goal with F : redeem_facts _ _ _ _ _ _ _ _ _ _ _ _ _ _ _ _ |- _ => pose proof (inbox_old _ _ _ _ _ _ _ _ _ _ _ _ _ _ _ _ _ F Hd) as E end. discriminate.
  - match goal with F : redeem_facts _ _ _ _ _ _ _ _ _ _ _ _ _ _ _ _ |- _ => pose proof (inbox_old _ _ _ _ _ _ _ _ _ _ _ _ _ _ _ _ _ F Hd) as E end. discriminate.
  - match goal with F : outbound_facts _ _ _ _ ?c ?o ?rt, P : rt_address ?rt = AProg ?p, B : bm_set _ _ _ = Ok ?r |- _ => exists c, rt, p, r, cfg, tr end.
    repeat (split; [first [assumption|reflexivity]|]). left. split; [reflexivity|]. now apply signed_In.
  - match goal with F : outbound_facts _ _ _ _ ?c ?o ?rt, P : rt_address ?rt = AProg ?p, B : bm_set _ _ _ = Ok ?r |- _ => exists c, rt, p, r, cfg, tr end.
    repeat (split; [first [assumption|reflexivity]|]). right. eauto.
Qed.

Lemma item_kept H s tr s' a o : wreachable H s -> wrun H s tr s' -> outbox_at s a o -> exists o', outbox_at s' a o' /\ same_item o o'.
Proof.
  intros Hr R E. eapply (wrun_ind_from H s (fun t => exists o', outbox_at t a o' /\ same_item o o')); [exact Hr|exact R| | |].
  - exists o. split; [exact E|apply same_item_refl].
  - intros t c t' Hrt (o' & E' & S) Hst. destruct (item_step _ _ _ _ _ _ Hrt Hst E') as [Q|(cf & rt & p & r & cfg & trr & Q & _)]; [eauto|].
    exists (set_sent o' r). split; [exact Q|]. unfold same_item in *. rewrite S. reflexivity.
  - intros t t' (o' & E' & S) W. exists o'. split; [apply (wild_outbox _ _ _ _ W), E'|exact S].
Qed.

Lemma transfer_done H s sg i s' md x a : wreachable H s -> step H s (Call sg i) = Ok s' -> transfer_of i = Some (md, x, a) ->
  exists c m pe f o v, transferred s sg x a s' md c m pe f o v.
Proof.
  intros Hr Hs Ht. destruct (transfer_limits _ _ _ _ _ _ _ _ Hr Hs Ht) as (c & m & pe & f & o & v & _ & _ & _ & _ & T & _). eauto 10.
Qed.

Lemma item_origin H s0 tr s a o : initial s0 -> wrun H s0 tr s -> outbox_at s a o ->
  exists e c m pe f o0 v md x ar, In e tr /\ deposit e a c m pe f o0 v md x ar /\ same_item o0 o.
Proof.
  intros Hi R. revert o. induction R as [|tr s c s' R IH E|tr s s' R IH W]; intros o Ho.
  - exfalso. destruct (ini_accts _ Hi _ _ Ho) as (_ & C & _). discriminate.
  - assert (Hr : wreachable H s) by (exists s0, tr; auto). destruct (outbox_dec s a) as [(o1 & E1)|Hn].
    + assert (S : same_item o1 o).
      { destruct (item_step _ _ _ _ _ _ Hr E E1) as [Q|(cf & rt & p & r & cfg & trr & Q & _)]; unfold outbox_at in *.
        - assert (o1 = o) by congruence. subst. apply same_item_refl.
        - assert (o = set_sent o1 r) by congruence. subst. reflexivity. }
      destruct (IH _ E1) as (e & cf & m & pe & f & o0 & v & md & x & ar & Hin & D & S0).
      exists e, cf, m, pe, f, o0, v, md, x, ar. split; [right; exact Hin|]. split; [exact D|]. unfold same_item in *. rewrite S, S0. reflexivity.
    + destruct (item_made _ _ _ _ _ _ E Ho Hn) as (md & x & ar & Et & Ex). destruct c as [sg i]. cbn [ins] in Et.
      destruct (transfer_done _ _ _ _ _ _ _ _ Hr E Et) as (cf & m & pe & f & o0 & v & T).
      exists (Ev s (Call sg i) s'), cf, m, pe, f, o0, v, md, x, ar. split; [left; reflexivity|]. split; [exact (conj Et (conj Ex T))|].
      pose proof (tr_item _ _ _ _ _ _ _ _ _ _ _ _ T) as Q. rewrite Ex in Q. unfold outbox_at in *. assert (o0 = o) by congruence. subst. apply same_item_refl.
  - apply (IH o), (wild_outbox _ _ _ _ W), Ho.
Qed.

Lemma deposit_once H s0 e e' a tr1 tr2 tr3 s : wreachable H s0 -> wrun H s0 (tr3 ++ e' :: tr2 ++ e :: tr1) s ->
  (exists md x ar, transfer_of (ins (e_call e)) = Some (md, x, ar) /\ xa_outbox_item x = a) ->
  (exists md x ar, transfer_of (ins (e_call e')) = Some (md, x, ar) /\ xa_outbox_item x = a) -> False.
Proof.
  intros Hr R (md & x & ar & Et & Ex) (md' & x' & ar' & Et' & Ex').
  apply wrun_split in R. destruct R as (R & D & _). apply wrun_split in R. destruct R as (A & B & C).
  assert (Hr1 : wreachable H (e_pre e)) by (eapply wrun_reachable; eassumption).
  assert (Hr2 : wreachable H (e_post e)) by (eapply wstep_reachable; eassumption).
  assert (Hr3 : wreachable H (e_pre e')) by (eapply wrun_reachable; eassumption).
  destruct (e_call e) as [sg i], (e_call e') as [sg' i']. cbn [ins] in *.
  destruct (transfer_done _ _ _ _ _ _ _ _ Hr1 B Et) as (? & ? & ? & ? & o & ? & T).
  destruct (transfer_done _ _ _ _ _ _ _ _ Hr3 D Et') as (? & ? & ? & ? & o' & ? & T').
  pose proof (tr_item _ _ _ _ _ _ _ _ _ _ _ _ T) as I1. pose proof (tr_fresh _ _ _ _ _ _ _ _ _ _ _ _ T') as I2. rewrite Ex in I1. rewrite Ex' in I2.
  destruct (item_kept _ _ _ _ _ _ Hr2 C I1) as (o2 & I3 & _). unfold outbox_at in *. congruence.
Qed.

Lemma log_states H s0 tr s p m : initial s0 -> wrun H s0 tr s -> is_ntt_prog p = true -> In m (published s p) ->
  exists e c mt pe f o v md x ar, In e tr /\ deposit e (nm_id (tm_msg m)) c mt pe f o v md x ar /\ states m (nm_id (tm_msg m)) c mt pe f ar v.
Proof.
  intros Hi R Hp. induction R as [|tr s c s' R IH E|tr s s' R IH W].
  - rewrite (initial_published _ _ Hi Hp). intros [].
  - assert (Hr : wreachable H s) by (exists s0, tr; auto). intros Hin.
    assert (Hold : In m (published s p) -> exists e c0 mt pe f o v md x ar, In e (Ev s c s' :: tr) /\
      deposit e (nm_id (tm_msg m)) c0 mt pe f o v md x ar /\ states m (nm_id (tm_msg m)) c0 mt pe f ar v).
    { intros Q. destruct (IH Q) as (e & cf & mt & pe & f & o & v & md & x & ar & Hine & D & S). exists e, cf, mt, pe, f, o, v, md, x, ar. split; [right; exact Hine|]. auto. }
    destruct (log_step _ _ _ _ _ Hr E Hp) as [Q|(cfg & it & trr & rev & cf & o & rt & _ & F & _ & _ & _ & _ & Q)]; rewrite Q in Hin; [auto|].
    destruct Hin as [<-|Hin]; [|auto].
    destruct (item_origin _ _ _ _ _ _ Hi R (of_item _ _ _ _ _ _ _ F)) as (e & c0 & mt & pe & f & o0 & v & md & x & ar & Hine & D & S).
    exists e, c0, mt, pe, f, o0, v, md, x, ar. split; [right; exact Hine|]. cbn [outbound_message tm_msg nm_id]. split; [exact D|].
    destruct D as (Et & Ex & T). destruct (wrun_event _ _ _ _ _ R Hine) as (Hse & tr1 & tr2 & R1 & R2 & _).
    assert (Hre : wreachable H (e_pre e)) by (exists s0, tr1; auto).
    assert (R3 : wrun H (e_pre e) (tr2 ++ [Ev (e_pre e) (e_call e) (e_post e)]) s).
    { eapply wrun_app; [|exact R2]. apply wrun_step; [constructor|exact Hse]. }
    pose proof (wrun_config _ _ _ _ _ _ _ _ Hre R3 (tr_config _ _ _ _ _ _ _ _ _ _ _ _ T) (of_config _ _ _ _ _ _ _ F)) as Hid.
    unfold identity in Hid. unfold same_item in S. rewrite S. destruct T. unfold states. cbn.
    repeat (split; [first [reflexivity|congruence]|]). split; [|exact tr_same_value]. rewrite tr_amount. reflexivity.
  - rewrite (wild_published _ _ _ W). exact IH.
Qed.

Lemma reg_same_id H s a r b r' : wreachable H s -> reg_at s a r -> reg_at s b r' -> rt_id r = rt_id r' -> a = b /\ r = r'.
Proof.
  intros Hr E F Hid. apply wreachable_inv in Hr. destruct (reg_addr _ _ _ Hr E) as (p & -> & _). destruct (reg_addr _ _ _ Hr F) as (q & -> & _).
  assert (p = q) by (eapply (winv_reg_inj _ Hr p q); eassumption). subst q. unfold reg_at in *. split; congruence.
Qed.

Lemma flag_step H s cl s' a id : wreachable H s -> step H s cl = Ok s' -> flag s' a id <> flag s a id ->
  flag s a id = false /\ flag s' a id = true /\
  exists p cfg tr rt o, reg_at s tr rt /\ rt_address rt = AProg p /\ rt_id rt = id /\ outbox_at s a o /\ ob_release o <= st_now s /\
    ((ins cl = IMark (pda_outbox_signer p) cfg a tr /\ In (pda_outbox_signer p) (signers cl)) \/
     (exists rev, is_ntt_prog p = true /\ ins cl = IXRelease p cfg a tr rev true)).
Proof.
  intros Hr Hs Hne. pose proof (wreachable_inv _ _ Hr) as Hi. destruct (outbox_dec s a) as [(o & E)|Hn].
  - destruct (item_step _ _ _ _ _ _ Hr Hs E) as [E'|(cf & rt & p & r & cfg & tr & E' & F & Hp & Ht & Hb & Hw)].
    { exfalso. apply Hne. unfold flag, outbox_at in *. rewrite E, E'. reflexivity. }
    pose proof (reg_id _ _ _ Hi (of_reg _ _ _ _ _ _ _ F)) as Hid. pose proof (of_sent _ _ _ _ _ _ _ F) as Hsent.
    unfold flag, outbox_at in *. rewrite E, E' in *. cbn [set_sent ob_released] in *.
    assert (Hbit : Z.testbit r id = if Z.eqb id (rt_id rt) then true else Z.testbit (ob_released o) id).
    { unfold bm_set, BITS in Hb. destruct (128 <=? rt_id rt) eqn:Q; [lia|]. apply Ok_inj in Hb. subst r.
      rewrite Z.setbit_eqb by lia. destruct (Z.eqb_spec (rt_id rt) id), (Z.eqb_spec id (rt_id rt)); try lia; reflexivity. }
    rewrite Hbit in *. destruct (Z.eqb_spec id (rt_id rt)) as [->|]; [|contradiction].
    unfold bm_get, BITS in Hsent. destruct (128 <=? rt_id rt) eqn:Q; [lia|]. apply Ok_inj in Hsent.
    split; [exact Hsent|]. split; [reflexivity|]. exists p, cfg, tr, rt, o.
    split; [apply F|]. repeat (split; [first [assumption|reflexivity]|]). exact Hw.
  - exfalso. apply Hne. assert (Hf : flag s a id = false).
    { unfold flag. destruct (st_accts s a) as [[ow d]|] eqn:Ea; [|reflexivity]. destruct ow, d; try reflexivity. exfalso. eapply Hn. exact Ea. }
    rewrite Hf. destruct (outbox_dec s' a) as [(o & E)|Hn'].
    + destruct (item_made _ _ _ _ _ _ Hs E Hn) as (md & x & ar & Et & Ex). destruct cl as [sg i]. cbn [ins] in Et.
      destruct (transfer_done _ _ _ _ _ _ _ _ Hr Hs Et) as (? & ? & ? & ? & o' & ? & T). pose proof (tr_item _ _ _ _ _ _ _ _ _ _ _ _ T) as I1.
      rewrite Ex in I1. unfold flag, outbox_at in *. rewrite I1. rewrite (tr_unsent _ _ _ _ _ _ _ _ _ _ _ _ T). apply Z.testbit_0_l.
    + unfold flag. destruct (st_accts s' a) as [[ow d]|] eqn:Ea; [|reflexivity]. destruct ow, d; try reflexivity. exfalso. eapply Hn'. exact Ea.
Qed.

Lemma redeem_exact H s sg x s' : wreachable H s -> step H s (Call sg (IRedeem x)) = Ok s' ->
  exists p ch tm c rt pe m before after, redeemed H s x s' p ch tm c rt pe m before after.
Proof.
  intros Hr Hs. pose proof (wreachable_inv _ _ Hr) as Hi. apply step_inv in Hs. destruct Hs as (Hsg & Hty & He). cbn [exec ins signers typed] in *.
  apply redeem_ok in He. destruct He as (c & rt & p & ch & tm & pe & mt & old & new & irl & orl & am & n & F & Q).
  destruct (redeem_ranges _ _ _ _ _ _ _ _ _ _ _ _ _ _ _ _ Hi F) as (Ram & Wn & Rch & Wi & Wo & Eo & Ec).
  pose proof (winv_now _ Hi) as Hnow. pose proof F as [] . destruct (vtm_typed _ _ _ _ _ Hi rf_msg) as [_ Htm].
  destruct (typed_tm_ranges _ Htm) as (Ra & Rd & _).
  pose proof (untrim_local _ _ _ Ra Rd (mint_dec _ _ _ Hi rf_mint) rf_amount) as Eam.
  pose proof (reg_id _ _ _ Hi rf_reg) as Hid. destruct (reg_addr _ _ _ Hi rf_reg) as (p' & Ereg & Eaddr). assert (p' = p) by congruence. subst p'.
  destruct (config_ok_at _ _ _ Hi rf_config) as (_ & Hok).
  pose proof (count_both _ _ _ (proj1 (proj2 (proj2 Wn))) (proj1 (wco_enabled _ _ Hok)) rf_count) as En.
  cbv zeta in rf_new. destruct rf_new as (votes & Hv & Enew). unfold bm_set, BITS in Hv. destruct (128 <=? rt_id rt) eqn:Q0; [lia|]. apply Ok_inj in Hv.
  assert (Hdl : delivers s x p ch tm c rt pe).
  { unfold bm_get, BITS in rf_enabled. rewrite Q0 in rf_enabled. apply Ok_inj in rf_enabled. constructor; try assumption. unfold reg_at. rewrite <- Ereg. exact rf_reg. }
  set (before := match st_accts s (item_of H ch (tm_msg tm)) with Some _ => Some old | None => None end).
  assert (Hb : match before with Some it => inbox_at s (item_of H ch (tm_msg tm)) it | None => st_accts s (item_of H ch (tm_msg tm)) = None end).
  { unfold before. destruct rf_item as [[E ->]|E]; unfold item_of, inbox_at; [rewrite E; reflexivity|]. unfold has in E. rewrite E. reflexivity. }
  assert (Hini : ib_init old = match before with Some _ => true | None => false end).
  { unfold before. destruct rf_item as [[E ->]|E]; unfold item_of; [rewrite E; reflexivity|]. unfold has in E. rewrite E. apply (item_addr _ _ _ Hi E). }
  assert (Hbo : forall it, before = Some it -> it = old) by (unfold before; destruct (st_accts s _); congruence).
  assert (Hnew : ib_amount new = match before with Some it => ib_amount it | None => local_amount mt (tm_msg tm) end /\
                 ib_recipient new = match before with Some it => ib_recipient it | None => nm_to (tm_msg tm) end /\
                 ib_votes new = Z.setbit (match before with Some it => ib_votes it | None => 0 end) (rt_id rt) /\
                 ib_status new = match before with Some it => ib_status it | None => NotApproved end).
  { subst new votes. rewrite Hini. destruct before as [it|]; cbn; [rewrite (Hbo _ eq_refl); auto|]. auto. }
  destruct Hnew as (N1 & N2 & N3 & N4).
  destruct Q as [(Hlt & ->)|(Hge & Hst & irl' & orl' & ts & HL & ->)].
  - exists p, ch, tm, c, rt, pe, mt, before, new. constructor; try assumption.
    + apply get_put_same.
    + cbv zeta. left. split; [lia|]. split; [exact N4|]. intros b B. apply get_put_other. exact B.
    + cbn. auto.
  - exists p, ch, tm, c, rt, pe, mt, before, (set_status new (ReleaseAfter ts)). constructor; try assumption.
    + apply get_put_same.
    + cbv zeta. right. cbn [set_status ib_votes ib_status]. split; [lia|]. split; [congruence|].
      exists irl, orl, irl', orl', ts. rewrite Eo in *. unfold in_limiter, out_limiter. fold (item_of H ch (tm_msg tm)).
      split; [reflexivity|]. split; [exact rf_irl|]. split; [exact rf_orl|].
      split; [rewrite !get_put_other by discriminate; apply get_put_same|]. split; [rewrite get_put_other by discriminate; apply get_put_same|].
      rewrite <- Eam.
      destruct HL as [(Hc & Hf)|(Hc & ->)].
      * apply RateLimitFacts.consume_consumed_inv in Hc. destruct Hc as (cap & Hcap & Hle & -> & ->).
        pose proof (capacity_spec _ _ _ Wi Hnow Hcap). subst cap. split; [|split; [lia|intros b B1 B2 B3; rewrite !get_put_other by assumption; reflexivity]].
        intros _. split; [reflexivity|]. split; [reflexivity|].
        destruct (RateLimitFacts.refill_inv _ _ _ _ Hf) as (ic & Hic & _). rewrite (RateLimitFacts.refill_exact _ _ _ _ Wo Hnow Ram Hic) in Hf.
        apply Ok_inj in Hf. subst orl'. now rewrite (capacity_spec _ _ _ Wo Hnow Hic).
      * apply RateLimitFacts.consume_delayed_inv in Hc. destruct Hc as (cap & Hcap & Hlt & -> & ->).
        pose proof (capacity_spec _ _ _ Wi Hnow Hcap). subst cap. split; [lia|]. split; [auto|].
        intros b B1 B2 B3. rewrite !get_put_other by assumption. reflexivity.
    + cbn. auto.
Qed.

Lemma inbox_step H s cl s' a it : wreachable H s -> step H s cl = Ok s' -> inbox_at s a it ->
  inbox_at s' a it \/
  (exists x p ch tm c rt pe m after, ins cl = IRedeem x /\ a = item_of H ch (tm_msg tm) /\ redeemed H s x s' p ch tm c rt pe m (Some it) after) \/
  (exists md x r c t, ins cl = (match md with Locking => IReleaseUnlock x r | Burning => IReleaseMint x r end) /\ la_item x = a /\
     config_at s (la_config x) c /\ cf_paused c = false /\ cf_mode c = md /\ ib_status it = ReleaseAfter t /\ t <= st_now s /\ inbox_at s' a (set_status it Released)).
Proof.
  intros Hr Hs Hd. pose proof (wreachable_inv _ _ Hr) as Hi. unfold inbox_at in Hd. destruct (step_change _ _ _ _ Hs a) as [Q|Q]; [left; unfold inbox_at; congruence|].
  rewrite Hd in Q. remember (st_accts s' a) as new eqn:En. destruct cl as [sg i]. cbn [signers ins] in *.
  assert (Hred : forall x, i = IRedeem x -> a = a -> inbox_at s' a it \/
     (exists x p ch tm c rt pe m after, i = IRedeem x /\ a = item_of H ch (tm_msg tm) /\ redeemed H s x s' p ch tm c rt pe m (Some it) after) \/ False).
  { intros x -> _. destruct (redeem_exact _ _ _ _ _ Hr Hs) as (p & ch & tm & c & rt & pe & m & before & after & R).
    destruct (addr_eq_dec a (item_of H ch (tm_msg tm))) as [E|N].
    - right. left. exists x, p, ch, tm, c, rt, pe, m, after. split; [reflexivity|]. split; [exact E|].
      assert (before = Some it) by (pose proof (rd_before _ _ _ _ _ _ _ _ _ _ _ _ _ R) as B; rewrite <- E in B; destruct before; unfold inbox_at in B; congruence). subst. exact R.
    - left. unfold inbox_at. destruct (item_addr _ _ _ Hi Hd) as ((d & Ea) & _).
      destruct (rd_status _ _ _ _ _ _ _ _ _ _ _ _ _ R) as [(_ & _ & K)|(_ & _ & ? & ? & ? & ? & ? & _ & _ & _ & _ & _ & _ & _ & K)];
        rewrite K; try assumption; subst a; discriminate. }
  assert (Ek : forall v, new = v -> st_accts s' a = v) by congruence. clear En. inversion Q; subst; try congruence; olds.
  - destruct (Hred _ eq_refl eq_refl) as [?|[?|[]]]; auto.
  - destruct (Hred _ eq_refl eq_refl) as [?|[?|[]]]; auto.
  - clear Hred. right. right.
    match goal with Q : is_release _ _ _ |- _ => destruct Q as (r & Er) end.
    match goal with Q : release_facts _ _ _ _ _ _ _ |- _ => rename Q into F end.
    exists md, x, r. eexists. exists ts. split; [destruct md; exact Er|]. split; [reflexivity|]. split; [exact (lf_config _ _ _ _ _ _ _ F)|].
    split; [exact (lf_paused _ _ _ _ _ _ _ F)|]. split; [exact (lf_mode _ _ _ _ _ _ _ F)|]. split; [assumption|]. split; [assumption|]. exact (Ek _ eq_refl).
Qed.

Lemma inbox_made H s cl s' a it : wreachable H s -> step H s cl = Ok s' -> st_accts s a = None -> inbox_at s' a it ->
  exists x p ch tm c rt pe m, ins cl = IRedeem x /\ a = item_of H ch (tm_msg tm) /\ redeemed H s x s' p ch tm c rt pe m None it.
Proof.
  intros Hr Hs Hn Hd. unfold inbox_at in Hd. destruct (step_change _ _ _ _ Hs a) as [Q|Q]; [congruence|].
  rewrite Hn, Hd in Q. destruct cl as [sg i]. cbn [signers ins] in *.
  assert (Hred : forall x, i = IRedeem x -> exists x p ch tm c rt pe m, i = IRedeem x /\ a = item_of H ch (tm_msg tm) /\ redeemed H s x s' p ch tm c rt pe m None it).
  { intros x ->. destruct (redeem_exact _ _ _ _ _ Hr Hs) as (p & ch & tm & c & rt & pe & m & before & after & R).
    destruct (addr_eq_dec a (item_of H ch (tm_msg tm))) as [E|N].
    - exists x, p, ch, tm, c, rt, pe, m. split; [reflexivity|]. split; [exact E|]. subst a.
      assert (before = None) by (pose proof (rd_before _ _ _ _ _ _ _ _ _ _ _ _ _ R) as B; destruct before; [unfold inbox_at in B; congruence|reflexivity]). subst.
      pose proof (rd_after _ _ _ _ _ _ _ _ _ _ _ _ _ R) as A. unfold inbox_at in A. assert (after = it) by congruence. subst. exact R.
    - exfalso. destruct (rd_status _ _ _ _ _ _ _ _ _ _ _ _ _ R) as [(_ & _ & K)|(_ & _ & irl & orl & irl' & orl' & t & _ & _ & _ & K1 & K2 & _ & _ & K)].
      + rewrite (K _ N) in Hd. congruence.
      + destruct (addr_eq_dec a (pda_inbox_rl ch)) as [->|]; [unfold in_limiter in *; congruence|].
        destruct (addr_eq_dec a pda_outbox_rl) as [->|]; [unfold out_limiter in *; congruence|]. rewrite (K _ N) in Hd by assumption. congruence. }
  inversion Q; subst; eauto.
Qed.

Lemma inbox_dec s a : winv s -> (exists d, a = pda_inbox d) -> st_accts s a = None \/ exists it, inbox_at s a it.
Proof.
  intros Hi (d & ->). destruct (st_accts s (pda_inbox d)) as [ac|] eqn:E; [right|auto]. destruct (kind_at _ _ _ _ _ _ Hi E) as (it & ->). exists it. exact E.
Qed.

Lemma status_step H s cl s' a it : wreachable H s -> step H s cl = Ok s' -> inbox_at s a it ->
  exists it', inbox_at s' a it' /\ ib_amount it' = ib_amount it /\ ib_recipient it' = ib_recipient it /\ later (ib_status it) (ib_status it') /\
    (forall i, Z.testbit (ib_votes it) i = true -> Z.testbit (ib_votes it') i = true).
Proof.
  intros Hr Hs Hd. destruct (inbox_step _ _ _ _ _ _ Hr Hs Hd) as [Q|[(x & p & ch & tm & c & rt & pe & m & af & _ & -> & R)|(md & x & r & c & t & _ & _ & _ & _ & _ & Hst & _ & E)]].
  - exists it. repeat (split; [first [assumption|reflexivity]|]). split; [constructor|auto].
  - exists af. split; [apply R|]. split; [apply R|]. split; [apply R|]. split.
    + destruct (rd_status _ _ _ _ _ _ _ _ _ _ _ _ _ R) as [(_ & K & _)|(_ & K & ? & ? & ? & ? & t & Kt & _)]; [rewrite K; constructor|rewrite K, Kt; constructor].
    + intros i Hb. rewrite (rd_votes _ _ _ _ _ _ _ _ _ _ _ _ _ R). assert (0 <= i) by (destruct i; [lia|lia|discriminate]).
      rewrite Z.setbit_eqb by (apply (reg_id _ _ _ (wreachable_inv _ _ Hr) (dl_reg _ _ _ _ _ _ _ _ (rd_delivers _ _ _ _ _ _ _ _ _ _ _ _ _ R)))). rewrite Hb. apply orb_true_r.
  - exists (set_status it Released). cbn. repeat (split; [first [assumption|reflexivity]|]). split; [rewrite Hst; constructor|auto].
Qed.

Lemma votes_origin H s0 tr s a it i : initial s0 -> wrun H s0 tr s -> inbox_at s a it -> Z.testbit (ib_votes it) i = true ->
  exists e p ch nm rt, In e tr /\ delivery e p ch nm /\ item_of H ch nm = a /\ reg_at s (pda_reg (AProg p)) rt /\ rt_id rt = i.
Proof.
  intros Hini R. revert it. induction R as [|tr s cl s' R IH E|tr s s' R IH W]; intros it Hd Hb.
  - exfalso. destruct (ini_accts _ Hini _ _ Hd) as (_ & C & _). discriminate.
  - assert (Hr : wreachable H s) by (exists s0, tr; auto). pose proof (wreachable_inv _ _ Hr) as Hi.
    assert (Hr' : wreachable H s') by (eapply wstep_reachable; eassumption).
    assert (Hold : forall it0, inbox_at s a it0 -> Z.testbit (ib_votes it0) i = true ->
       exists e p ch nm rt, In e (Ev s cl s' :: tr) /\ delivery e p ch nm /\ item_of H ch nm = a /\ reg_at s' (pda_reg (AProg p)) rt /\ rt_id rt = i).
    { intros it0 E0 B0. destruct (IH _ E0 B0) as (e & p & ch & nm & rt & In0 & D & Eit & Hreg & Hid). exists e, p, ch, nm, rt.
      split; [right; exact In0|]. repeat (split; [assumption|]). split; [|assumption]. eapply reg_kept; eassumption. }
    assert (Hnew : forall x p ch tm c rt pe m b, ins cl = IRedeem x -> a = item_of H ch (tm_msg tm) -> redeemed H s x s' p ch tm c rt pe m b it ->
       rt_id rt = i -> exists e p ch nm rt, In e (Ev s cl s' :: tr) /\ delivery e p ch nm /\ item_of H ch nm = a /\ reg_at s' (pda_reg (AProg p)) rt /\ rt_id rt = i).
    { intros x p ch tm c rt pe m b Ei Ea Rd Hid. exists (Ev s cl s'), p, ch, (tm_msg tm), rt. split; [left; reflexivity|].
      pose proof (rd_delivers _ _ _ _ _ _ _ _ _ _ _ _ _ Rd) as D.
      split; [exists x, tm, c, rt, pe; auto|]. split; [auto|]. split; [|exact Hid]. eapply reg_kept; [exact E|]. exact (dl_reg _ _ _ _ _ _ _ _ D). }
    assert (Hset : forall x p ch tm c rt pe m b, redeemed H s x s' p ch tm c rt pe m b it ->
       rt_id rt = i \/ Z.testbit (match b with Some it => ib_votes it | None => 0 end) i = true).
    { intros x p ch tm c rt pe m b Rd. rewrite (rd_votes _ _ _ _ _ _ _ _ _ _ _ _ _ Rd) in Hb. assert (0 <= i) by (destruct i; [lia|lia|discriminate]).
      rewrite Z.setbit_eqb in Hb by (apply (reg_id _ _ _ Hi (dl_reg _ _ _ _ _ _ _ _ (rd_delivers _ _ _ _ _ _ _ _ _ _ _ _ _ Rd)))). apply orb_true_iff in Hb. destruct Hb as [Hb|Hb]; [left; lia|auto]. }
    destruct (inbox_dec s a Hi (proj1 (item_addr _ _ _ (wreachable_inv _ _ Hr') Hd))) as [N|(it0 & E0)].
    + destruct (inbox_made _ _ _ _ _ _ Hr E N Hd) as (x & p & ch & tm & c & rt & pe & m & Ei & Ea & Rd).
      destruct (Hset _ _ _ _ _ _ _ _ _ Rd) as [Q|Q]; [eauto|]. rewrite Z.testbit_0_l in Q. discriminate.
    + destruct (inbox_step _ _ _ _ _ _ Hr E E0) as [Q|[(x & p & ch & tm & c & rt & pe & m & af & Ei & Ea & Rd)|(md & x & r & c & t & _ & _ & _ & _ & _ & _ & _ & E1)]].
      * unfold inbox_at in *. assert (it = it0) by congruence. subst. eauto.
      * pose proof (rd_after _ _ _ _ _ _ _ _ _ _ _ _ _ Rd) as A. rewrite <- Ea in A. unfold inbox_at in A, Hd. assert (af = it) by congruence. subst af.
        destruct (Hset _ _ _ _ _ _ _ _ _ Rd) as [Q|Q]; [eauto|]. eauto.
      * unfold inbox_at in *. assert (it = set_status it0 Released) by congruence. subst. cbn in Hb. eauto.
  - destruct (IH it) as (e & p & ch & nm & rt & A & B & C & D & F); [apply (wild_inbox _ _ _ _ W), Hd|exact Hb|].
    exists e, p, ch, nm, rt. repeat (split; [assumption|]). split; [apply (wild_reg _ _ _ _ W), D|exact F].
Qed.

Lemma content_origin H s0 tr s a it : initial s0 -> wrun H s0 tr s -> inbox_at s a it ->
  exists e p ch nm c m, In e tr /\ delivery e p ch nm /\ item_of H ch nm = a /\ config_at (e_pre e) pda_config c /\ st_mints (e_pre e) (cf_mint c) = Some m /\
    ib_recipient it = nm_to nm /\ ib_amount it = local_amount m nm.
Proof.
  intros Hini R. revert it. induction R as [|tr s cl s' R IH E|tr s s' R IH W]; intros it Hd.
  - exfalso. destruct (ini_accts _ Hini _ _ Hd) as (_ & C & _). discriminate.
  - assert (Hr : wreachable H s) by (exists s0, tr; auto). pose proof (wreachable_inv _ _ Hr) as Hi.
    assert (Hr' : wreachable H s') by (eapply wstep_reachable; eassumption).
    destruct (inbox_dec s a Hi (proj1 (item_addr _ _ _ (wreachable_inv _ _ Hr') Hd))) as [N|(it0 & E0)].
    + destruct (inbox_made _ _ _ _ _ _ Hr E N Hd) as (x & p & ch & tm & c & rt & pe & m & Ei & Ea & Rd).
      pose proof (rd_delivers _ _ _ _ _ _ _ _ _ _ _ _ _ Rd) as D. pose proof (dl_config _ _ _ _ _ _ _ _ D) as Hc.
      assert (ra_config x = pda_config) by (eapply config_addr; eassumption).
      exists (Ev s cl s'), p, ch, (tm_msg tm), c, m. split; [left; reflexivity|]. split; [exists x, tm, c, rt, pe; auto|]. split; [auto|].
      split; [cbn; congruence|]. split; [apply Rd|]. split; [apply (rd_recipient _ _ _ _ _ _ _ _ _ _ _ _ _ Rd)|apply (rd_amount _ _ _ _ _ _ _ _ _ _ _ _ _ Rd)].
    + destruct (status_step _ _ _ _ _ _ Hr E E0) as (it1 & E1 & A1 & A2 & _). unfold inbox_at in *. assert (it1 = it) by congruence. subst it1.
      destruct (IH _ E0) as (e & p & ch & nm & c & m & In0 & D & Q1 & Q2 & Q3 & Q4 & Q5). exists e, p, ch, nm, c, m.
      split; [right; exact In0|]. repeat (split; [assumption|]). split; congruence.
  - apply IH, (wild_inbox _ _ _ _ W), Hd.
Qed.

Lemma approved_by H s0 tr s a it : initial s0 -> wrun H s0 tr s -> inbox_at s a it -> ib_status it <> NotApproved ->
  exists tr2 e tr1 p ch tm c m it1 t, tr = tr2 ++ e :: tr1 /\ approves H e a p ch tm c m it1 t /\ (ib_status it = ReleaseAfter t \/ ib_status it = Released).
Proof.
  intros Hini R. revert it. induction R as [|tr s cl s' R IH E|tr s s' R IH W]; intros it Hd Hst.
  - exfalso. destruct (ini_accts _ Hini _ _ Hd) as (_ & C & _). discriminate.
  - assert (Hr : wreachable H s) by (exists s0, tr; auto). pose proof (wreachable_inv _ _ Hr) as Hi.
    assert (Hr' : wreachable H s') by (eapply wstep_reachable; eassumption).
    assert (Hold : forall it0, inbox_at s a it0 -> ib_status it0 <> NotApproved -> (forall t, ib_status it0 = ReleaseAfter t -> ib_status it = ReleaseAfter t \/ ib_status it = Released) ->
       (ib_status it0 = Released -> ib_status it = Released) ->
       exists tr2 e tr1 p ch tm c m it1 t, Ev s cl s' :: tr = tr2 ++ e :: tr1 /\ approves H e a p ch tm c m it1 t /\ (ib_status it = ReleaseAfter t \/ ib_status it = Released)).
    { intros it0 E0 Q Q1 Q2. destruct (IH _ E0 Q) as (tr2 & e & tr1 & p & ch & tm & c & m & it1 & t & -> & A & D).
      exists (Ev s cl s' :: tr2), e, tr1, p, ch, tm, c, m, it1, t. split; [reflexivity|]. split; [exact A|]. destruct D as [D|D]; [apply Q1, D|right; apply Q2, D]. }
    assert (Hnew : forall x p ch tm c rt pe m b, ins cl = IRedeem x -> a = item_of H ch (tm_msg tm) -> redeemed H s x s' p ch tm c rt pe m b it ->
       match b with Some it0 => ib_status it0 | None => NotApproved end = NotApproved ->
       exists tr2 e tr1 p ch tm c m it1 t, Ev s cl s' :: tr = tr2 ++ e :: tr1 /\ approves H e a p ch tm c m it1 t /\ (ib_status it = ReleaseAfter t \/ ib_status it = Released)).
    { intros x p ch tm c rt pe m b Ei Ea Rd Hb. pose proof (rd_status _ _ _ _ _ _ _ _ _ _ _ _ _ Rd) as Q. cbv zeta in Q. rewrite Hb in Q.
      destruct Q as [(_ & C & _)|(Hge & _ & irl & orl & irl' & orl' & t & Et & _)]; [contradiction|].
      assert (Hs : status_at s a = None \/ status_at s a = Some NotApproved).
      { pose proof (rd_before _ _ _ _ _ _ _ _ _ _ _ _ _ Rd) as B. rewrite <- Ea in B. destruct b as [it0|]; [right; rewrite (status_inbox _ _ _ B); congruence|].
        left. unfold status_at. now rewrite B. }
      exists [], (Ev s cl s'), tr, p, ch, tm, c, m, it, t. split; [reflexivity|]. split; [|auto].
      exists x, rt, pe, b. split; [exact Ei|]. split; [auto|]. split; [exact Rd|]. cbn. destruct Hs as [->| ->]; repeat split; try discriminate; assumption. }
    destruct (inbox_dec s a Hi (proj1 (item_addr _ _ _ (wreachable_inv _ _ Hr') Hd))) as [N|(it0 & E0)].
    + destruct (inbox_made _ _ _ _ _ _ Hr E N Hd) as (x & p & ch & tm & c & rt & pe & m & Ei & Ea & Rd). eauto.
    + destruct (inbox_step _ _ _ _ _ _ Hr E E0) as [Q|[(x & p & ch & tm & c & rt & pe & m & af & Ei & Ea & Rd)|(md & x & r & c & t & _ & _ & _ & _ & _ & Hs & _ & E1)]].
      * unfold inbox_at in *. assert (it = it0) by congruence. subst. eauto.
      * pose proof (rd_after _ _ _ _ _ _ _ _ _ _ _ _ _ Rd) as A. rewrite <- Ea in A. unfold inbox_at in A, Hd. assert (af = it) by congruence. subst af.
        destruct (ib_status it0) eqn:Es; [eapply Hnew; eauto| |]; apply (Hold _ E0); try congruence;
          destruct (rd_status _ _ _ _ _ _ _ _ _ _ _ _ _ Rd) as [(_ & K & _)|(_ & K & _)]; cbv zeta in K; rewrite Es in *; try congruence; intros; left; congruence.
      * unfold inbox_at in *. assert (it = set_status it0 Released) by congruence. subst. apply (Hold _ E0); [congruence|right; reflexivity|reflexivity].
  - apply (IH it); [apply (wild_inbox _ _ _ _ W), Hd|exact Hst].
Qed.

Lemma approval_votes H s0 tr s a it : initial s0 -> wrun H s0 tr s -> inbox_at s a it -> ib_status it <> NotApproved ->
  exists tr2 e tr1 c ps, tr = tr2 ++ e :: tr1 /\ config_at (e_pre e) pda_config c /\ NoDup ps /\ cf_threshold c <= Z.of_nat (length ps) /\
    status_at (e_pre e) a <> Some Released /\ (forall t, status_at (e_pre e) a <> Some (ReleaseAfter t)) /\ (exists t, status_at (e_post e) a = Some (ReleaseAfter t)) /\
    forall p, In p ps -> exists rt e' ch nm, reg_at (e_pre e) (pda_reg (AProg p)) rt /\ Z.testbit (cf_enabled c) (rt_id rt) = true /\
      In e' (e :: tr1) /\ delivery e' p ch nm /\ item_of H ch nm = a.
Proof.
  intros Hini R Hd Hst. destruct (approved_by _ _ _ _ _ _ Hini R Hd Hst) as (tr2 & e & tr1 & p & ch & tm & c & m & it1 & t & -> & A & _).
  destruct A as (x & rt & pe & b & Ei & Ea & Rd & S1 & S2 & S3). pose proof (rd_delivers _ _ _ _ _ _ _ _ _ _ _ _ _ Rd) as D.
  apply wrun_split in R. destruct R as (R1 & Es & _).
  assert (Hr1 : wreachable H (e_pre e)) by (exists s0, tr1; auto). pose proof (wreachable_inv _ _ Hr1) as Hi1.
  assert (R2 : wrun H s0 (e :: tr1) (e_post e)) by (destruct e; apply wrun_step; assumption).
  assert (Hge : cf_threshold c <= Z.of_nat (length (both (ib_votes it1) (cf_enabled c)))).
  { destruct (rd_status _ _ _ _ _ _ _ _ _ _ _ _ _ Rd) as [(_ & K & _)|(K & _)]; [|exact K]. exfalso. cbv zeta in K.
    pose proof (rd_before _ _ _ _ _ _ _ _ _ _ _ _ _ Rd) as B. rewrite Ea in B. destruct b as [it0|]; [|congruence]. rewrite (status_inbox _ _ _ B) in S2. apply (S2 t). congruence. }
  pose proof (rd_after _ _ _ _ _ _ _ _ _ _ _ _ _ Rd) as Haf. rewrite Ea in Haf.
  destruct (choose_progs (fun i p => exists rt e' ch nm, rt_id rt = i /\ reg_at (e_pre e) (pda_reg (AProg p)) rt /\ Z.testbit (cf_enabled c) (rt_id rt) = true /\
      In e' (e :: tr1) /\ delivery e' p ch nm /\ item_of H ch nm = a) (both (ib_votes it1) (cf_enabled c))) as (ps & N & L & Hp).
  - apply both_NoDup.
  - intros i Hin. apply both_In in Hin. destruct Hin as (B1 & B2).
    destruct (votes_origin _ _ _ _ _ _ _ Hini R2 Haf B1) as (e' & q & ch' & nm & rt' & In0 & D' & Eit & Hreg & Hid).
    exists q, rt', e', ch', nm. split; [exact Hid|]. split; [exact (redeem_regs _ _ _ _ _ _ _ _ _ _ _ _ _ _ _ Rd Hreg)|]. split; [congruence|auto].
  - intros i j q (r1 & _ & _ & _ & E1 & G1 & _) (r2 & _ & _ & _ & E2 & G2 & _). unfold reg_at in *. assert (r1 = r2) by congruence. congruence.
  - exists tr2, e, tr1, c, ps. split; [reflexivity|]. split.
    { pose proof (dl_config _ _ _ _ _ _ _ _ D) as Hc. assert (ra_config x = pda_config) by (eapply config_addr; eassumption). congruence. }
    split; [exact N|]. split; [lia|]. split; [exact S1|]. split; [exact S2|]. split; [exists t; rewrite (status_inbox _ _ _ Haf); congruence|].
    intros q Hq. destruct (Hp _ Hq) as (i & _ & r1 & e' & ch' & nm & _ & Q). eauto 10.
Qed.

Lemma status_run H s tr s' a it : wreachable H s -> wrun H s tr s' -> inbox_at s a it ->
  exists it', inbox_at s' a it' /\ ib_amount it' = ib_amount it /\ ib_recipient it' = ib_recipient it /\ later (ib_status it) (ib_status it').
Proof.
  intros Hr R E. eapply (wrun_ind_from H s (fun t => exists it', inbox_at t a it' /\ ib_amount it' = ib_amount it /\ ib_recipient it' = ib_recipient it /\ later (ib_status it) (ib_status it')));
  [exact Hr|exact R|exists it; repeat (split; [assumption || reflexivity|]); constructor| |].
  - intros t c t' Hrt (i1 & E1 & A1 & B1 & L1) Hst. destruct (status_step _ _ _ _ _ _ Hrt Hst E1) as (i2 & E2 & A2 & B2 & L2 & _).
  exists i2. split; [exact E2|]. split; [congruence|]. split; [congruence|]. eapply later_trans; eassumption.
  - intros t t' (i1 & E1 & A1) W. exists i1. split; [apply (wild_inbox _ _ _ _ W), E1|exact A1].
Qed.

Lemma released_kept H s tr s' a : wreachable H s -> wrun H s tr s' -> released s a = true -> released s' a = true.
Proof.
  intros Hr R Q. unfold released, status_at in Q. destruct (st_accts s a) as [[p d]|] eqn:E; [|discriminate]. destruct p; try discriminate. destruct d; try discriminate.
  destruct (status_run _ _ _ _ _ _ Hr R E) as (it' & E' & _ & _ & L). destruct (ib_status i); try discriminate. apply later_released in L.
  unfold released. rewrite (status_inbox _ _ _ E'), L. reflexivity.
Qed.

Lemma payout_once H s0 tr s a : wreachable H s0 -> wrun H s0 tr s ->
  (length (filter (pays_item a) tr) <= 1)%nat /\ (released s0 a = true -> filter (pays_item a) tr = []) /\ (filter (pays_item a) tr <> [] -> released s a = true).
Proof.
  intros Hr R. induction R as [|tr s cl s' R IH E|tr s s' R IH W].
  - cbn. repeat split; [lia|congruence].
  - destruct IH as (L & Z0 & K). assert (Hrs : wreachable H s) by (eapply wrun_reachable; eassumption). cbn [filter].
    destruct (pays_item a (Ev s cl s')) eqn:Q.
    + assert (Qp : released s a = false /\ released s' a = true).
      { unfold pays_item, payout in Q. cbn in Q. destruct (release_of (ins cl)) as [x|]; [|discriminate]. destruct (_ && _) eqn:B in Q; [|discriminate].
        destruct (addr_eq_dec _ _) as [<-|]; [|discriminate]. apply andb_true_iff in B. destruct B as [B1 B2]. apply negb_true_iff in B1. auto. }
      destruct Qp as (Q1 & Q2). destruct (filter (pays_item a) tr) as [|e l] eqn:F.
      * cbn. repeat split; [lia| |auto]. intros C. rewrite (released_kept _ _ _ _ _ Hr R C) in Q1. discriminate.
      * rewrite K in Q1 by discriminate. discriminate.
    + split; [exact L|]. split; [exact Z0|]. intros C. eapply released_kept; [exact Hrs| |exact (K C)]. eapply wrun_step; [constructor|exact E].
  - destruct IH as (L & Z0 & K). split; [exact L|]. split; [exact Z0|]. intros C. unfold released, status_at. rewrite (wl_accts _ _ W). exact (K C).
Qed.

(** ** Payouts *)
Lemma paid_when_due H s cl s' a : wreachable H s -> step H s cl = Ok s' -> released s a = false -> released s' a = true ->
  exists md x r c it t, ins cl = (match md with Locking => IReleaseUnlock x r | Burning => IReleaseMint x r end) /\ la_item x = a /\
    config_at s (la_config x) c /\ cf_paused c = false /\ cf_mode c = md /\ inbox_at s a it /\ ib_status it = ReleaseAfter t /\ t <= st_now s.
Proof.
  intros Hr Hs F T. assert (Hd : exists it', inbox_at s' a it' /\ ib_status it' = Released).
  { unfold released, status_at in T. destruct (st_accts s' a) as [[p d]|] eqn:E; [|discriminate]. destruct p; try discriminate. destruct d; try discriminate.
    exists i. split; [exact E|]. destruct (ib_status i); try discriminate. reflexivity. }
  destruct Hd as (it' & Hd & Hst). pose proof (wreachable_inv _ _ Hr) as Hi. assert (Hr' : wreachable H s') by (eapply wstep_reachable; eassumption).
  destruct (inbox_dec s a Hi (proj1 (item_addr _ _ _ (wreachable_inv _ _ Hr') Hd))) as [N|(it0 & E0)].
  - exfalso. destruct (inbox_made _ _ _ _ _ _ Hr Hs N Hd) as (x & p & ch & tm & c & rt & pe & m & _ & _ & Rd).
    destruct (rd_status _ _ _ _ _ _ _ _ _ _ _ _ _ Rd) as [(_ & K & _)|(_ & _ & ? & ? & ? & ? & ? & K & _)]; cbv zeta in K; congruence.
  - assert (Hn : ib_status it0 <> Released).
    { intros Q. unfold released in F. rewrite (status_inbox _ _ _ E0), Q in F. discriminate. }
    destruct (inbox_step _ _ _ _ _ _ Hr Hs E0) as [Q|[(x & p & ch & tm & c & rt & pe & m & af & _ & Ea & Rd)|(md & x & r & c & t & A & B & C & D & G & S & L & _)]].
    + exfalso. unfold inbox_at in *. assert (it0 = it') by congruence. congruence.
    + exfalso. pose proof (rd_after _ _ _ _ _ _ _ _ _ _ _ _ _ Rd) as A. rewrite <- Ea in A. unfold inbox_at in A, Hd. assert (af = it') by congruence. subst af.
      destruct (rd_status _ _ _ _ _ _ _ _ _ _ _ _ _ Rd) as [(_ & K & _)|(_ & _ & ? & ? & ? & ? & ? & K & _)]; cbv zeta in K; congruence.
    + exists md, x, r, c, it0, t. auto 10.
Qed.

(** * The invariant of all executions. *)
From Verif Require Export Ledger SpecRate.
From Verif Require RateLimitFacts BitmapFacts TrimmedFacts.
Local Open Scope Z_scope.

Definition wf_item (i : inbox_item addr) : Prop :=
  ib_init i = true /\ is_u64 (ib_amount i) /\ is_u128 (ib_votes i) /\ (forall t, ib_status i = ReleaseAfter t -> is_i64 t).
Definition wf_vtm (p : prog) (a : addr) (ch : Z) (tm : tr_msg) : Prop :=
  is_u16 ch /\ a = pda_vtm p ch (nm_id (tm_msg tm)) /\ typed_tm tm = true.

(** Which data the programs keep at which address. *)
Definition mgr_shape (a : addr) (d : data) : Prop :=
  match d with
  | DConfig c => a = pda_config
  | DPeer p => exists ch, is_u16 ch /\ a = pda_peer ch /\ is_u8 (pe_decimals p)
  | DOutboxItem o => can_sign a = true /\ is_u64 (ta_amount (ob_amount o)) /\ is_u8 (ta_decimals (ob_amount o)) /\
                     is_u16 (ob_chain o) /\ is_i64 (ob_release o) /\ is_u128 (ob_released o)
  | DOutboxRL r => a = pda_outbox_rl /\ wf_rl r
  | DInboxItem i => (exists d, a = pda_inbox d) /\ wf_item i
  | DInboxRL r => exists ch, is_u16 ch /\ a = pda_inbox_rl ch /\ wf_rl r
  | DReg r => exists p, a = pda_reg (AProg p) /\ rt_address r = AProg p
  | DLut _ => a = pda_lut
  | DXPeer _ => exists ch, is_u16 ch /\ a = pda_xpeer PManager ch
  | DVtm ch tm => wf_vtm PManager a ch tm
  | _ => False
  end.
Definition shape (a : addr) (ac : acct) : Prop :=
  match ac_owner ac with
  | PManager => mgr_shape a (ac_data ac)
  | PTransceiver =>
      match ac_data ac with
      | DXPeer _ => exists ch, is_u16 ch /\ a = pda_xpeer PTransceiver ch
      | DVtm ch tm => wf_vtm PTransceiver a ch tm
      | _ => False
      end
  | _ => wf_foreign a ac \/
         (ac = Acct PWormhole DPosted /\ exists p it, is_ntt_prog p = true /\ a = pda_message p it)
  end.

Record config_ok (s : state) (c : config addr) : Prop := {
  co_prog : exists tp m t, is_token_prog tp = true /\ cf_token_program c = AProg tp /\
              cf_custody c = ata tp token_authority (cf_mint c) /\
              st_mints s (cf_mint c) = Some m /\ mt_prog m = tp /\ (cf_mode c = Burning -> mt_auth m = Some token_authority) /\
              st_toks s (cf_custody c) = Some t;
  co_chain : is_u16 (cf_chain c);
  co_next : 0 <= cf_next c <= 128;
  co_threshold : 0 < cf_threshold c;
  co_enabled : is_u128 (cf_enabled c) /\ (forall i, Z.testbit (cf_enabled c) i = true -> 0 <= i < cf_next c);
  co_regs : forall id, 0 <= id < cf_next c -> exists p, has s (pda_reg (AProg p)) PManager (DReg (Registered 0 id (AProg p)));
  co_orl : exists r, has s pda_outbox_rl PManager (DOutboxRL r) }.

Record inv (s : state) : Prop := {
  inv_now : is_i64 (st_now s);
  inv_ledger : ledger_ok s;
  inv_shape : forall a ac, st_accts s a = Some ac -> shape a ac;
  inv_config : forall c, has s pda_config PManager (DConfig c) -> config_ok s c;
  inv_reg : forall p r, has s (pda_reg (AProg p)) PManager (DReg r) ->
              exists c, has s pda_config PManager (DConfig c) /\ 0 <= rt_id r < cf_next c;
  inv_reg_inj : forall p q r r', has s (pda_reg (AProg p)) PManager (DReg r) -> has s (pda_reg (AProg q)) PManager (DReg r') ->
              rt_id r = rt_id r' -> p = q;
  inv_peer : forall ch pe, has s (pda_peer ch) PManager (DPeer pe) -> exists r, has s (pda_inbox_rl ch) PManager (DInboxRL r) }.

(** ** Initial states *)
Lemma initial_inv s : initial s -> inv s.
Proof.
  intros [Hn Ha Ht Hm _ _].
  assert (Hno : forall a d, has s a PManager d -> False).
  { intros a d E. apply Ha in E. destruct E as (_ & C & _). discriminate. }
  constructor; try (intros; exfalso; eauto; fail); try assumption.
  - split; assumption.
  - intros a [o d] E. specialize (Ha _ _ E). unfold shape. cbn.
    destruct o; auto; destruct Ha as (_ & C & _); discriminate.
Qed.

(** ** Reading the shape *)
Lemma inv_mgr s a d : inv s -> has s a PManager d -> mgr_shape a d.
Proof. intros Hi E. exact (inv_shape _ Hi _ _ E). Qed.
Lemma config_addr s a c : inv s -> has s a PManager (DConfig c) -> a = pda_config.
Proof. intros Hi E. exact (inv_mgr _ _ _ Hi E). Qed.
Lemma orl_addr s a r : inv s -> has s a PManager (DOutboxRL r) -> a = pda_outbox_rl /\ wf_rl r.
Proof. intros Hi E. exact (inv_mgr _ _ _ Hi E). Qed.
Lemma irl_wf s a r : inv s -> has s a PManager (DInboxRL r) -> wf_rl r.
Proof. intros Hi E. apply inv_mgr in E; [|assumption]. destruct E as (?&?&?&?). assumption. Qed.
Lemma item_addr s a i : inv s -> has s a PManager (DInboxItem i) -> (exists d, a = pda_inbox d) /\ wf_item i.
Proof. intros Hi E. exact (inv_mgr _ _ _ Hi E). Qed.
Lemma reg_addr s a r : inv s -> has s a PManager (DReg r) -> exists p, a = pda_reg (AProg p) /\ rt_address r = AProg p.
Proof. intros Hi E. exact (inv_mgr _ _ _ Hi E). Qed.
Lemma reg_id s a r : inv s -> has s a PManager (DReg r) -> 0 <= rt_id r < 128.
Proof.
  intros Hi E. destruct (reg_addr _ _ _ Hi E) as (p & -> & _). destruct (inv_reg _ Hi _ _ E) as (c & Hc & Hr).
  pose proof (co_next _ _ (inv_config _ Hi _ Hc)). lia.
Qed.
Lemma peer_dec s a p : inv s -> has s a PManager (DPeer p) -> is_u8 (pe_decimals p).
Proof. intros Hi E. apply inv_mgr in E; [|assumption]. destruct E as (?&?&?&?). assumption. Qed.
Lemma vtm_typed s a p ch tm : inv s -> has s a p (DVtm ch tm) -> is_u16 ch /\ typed_tm tm = true.
Proof.
  intros Hi E. apply (inv_shape _ Hi) in E. unfold shape in E. cbn in E.
  destruct p; try (destruct E as [(_&_&E)|(E&_)]; [exact E|discriminate]); destruct E as (?&_&?); auto.
Qed.
Lemma mint_dec s a m : inv s -> st_mints s a = Some m -> is_u8 (mt_decimals m).
Proof. intros Hi E. apply (proj2 (inv_ledger _ Hi)) in E. destruct E as (_&_&?&_). assumption. Qed.

Lemma config_ok_at s a c : inv s -> has s a PManager (DConfig c) -> a = pda_config /\ config_ok s c.
Proof. intros Hi E. pose proof (config_addr _ _ _ Hi E). subst. split; [reflexivity|]. now apply inv_config. Qed.

(** ** Ranges of computed values *)
Lemma dust_range a f t x w : is_u64 a -> is_u8 f -> is_u8 t -> remove_dust a f t = Ok (x, w) ->
  is_u64 x /\ is_u64 (ta_amount w) /\ is_u8 (ta_decimals w) /\ x <= a.
Proof.
  intros Ha Hf Ht E. destruct (TrimmedFacts.remove_dust_greatest _ _ _ _ _ Ha Hf Ht E) as (Hd & _ & Hx & _ & _ & Hw & _).
  repeat split; try ilia; rewrite Hd; ilia.
Qed.
Lemma untrim_range w t x : is_u64 (ta_amount w) -> is_u8 (ta_decimals w) -> is_u8 t -> untrim w t = Ok x -> is_u64 x.
Proof.
  destruct w as [a d]; cbn. intros Ha Hd Ht. rewrite TrimmedFacts.untrim_exact by assumption.
  destruct (t <=? d) eqn:E1.
  - destruct (d - t <? 20); [|discriminate]. intros E. apply Ok_inj in E. subst.
    assert (0 < 10 ^ (d - t)) by (apply TrimmedFacts.pow10_pos; lia).
    split; [apply Z.div_pos; ilia|]. apply Z.le_trans with a; [|ilia]. apply Z.div_le_upper_bound; [lia|]. ints. nia.
  - destruct (20 <=? t - d); [discriminate|]. destruct (_ <=? u64_max) eqn:E2; [|discriminate].
    intros E. apply Ok_inj in E. subst. split; [|lia]. assert (0 < 10 ^ (t - d)) by (apply TrimmedFacts.pow10_pos; lia). ints. nia.
Qed.
Lemma typed_tm_ranges tm : typed_tm tm = true ->
  is_u64 (ta_amount (nm_amount (tm_msg tm))) /\ is_u8 (ta_decimals (nm_amount (tm_msg tm))) /\ is_u16 (nm_to_chain (tm_msg tm)).
Proof. unfold typed_tm. intros E. bools. widths. auto. Qed.
Lemma consume_time r now x r' o : is_i64 now -> consume_or_delay r now x = Ok (r', o) ->
  is_i64 (match o with Consumed t | Delayed t => t end).
Proof.
  intros Hn. unfold consume_or_delay. intros E. binds E. destruct (x <=? v).
  - apply Ok_inj in E. inversion E; subst. assumption.
  - binds E. apply Ok_inj in E. inversion E; subst. apply plain_i64_ok in E1. destruct E1; subst; assumption.
Qed.

(** The ranges behind a transfer. *)
Lemma transfer_ranges s sg x a md c mt f pe amount t orl irl orl' irl' ts : inv s -> is_u64 (ar_amount a) ->
  transfer_facts s sg x a md c mt f pe amount t orl irl orl' irl' ts ->
  is_u64 amount /\ is_u64 (ta_amount t) /\ is_u8 (ta_decimals t) /\ is_i64 ts /\ wf_rl orl' /\ wf_rl irl'.
Proof.
  intros Hi Ha F. destruct F.
  destruct (dust_range _ _ _ _ _ Ha (mint_dec _ _ _ Hi tf_mint) (peer_dec _ _ _ Hi tf_peer) tf_dust) as (H1 & H2 & H3 & _).
  pose proof (orl_addr _ _ _ Hi tf_orl) as [_ Wo]. pose proof (irl_wf _ _ _ Hi tf_irl) as Wi. pose proof (inv_now _ Hi) as Hn.
  repeat (split; [assumption|]). destruct tf_limits as [(Hc & Hr)|(Hc & Hq & ->)].
  - pose proof (consume_time _ _ _ _ _ Hn Hc) as Ht. cbn in Ht. split; [assumption|].
    exact (conj (RateLimitFacts.consume_wf _ _ _ _ _ Wo Hn H1 Hc) (RateLimitFacts.refill_wf _ _ _ _ Wi Ht H1 Hr)).
  - pose proof (consume_time _ _ _ _ _ Hn Hc) as Ht. cbn in Ht. split; [assumption|].
    exact (conj (RateLimitFacts.consume_wf _ _ _ _ _ Wo Hn H1 Hc) Wi).
Qed.

Lemma redeem_ranges H s x c rt p chain tm pe mt old new irl orl amount n : inv s ->
  redeem_facts H s x c rt p chain tm pe mt old new irl orl amount n ->
  is_u64 amount /\ wf_item new /\ is_u16 chain /\ wf_rl irl /\ wf_rl orl /\ ra_outbox_rl x = pda_outbox_rl /\ ra_config x = pda_config.
Proof.
  intros Hi F. destruct F. destruct (vtm_typed _ _ _ _ _ Hi rf_msg) as [Hch Hty].
  destruct (typed_tm_ranges _ Hty) as (Ha & Hd & _).
  pose proof (untrim_range _ _ _ Ha Hd (mint_dec _ _ _ Hi rf_mint) rf_amount) as Hx.
  split; [exact Hx|]. split; [|split; [exact Hch|]].
  - cbv zeta in rf_new. destruct rf_new as (votes & Hv & ->).
    pose proof (reg_id _ _ _ Hi rf_reg) as Hid.
    assert (Hold : ib_init old = true -> wf_item old).
    { destruct rf_item as [[_ ->]|E]; [discriminate|]. intros _. apply (item_addr _ _ _ Hi E). }
    assert (Hw : is_u128 votes).
    { eapply BitmapFacts.bm_set_u128; [| |exact Hv]; [|ilia].
      destruct (ib_init old); [apply Hold; reflexivity|cbn; unfold bm_new; ilia]. }
    unfold wf_item; cbn. destruct (ib_init old) eqn:Ei.
    + destruct (Hold eq_refl) as (?&?&?&?). auto.
    + cbn. split; [reflexivity|]. split; [assumption|]. split; [assumption|]. discriminate.
  - split; [eapply irl_wf; eassumption|]. destruct (orl_addr _ _ _ Hi rf_orl). split; [assumption|]. split; [assumption|].
    eapply config_addr; eassumption.
Qed.
Lemma in_limits_ranges now amount irl orl irl' orl' ts : is_i64 now -> is_u64 amount -> wf_rl irl -> wf_rl orl ->
  in_limits now amount irl orl irl' orl' ts -> is_i64 ts /\ wf_rl irl' /\ wf_rl orl'.
Proof.
  intros Hn Ha Wi Wo [(Hc & Hr)|(Hc & ->)]; pose proof (consume_time _ _ _ _ _ Hn Hc) as Ht; cbn in Ht;
  pose proof (RateLimitFacts.consume_wf _ _ _ _ _ Wi Hn Ha Hc).
  - repeat (split; [assumption|]). exact (RateLimitFacts.refill_wf _ _ _ _ Wo Ht Ha Hr).
  - auto.
Qed.

(** ** The invariant is preserved *)
Lemma set_sent_shape s a o id r : inv s -> has s a PManager (DOutboxItem o) -> 0 <= id < 128 ->
  bm_set (ob_released o) id true = Ok r -> mgr_shape a (DOutboxItem (set_sent o r)).
Proof.
  intros Hi E Hid Hr. apply inv_mgr in E; [|assumption]. destruct E as (?&?&?&?&?&?). cbn. repeat (split; [assumption|]).
  eapply BitmapFacts.bm_set_u128; [eassumption| |eassumption]. ilia.
Qed.

Lemma change_shape H s sg i a ac : inv s -> forallb can_sign sg = true -> typed i = true ->
  change H s sg i a (st_accts s a) (Some ac) -> shape a ac.
Proof.
  intros Hi Hsg Hty C. pose proof (inv_now _ Hi) as Hnow. remember (st_accts s a) as old eqn:Eold. remember (Some ac) as new eqn:En.
  destruct C; apply Some_inj in En || discriminate En; subst ac; unfold shape; cbn [ac_owner ac_data mgr_shape].
  - reflexivity.
  - split; [reflexivity|]. now apply RateLimitFacts.rl_new_wf.
  - reflexivity.
  - assert (Hau : u64b (ar_amount a) && u16b (ar_chain a) = true) by (destruct md; cbn in H0; subst i; exact Hty).
    bools. widths. destruct (transfer_ranges _ _ _ _ _ _ _ _ _ _ _ _ _ _ _ _ Hi H2 H1) as (?&?&?&?&_).
    cbn. split; [eapply signed_can; [exact Hsg|]; apply H1|]. repeat (split; [assumption|]). unfold bm_new; ilia.
  - assert (Hau : u64b (ar_amount a) && u16b (ar_chain a) = true) by (destruct md; cbn in H0; subst i; exact Hty).
    bools. widths. destruct (transfer_ranges _ _ _ _ _ _ _ _ _ _ _ _ _ _ _ _ Hi H2 H1) as (?&?&?&?&?&?). eauto.
  - assert (Hau : u64b (ar_amount a) && u16b (ar_chain a) = true) by (destruct md; cbn in H0; subst i; exact Hty).
    bools. widths. destruct (transfer_ranges _ _ _ _ _ _ _ _ _ _ _ _ _ _ _ _ Hi H2 H1) as (?&?&?&?&?&?).
    split; [|assumption]. eapply orl_addr; [eassumption|apply H1].
  - destruct (redeem_ranges _ _ _ _ _ _ _ _ _ _ _ _ _ _ _ _ Hi H0) as (?&?&_). eauto.
  - destruct (redeem_ranges _ _ _ _ _ _ _ _ _ _ _ _ _ _ _ _ Hi H0) as (?&Hw&?&?&?&_&_).
    destruct (in_limits_ranges _ _ _ _ _ _ _ Hnow H5 H7 H8 H3) as (?&?&?).
    split; [eauto|]. destruct Hw as (?&?&?&?). unfold wf_item; cbn. repeat (split; [assumption|]). intros t Q. inversion Q; subst; assumption.
  - destruct (redeem_ranges _ _ _ _ _ _ _ _ _ _ _ _ _ _ _ _ Hi H0) as (?&Hw&?&?&?&_&_).
    destruct (in_limits_ranges _ _ _ _ _ _ _ Hnow H4 H6 H7 H3) as (?&?&?). eauto.
  - destruct (redeem_ranges _ _ _ _ _ _ _ _ _ _ _ _ _ _ _ _ Hi H0) as (?&Hw&?&?&?&?&_).
    destruct (in_limits_ranges _ _ _ _ _ _ _ Hnow H4 H6 H7 H3) as (?&?&?). eauto.
  - destruct (item_addr _ _ _ Hi (lf_item _ _ _ _ _ _ _ H1)) as (? & ?&?&?&?). split; [assumption|]. unfold wf_item; cbn.
    repeat (split; [assumption|]). discriminate.
  - eapply config_addr; eauto.
  - eapply config_addr; eauto.
  - eapply config_addr; eauto.
  - eapply config_addr; eauto.
  - cbn. eauto.
  - exists ch. auto using RateLimitFacts.rl_new_wf.
  - eapply config_addr; eauto.
  - destruct t; try discriminate. cbn. eauto.
  - pose proof (eq_sym Eold) as Er. apply (orl_addr _ _ _ Hi) in Er. destruct Er as [-> Wr]. split; [reflexivity|].
    eapply RateLimitFacts.set_limit_wf; eassumption.
  - pose proof (eq_sym Eold) as Er. apply (inv_mgr _ _ _ Hi) in Er. cbn in Er. destruct Er as (ch' & Hu & Ea & Wr). exists ch'. repeat (split; [assumption|]).
    eapply RateLimitFacts.set_limit_wf; eassumption.
  - destruct H0. eapply set_sent_shape; eauto. eapply reg_id; eauto.
  - destruct H1. eapply set_sent_shape; eauto. eapply reg_id; eauto.
  - right. eauto.
  - destruct p; try discriminate; cbn; eauto.
  - assert (Htm : is_u16 chain /\ typed_tm tm = true).
    { apply (inv_shape _ Hi) in H3. destruct H3 as [(_&_&Q)|(Q&_)]; [|discriminate]. cbn in Q. auto. }
    destruct Htm. destruct p; try discriminate; cbn; split; auto.
  - left. split; [|split; [reflexivity|exact I]]. eapply can_sign_not_reserved, signed_can; eassumption.
  - left. split; [|split; [reflexivity|exact I]]. eapply can_sign_not_reserved, signed_can; eassumption.
  - left. split; [|split; [reflexivity|exact I]]. eapply can_sign_not_reserved, signed_can; eassumption.
  - left. destruct H0 as (?&?&?&?&->). split; [intros []|]. split; [reflexivity|]. cbn. destruct m; auto.
  - left. split; [now apply can_sign_not_reserved|]. split; [reflexivity|]. cbn. destruct d; auto.
    destruct m; [discriminate|exact I].
Qed.

Lemma why_ok H s s' sg i os : inv s -> forallb can_sign sg = true -> typed i = true -> why H s s' sg i os -> Forall op_ok os.
Proof.
  intros Hi Hsg Hty W. destruct W.
  - constructor; [|constructor].
    assert (Hna : forall a, op_auth o = Some a -> a <> token_authority).
    { intros a Ea C. subst a. apply H1 in Ea. apply (signed_can _ _ Hsg) in Ea. discriminate. }
    destruct i; cbn in H0; try discriminate; apply Some_inj in H0; subst o; cbn [typed op_ok] in *; bools; widths;
      repeat match goal with |- _ /\ _ => split end; try assumption; try ilia; try exact I; try (apply Hna; reflexivity); auto.
    + destruct (H2 _ _ _ _ eq_refl) as [Q|Q]; [right|left; assumption]. eapply signed_can; eassumption.
    + eapply signed_can; [exact Hsg|]. apply H1. reflexivity.
  - constructor.
  - constructor; [|constructor]. cbn. auto.
  - cbn in Hty. bools. widths. destruct (transfer_ranges _ _ _ _ _ _ _ _ _ _ _ _ _ _ _ _ Hi H5 H0) as (?&?&_). constructor; [|constructor]. cbn. ilia.
  - cbn in Hty. bools. widths. destruct (transfer_ranges _ _ _ _ _ _ _ _ _ _ _ _ _ _ _ _ Hi H5 H0) as (?&?&_). repeat constructor; cbn; ilia.
  - destruct (item_addr _ _ _ Hi (lf_item _ _ _ _ _ _ _ H0)) as (_&_&?&_). repeat constructor; cbn; ilia.
  - destruct (item_addr _ _ _ Hi (lf_item _ _ _ _ _ _ _ H0)) as (_&_&?&_). repeat constructor; cbn; ilia.
Qed.

Lemma step_ledger H s c s' : inv s -> step H s c = Ok s' -> ledger_ok s' /\ mint_mono s s' /\ custody_mono s s'.
Proof.
  intros Hi Hs. pose proof (step_inv _ _ _ _ Hs) as (Hsg & Hty & _).
  destruct (step_ops _ _ _ _ Hs) as (os & s1 & Ho & Hsame & Hw).
  pose proof (why_ok _ _ _ _ _ _ Hi Hsg Hty Hw) as Hok.
  destruct (run_ops_ok _ _ _ (inv_ledger _ Hi) Hok Ho) as (?&?&?).
  split; [eapply ledger_ok_same; eassumption|]. split; [eapply mint_mono_same; eassumption|eapply custody_mono_same; eassumption].
Qed.

Lemma step_shape H s c s' : inv s -> step H s c = Ok s' -> forall a ac, st_accts s' a = Some ac -> shape a ac.
Proof.
  intros Hi Hs a ac E. pose proof (step_inv _ _ _ _ Hs) as (Hsg & Hty & _).
  destruct (step_change _ _ _ _ Hs a) as [Q|Q].
  - rewrite Q in E. eapply inv_shape; eassumption.
  - rewrite E in Q. eapply change_shape; eassumption.
Qed.

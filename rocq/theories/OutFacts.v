(** * Outbound transfers. *)
From Verif Require Export AuthorityFacts SpecTransfer.
Local Open Scope Z_scope.

Lemma dust_value a f t x w : is_u64 a -> is_u8 f -> is_u8 t -> remove_dust a f t = Ok (x, w) ->
  x = dust_free a f t /\ w = Trim (a / 10 ^ (f - shared f t)) (shared f t).
Proof.
  intros Ha Hf Ht. rewrite TrimmedFacts.remove_dust_exact by assumption. cbv zeta.
  destruct (_ <? 20); [|discriminate]. intros E. apply Ok_inj in E. inversion E. unfold dust_free, shared. auto.
Qed.

Lemma session_neq o d : pda_session o d <> token_authority. Proof. discriminate. Qed.
Lemma owner_neq_session (o d : addr) : o <> pda_session o d.
Proof.
  assert (K : forall n o d, (n = (fix size a := match a with APda _ _ _ x y => S (size x + size y) | _ => 0 end) o)%nat -> o <> pda_session o d).
  { intros n o0 d0 _ E. apply (f_equal (fix size a := match a with APda _ _ _ x y => S (size x + size y) | _ => 0 end)%nat) in E. cbn in E. lia. }
  eapply K. reflexivity.
Qed.

(** The custody account and its owner. *)
Lemma custody_tok s c : inv s -> config_ok s c -> exists t, st_toks s (cf_custody c) = Some t /\ tk_owner t = token_authority /\ tk_mint t = cf_mint c.
Proof.
  intros Hi Hok. destruct (co_prog _ _ Hok) as (tp & m & t & Htp & Et & Ec & Em & Hmp & Hb & Ect). exists t. split; [exact Ect|].
  destruct (proj1 (inv_ledger _ Hi) _ _ Ect) as (_&_&_&_&_&Q1&Q2&_). split; [eapply Q2; eassumption|]. eapply Q1; eassumption.
Qed.

Lemma mint_eta m x : x = mt_withheld m -> with_withheld m x = m.
Proof. intros ->. destruct m; reflexivity. Qed.

(** ** What a transfer did, in terms of the specification. *)
Lemma facts_transferred s sg x a s1 md c mt f pe amount t orl irl orl' irl' ts : inv s -> is_u64 (ar_amount a) ->
  transfer_facts s sg x a md c mt f pe amount t orl irl orl' irl' ts ->
  transferred s sg x a (out_puts s1 x a f pe t orl' irl' ts) md c mt pe f (out_item f a pe t ts) amount.
Proof.
  intros Hi Ha F. pose proof (mint_dec _ _ _ Hi (tf_mint _ _ _ _ _ _ _ _ _ _ _ _ _ _ _ _ F)) as Hf.
  pose proof (peer_dec _ _ _ Hi (tf_peer _ _ _ _ _ _ _ _ _ _ _ _ _ _ _ _ F)) as Ht.
  pose proof (tf_dust _ _ _ _ _ _ _ _ _ _ _ _ _ _ _ _ F) as D.
  destruct (dust_value _ _ _ _ _ Ha Hf Ht D) as (Hx & Hw). destruct (dust_range _ _ _ _ _ Ha Hf Ht D) as (R1 & _ & _ & R2).
  destruct F. frees. constructor; try assumption; try reflexivity; try ilia.
  - now apply signed_In.
  - apply get_put_same.
  - cbn. rewrite Hw, Hx. reflexivity.
Qed.

(** ** Lock (C29) *)
Lemma lock_exact H s sg x a s' : reachable H s -> step H s (Call sg (ITransferLock x a)) = Ok s' ->
  exists c m pe f o v, transferred s sg x a s' Locking c m pe f o v /\
    xa_from x <> cf_custody c /\ fee_of m v = 0 /\
    tk_delegate f = Some (pda_session (tk_owner f) (h_args H a)) /\ v <= tk_delegated f /\
    balance s' (xa_from x) = balance s (xa_from x) - v /\ balance s' (cf_custody c) = balance s (cf_custody c) + v /\
    (forall b, b <> xa_from x -> b <> cf_custody c -> st_toks s' b = st_toks s b) /\
    (exists f', st_toks s' (xa_from x) = Some f' /\ tk_owner f' = tk_owner f /\ tk_delegated f' = tk_delegated f - v) /\
    (forall b, st_mints s' b = st_mints s b).
Proof.
  intros Hr Hs. pose proof (reachable_inv _ _ Hr) as Hi. apply step_inv in Hs. destruct Hs as (Hsg & Hty & He). cbn [exec ins signers typed] in *.
  bools. widths. apply transfer_lock_ok in He.
  destruct He as (c & mt & f & pe & am & t & orl & irl & orl' & irl' & ts & s1 & cu & cu' & F & HT & Hcu & Hcu' & Ha & ->).
  pose proof (facts_transferred s sg x a s1 _ _ _ _ _ _ _ _ _ _ _ _ Hi ltac:(assumption) F) as Tr.
  destruct (config_ok_at _ _ _ Hi (tf_config _ _ _ _ _ _ _ _ _ _ _ _ _ _ _ _ F)) as (Hxa & Hok).
  destruct (custody_tok _ _ Hi Hok) as (ct & Ect & Hco & Hcm). assert (ct = cu) by congruence. subst ct.
  exists c, mt, pe, f, (out_item f a pe t ts), am. split; [exact Tr|].
  pose proof (tok_transfer_ok _ _ _ _ _ _ _ _ _ HT) as (t0 & d & m & t' & E1 & E2 & E3 & _ & _ & _ & _ & _ & Hle & Hsp & _ & _ & Q).
  assert (t0 = f) by (pose proof (tr_from _ _ _ _ _ _ _ _ _ _ _ _ Tr); congruence). subst t0.
  assert (m = mt) by (pose proof (tr_mint _ _ _ _ _ _ _ _ _ _ _ _ Tr); congruence). subst m.
  assert (d = cu) by congruence. subst d.
  assert (Hne : xa_from x <> cf_custody c).
  { intros C. rewrite C in E1. assert (f = cu) by congruence. subst. eapply (no_spend s); [apply Hi|exact Ect|exact Hco| |exact Hsp]. apply session_neq. }
  split; [exact Hne|]. destruct Q as [(Q & _)|(_ & _ & _ & Qm & Qt)]; [contradiction|].
  rewrite Qt, upd_same in Hcu'. apply Some_inj in Hcu'. subst cu'. cbn in Ha.
  assert (Hfee : fee_of mt am = 0) by lia. split; [exact Hfee|].
  apply spend_ok in Hsp. destruct Hsp as (_&_&Ho&Ham&[(Hd & Hdl & Hdd & _)|(_ & C & _)]); [|exfalso; eapply owner_neq_session; exact C].
  split; [exact Hd|]. split; [exact Hdl|]. unfold out_puts, balance. cbn [put set_accts st_toks st_mints]. rewrite Qt.
  rewrite upd_other, !upd_same by assumption. rewrite E1, Ect. cbn. split; [reflexivity|]. split; [lia|].
  split; [|split].
  - intros b B1 B2. rewrite !upd_other by assumption. reflexivity.
  - eexists. split; [reflexivity|]. cbn. auto.
  - intros b. rewrite Qm, upd_eq. destruct (addr_eq_dec b (cf_mint c)) as [->|]; [|reflexivity]. rewrite E3. f_equal. apply mint_eta. lia.
Qed.

(** ** Burn (C30) *)
Lemma burn_exact H s sg x a s' : reachable H s -> step H s (Call sg (ITransferBurn x a)) = Ok s' ->
  exists c m pe f o v, transferred s sg x a s' Burning c m pe f o v /\
    xa_from x <> cf_custody c /\ fee_of m v = 0 /\
    tk_delegate f = Some (pda_session (tk_owner f) (h_args H a)) /\ v <= tk_delegated f /\
    balance s' (xa_from x) = balance s (xa_from x) - v /\
    (forall b, b <> xa_from x -> st_toks s' b = st_toks s b) /\
    (exists f', st_toks s' (xa_from x) = Some f' /\ tk_owner f' = tk_owner f /\ tk_delegated f' = tk_delegated f - v) /\
    st_mints s' (cf_mint c) = Some (with_supply m (mt_supply m - v)) /\
    (forall b, b <> cf_mint c -> st_mints s' b = st_mints s b).
Proof.
  intros Hr Hs. pose proof (reachable_inv _ _ Hr) as Hi. apply step_inv in Hs. destruct Hs as (Hsg & Hty & He). cbn [exec ins signers typed] in *.
  bools. widths. apply transfer_burn_ok in He.
  destruct He as (c & mt & f & pe & am & t & orl & irl & orl' & irl' & ts & s1 & s2 & cu & cu' & F & HT & HB & Hcu & Hcu' & Ha & ->).
  pose proof (facts_transferred s sg x a s2 _ _ _ _ _ _ _ _ _ _ _ _ Hi ltac:(assumption) F) as Tr.
  destruct (config_ok_at _ _ _ Hi (tf_config _ _ _ _ _ _ _ _ _ _ _ _ _ _ _ _ F)) as (Hxa & Hok).
  destruct (custody_tok _ _ Hi Hok) as (ct & Ect & Hco & Hcm). assert (ct = cu) by congruence. subst ct.
  exists c, mt, pe, f, (out_item f a pe t ts), am. split; [exact Tr|].
  pose proof (tok_transfer_ok _ _ _ _ _ _ _ _ _ HT) as (t0 & d & m & t' & E1 & E2 & E3 & _ & _ & _ & _ & _ & Hle & Hsp & _ & _ & Q).
  assert (t0 = f) by (pose proof (tr_from _ _ _ _ _ _ _ _ _ _ _ _ Tr); congruence). subst t0.
  assert (m = mt) by (pose proof (tr_mint _ _ _ _ _ _ _ _ _ _ _ _ Tr); congruence). subst m.
  assert (d = cu) by congruence. subst d.
  assert (Hne : xa_from x <> cf_custody c).
  { intros C. rewrite C in E1. assert (f = cu) by congruence. subst. eapply (no_spend s); [apply Hi|exact Ect|exact Hco| |exact Hsp]. apply session_neq. }
  split; [exact Hne|]. destruct Q as [(Q & _)|(_ & _ & _ & Qm & Qt)]; [contradiction|].
  pose proof (tok_burn_ok _ _ _ _ _ _ _ HB) as (tb & mb & tb' & B1 & B2 & _ & _ & _ & Hble & Hbs & _ & _ & Bt & Bm).
  rewrite Qt, upd_same in B1. apply Some_inj in B1. subst tb. rewrite Qm, upd_same in B2. apply Some_inj in B2. subst mb.
  rewrite Bt, upd_same in Hcu'. apply Some_inj in Hcu'. subst cu'. cbn in Ha.
  apply spend_ok in Hbs. destruct Hbs as (Bp & Bmi & Bo & Bam & [(C & _)|(_ & _ & ->)]).
  { cbn in C. destruct (proj1 (inv_ledger _ Hi) _ _ Ect) as (_&_&_&_&_&_&_&Q). rewrite Q in C by assumption. discriminate. }
  assert (Hfee : fee_of mt am = 0) by lia. split; [exact Hfee|].
  apply spend_ok in Hsp. destruct Hsp as (_&_&Ho&Ham&[(Hd & Hdl & Hdd & _)|(_ & C & _)]); [|exfalso; eapply owner_neq_session; exact C].
  split; [exact Hd|]. split; [exact Hdl|]. unfold out_puts, balance. cbn [put set_accts st_toks st_mints]. rewrite Bt, Qt.
  rewrite !(upd_other _ (cf_custody c)), upd_same by assumption. rewrite E1. cbn. split; [reflexivity|].
  split; [|split; [|split]].
  - intros b D1. rewrite upd_eq. destruct (addr_eq_dec b (cf_custody c)) as [->|D2]; [|rewrite !upd_other by assumption; reflexivity].
    rewrite Ect. f_equal. destruct cu; unfold with_amount; cbn. f_equal. lia.
  - eexists. split; [reflexivity|]. cbn. auto.
  - rewrite Bm, upd_same. f_equal. destruct mt; unfold with_supply, with_withheld; cbn in *. f_equal. lia.
  - intros b D1. rewrite Bm, Qm, !upd_other by assumption. reflexivity.
Qed.

(** ** Both transfers *)
Lemma transfer_inv H s sg i s' md x a : step H s (Call sg i) = Ok s' -> transfer_of i = Some (md, x, a) ->
  exists c mt f pe am t orl irl orl' irl' ts s1, transfer_facts s sg x a md c mt f pe am t orl irl orl' irl' ts /\
    same_prog s s1 /\ s' = out_puts s1 x a f pe t orl' irl' ts /\ is_u64 (ar_amount a).
Proof.
  intros Hs Ht. apply step_inv in Hs. destruct Hs as (Hsg & Hty & He). cbn [ins signers] in *.
  destruct i; try discriminate; cbn [transfer_of] in Ht; apply Some_inj in Ht; inversion Ht; subst; cbn [exec typed] in *; bools; widths.
  - apply transfer_lock_ok in He.
    destruct He as (c & mt & f & pe & am & t & orl & irl & orl' & irl' & ts & s1 & cu & cu' & F & HT & Hcu & Hcu' & Ha & ->).
    exists c, mt, f, pe, am, t, orl, irl, orl', irl', ts, s1. split; [exact F|]. split; [|auto]. eapply tok_accts_transfer; eassumption.
  - apply transfer_burn_ok in He.
    destruct He as (c & mt & f & pe & am & t & orl & irl & orl' & irl' & ts & s1 & s2 & cu & cu' & F & HT & HB & Hcu & Hcu' & Ha & ->).
    exists c, mt, f, pe, am, t, orl, irl, orl', irl', ts, s2. split; [exact F|]. split; [|auto].
    eapply same_prog_trans; [eapply tok_accts_transfer; eassumption|eapply tok_accts_burn; eassumption].
Qed.

Lemma capacity_spec r now c : wf_rl r -> is_i64 now -> capacity_at r now = Ok c -> c = capacity r now.
Proof.
  intros W Hn E. pose proof (RateLimitFacts.capacity_at_ok_le _ _ _ E). rewrite RateLimitFacts.capacity_exact in E by (try assumption; ilia).
  apply Ok_inj in E. exact (eq_sym E).
Qed.

(** ** Limits (C32) *)
Lemma transfer_limits H s sg i s' md x a : reachable H s -> step H s (Call sg i) = Ok s' -> transfer_of i = Some (md, x, a) ->
  exists c m pe f o v orl irl orl' irl', transferred s sg x a s' md c m pe f o v /\
    out_limiter s orl /\ in_limiter s (ar_chain a) irl /\ out_limiter s' orl' /\ in_limiter s' (ar_chain a) irl' /\
    (v <= capacity orl (st_now s) ->
       ob_release o = st_now s /\ orl' = RL (rl_limit orl) (capacity orl (st_now s) - v) (st_now s) /\
       irl' = RL (rl_limit irl) (Z.min (capacity irl (st_now s) + v) (rl_limit irl)) (st_now s)) /\
    (capacity orl (st_now s) < v -> ar_queue a = true /\ ob_release o = st_now s + day /\ orl' = orl /\ irl' = irl) /\
    (forall b, b <> xa_outbox_item x -> b <> pda_outbox_rl -> b <> pda_inbox_rl (ar_chain a) -> st_accts s' b = st_accts s b).
Proof.
  intros Hr Hs Ht. pose proof (reachable_inv _ _ Hr) as Hi. destruct (transfer_inv _ _ _ _ _ _ _ _ Hs Ht) as (c & mt & f & pe & am & t & orl & irl & orl' & irl' & ts & s1 & F & Hsp & -> & Ha).
  pose proof (facts_transferred s sg x a s1 _ _ _ _ _ _ _ _ _ _ _ _ Hi Ha F) as Tr.
  destruct (transfer_ranges _ _ _ _ _ _ _ _ _ _ _ _ _ _ _ _ Hi Ha F) as (Ram & _ & _ & Rts & _ & _).
  exists c, mt, pe, f, (out_item f a pe t ts), am, orl, irl, orl', irl'. split; [exact Tr|]. pose proof (inv_now _ Hi) as Hn.
  destruct F. destruct (orl_addr _ _ _ Hi tf_orl) as (Ho & Wo). pose proof (irl_wf _ _ _ Hi tf_irl) as Wi.
  unfold out_limiter, in_limiter, out_puts. rewrite Ho in *. clear Ho. frees.
  assert (N1 : pda_outbox_rl <> xa_outbox_item x) by (intros C; unfold has in tf_orl; congruence).
  assert (N2 : pda_inbox_rl (ar_chain a) <> xa_outbox_item x) by (intros C; unfold has in tf_irl; congruence).
  split; [exact tf_orl|]. split; [exact tf_irl|].
  split; [rewrite get_put_other by assumption; rewrite get_put_other by discriminate; apply get_put_same|].
  split; [rewrite get_put_other by assumption; apply get_put_same|]. cbn [out_item ob_release].
  destruct tf_limits as [(Hc & Hf)|(Hc & Hq & ->)].
  - apply RateLimitFacts.consume_consumed_inv in Hc. destruct Hc as (cap & Hcap & Hle & -> & ->).
    pose proof (capacity_spec _ _ _ Wo Hn Hcap). subst cap. split; [|split; [lia|]].
    + intros _. split; [reflexivity|]. split; [reflexivity|].
      destruct (RateLimitFacts.refill_inv _ _ _ _ Hf) as (ic & Hic & _). rewrite (RateLimitFacts.refill_exact _ _ _ _ Wi Hn Ram Hic) in Hf.
      apply Ok_inj in Hf. subst irl'. now rewrite (capacity_spec _ _ _ Wi Hn Hic).
    + intros b B1 B2 B3. rewrite !get_put_other by assumption. now rewrite (proj1 Hsp).
  - apply RateLimitFacts.consume_delayed_inv in Hc. destruct Hc as (cap & Hcap & Hlt & -> & ->).
    pose proof (capacity_spec _ _ _ Wo Hn Hcap). subst cap. split; [lia|]. split; [auto|].
    intros b B1 B2 B3. rewrite !get_put_other by assumption. now rewrite (proj1 Hsp).
Qed.

(** ** Deposits as counted in histories *)
Lemma deposit_value_ok s sg x a s' md c m pe f o v : transferred s sg x a s' md c m pe f o v -> deposit_value s x a = v.
Proof. intros T. unfold deposit_value. rewrite (tr_config _ _ _ _ _ _ _ _ _ _ _ _ T), (tr_peer _ _ _ _ _ _ _ _ _ _ _ _ T), (tr_mint _ _ _ _ _ _ _ _ _ _ _ _ T). symmetry. apply T. Qed.


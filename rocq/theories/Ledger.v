(** * Invariants of token accounts and mints. *)
From Verif Require Export Rest.
Local Open Scope Z_scope.

Definition ledger_ok (s : state) : Prop :=
  (forall a t, st_toks s a = Some t -> wf_tok s a t) /\ (forall a m, st_mints s a = Some m -> wf_mint a m).

(** What never changes about mints and about the manager's own token accounts. *)
Definition mint_mono (s s' : state) : Prop :=
  forall a m, st_mints s a = Some m -> exists m', st_mints s' a = Some m' /\ mt_prog m' = mt_prog m /\
    mt_decimals m' = mt_decimals m /\ (mt_auth m = Some token_authority -> mt_auth m' = Some token_authority).
Definition custody_mono (s s' : state) : Prop :=
  forall a t, st_toks s a = Some t -> tk_owner t = token_authority ->
    exists t', st_toks s' a = Some t' /\ tk_owner t' = token_authority /\ tk_mint t' = tk_mint t /\ tk_prog t' = tk_prog t.

Lemma mint_mono_refl s : mint_mono s s. Proof. intros a m E. eauto 10. Qed.
Lemma custody_mono_refl s : custody_mono s s. Proof. intros a m E. eauto 10. Qed.
Lemma mint_mono_trans s1 s2 s3 : mint_mono s1 s2 -> mint_mono s2 s3 -> mint_mono s1 s3.
Proof.
  intros A B a m E. destruct (A _ _ E) as (m' & E' & ? & ? & Ha). destruct (B _ _ E') as (m'' & E'' & ? & ? & Hb).
  exists m''. repeat split; try congruence. auto.
Qed.
Lemma custody_mono_trans s1 s2 s3 : custody_mono s1 s2 -> custody_mono s2 s3 -> custody_mono s1 s3.
Proof.
  intros A B a t E Ho. destruct (A _ _ E Ho) as (t' & E' & Ho' & ? & ?). destruct (B _ _ E' Ho') as (t'' & E'' & ? & ? & ?).
  exists t''. repeat split; congruence.
Qed.

Lemma wf_tok_mono s s' a t : mint_mono s s' -> wf_tok s a t -> wf_tok s' a t.
Proof.
  intros Hm (?&?&?&?&(m & E & Hp)&?&?&?). repeat (split; [assumption|]). destruct (Hm _ _ E) as (m' & E' & Hp' & _).
  split; [exists m'; split; congruence|]. auto.
Qed.

Lemma put_tok_mono s a t : mint_mono s (put_tok a t s). Proof. intros b m E. cbn. eauto 10. Qed.
Lemma put_mint_custody s a m : custody_mono s (put_mint a m s). Proof. intros b m' E. cbn. eauto 10. Qed.

Lemma put_tok_ok s a t : ledger_ok s -> wf_tok s a t -> ledger_ok (put_tok a t s).
Proof.
  intros [Ht Hm] Hw. split; [|exact Hm].
  intros b u. cbn. rewrite upd_eq. destruct (addr_eq_dec b a) as [->|]; intros E.
  - apply Some_inj in E. subst. exact Hw.
  - apply Ht. exact E.
Qed.
Lemma put_mint_ok s a m : ledger_ok s -> wf_mint a m -> mint_mono s (put_mint a m s) -> ledger_ok (put_mint a m s).
Proof.
  intros [Ht Hm] Hw Hmono. split.
  - intros b t E. cbn in E. eapply wf_tok_mono; [exact Hmono|]. auto.
  - intros b u. cbn. rewrite upd_eq. destruct (addr_eq_dec b a) as [->|]; intros E.
    + apply Some_inj in E. subst. exact Hw.
    + apply Hm. exact E.
Qed.
Lemma put_mint_mono s a m0 m : st_mints s a = Some m0 -> mt_prog m = mt_prog m0 -> mt_decimals m = mt_decimals m0 ->
  (mt_auth m0 = Some token_authority -> mt_auth m = Some token_authority) -> mint_mono s (put_mint a m s).
Proof.
  intros E Hp Hd Ha b u Eb. cbn. rewrite upd_eq. destruct (addr_eq_dec b a) as [->|].
  - assert (u = m0) by congruence. subst. eauto 10.
  - eauto 10.
Qed.
Lemma put_mint_mono_new s a m : st_mints s a = None -> mint_mono s (put_mint a m s).
Proof. intros E b u Eb. cbn. rewrite upd_other by congruence. eauto 10. Qed.
Lemma put_tok_custody s a t0 t : st_toks s a = Some t0 -> tk_prog t = tk_prog t0 -> tk_mint t = tk_mint t0 ->
  (tk_owner t0 = token_authority -> tk_owner t = token_authority) -> custody_mono s (put_tok a t s).
Proof.
  intros E Hp Hd Ha b u Eb Ho. cbn. rewrite upd_eq. destruct (addr_eq_dec b a) as [->|].
  - assert (u = t0) by congruence. subst. eauto 10.
  - eauto 10.
Qed.
Lemma put_tok_custody_new s a t : st_toks s a = None -> custody_mono s (put_tok a t s).
Proof. intros E b u Eb Ho. cbn. rewrite upd_other by congruence. eauto 10. Qed.

Lemma wf_tok_amount s a t x : wf_tok s a t -> is_u64 x -> wf_tok s a (with_amount t x).
Proof. intros (?&?&?&?&?&?&?&?) Hx. repeat (split; [assumption|]). assumption. Qed.
Lemma wf_tok_spend s a t auth x t' : wf_tok s a t -> 0 <= x -> spend t auth x = Ok t' -> wf_tok s a t'.
Proof.
  intros Hw Hx E. apply spend_ok in E. destruct E as (Ep & Em & Eo & Ea & [(Hd & Hle & Hl & Hd')|(_ & _ & ->)]); [|exact Hw].
  destruct Hw as (?&?&?&?&?&?&?&Hdel). unfold wf_tok. rewrite Ep, Em, Eo, Ea.
  repeat (split; [assumption|]). split; [rewrite Hl; ilia|]. split; [assumption|]. split; [assumption|]. split; [assumption|].
  intros Ho. rewrite (Hdel Ho) in Hd. discriminate.
Qed.

Lemma fee_range a m x : wf_mint a m -> 0 <= x -> 0 <= fee_of m x <= x.
Proof.
  intros (_ & _ & _ & _ & Hb & Hm & _) Hx. unfold fee_of. destruct (mt_prog m); try lia.
  assert (0 <= (x * mt_bps m + 9999) / 10000 <= x).
  { split; [apply Z.div_pos; nia|]. apply Z.lt_succ_r, Z.div_lt_upper_bound; [lia|]. nia. }
  ilia.
Qed.

(** Side conditions of the operations that occur. *)
Definition op_ok (o : tokop) : Prop :=
  match o with
  | OTransfer _ _ _ _ _ x | OMint _ _ _ _ x | OBurn _ _ _ _ x | OWithdraw _ _ _ x => 0 <= x
  | OInit p a mnt o => is_token_prog p = true /\ (a = ata p o mnt \/ can_sign a = true)
  | OApprove _ _ owner _ x => owner <> token_authority /\ is_u64 x
  | ORevoke _ _ _ => True
  | OSetMintAuth _ _ auth _ => auth <> token_authority
  | OSetOwner _ _ owner _ | OClose _ _ owner => owner <> token_authority
  | OInitMint p a dec _ => is_token_prog p = true /\ can_sign a = true /\ is_u8 dec
  | OSetFee _ _ bps mx => 0 <= bps <= 10000 /\ is_u64 mx
  end.

Lemma can_sign_not_reserved a : can_sign a = true -> ~ reserved a.
Proof. destruct a as [| | |p|p t z x y]; cbn; auto. destruct p; cbn; auto; discriminate. Qed.
Lemma can_sign_not_ata p w m : can_sign (ata p w m) = true -> False.
Proof. discriminate. Qed.

Lemma with_amount_self t : with_amount t (tk_amount t) = t. Proof. destruct t; reflexivity. Qed.

Ltac wfm := unfold wf_mint; cbn; repeat match goal with |- _ /\ _ => split end; first [assumption|ilia].

Lemma run_op_ok s o s' : ledger_ok s -> op_ok o -> run_op s o = Ok s' ->
  ledger_ok s' /\ mint_mono s s' /\ custody_mono s s'.
Proof.
  intros Hl Ho E. pose proof Hl as [Ht Hm].
  destruct o; cbn [run_op op_ok] in *.
  - (* transfer *)
    unfold tok_transfer in E. binds E. gets. bools.
    match goal with E : spend _ _ _ = Ok _ |- _ => rename E into Es end.
    destruct (addr_eqb src dst) eqn:D.
    + bools. subst. auto using mint_mono_refl, custody_mono_refl.
    + binds E. bools. subst. apply addr_eqb_neq in D.
      pose proof (spend_ok _ _ _ _ Es) as (Hp & Hmn & Hown & Ham & _).
      match goal with A : st_toks s src = Some ?u, B : st_toks s dst = Some ?w |- _ => rename u into ts; rename w into td; rename A into As; rename B into Bd end.
      match goal with A : st_mints s _ = Some ?u |- _ => rename u into mm; rename A into Am end.
      match goal with A : spend _ _ _ = Ok ?u |- _ => rename u into ts' end.
      pose proof (Ht _ _ As) as Ws. pose proof (Ht _ _ Bd) as Wd. pose proof (Hm _ _ Am) as Wm.
      pose proof (fee_range _ _ _ Wm Ho) as Hfee.
      assert (L1 : ledger_ok (put_tok src (with_amount ts' (tk_amount ts - x)) s)).
      { apply put_tok_ok; [exact Hl|]. apply wf_tok_amount; [eapply wf_tok_spend; eassumption|]. destruct Ws as (_&_&?&_). ilia. }
      set (s1 := put_tok src _ s) in *.
      assert (L2 : ledger_ok (put_tok dst (with_amount td (tk_amount td + (x - fee_of mm x))) s1)).
      { apply put_tok_ok; [exact L1|]. apply wf_tok_amount; [|ilia]. eapply wf_tok_mono; [apply put_tok_mono|exact Wd]. }
      set (s2 := put_tok dst _ s1) in *.
      assert (Mm : mint_mono s2 (put_mint (tk_mint ts) (with_withheld mm (mt_withheld mm + fee_of mm x)) s2)).
      { eapply put_mint_mono with (m0 := mm); [exact Am|reflexivity..|]. auto. }
      split; [|split].
      * apply put_mint_ok; [exact L2| |exact Mm]. destruct Wm as (?&?&?&?&?&?&?). wfm.
      * eapply mint_mono_trans; [|exact Mm]. eapply mint_mono_trans; apply put_tok_mono.
      * eapply custody_mono_trans; [|apply put_mint_custody].
        eapply custody_mono_trans; [apply (put_tok_custody s src ts (with_amount ts' (tk_amount ts - x))); [exact As|cbn; congruence..]|].
        apply (put_tok_custody s1 dst td); [cbn; rewrite upd_other by congruence; exact Bd|cbn; congruence..].
  - (* mint *)
    unfold tok_mint_to in E. binds E. gets. bools. subst.
    match goal with A : st_toks s _ = Some ?u |- _ => rename u into td; rename A into Ad end.
    match goal with A : st_mints s _ = Some ?u |- _ => rename u into mm; rename A into Am end.
    pose proof (Ht _ _ Ad) as Wd. pose proof (Hm _ _ Am) as Wm.
    assert (L1 : ledger_ok (put_tok dst (with_amount td (tk_amount td + x)) s)).
    { apply put_tok_ok; [exact Hl|]. apply wf_tok_amount; [exact Wd|ilia]. }
    set (s1 := put_tok dst _ s) in *.
    assert (Mm : mint_mono s1 (put_mint (tk_mint td) (with_supply mm (mt_supply mm + x)) s1)).
    { eapply put_mint_mono with (m0 := mm); [exact Am|reflexivity..|]. auto. }
    split; [|split].
    + apply put_mint_ok; [exact L1| |exact Mm]. destruct Wm as (?&?&?&?&?&?&?). wfm.
    + eapply mint_mono_trans; [|exact Mm]. apply put_tok_mono.
    + eapply custody_mono_trans; [|apply put_mint_custody]. eapply put_tok_custody; eauto.
  - (* burn *)
    unfold tok_burn in E. binds E. gets. bools. subst.
    match goal with E : spend _ _ _ = Ok _ |- _ => rename E into Es end.
    pose proof (spend_ok _ _ _ _ Es) as (Hp & Hmn & Hown & Ham & _).
    match goal with A : st_toks s _ = Some ?u |- _ => rename u into td; rename A into Ad end.
    match goal with A : st_mints s _ = Some ?u |- _ => rename u into mm; rename A into Am end.
    match goal with A : spend _ _ _ = Ok ?u |- _ => rename u into td' end.
    pose proof (Ht _ _ Ad) as Wd. pose proof (Hm _ _ Am) as Wm.
    assert (L1 : ledger_ok (put_tok src (with_amount td' (tk_amount td - x)) s)).
    { apply put_tok_ok; [exact Hl|]. apply wf_tok_amount; [eapply wf_tok_spend; eassumption|]. destruct Wd as (_&_&?&_). ilia. }
    set (s1 := put_tok src _ s) in *.
    assert (Mm : mint_mono s1 (put_mint (tk_mint td) (with_supply mm (mt_supply mm - x)) s1)).
    { eapply put_mint_mono with (m0 := mm); [exact Am|reflexivity..|]. auto. }
    split; [|split].
    + apply put_mint_ok; [exact L1| |exact Mm]. destruct Wm as (?&?&?&?&?&?&?). wfm.
    + eapply mint_mono_trans; [|exact Mm]. apply put_tok_mono.
    + eapply custody_mono_trans; [|apply put_mint_custody]. eapply put_tok_custody; eauto; cbn; congruence.
  - (* init *)
    destruct Ho as [Hp Ha]. apply tok_init_ok in E. destruct E as (m & Em & Hpm & _ & Hn & _ & ->).
    split; [|split; [apply put_tok_mono|now apply put_tok_custody_new]].
    apply put_tok_ok; [exact Hl|]. unfold wf_tok; cbn.
    split; [destruct Ha as [->|Hc]; [intros []|now apply can_sign_not_reserved]|].
    split; [assumption|]. split; [ilia|]. split; [ilia|]. split; [eauto|].
    split; [|split; [|reflexivity]].
    + intros q w m0 Hq E. destruct Ha as [->|Hc]; [|subst; discriminate]. clear Em Hpm. inversion E; subst.
      destruct p, q; try discriminate; auto.
    + intros q m0 Hq E. destruct Ha as [->|Hc]; [|subst; discriminate]. inversion E; subst. reflexivity.
  - (* approve *)
    destruct Ho as [Hno Hx]. binds E. gets. bools. subst. split; [|split; [apply put_tok_mono|eapply put_tok_custody; eauto]].
    apply put_tok_ok; [exact Hl|]. destruct (Ht _ _ E0) as (?&?&?&?&?&?&?&?). unfold wf_tok; cbn. repeat (split; [assumption|]).
    intros C. contradiction.
  - (* revoke *)
    binds E. gets. bools. subst. split; [|split; [apply put_tok_mono|eapply put_tok_custody; eauto]].
    apply put_tok_ok; [exact Hl|]. destruct (Ht _ _ E0) as (?&?&?&?&?&?&?&?). unfold wf_tok; cbn. repeat (split; [assumption|]).
    split; [ilia|]. split; [assumption|]. split; [assumption|]. split; [assumption|]. reflexivity.
  - (* set mint authority *)
    binds E. gets. bools. subst.
    match goal with A : st_mints s _ = Some ?u |- _ => rename u into mm; rename A into Am end.
    assert (Mm : mint_mono s (put_mint mnt (Mint (mt_prog mm) (mt_decimals mm) (mt_supply mm) new (mt_bps mm) (mt_maxfee mm) (mt_withheld mm)) s)).
    { eapply put_mint_mono with (m0 := mm); [exact Am|reflexivity..|]. congruence. }
    split; [|split; [exact Mm|apply put_mint_custody]]. apply put_mint_ok; [exact Hl| |exact Mm]. exact (Hm _ _ Am).
  - (* set owner *)
    binds E. gets. bools. subst. split; [|split; [apply put_tok_mono|eapply put_tok_custody; eauto; intros; contradiction]].
    apply put_tok_ok; [exact Hl|]. destruct (Ht _ _ E0) as (?&?&?&?&?&?&Hata&?). unfold wf_tok; cbn.
    repeat (split; [assumption|]). split; [ilia|]. split; [assumption|]. split; [assumption|].
    split; [|reflexivity]. intros p m Hp C. exfalso. apply Ho. eauto.
  - (* close *)
    binds E. gets. bools. subst. split; [|split; [exact (mint_mono_refl s)|]].
    + split; [|exact Hm]. intros b t. cbn. rewrite upd_eq. destruct (addr_eq_dec b a); [discriminate|]. apply Ht.
    + intros b t Eb Hb. cbn. rewrite upd_other by congruence. eauto.
  - (* init mint *)
    destruct Ho as (Hp & Hc & Hd). binds E. bools. frees. subst.
    assert (Mm : mint_mono s (put_mint a (Mint p dec 0 auth 0 0 0) s)) by now apply put_mint_mono_new.
    split; [|split; [exact Mm|apply put_mint_custody]]. apply put_mint_ok; [exact Hl| |exact Mm].
    unfold wf_mint; cbn. split; [now apply can_sign_not_reserved|]. split; [assumption|]. split; [assumption|]. ilia.
  - (* set fee *)
    destruct Ho as [Hb Hx]. binds E. gets. bools. subst.
    match goal with A : st_mints s _ = Some ?u |- _ => rename u into mm; rename A into Am end.
    assert (Mm : mint_mono s (put_mint mnt (Mint (mt_prog mm) (mt_decimals mm) (mt_supply mm) (mt_auth mm) bps mx (mt_withheld mm)) s)).
    { eapply put_mint_mono with (m0 := mm); [exact Am|reflexivity..|]. auto. }
    split; [|split; [exact Mm|apply put_mint_custody]]. apply put_mint_ok; [exact Hl| |exact Mm].
    destruct (Hm _ _ Am) as (?&?&?&?&?&?&?). wfm.
  - (* withdraw *)
    binds E. gets. bools. subst.
    match goal with A : st_toks s _ = Some ?u |- _ => rename u into td; rename A into Ad end.
    match goal with A : st_mints s _ = Some ?u |- _ => rename u into mm; rename A into Am end.
    pose proof (Ht _ _ Ad) as Wd. pose proof (Hm _ _ Am) as Wm.
    assert (L1 : ledger_ok (put_tok dst (with_amount td (tk_amount td + x)) s)).
    { apply put_tok_ok; [exact Hl|]. apply wf_tok_amount; [exact Wd|ilia]. }
    set (s1 := put_tok dst _ s) in *.
    assert (Mm : mint_mono s1 (put_mint (tk_mint td) (with_withheld mm (mt_withheld mm - x)) s1)).
    { eapply put_mint_mono with (m0 := mm); [exact Am|reflexivity..|]. auto. }
    split; [|split].
    + apply put_mint_ok; [exact L1| |exact Mm]. destruct Wm as (?&?&?&?&?&?&?). wfm.
    + eapply mint_mono_trans; [|exact Mm]. apply put_tok_mono.
    + eapply custody_mono_trans; [|apply put_mint_custody]. eapply put_tok_custody; eauto.
Qed.

Lemma run_ops_ok os : forall s s', ledger_ok s -> Forall op_ok os -> run_ops s os = Ok s' ->
  ledger_ok s' /\ mint_mono s s' /\ custody_mono s s'.
Proof.
  induction os as [|o os IH]; intros s s' Hl Ho E; cbn [run_ops] in E.
  - apply Ok_inj in E. subst. auto using mint_mono_refl, custody_mono_refl.
  - apply bind_ok in E. destruct E as (s1 & E1 & E2). inversion Ho as [|? ? Ho1 Ho2]; subst.
    destruct (run_op_ok _ _ _ Hl Ho1 E1) as (L1 & M1 & C1). destruct (IH _ _ L1 Ho2 E2) as (L2 & M2 & C2).
    eauto using mint_mono_trans, custody_mono_trans.
Qed.

Lemma ledger_ok_same s s' : same_ledger s s' -> ledger_ok s -> ledger_ok s'.
Proof. intros [Ht Hm] [Hl1 Hl2]. split; intros a x; [rewrite Ht|rewrite Hm]; intros E; [|auto]. unfold wf_tok. rewrite Hm. apply Hl1. exact E. Qed.
Lemma mint_mono_same s s1 s' : same_ledger s1 s' -> mint_mono s s1 -> mint_mono s s'.
Proof. intros [_ Hm] Q a m E. rewrite Hm. auto. Qed.
Lemma custody_mono_same s s1 s' : same_ledger s1 s' -> custody_mono s s1 -> custody_mono s s'.
Proof. intros [Ht _] Q a m E. rewrite Ht. auto. Qed.

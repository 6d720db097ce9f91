(** * What happens to existing accounts; preservation of the invariant. *)
From Verif Require Export Inv.
Local Open Scope Z_scope.

(** Inversion of a change from a known old account. *)
Ltac olds :=
  repeat match goal with
  | E : Some _ = None \/ _ |- _ => destruct E as [E|[? E]]; [discriminate E|]; try discriminate E
  | E : Some (Acct _ ?d) = Some (Acct _ ?e) |- _ => first [discriminate E|assert (d = e) by congruence; clear E; subst]
  end.

Lemma inbox_old H s x c rt p chain tm pe mt old new irl orl amount n ac :
  redeem_facts H s x c rt p chain tm pe mt old new irl orl amount n ->
  st_accts s (pda_inbox (h_msg H chain (tm_msg tm))) = Some ac -> ac = Acct PManager (DInboxItem old).
Proof. intros F E. destruct (rf_item _ _ _ _ _ _ _ _ _ _ _ _ _ _ _ _ F) as [[C _]|C]; unfold has in *; congruence. Qed.

(** A manager account stays, with the same kind of contents. *)
Definition dkind (d : data) : nat :=
  match d with
  | DConfig _ => 0 | DPeer _ => 1 | DOutboxItem _ => 2 | DOutboxRL _ => 3 | DInboxItem _ => 4 | DInboxRL _ => 5 | DReg _ => 6
  | DLut _ => 7 | DXPeer _ => 8 | DVtm _ _ => 9 | DVaa _ _ _ => 10 | DPosted => 11 | DOther _ => 12
  end%nat.

Lemma kind_kept H s c s' a d : step H s c = Ok s' -> has s a PManager d ->
  exists d', has s' a PManager d' /\ dkind d' = dkind d.
Proof.
  intros Hs Hd. unfold has in *. destruct (step_change _ _ _ _ Hs a) as [Q|Q]; [rewrite Q, Hd; eauto|].
  rewrite Hd in Q. remember (st_accts s' a) as new eqn:En. clear En. inversion Q; subst; try congruence; eauto.
  - olds. eauto.
  - match goal with F : redeem_facts _ _ _ _ _ _ _ _ _ _ _ _ _ _ _ _ |- _ => pose proof (inbox_old _ _ _ _ _ _ _ _ _ _ _ _ _ _ _ _ _ F Hd) as E end.
    inversion E; subst. eauto.
  - match goal with F : redeem_facts _ _ _ _ _ _ _ _ _ _ _ _ _ _ _ _ |- _ => pose proof (inbox_old _ _ _ _ _ _ _ _ _ _ _ _ _ _ _ _ _ F Hd) as E end.
    inversion E; subst. eauto.
  - olds. eauto.
  - olds. eauto.
  - olds.
Qed.

Lemma reg_kept H s c s' a r : step H s c = Ok s' -> has s a PManager (DReg r) -> has s' a PManager (DReg r).
Proof.
  intros Hs Hd. unfold has in *. destruct (step_change _ _ _ _ Hs a) as [Q|Q]; [congruence|].
  rewrite Hd in Q. remember (st_accts s' a) as new eqn:En. clear En. exfalso. inversion Q; subst; try congruence.
  - olds.
  - match goal with F : redeem_facts _ _ _ _ _ _ _ _ _ _ _ _ _ _ _ _ |- _ => pose proof (inbox_old _ _ _ _ _ _ _ _ _ _ _ _ _ _ _ _ _ F Hd) as E end. discriminate.
  - match goal with F : redeem_facts _ _ _ _ _ _ _ _ _ _ _ _ _ _ _ _ |- _ => pose proof (inbox_old _ _ _ _ _ _ _ _ _ _ _ _ _ _ _ _ _ F Hd) as E end. discriminate.
  - olds.
  - olds.
  - olds.
Qed.

Lemma orl_kept H s c s' a r : step H s c = Ok s' -> has s a PManager (DOutboxRL r) -> exists r', has s' a PManager (DOutboxRL r').
Proof. intros Hs Hd. destruct (kind_kept _ _ _ _ _ _ Hs Hd) as (d & E & K). destruct d; try discriminate. eauto. Qed.
Lemma irl_kept H s c s' a r : step H s c = Ok s' -> has s a PManager (DInboxRL r) -> exists r', has s' a PManager (DInboxRL r').
Proof. intros Hs Hd. destruct (kind_kept _ _ _ _ _ _ Hs Hd) as (d & E & K). destruct d; try discriminate. eauto. Qed.

(** How the config changes. *)
Inductive cfg_change (s : state) (sg : list addr) : instr -> config addr -> config addr -> Prop :=
  | CC_transfer o n c : cf_owner c = o -> signed sg o = true -> st_uauth s = Some o ->
      cfg_change s sg (ITransferOwnership pda_config o n) c (with_owner c o (Some n))
  | CC_one_step o n c : cf_owner c = o -> signed sg o = true -> st_uauth s = Some o ->
      cfg_change s sg (ITransferOwnershipOneStep pda_config o n) c (with_owner c n None)
  | CC_claim n c : cf_pending c = Some n \/ cf_owner c = n -> signed sg n = true -> st_uauth s = Some upgrade_lock ->
      cfg_change s sg (IClaimOwnership pda_config n) c (with_owner c n None)
  | CC_paused o b c : cf_owner c = o -> signed sg o = true ->
      cfg_change s sg (ISetPaused pda_config o b) c (with_paused c b)
  | CC_register o p c en : cf_owner c = o -> signed sg o = true -> st_accts s (pda_reg (AProg p)) = None ->
      0 <= cf_next c + 1 <= u8_max -> bm_set (cf_enabled c) (cf_next c) true = Ok en ->
      cfg_change s sg (IRegisterTransceiver pda_config o (AProg p)) c (with_next c (cf_next c + 1) en).

Lemma config_step H s c s' cf : inv s -> step H s c = Ok s' -> has s pda_config PManager (DConfig cf) ->
  exists cf', has s' pda_config PManager (DConfig cf') /\ (cf' = cf \/ cfg_change s (signers c) (ins c) cf cf').
Proof.
  intros Hi Hs Hd. unfold has in *. destruct (step_change _ _ _ _ Hs pda_config) as [Q|Q]; [rewrite Q, Hd; eauto|].
  rewrite Hd in Q. remember (st_accts s' pda_config) as new eqn:En. clear En.
  inversion Q; subst; try congruence; olds;
    try (eexists; split; [reflexivity|]; right; constructor; auto; fail).
  destruct t; try discriminate. eexists. split; [reflexivity|]. right. constructor; auto.
Qed.

Lemma initialize_ok s sg d mnt tp ch l md s' : forallb can_sign sg = true -> initialize s sg d mnt tp ch l md = Ok s' ->
  exists mt s1, signed sg d = true /\ st_uauth s = Some d /\ st_accts s pda_config = None /\ st_accts s pda_outbox_rl = None /\
    is_token_prog tp = true /\ st_mints s mnt = Some mt /\ (md = Burning -> mt_auth mt = Some token_authority) /\
    init_custody s tp mnt = Ok s1 /\
    s' = put pda_outbox_rl PManager (DOutboxRL (rl_new l)) (put pda_config PManager (DConfig (new_config d mnt tp ch md)) s1).
Proof.
  intros Hcs E. unfold initialize in E. binds E. bools. frees. subst s'.
  assert (Hd : st_uauth s = Some d).
  { destruct (st_uauth s); [congruence|]. subst d. match goal with Q : signed _ _ = true |- _ => apply (signed_can sg ANull) in Q; [discriminate|assumption] end. }
  do 2 eexists. repeat (split; [eassumption|]). split; [|split; [eassumption|reflexivity]].
  intros ->. destruct (mt_auth v4); [|discriminate]. bools. congruence.
Qed.

Lemma register_ok s sg cfg o t s' : register_transceiver s sg cfg o t = Ok s' ->
  exists c p en, has s cfg PManager (DConfig c) /\ cf_owner c = o /\ signed sg o = true /\ t = AProg p /\
    st_accts s (pda_reg t) = None /\ 0 <= cf_next c + 1 <= u8_max /\ bm_set (cf_enabled c) (cf_next c) true = Ok en /\
    s' = put cfg PManager (DConfig (with_next c (cf_next c + 1) en)) (put (pda_reg t) PManager (DReg (Registered 0 (cf_next c) t)) s).
Proof.
  intros E. unfold register_transceiver in E. binds E. gets. bools. frees. destruct t; try discriminate.
  match goal with Q : plain _ _ = Ok _ |- _ => apply plain_ok in Q; destruct Q as [-> ?] end. subst s'. eauto 15.
Qed.

Lemma config_new H s c s' cf : step H s c = Ok s' -> st_accts s pda_config = None ->
  has s' pda_config PManager (DConfig cf) ->
  exists d mnt tp ch l md mt, ins c = IInitialize d mnt tp ch l md /\ cf = new_config d mnt tp ch md /\
    signed (signers c) d = true /\ st_uauth s = Some d /\ is_token_prog tp = true /\ st_mints s mnt = Some mt /\
    (md = Burning -> mt_auth mt = Some token_authority) /\ is_u16 ch.
Proof.
  intros Hs Hn Hd. unfold has in *. destruct (step_change _ _ _ _ Hs pda_config) as [Q|Q]; [congruence|].
  rewrite Hd, Hn in Q. inversion Q; subst. eauto 15.
Qed.

Lemma get_put_other s a p d b : b <> a -> st_accts (put a p d s) b = st_accts s b.
Proof. intros Hn. cbn. apply upd_other, Hn. Qed.

(** What can be found at a derived address of the manager. *)
Lemma kind_at s t z x y ac : inv s -> st_accts s (APda PManager t z x y) = Some ac ->
  match t with
  | TConfig => exists c, ac = Acct PManager (DConfig c)
  | TOutboxRL => exists r, ac = Acct PManager (DOutboxRL r)
  | TInboxRL => exists r, ac = Acct PManager (DInboxRL r)
  | TPeer => exists r, ac = Acct PManager (DPeer r)
  | TInbox => exists r, ac = Acct PManager (DInboxItem r)
  | TReg => exists r, ac = Acct PManager (DReg r)
  | TLut => exists r, ac = Acct PManager (DLut r)
  | TXPeer => exists r, ac = Acct PManager (DXPeer r)
  | TVtm => exists c m, ac = Acct PManager (DVtm c m)
  | TMessage => ac = Acct PWormhole DPosted
  | _ => False
  end.
Proof.
  intros Hi E. pose proof (inv_shape _ Hi _ _ E) as Sh. unfold shape in Sh. destruct ac as [o d]. cbn in Sh.
  destruct o; try (destruct Sh as [(Q&_)|(Ee&p&it&Hp&Q)]; [exfalso; apply Q; exact I|inversion Q; subst; try discriminate Ee]).
  - exact Ee.
  - destruct d; cbn in Sh; try contradiction.
    + inversion Sh; subst. eauto.
    + destruct Sh as (?&?&Q&?); inversion Q; subst; eauto.
    + destruct Sh; discriminate.
    + destruct Sh as [Q ?]; inversion Q; subst; eauto.
    + destruct Sh as ((?&Q)&_); inversion Q; subst; eauto.
    + destruct Sh as (?&?&Q&?); inversion Q; subst; eauto.
    + destruct Sh as (?&Q&?); inversion Q; subst; eauto.
    + inversion Sh; subst; eauto.
    + destruct Sh as (?&?&Q); inversion Q; subst; eauto.
    + destruct Sh as (?&Q&?); inversion Q; subst; eauto.
  - destruct d; cbn in Sh; try contradiction; [destruct Sh as (?&?&Q)|destruct Sh as (?&Q&?)]; discriminate.
Qed.

Lemma no_config s : inv s -> (forall c, ~ has s pda_config PManager (DConfig c)) -> st_accts s pda_config = None.
Proof.
  intros Hi Hn. destruct (st_accts s pda_config) as [ac|] eqn:E; [exfalso|reflexivity].
  destruct (kind_at _ _ _ _ _ _ Hi E) as [c ->]. eapply Hn, E.
Qed.
Lemma config_dec s : inv s -> st_accts s pda_config = None \/ exists c, has s pda_config PManager (DConfig c).
Proof.
  intros Hi. destruct (st_accts s pda_config) as [ac|] eqn:E; [right|auto].
  destruct (kind_at _ _ _ _ _ _ Hi E) as [c ->]. eauto.
Qed.

(** ** Preservation *)
Definition cfg_same (c c' : config addr) : Prop :=
  cf_mint c' = cf_mint c /\ cf_token_program c' = cf_token_program c /\ cf_mode c' = cf_mode c /\ cf_chain c' = cf_chain c /\
  cf_threshold c' = cf_threshold c /\ cf_custody c' = cf_custody c.

Lemma cfg_change_same s sg i c c' : cfg_change s sg i c c' -> cfg_same c c'.
Proof. intros []; repeat split. Qed.

Lemma cfg_change_next s sg i c c' : cfg_change s sg i c c' ->
  (cf_next c' = cf_next c /\ cf_enabled c' = cf_enabled c) \/
  (exists o p en, i = IRegisterTransceiver pda_config o (AProg p) /\ c' = with_next c (cf_next c + 1) en /\
     bm_set (cf_enabled c) (cf_next c) true = Ok en /\ st_accts s (pda_reg (AProg p)) = None).
Proof. intros [| | | |]; auto. right. eauto 10. Qed.

Lemma co_prog_mono s s' c c' : mint_mono s s' -> custody_mono s s' -> ledger_ok s -> cfg_same c c' ->
  config_ok s c -> exists tp m t, is_token_prog tp = true /\ cf_token_program c' = AProg tp /\
              cf_custody c' = ata tp token_authority (cf_mint c') /\
              st_mints s' (cf_mint c') = Some m /\ mt_prog m = tp /\ (cf_mode c' = Burning -> mt_auth m = Some token_authority) /\
              st_toks s' (cf_custody c') = Some t.
Proof.
  intros Hm Hc Hl (-> & -> & -> & _ & _ & ->) Hok. destruct (co_prog _ _ Hok) as (tp & m & t & Htp & Et & Ec & Em & Hp & Hb & Ect).
  destruct (Hm _ _ Em) as (m' & Em' & Hp' & _ & Ha).
  assert (Ho : tk_owner t = token_authority).
  { destruct (proj1 Hl _ _ Ect) as (_&_&_&_&_&_&Q&_). eapply Q; [|exact Ec]. assumption. }
  destruct (Hc _ _ Ect Ho) as (t' & Et' & _). exists tp, m', t'. repeat (split; [first [assumption|congruence]|]).
  split; [|assumption]. auto.
Qed.

Lemma step_inv_pres H s c s' : inv s -> step H s c = Ok s' -> inv s'.
Proof.
  intros Hi Hs. pose proof (step_inv _ _ _ _ Hs) as (Hsg & Hty & He).
  pose proof (step_ledger _ _ _ _ Hi Hs) as (Hl & Hm & Hc).
  assert (Hreg : forall a r, has s' a PManager (DReg r) -> has s a PManager (DReg r) \/
            exists cf p en, has s pda_config PManager (DConfig cf) /\ a = pda_reg (AProg p) /\ r = Registered 0 (cf_next cf) (AProg p) /\
              has s' pda_config PManager (DConfig (with_next cf (cf_next cf + 1) en))).
  { intros a r E. unfold has in *. destruct (step_change _ _ _ _ Hs a) as [Q|Q]; [left; congruence|right].
    rewrite E in Q. inversion Q; subst.
    match goal with Q : _ = ins c |- _ => rewrite <- Q in He end. cbn [exec] in He.
    apply register_ok in He. destruct He as (cf' & p & en' & E1 & _ & _ & -> & _ & _ & _ & ->).
    pose proof (config_addr _ _ _ Hi E1). subst. unfold has in *. assert (cf' = c0) by congruence. subst.
    exists c0, p, en'. repeat (split; [first [assumption|reflexivity]|]). apply get_put_same. }
  assert (Hcfg : forall cf, has s' pda_config PManager (DConfig cf) ->
            (exists cf0, has s pda_config PManager (DConfig cf0) /\ (cf = cf0 \/ cfg_change s (signers c) (ins c) cf0 cf)) \/
            st_accts s pda_config = None).
  { intros cf E. destruct (config_dec _ Hi) as [Q|[cf0 Q]]; [auto|left].
    destruct (config_step _ _ _ _ _ Hi Hs Q) as (cf' & E' & Hch). unfold has in *. assert (cf' = cf) by congruence. subst. eauto. }
  constructor.
  - pose proof (step_rest _ _ _ _ Hs) as R. pose proof (inv_now _ Hi). inversion R; subst; assumption.
  - exact Hl.
  - eapply step_shape; eassumption.
  - intros cf E. destruct (Hcfg _ E) as [(cf0 & E0 & Hch)|Hn].
    + pose proof (inv_config _ Hi _ E0) as Hok.
      assert (Hsame : cfg_same cf0 cf) by (destruct Hch as [->|Hch]; [repeat split|eapply cfg_change_same; eassumption]).
      pose proof (co_prog_mono _ _ _ _ Hm Hc (inv_ledger _ Hi) Hsame Hok) as Hprog. destruct Hok as [_ co_chain0 co_next0 co_threshold0 co_enabled0 co_regs0 co_orl0].
      destruct Hsame as (_&_&_&S1&S2&_).
      assert (Horl : exists r, has s' pda_outbox_rl PManager (DOutboxRL r)) by (destruct co_orl0; eapply orl_kept; eassumption).
      assert (Hnx : (cf_next cf = cf_next cf0 /\ cf_enabled cf = cf_enabled cf0) \/
                 (exists o p en, ins c = IRegisterTransceiver pda_config o (AProg p) /\ cf = with_next cf0 (cf_next cf0 + 1) en /\
                   bm_set (cf_enabled cf0) (cf_next cf0) true = Ok en /\ st_accts s (pda_reg (AProg p)) = None))
        by (destruct Hch as [->|Hch]; [auto|eapply cfg_change_next; eassumption]).
      constructor; try assumption; try congruence.
      * destruct Hnx as [(-> & _)|(o & p & en & _ & -> & Hen & _)]; [assumption|]. cbn.
        unfold bm_set, BITS in Hen. destruct (128 <=? cf_next cf0) eqn:Q; [discriminate|lia].
      * destruct Hnx as [(-> & ->)|(o & p & en & _ & -> & Hen & _)]; [assumption|]. cbn. destruct co_enabled0 as [Hu Hb].
        split; [eapply BitmapFacts.bm_set_u128; [exact Hu| |exact Hen]; ilia|].
        intros i Ti. unfold bm_set, BITS in Hen. destruct (128 <=? cf_next cf0) eqn:Q; [discriminate|]. apply Ok_inj in Hen. subst en.
        destruct (Z_lt_le_dec i 0) as [Hneg|Hpos]; [rewrite Z.testbit_neg_r in Ti by assumption; discriminate|].
        rewrite Z.setbit_eqb in Ti by lia. apply orb_true_iff in Ti. destruct Ti as [Ti|Ti]; [lia|]. apply Hb in Ti. lia.
      * intros id Hid. destruct Hnx as [(Hx & _)|(o & p & en & Hins & -> & Hen & _)].
        -- rewrite Hx in Hid. destruct (co_regs0 _ Hid) as (p & Ep). exists p. eapply reg_kept; eassumption.
        -- cbn in Hid. destruct (Z.eq_dec id (cf_next cf0)) as [->|Hne].
           ++ rewrite Hins in He. cbn [exec] in He. apply register_ok in He.
              destruct He as (cf1 & p' & en' & E1 & _ & _ & Ep & _ & _ & _ & ->). inversion Ep; subst p'. unfold has in E0, E1. assert (cf1 = cf0) by congruence. subst.
              exists p. unfold has. rewrite get_put_other by discriminate. apply get_put_same.
           ++ destruct (co_regs0 id ltac:(lia)) as (q & Eq). exists q. eapply reg_kept; eassumption.
    + destruct (config_new _ _ _ _ _ Hs Hn E) as (d & mnt & tp & ch & l & md & mt & Hins & -> & _ & _ & Htp & Hmt & Hb & Hch).
      rewrite Hins in He. cbn [exec] in He. apply initialize_ok in He; [|assumption].
      destruct He as (mt' & s1 & _ & _ & _ & _ & _ & _ & _ & Hcu & ->).
      assert (Hmp : mt_prog mt = tp /\ exists t, st_toks s1 (ata tp token_authority mnt) = Some t).
      { apply init_custody_ok in Hcu. destruct Hcu as (_ & _ & [(t & Et & Hp & Hmn & _ & ->)|(m & Em & Hp & _ & ->)]).
        - split; [|eauto]. destruct (proj1 (inv_ledger _ Hi) _ _ Et) as (_&_&_&_&(m & Em & Hpm)&_). rewrite Hmn in Em. congruence.
        - split; [congruence|]. cbn. rewrite upd_same. eauto. }
      destruct Hmp as (Hp & t & Et). apply init_custody_ok in Hcu. destruct Hcu as (_ & Hms & _).
      constructor; cbn; try lia; try assumption.
      * exists tp, mt, t. rewrite Hms. repeat (split; [first [assumption|reflexivity]|]). assumption.
      * unfold bm_new. split; [ilia|]. intros i Q. rewrite Z.testbit_0_l in Q. discriminate.
      * eexists. apply get_put_same.
  - intros p r E. destruct (Hreg _ _ E) as [E0|(cf & q & en & E0 & Ea & -> & E1)].
    + destruct (inv_reg _ Hi _ _ E0) as (cf & Ec & Hr). destruct (config_step _ _ _ _ _ Hi Hs Ec) as (cf' & E' & Hch).
      exists cf'. split; [assumption|]. destruct Hch as [->|Hch]; [assumption|]. apply cfg_change_next in Hch.
      destruct Hch as [(-> & _)|(?&?&?&_&->&_)]; [assumption|cbn; lia].
    + exists (with_next cf (cf_next cf + 1) en). split; [assumption|]. cbn. pose proof (co_next _ _ (inv_config _ Hi _ E0)). lia.
  - intros p q r r' Ep Eq Hid.
    destruct (Hreg _ _ Ep) as [E0|(cf & p' & en & E0 & Ea & -> & E1)], (Hreg _ _ Eq) as [F0|(cf2 & q' & en2 & F0 & Fa & -> & F1)].
    + eapply inv_reg_inj; eassumption.
    + destruct (inv_reg _ Hi _ _ E0) as (cf & Ec & Hr). cbn in Hid. unfold has in *. assert (cf2 = cf) by congruence. subst. lia.
    + destruct (inv_reg _ Hi _ _ F0) as (cf2 & Ec & Hr). cbn in Hid. unfold has in *. assert (cf2 = cf) by congruence. subst. lia.
    + unfold has in Ep, Eq. pose proof (step_change _ _ _ _ Hs (pda_reg (AProg p))) as [Q|Q].
      * (* the registration is new, so this account changed *)
        rewrite Ep in Q. symmetry in Q. destruct (inv_reg _ Hi _ _ Q) as (cf3 & Ec & Hr). unfold has in *. assert (cf3 = cf) by congruence. subst. cbn in Hr. lia.
      * pose proof (step_change _ _ _ _ Hs (pda_reg (AProg q))) as [Q2|Q2].
        -- rewrite Eq in Q2. symmetry in Q2. destruct (inv_reg _ Hi _ _ Q2) as (cf3 & Ec & Hr). unfold has in *. assert (cf3 = cf2) by congruence. subst. cbn in Hr. lia.
        -- rewrite Ep in Q. rewrite Eq in Q2. inversion Q; subst. inversion Q2; subst. congruence.
  - intros ch pe E. unfold has in E. destruct (step_change _ _ _ _ Hs (pda_peer ch)) as [Q|Q].
    + rewrite E in Q. symmetry in Q. destruct (inv_peer _ Hi _ _ Q) as (r & Er). eapply irl_kept; eassumption.
    + rewrite E in Q. inversion Q; subst. match goal with Q : _ = ins c |- _ => rewrite <- Q in He end. cbn [exec] in He.
      unfold set_peer in He. binds He. bools. subst. eexists. apply get_put_same.
Qed.

Lemma run_inv H s0 tr s : inv s0 -> run H s0 tr s -> inv s.
Proof. intros Hi R. induction R; [assumption|]. eapply step_inv_pres; eauto. Qed.

Lemma reachable_inv H s : reachable H s -> inv s.
Proof. intros (s0 & tr & Hi & R). eapply run_inv; [apply initial_inv; exact Hi|exact R]. Qed.

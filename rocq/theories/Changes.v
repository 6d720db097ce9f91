(** * Every change of an account, by instruction.

    [change H s sg i a old new]: instruction [i] signed by [sg] in state [s] replaces the account [old] at [a] by [new].
    [step_change] proves that every account either stays as it is or changes in one of these ways. *)
From Verif Require Export ManagerFacts.
Local Open Scope Z_scope.

Notation M d := (Some (Acct PManager d)).

Definition new_config (d mnt : addr) (tp : prog) (ch : Z) (md : mode) : config addr :=
  Config 0 d None mnt (AProg tp) md ch 0 1 bm_new false (ata tp token_authority mnt).
Definition with_paused (c : config addr) (b : bool) : config addr :=
  Config (cf_bump c) (cf_owner c) (cf_pending c) (cf_mint c) (cf_token_program c) (cf_mode c) (cf_chain c)
         (cf_next c) (cf_threshold c) (cf_enabled c) b (cf_custody c).
Definition with_next (c : config addr) (n e : Z) : config addr :=
  Config (cf_bump c) (cf_owner c) (cf_pending c) (cf_mint c) (cf_token_program c) (cf_mode c) (cf_chain c)
         n (cf_threshold c) e (cf_paused c) (cf_custody c).

(** Which instructions are transfers of which mode. *)
Definition is_transfer (i : instr) (x : transfer_accts) (a : targs) (md : mode) : Prop :=
  match md with Locking => i = ITransferLock x a | Burning => i = ITransferBurn x a end.
Definition is_release (i : instr) (x : release_accts) (md : mode) : Prop :=
  exists r, match md with Locking => i = IReleaseUnlock x r | Burning => i = IReleaseMint x r end.

Inductive change (H : hashes) (s : state) (sg : list addr) : instr -> addr -> option acct -> option acct -> Prop :=
  | Ch_init_config d mnt tp ch l md mt :
      signed sg d = true -> st_uauth s = Some d -> is_token_prog tp = true -> st_mints s mnt = Some mt ->
      (md = Burning -> mt_auth mt = Some token_authority) -> is_u16 ch ->
      change H s sg (IInitialize d mnt tp ch l md) pda_config None (M (DConfig (new_config d mnt tp ch md)))
  | Ch_init_orl d mnt tp ch l md :
      st_accts s pda_config = None -> is_u64 l ->
      change H s sg (IInitialize d mnt tp ch l md) pda_outbox_rl None (M (DOutboxRL (rl_new l)))
  | Ch_lut cfg orl x ok old :
      (old = None \/ exists l, old = M (DLut l)) ->
      change H s sg (IInitializeLut cfg orl x ok) pda_lut old (M (DLut (Lut 0 x)))
  | Ch_out_item i x a md c mt f pe amount t orl irl orl' irl' ts :
      is_transfer i x a md -> transfer_facts s sg x a md c mt f pe amount t orl irl orl' irl' ts ->
      change H s sg i (xa_outbox_item x) None (M (DOutboxItem (out_item f a pe t ts)))
  | Ch_out_irl i x a md c mt f pe amount t orl irl orl' irl' ts :
      is_transfer i x a md -> transfer_facts s sg x a md c mt f pe amount t orl irl orl' irl' ts ->
      change H s sg i (pda_inbox_rl (ar_chain a)) (M (DInboxRL irl)) (M (DInboxRL irl'))
  | Ch_out_orl i x a md c mt f pe amount t orl irl orl' irl' ts :
      is_transfer i x a md -> transfer_facts s sg x a md c mt f pe amount t orl irl orl' irl' ts ->
      change H s sg i (xa_outbox_rl x) (M (DOutboxRL orl)) (M (DOutboxRL orl'))
  | Ch_vote x c rt p chain tm pe mt old new irl orl amount n o :
      redeem_facts H s x c rt p chain tm pe mt old new irl orl amount n -> n < cf_threshold c ->
      o = st_accts s (pda_inbox (h_msg H chain (tm_msg tm))) ->
      change H s sg (IRedeem x) (pda_inbox (h_msg H chain (tm_msg tm))) o (M (DInboxItem new))
  | Ch_approve x c rt p chain tm pe mt old new irl orl amount n irl' orl' ts o :
      redeem_facts H s x c rt p chain tm pe mt old new irl orl amount n -> cf_threshold c <= n -> ib_status new = NotApproved ->
      in_limits (st_now s) amount irl orl irl' orl' ts -> o = st_accts s (pda_inbox (h_msg H chain (tm_msg tm))) ->
      change H s sg (IRedeem x) (pda_inbox (h_msg H chain (tm_msg tm))) o (M (DInboxItem (set_status new (ReleaseAfter ts))))
  | Ch_in_irl x c rt p chain tm pe mt old new irl orl amount n irl' orl' ts :
      redeem_facts H s x c rt p chain tm pe mt old new irl orl amount n -> cf_threshold c <= n -> ib_status new = NotApproved ->
      in_limits (st_now s) amount irl orl irl' orl' ts ->
      change H s sg (IRedeem x) (pda_inbox_rl chain) (M (DInboxRL irl)) (M (DInboxRL irl'))
  | Ch_in_orl x c rt p chain tm pe mt old new irl orl amount n irl' orl' ts :
      redeem_facts H s x c rt p chain tm pe mt old new irl orl amount n -> cf_threshold c <= n -> ib_status new = NotApproved ->
      in_limits (st_now s) amount irl orl irl' orl' ts ->
      change H s sg (IRedeem x) (ra_outbox_rl x) (M (DOutboxRL orl)) (M (DOutboxRL orl'))
  | Ch_release i x md c it mt rt ts :
      is_release i x md -> release_facts s x md c it mt rt -> ib_status it = ReleaseAfter ts -> ts <= st_now s ->
      change H s sg i (la_item x) (M (DInboxItem it)) (M (DInboxItem (set_status it Released)))
  | Ch_transfer_ownership cfg o n c :
      has s cfg PManager (DConfig c) -> cf_owner c = o -> signed sg o = true -> st_uauth s = Some o ->
      change H s sg (ITransferOwnership cfg o n) cfg (M (DConfig c)) (M (DConfig (with_owner c o (Some n))))
  | Ch_one_step cfg o n c :
      has s cfg PManager (DConfig c) -> cf_owner c = o -> signed sg o = true -> st_uauth s = Some o ->
      change H s sg (ITransferOwnershipOneStep cfg o n) cfg (M (DConfig c)) (M (DConfig (with_owner c n None)))
  | Ch_claim cfg n c :
      has s cfg PManager (DConfig c) -> cf_pending c = Some n \/ cf_owner c = n -> signed sg n = true -> st_uauth s = Some upgrade_lock ->
      change H s sg (IClaimOwnership cfg n) cfg (M (DConfig c)) (M (DConfig (with_owner c n None)))
  | Ch_paused cfg o b c :
      has s cfg PManager (DConfig c) -> cf_owner c = o -> signed sg o = true ->
      change H s sg (ISetPaused cfg o b) cfg (M (DConfig c)) (M (DConfig (with_paused c b)))
  | Ch_peer cfg o ch a l d c old :
      has s cfg PManager (DConfig c) -> cf_owner c = o -> signed sg o = true -> is_u16 ch -> is_u8 d ->
      (old = None \/ exists p, old = M (DPeer p)) ->
      change H s sg (ISetPeer cfg o ch a l d) (pda_peer ch) old (M (DPeer (Peer 0 a d)))
  | Ch_peer_irl cfg o ch a l d c old :
      has s cfg PManager (DConfig c) -> cf_owner c = o -> signed sg o = true -> is_u16 ch -> is_u64 l ->
      (old = None \/ exists p, old = M (DInboxRL p)) ->
      change H s sg (ISetPeer cfg o ch a l d) (pda_inbox_rl ch) old (M (DInboxRL (rl_new l)))
  | Ch_register_config cfg o t c en :
      has s cfg PManager (DConfig c) -> cf_owner c = o -> signed sg o = true ->
      is_executable t = true -> st_accts s (pda_reg t) = None -> 0 <= cf_next c + 1 <= u8_max -> bm_set (cf_enabled c) (cf_next c) true = Ok en ->
      change H s sg (IRegisterTransceiver cfg o t) cfg (M (DConfig c)) (M (DConfig (with_next c (cf_next c + 1) en)))
  | Ch_register cfg o t c en :
      has s cfg PManager (DConfig c) -> cf_owner c = o -> signed sg o = true ->
      is_executable t = true -> 0 <= cf_next c + 1 <= u8_max -> bm_set (cf_enabled c) (cf_next c) true = Ok en ->
      change H s sg (IRegisterTransceiver cfg o t) (pda_reg t) None (M (DReg (Registered 0 (cf_next c) t)))
  | Ch_outbound_limit cfg o a l c r r' :
      has s cfg PManager (DConfig c) -> cf_owner c = o -> signed sg o = true -> is_u64 l -> set_limit r (st_now s) l = Ok r' ->
      change H s sg (ISetOutboundLimit cfg o a l) a (M (DOutboxRL r)) (M (DOutboxRL r'))
  | Ch_inbound_limit cfg o ch l c r r' :
      has s cfg PManager (DConfig c) -> cf_owner c = o -> signed sg o = true -> is_u64 l -> set_limit r (st_now s) l = Ok r' ->
      change H s sg (ISetInboundLimit cfg o ch l) (pda_inbox_rl ch) (M (DInboxRL r)) (M (DInboxRL r'))
  | Ch_mark sn cfg it tr c o rt p r :
      outbound_facts s cfg it tr c o rt -> rt_address rt = AProg p -> sn = pda_outbox_signer p -> signed sg sn = true ->
      ob_release o <= st_now s -> bm_set (ob_released o) (rt_id rt) true = Ok r ->
      change H s sg (IMark sn cfg it tr) it (M (DOutboxItem o)) (M (DOutboxItem (set_sent o r)))
  | Ch_x_release p cfg it tr rev c o rt r :
      is_ntt_prog p = true -> outbound_facts s cfg it tr c o rt -> rt_address rt = AProg p ->
      ob_release o <= st_now s -> bm_set (ob_released o) (rt_id rt) true = Ok r ->
      change H s sg (IXRelease p cfg it tr rev true) it (M (DOutboxItem o)) (M (DOutboxItem (set_sent o r)))
  | Ch_x_message p cfg it tr rev c o rt :
      is_ntt_prog p = true -> outbound_facts s cfg it tr c o rt -> rt_address rt = AProg p -> ob_release o <= st_now s ->
      change H s sg (IXRelease p cfg it tr rev true) (pda_message p it) None (Some (Acct PWormhole DPosted))
  | Ch_x_peer p cfg o ch a c :
      is_ntt_prog p = true -> has s cfg PManager (DConfig c) -> cf_owner c = o -> signed sg o = true -> is_u16 ch ->
      change H s sg (IXSetPeer p cfg o ch a) (pda_xpeer p ch) None (Some (Acct p (DXPeer (XPeer 0 a))))
  | Ch_x_receive p cfg v c chain emitter tm xp :
      is_ntt_prog p = true -> has s cfg PManager (DConfig c) -> cf_paused c = false -> has s v PWormhole (DVaa chain emitter (Some tm)) ->
      has s (pda_xpeer p chain) p (DXPeer xp) -> xp_address xp = emitter -> nm_to_chain (tm_msg tm) = cf_chain c ->
      change H s sg (IXReceive p cfg v) (pda_vtm p chain (nm_id (tm_msg tm))) None (Some (Acct p (DVtm chain tm)))
  | Ch_broadcast_id p cfg m ok :
      signed sg m = true -> change H s sg (IXBroadcastId p cfg m ok) m None (Some (Acct PWormhole DPosted))
  | Ch_broadcast_peer p cfg ch m ok :
      signed sg m = true -> change H s sg (IXBroadcastPeer p cfg ch m ok) m None (Some (Acct PWormhole DPosted))
  | Ch_post m e pl :
      signed sg m = true -> signed sg e = true -> change H s sg (EPost m e pl) m None (Some (Acct PWormhole DPosted))
  | Ch_vaa a ch e m :
      (exists t z x y, a = APda PWormhole t z x y) -> is_u16 ch -> (forall tm, m = Some tm -> typed_tm tm = true) ->
      change H s sg (EPostVaa a ch e m) a None (Some (Acct PWormhole (DVaa ch e m)))
  | Ch_write n a d old :
      can_sign a = true -> (old = None \/ exists d0, old = Some (Acct (PUser n) d0)) ->
      (forall ch tm, d = DVtm ch tm -> is_u16 ch /\ typed_tm tm = true) ->
      change H s sg (EWrite n a d) a old (Some (Acct (PUser n) d))
  | Ch_erase n a d :
      change H s sg (EErase n a) a (Some (Acct (PUser n) d)) None.

(** ** Pointwise views of [put]. *)
Lemma put_cases s a p d b (P : option acct -> Prop) :
  (b = a -> P (Some (Acct p d))) -> (b <> a -> P (st_accts s b)) -> P (st_accts (put a p d s) b).
Proof. cbn. rewrite upd_eq. destruct (addr_eq_dec b a); auto. Qed.

Ltac puts b :=
  repeat match goal with
  | |- context [st_accts (put ?a ?p ?d ?s) b] =>
    let Q := fresh "Q" in
    pattern (st_accts (put a p d s) b); apply put_cases; [intros Q; cbv beta; subst b; right|intros Q; cbv beta]
  end.

Lemma unchanged {A} (x : A) (P : Prop) : x = x \/ P. Proof. auto. Qed.

Lemma u16b_ok z : u16b z = true -> is_u16 z. Proof. unfold u16b. ilia. Qed.
Lemma u8b_ok z : u8b z = true -> is_u8 z. Proof. unfold u8b. ilia. Qed.
Lemma u64b_ok z : u64b z = true -> is_u64 z. Proof. unfold u64b. ilia. Qed.
Lemma i64b_ok z : i64b z = true -> is_i64 z. Proof. unfold i64b. ilia. Qed.

Ltac widths :=
  repeat match goal with
  | E : u8b _ = true |- _ => apply u8b_ok in E
  | E : u16b _ = true |- _ => apply u16b_ok in E
  | E : u64b _ = true |- _ => apply u64b_ok in E
  | E : i64b _ = true |- _ => apply i64b_ok in E
  end.

Lemma init_if_needed_peer s ch u : init_if_needed s (pda_peer ch) is_peer = Ok u ->
  st_accts s (pda_peer ch) = None \/ exists p, st_accts s (pda_peer ch) = M (DPeer p).
Proof.
  unfold init_if_needed. destruct (st_accts s (pda_peer ch)) eqn:E; intros Q; [|auto]. rewrite <- E.
  binds Q. gets. bools. destruct v; try discriminate. eauto.
Qed.
Lemma init_if_needed_irl s ch u : init_if_needed s (pda_inbox_rl ch) is_inbox_rl = Ok u ->
  st_accts s (pda_inbox_rl ch) = None \/ exists p, st_accts s (pda_inbox_rl ch) = M (DInboxRL p).
Proof.
  unfold init_if_needed. destruct (st_accts s (pda_inbox_rl ch)) eqn:E; intros Q; [|auto]. rewrite <- E.
  binds Q. gets. bools. destruct v; try discriminate. eauto.
Qed.

Lemma tok_accts_transfer s p src mnt dst auth x ok s' : tok_transfer s p src mnt dst auth x ok = Ok s' -> same_prog s s'.
Proof. intros E. apply tok_transfer_ok in E. decompose [ex and] E; assumption. Qed.
Lemma tok_accts_mint s p mnt dst auth x s' : tok_mint_to s p mnt dst auth x = Ok s' -> same_prog s s'.
Proof. intros E. apply tok_mint_to_ok in E. decompose [ex and] E; assumption. Qed.
Lemma tok_accts_burn s p src mnt auth x s' : tok_burn s p src mnt auth x = Ok s' -> same_prog s s'.
Proof. intros E. apply tok_burn_ok in E. decompose [ex and] E; assumption. Qed.

Ltac ptup E := repeat match type of E with (let '_ := ?p in _) = _ => destruct p end.

Lemma step_inv H s c s' : step H s c = Ok s' ->
  forallb can_sign (signers c) = true /\ typed (ins c) = true /\ exec H s (signers c) (ins c) = Ok s'.
Proof. unfold step. intros E. binds E. bools. auto. Qed.

Lemma step_change H s c s' : step H s c = Ok s' ->
  forall b, st_accts s' b = st_accts s b \/ change H s (signers c) (ins c) b (st_accts s b) (st_accts s' b).
Proof.
  intros Hs b. apply step_inv in Hs. destruct Hs as (Hcs & Hty & He).
  destruct c as [sg i]; cbn [signers ins] in *.
  destruct i; cbn [exec typed] in He, Hty.
  - (* initialize *)
    unfold initialize in He. binds He. bools. subst s'.
    match goal with E : init_custody _ _ _ = _ |- _ => apply init_custody_ok in E; destruct E as ((Ha & _) & _ & _) end.
    assert (Hd : st_uauth s = Some deployer).
    { destruct (st_uauth s); [congruence|]. subst deployer. apply (signed_can sg ANull) in E; [discriminate|assumption]. }
    frees. widths.
    puts b.
    + replace (st_accts s pda_outbox_rl) with (@None acct) by congruence. apply Ch_init_orl; assumption.
    + replace (st_accts s pda_config) with (@None acct) by congruence. eapply Ch_init_config; eauto.
      intros ->. destruct (mt_auth v4); [|discriminate]. bools. congruence.
    + left. now rewrite Ha.
  - (* initialize_lut *)
    unfold initialize_lut in He. binds He. bools. subst s'. puts b; [|apply unchanged].
    apply Ch_lut. destruct (st_accts s pda_lut) eqn:Ea; [|auto]. rewrite <- Ea.
    match goal with E : bind (get _ _ pda_lut) _ = _ |- _ => apply bind_ok in E; destruct E as (d & Ed & E) end.
    apply get_ok in Ed. destruct d; try discriminate. right. eauto.
  - (* transfer_lock *)
    apply transfer_lock_ok in He. destruct He as (cf & mt & f & pe & am & t & orl & irl & orl' & irl' & ts & s1 & cu & cu' & HF & HT & _ & _ & _ & ->).
    apply tok_accts_transfer in HT. destruct HT as (Ha & _). pose proof (free_ok _ _ (tf_free _ _ _ _ _ _ _ _ _ _ _ _ _ _ _ _ HF)) as (Hfr & _).
    unfold out_puts. puts b.
    + rewrite Hfr. eapply Ch_out_item; [|exact HF]. reflexivity.
    + rewrite (tf_irl _ _ _ _ _ _ _ _ _ _ _ _ _ _ _ _ HF). eapply Ch_out_irl; [|exact HF]. reflexivity.
    + rewrite (tf_orl _ _ _ _ _ _ _ _ _ _ _ _ _ _ _ _ HF). eapply Ch_out_orl; [|exact HF]. reflexivity.
    + left. now rewrite Ha.
  - (* transfer_burn *)
    apply transfer_burn_ok in He. destruct He as (cf & mt & f & pe & am & t & orl & irl & orl' & irl' & ts & s1 & s2 & cu & cu' & HF & HT & HB & _ & _ & _ & ->).
    apply tok_accts_transfer in HT. apply tok_accts_burn in HB. pose proof (same_prog_trans _ _ _ HT HB) as (Ha & _).
    pose proof (free_ok _ _ (tf_free _ _ _ _ _ _ _ _ _ _ _ _ _ _ _ _ HF)) as (Hfr & _).
    unfold out_puts. puts b.
    + rewrite Hfr. eapply Ch_out_item; [|exact HF]. reflexivity.
    + rewrite (tf_irl _ _ _ _ _ _ _ _ _ _ _ _ _ _ _ _ HF). eapply Ch_out_irl; [|exact HF]. reflexivity.
    + rewrite (tf_orl _ _ _ _ _ _ _ _ _ _ _ _ _ _ _ _ HF). eapply Ch_out_orl; [|exact HF]. reflexivity.
    + left. now rewrite Ha.
  - (* redeem *)
    apply redeem_ok in He.
    destruct He as (cf & rt & p & chain & tm & pe & mt & old & new & irl & orl & am & n & HF & [(Hn & ->)|(Hn & Hst & irl' & orl' & ts & HL & ->)]).
    + puts b; [|apply unchanged]. eapply Ch_vote; eauto.
    + puts b.
      * eapply Ch_approve; eauto.
      * rewrite (rf_orl _ _ _ _ _ _ _ _ _ _ _ _ _ _ _ _ HF). eapply Ch_in_orl; eauto.
      * rewrite (rf_irl _ _ _ _ _ _ _ _ _ _ _ _ _ _ _ _ HF). eapply Ch_in_irl; eauto.
      * apply unchanged.
  - (* release_mint *)
    apply release_mint_ok in He. destruct He as (cf & it & mt & rt & HF & [(-> & _)|(ts & s1 & s2 & Hst & Ht & HM & HT & ->)]); [apply unchanged|].
    apply tok_accts_transfer in HT. apply tok_accts_mint in HM. pose proof (same_prog_trans _ _ _ HM HT) as (Ha & _).
    puts b; [|left; now rewrite Ha]. rewrite (lf_item _ _ _ _ _ _ _ HF). eapply Ch_release; eauto. eexists; reflexivity.
  - (* release_unlock *)
    apply release_unlock_ok in He. destruct He as (cf & it & mt & rt & HF & [(-> & _)|(ts & s1 & Hst & Ht & HT & ->)]); [apply unchanged|].
    apply tok_accts_transfer in HT. destruct HT as (Ha & _).
    puts b; [|left; now rewrite Ha]. rewrite (lf_item _ _ _ _ _ _ _ HF). eapply Ch_release; eauto. eexists; reflexivity.
  - unfold transfer_ownership in He. binds He. gets. apply loader_ok in He. destruct He as (Hu & ->).
    change (st_accts (set_uauth ?n ?x) b) with (st_accts x b). puts b; [|apply unchanged]. rewrite E. subst. apply Ch_transfer_ownership; auto.
  - unfold transfer_ownership_one_step_unchecked in He. binds He. gets. apply loader_ok in He. destruct He as (Hu & ->).
    change (st_accts (set_uauth ?n ?x) b) with (st_accts x b). puts b; [|apply unchanged]. rewrite E. eapply Ch_one_step; eauto.
  - unfold claim_ownership in He. binds He. gets. bools. apply loader_ok in He. destruct He as (Hu & ->).
    change (st_accts (set_uauth ?n ?x) b) with (st_accts x b). puts b; [|apply unchanged]. rewrite E. apply Ch_claim; auto.
    apply orb_true_iff in E0. destruct E0; bools; auto.
  - unfold set_paused in He. binds He. gets. bools. subst s'. puts b; [|apply unchanged]. rewrite E. apply Ch_paused; auto.
  - (* set_peer *)
    unfold set_peer in He. binds He. gets. bools. subst s'. apply init_if_needed_peer in E0. apply init_if_needed_irl in E1.
    widths.
    puts b; [eapply Ch_peer_irl; eauto|eapply Ch_peer; eauto|apply unchanged].
  - (* register *)
    unfold register_transceiver in He. binds He. gets. bools. subst s'. frees. apply plain_ok in E2. destruct E2 as [-> ?].
    puts b; [| |apply unchanged].
    + rewrite E. eapply Ch_register_config; eauto.
    + rewrite H2. eapply Ch_register; eauto.
  - unfold set_outbound_limit in He. binds He. gets. bools. subst s'. widths. puts b; [|apply unchanged].
    rewrite E0. eapply Ch_outbound_limit; eauto.
  - unfold set_inbound_limit in He. binds He. gets. bools. subst s'. widths. puts b; [|apply unchanged].
    rewrite E0. eapply Ch_inbound_limit; eauto.
  - (* mark *)
    binds He. bools. subst s0. apply mark_ok in E.
    destruct E as (cf & o & rt & p & HF & Hra & Hsn & Hsg & [(_ & _ & ->)|(_ & Ht & r & Hr & ->)]).
    + left. cbn. rewrite upd_eq. destruct (addr_eq_dec b item); [|reflexivity]. subst. now rewrite (of_item _ _ _ _ _ _ _ HF).
    + puts b; [|apply unchanged]. rewrite (of_item _ _ _ _ _ _ _ HF). eapply Ch_mark; eauto.
  - (* x_set_peer *)
    unfold x_set_peer in He. binds He. gets. bools. frees. subst s'. widths. puts b; [|apply unchanged].
    replace (st_accts s (pda_xpeer p chain)) with (@None acct) by congruence. eapply Ch_x_peer; eauto.
  - (* x_receive *)
    unfold x_receive in He. binds He. gets. destruct v0; try discriminate. destruct m; try discriminate. binds He. gets. bools. frees. subst s'.
    puts b; [|apply unchanged]. replace (st_accts s (pda_vtm p chain (nm_id (tm_msg t)))) with (@None acct) by congruence. eapply Ch_x_receive; eauto. lia.
  - (* x_release *)
    apply x_release_ok in He; [|assumption].
    destruct He as (cf & o & rt & HF & Hra & [(-> & _)|(Ht & -> & r & Hr & Hm & Hn & ->)]); [apply unchanged|].
    change (st_accts (set_posted ?n ?x) b) with (st_accts x b). puts b; [| |apply unchanged].
    + rewrite Hm. eapply Ch_x_message; eauto.
    + rewrite (of_item _ _ _ _ _ _ _ HF). eapply Ch_x_release; eauto.
  - unfold x_broadcast_id in He. binds He. bools. apply bridge_post_ok in He. destruct He as (-> & Hm & _ & _ & ->).
    change (st_accts (set_posted ?n ?x) b) with (st_accts x b). puts b; [|apply unchanged]. rewrite Hm. now apply Ch_broadcast_id.
  - unfold x_broadcast_peer in He. binds He. bools. apply bridge_post_ok in He. destruct He as (-> & Hm & _ & _ & ->).
    change (st_accts (set_posted ?n ?x) b) with (st_accts x b). puts b; [|apply unchanged]. rewrite Hm. now apply Ch_broadcast_peer.
  - bools. subst. apply unchanged.
  - binds He. apply tok_accts_transfer in He. destruct He as (-> & _). apply unchanged.
  - binds He. bools. subst. apply unchanged.
  - binds He. bools. subst. apply unchanged.
  - binds He. apply tok_accts_mint in He. destruct He as (-> & _). apply unchanged.
  - binds He. apply tok_accts_burn in He. destruct He as (-> & _). apply unchanged.
  - binds He. bools. subst. apply unchanged.
  - binds He. bools. subst. apply unchanged.
  - binds He. bools. subst. apply unchanged.
  - binds He. apply tok_init_ok in He. decompose [ex and] He. subst. apply unchanged.
  - apply tok_init_ok in He. decompose [ex and] He. subst. apply unchanged.
  - binds He. bools. subst. apply unchanged.
  - binds He. bools. subst. apply unchanged.
  - binds He. bools. subst. apply unchanged.
  - (* vaa *)
    binds He. bools. frees. subst. puts b; [|apply unchanged]. replace (st_accts s a) with (@None acct) by congruence. apply Ch_vaa.
    + destruct a; try discriminate. destruct p; try discriminate. eauto.
    + now apply u16b_ok.
    + intros tm ->. assumption.
  - (* post *)
    binds He. bools. apply bridge_post_ok in He. destruct He as (_ & Hm & _ & _ & ->).
    change (st_accts (set_posted ?n ?x) b) with (st_accts x b). puts b; [|apply unchanged]. rewrite Hm. now apply Ch_post.
  - destruct (st_uauth s); [|discriminate]. binds He. apply loader_ok in He. destruct He as (_ & ->). apply unchanged.
  - (* write *)
    binds He. bools.
    assert (Hd : forall ch tm, d = DVtm ch tm -> is_u16 ch /\ typed_tm tm = true).
    { intros ch tm ->. bools. split; [now apply u16b_ok|assumption]. }
    destruct (st_accts s a) as [[o d0]|] eqn:Ea; binds He; bools; subst; (puts b; [|apply unchanged]); rewrite Ea; apply Ch_write; auto.
    cbn in *. subst. right. eauto.
  - destruct (st_accts s a) as [[o d0]|] eqn:Ea; [|discriminate]. binds He. bools. cbn in *. subst.
    cbn. rewrite upd_eq. destruct (addr_eq_dec b a); [|apply unchanged]. subst. right. rewrite Ea. apply Ch_erase.
Qed.

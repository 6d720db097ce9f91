(** * The token operations behind each instruction.

    Every successful instruction changes token accounts and mints by a short list of operations of the token programs
    ([run_ops]); [why] records who authorised them. *)
From Verif Require Export Changes.
Local Open Scope Z_scope.

Inductive tokop :=
  | OTransfer (p : prog) (src mnt dst auth : addr) (x : Z)
  | OMint (p : prog) (mnt dst auth : addr) (x : Z)
  | OBurn (p : prog) (src mnt auth : addr) (x : Z)
  | OInit (p : prog) (a mnt owner : addr)
  | OApprove (p : prog) (a owner del : addr) (x : Z)
  | ORevoke (p : prog) (a owner : addr)
  | OSetMintAuth (p : prog) (mnt auth : addr) (new : option addr)
  | OSetOwner (p : prog) (a owner new : addr)
  | OClose (p : prog) (a owner : addr)
  | OInitMint (p : prog) (a : addr) (dec : Z) (auth : option addr)
  | OSetFee (p : prog) (mnt : addr) (bps mx : Z)
  | OWithdraw (p : prog) (mnt dst : addr) (x : Z).

Definition run_op (s : state) (o : tokop) : result state :=
  match o with
  | OTransfer p src mnt dst auth x => tok_transfer s p src mnt dst auth x true
  | OMint p mnt dst auth x => tok_mint_to s p mnt dst auth x
  | OBurn p src mnt auth x => tok_burn s p src mnt auth x
  | OInit p a mnt owner => tok_init s p a mnt owner
  | OApprove p a owner del x =>
      let? t := get_tok s p a in
      let? _ := require (addr_eqb (tk_owner t) owner) TokenErr in
      Ok (put_tok a (set_delegate t (Some del) x) s)
  | ORevoke p a owner =>
      let? t := get_tok s p a in
      let? _ := require (addr_eqb (tk_owner t) owner) TokenErr in
      Ok (put_tok a (set_delegate t None 0) s)
  | OSetMintAuth p mnt auth new =>
      let? m := get_mint s p mnt in
      let? _ := require (oaddr_eqb (mt_auth m) auth) TokenErr in
      Ok (put_mint mnt (Mint (mt_prog m) (mt_decimals m) (mt_supply m) new (mt_bps m) (mt_maxfee m) (mt_withheld m)) s)
  | OSetOwner p a owner new =>
      let? t := get_tok s p a in
      let? _ := require (addr_eqb (tk_owner t) owner) TokenErr in
      Ok (put_tok a (Tok (tk_prog t) (tk_mint t) new (tk_amount t) None 0) s)
  | OClose p a owner =>
      let? t := get_tok s p a in
      let? _ := require (addr_eqb (tk_owner t) owner && (tk_amount t =? 0)) TokenErr in
      Ok (set_toks (upd (st_toks s) a None) s)
  | OInitMint p a dec auth =>
      let? _ := require (free s a) TokenErr in
      Ok (put_mint a (Mint p dec 0 auth 0 0 0) s)
  | OSetFee p mnt bps mx =>
      let? m := get_mint s p mnt in
      Ok (put_mint mnt (Mint (mt_prog m) (mt_decimals m) (mt_supply m) (mt_auth m) bps mx (mt_withheld m)) s)
  | OWithdraw p mnt dst x =>
      let? m := get_mint s p mnt in
      let? t := get_tok s p dst in
      let? _ := require (addr_eqb (tk_mint t) mnt) TokenErr in
      let? w := ok_or (checked u64_max (mt_withheld m - x)) TokenErr in
      let? y := ok_or (checked u64_max (tk_amount t + x)) TokenErr in
      Ok (put_mint mnt (with_withheld m w) (put_tok dst (with_amount t y) s))
  end.

Fixpoint run_ops (s : state) (os : list tokop) : result state :=
  match os with [] => Ok s | o :: r => let? s' := run_op s o in run_ops s' r end.

(** Who has to sign. *)
Definition op_auth (o : tokop) : option addr :=
  match o with
  | OTransfer _ _ _ _ auth _ | OMint _ _ _ auth _ | OBurn _ _ _ auth _ | OSetMintAuth _ _ auth _ => Some auth
  | OApprove _ _ owner _ _ | ORevoke _ _ owner | OSetOwner _ _ owner _ | OClose _ _ owner => Some owner
  | OInitMint _ a _ _ => Some a
  | OInit _ _ _ _ | OSetFee _ _ _ _ | OWithdraw _ _ _ _ => None
  end.

(** Operations of third parties. *)
Definition env_op (i : instr) : option tokop :=
  match i with
  | ETransfer p src mnt dst auth x => Some (OTransfer p src mnt dst auth x)
  | EApprove p a o d x => Some (OApprove p a o d x)
  | ERevoke p a o => Some (ORevoke p a o)
  | EMintTo p mnt dst auth x => Some (OMint p mnt dst auth x)
  | EBurn p src mnt auth x => Some (OBurn p src mnt auth x)
  | ESetMintAuth p mnt auth new => Some (OSetMintAuth p mnt auth new)
  | ESetTokOwner p a o n => Some (OSetOwner p a o n)
  | ECloseTok p a o => Some (OClose p a o)
  | EInitTok p a mnt o => Some (OInit p a mnt o)
  | ECreateAta p w mnt => Some (OInit p (ata p w mnt) mnt w)
  | EInitMint p a d auth => Some (OInitMint p a d auth)
  | ESetFee p mnt b m => Some (OSetFee p mnt b m)
  | EWithdrawFees p mnt dst x => Some (OWithdraw p mnt dst x)
  | _ => None
  end.

Definition paid (s s' : state) (a : addr) (it : inbox_item addr) : Prop :=
  has s a PManager (DInboxItem it) /\ has s' a PManager (DInboxItem (set_status it Released)).

Inductive why (H : hashes) (s s' : state) (sg : list addr) : instr -> list tokop -> Prop :=
  | W_env i o : env_op i = Some o -> (forall a, op_auth o = Some a -> signed sg a = true) ->
      (forall p a m w, o = OInit p a m w -> signed sg a = true \/ a = ata p w m) -> why H s s' sg i [o]
  | W_none i : why H s s' sg i []
  | W_init d mnt tp ch l md : is_token_prog tp = true ->
      why H s s' sg (IInitialize d mnt tp ch l md) [OInit tp (ata tp token_authority mnt) mnt token_authority]
  | W_lock x a c mt f pe amount t orl irl orl' irl' ts cu cu' :
      transfer_facts s sg x a Locking c mt f pe amount t orl irl orl' irl' ts ->
      st_toks s (cf_custody c) = Some cu -> st_toks s' (cf_custody c) = Some cu' -> tk_amount cu' = tk_amount cu + amount ->
      has s' (xa_outbox_item x) PManager (DOutboxItem (out_item f a pe t ts)) ->
      why H s s' sg (ITransferLock x a)
        [OTransfer (xa_tp x) (xa_from x) (cf_mint c) (cf_custody c) (pda_session (tk_owner f) (h_args H a)) amount]
  | W_burn x a c mt f pe amount t orl irl orl' irl' ts cu cu' :
      transfer_facts s sg x a Burning c mt f pe amount t orl irl orl' irl' ts ->
      st_toks s (cf_custody c) = Some cu -> st_toks s' (cf_custody c) = Some cu' -> tk_amount cu' = tk_amount cu ->
      has s' (xa_outbox_item x) PManager (DOutboxItem (out_item f a pe t ts)) ->
      why H s s' sg (ITransferBurn x a)
        [OTransfer (xa_tp x) (xa_from x) (cf_mint c) (cf_custody c) (pda_session (tk_owner f) (h_args H a)) amount;
         OBurn (xa_tp x) (cf_custody c) (cf_mint c) token_authority amount]
  | W_unlock x r c it mt rt ts :
      release_facts s x Locking c it mt rt -> ib_status it = ReleaseAfter ts -> ts <= st_now s -> paid s s' (la_item x) it ->
      why H s s' sg (IReleaseUnlock x r)
        [OTransfer (la_tp x) (cf_custody c) (cf_mint c) (ata (la_tp x) (ib_recipient it) (cf_mint c)) token_authority (ib_amount it)]
  | W_mint x r c it mt rt ts :
      release_facts s x Burning c it mt rt -> ib_status it = ReleaseAfter ts -> ts <= st_now s -> paid s s' (la_item x) it ->
      why H s s' sg (IReleaseMint x r)
        [OMint (la_tp x) (cf_mint c) (cf_custody c) token_authority (ib_amount it);
         OTransfer (la_tp x) (cf_custody c) (cf_mint c) (ata (la_tp x) (ib_recipient it) (cf_mint c)) token_authority (ib_amount it)].

Lemma Some_inj {A} (a b : A) : Some a = Some b -> a = b. Proof. congruence. Qed.

Definition same_ledger (s s' : state) : Prop := st_toks s' = st_toks s /\ st_mints s' = st_mints s.

Lemma hook_true s p src mnt dst auth x ok s' : tok_transfer s p src mnt dst auth x ok = Ok s' ->
  tok_transfer s p src mnt dst auth x true = Ok s'.
Proof. intros E. pose proof (tok_transfer_ok _ _ _ _ _ _ _ _ _ E) as Q. decompose [ex and] Q; subst; assumption. Qed.

Lemma step_ops H s c s' : step H s c = Ok s' ->
  exists os s1, run_ops s os = Ok s1 /\ same_ledger s1 s' /\ why H s s' (signers c) (ins c) os.
Proof.
  intros Hs. apply step_inv in Hs. destruct Hs as (Hcs & Hty & He). destruct c as [sg i]. cbn [signers ins] in *.
  assert (Hnone : same_ledger s s' -> exists os s1, run_ops s os = Ok s1 /\ same_ledger s1 s' /\ why H s s' sg i os).
  { intros Q. exists [], s. split; [reflexivity|]. split; [exact Q|]. apply W_none. }
  assert (Henv : forall o, env_op i = Some o -> run_op s o = Ok s' -> (forall a, op_auth o = Some a -> signed sg a = true) ->
            (forall p a m w, o = OInit p a m w -> signed sg a = true \/ a = ata p w m) ->
            exists os s1, run_ops s os = Ok s1 /\ same_ledger s1 s' /\ why H s s' sg i os).
  { intros o Q1 Q2 Q3 Q4. exists [o], s'. split; [cbn [run_ops]; rewrite Q2; reflexivity|]. split; [split; reflexivity|]. now apply W_env. }
  destruct i; cbn [exec typed] in He, Hty.
  - (* initialize *)
    unfold initialize in He. binds He. bools. subst s'.
    match goal with E : init_custody _ _ _ = _ |- _ => rename E into Ec end.
    unfold init_custody in Ec. destruct (st_toks s (ata tp token_authority mnt)) eqn:Et.
    + binds Ec. bools. subst. apply Hnone. split; reflexivity.
    + exists [OInit tp (ata tp token_authority mnt) mnt token_authority], v6. split; [cbn [run_ops run_op]; rewrite Ec; reflexivity|].
      split; [split; reflexivity|]. apply W_init. assumption.
  - unfold initialize_lut in He. binds He. bools. subst. apply Hnone. split; reflexivity.
  - apply transfer_lock_ok in He. destruct He as (cf & mt & f & pe & am & t & orl & irl & orl' & irl' & ts & s1 & cu & cu' & HF & HT & Hc & Hc' & Ha & ->).
    exists [OTransfer (xa_tp x) (xa_from x) (cf_mint cf) (cf_custody cf) (pda_session (tk_owner f) (h_args H a)) am], s1.
    split; [cbn [run_ops run_op]; rewrite (hook_true _ _ _ _ _ _ _ _ _ HT); reflexivity|]. split; [split; reflexivity|].
    eapply W_lock; [eassumption..|]. unfold has, out_puts. apply get_put_same.
  - apply transfer_burn_ok in He. destruct He as (cf & mt & f & pe & am & t & orl & irl & orl' & irl' & ts & s1 & s2 & cu & cu' & HF & HT & HB & Hc & Hc' & Ha & ->).
    exists [OTransfer (xa_tp x) (xa_from x) (cf_mint cf) (cf_custody cf) (pda_session (tk_owner f) (h_args H a)) am;
            OBurn (xa_tp x) (cf_custody cf) (cf_mint cf) token_authority am], s2.
    split; [cbn [run_ops run_op]; rewrite (hook_true _ _ _ _ _ _ _ _ _ HT); cbn [bind]; rewrite HB; reflexivity|]. split; [split; reflexivity|].
    eapply W_burn; [eassumption..|]. unfold has, out_puts. apply get_put_same.
  - apply redeem_ok in He.
    destruct He as (cf & rt & p & chain & tm & pe & mt & old & new & irl & orl & am & n & HF & [(Hn & ->)|(Hn & Hst & irl' & orl' & ts & HL & ->)]);
    apply Hnone; split; reflexivity.
  - apply release_mint_ok in He. destruct He as (cf & it & mt & rt & HF & [(-> & _)|(ts & s1 & s2 & Hst & Ht & HM & HT & ->)]); [apply Hnone; split; reflexivity|].
    eexists [_; _], s2.
    split; [|split; [split; reflexivity|]]; [|eapply W_mint; eauto].
    + cbn [run_ops run_op]. rewrite HM. cbn [bind]. rewrite (hook_true _ _ _ _ _ _ _ _ _ HT). reflexivity.
    + split; [apply (lf_item _ _ _ _ _ _ _ HF)|apply get_put_same].
  - apply release_unlock_ok in He. destruct He as (cf & it & mt & rt & HF & [(-> & _)|(ts & s1 & Hst & Ht & HT & ->)]); [apply Hnone; split; reflexivity|].
    eexists [_], s1.
    split; [|split; [split; reflexivity|]]; [|eapply W_unlock; eauto].
    + cbn [run_ops run_op]. rewrite (hook_true _ _ _ _ _ _ _ _ _ HT). reflexivity.
    + split; [apply (lf_item _ _ _ _ _ _ _ HF)|apply get_put_same].
  - unfold transfer_ownership in He. binds He. apply loader_ok in He. destruct He as (Hu & ->). apply Hnone; split; reflexivity.
  - unfold transfer_ownership_one_step_unchecked in He. binds He. apply loader_ok in He. destruct He as (Hu & ->). apply Hnone; split; reflexivity.
  - unfold claim_ownership in He. binds He. apply loader_ok in He. destruct He as (Hu & ->). apply Hnone; split; reflexivity.
  - unfold set_paused in He. binds He. bools. subst s'. apply Hnone; split; reflexivity.
  - unfold set_peer in He. binds He. bools. subst s'. apply Hnone; split; reflexivity.
  - unfold register_transceiver in He. binds He. bools. subst s'. apply Hnone; split; reflexivity.
  - unfold set_outbound_limit in He. binds He. bools. subst s'. apply Hnone; split; reflexivity.
  - unfold set_inbound_limit in He. binds He. bools. subst s'. apply Hnone; split; reflexivity.
  - binds He. bools. subst s0. apply mark_ok in E.
    destruct E as (cf & o & rt & p & HF & Hra & Hsn & Hsg & [(_ & _ & ->)|(_ & Ht & r & Hr & ->)]); apply Hnone; split; reflexivity.
  - unfold x_set_peer in He. binds He. bools. subst s'. apply Hnone; split; reflexivity.
  - unfold x_receive in He. binds He. destruct v0; try discriminate. destruct m; try discriminate. binds He. bools. subst s'. apply Hnone; split; reflexivity.
  - apply x_release_ok in He; [|assumption].
    destruct He as (cf & o & rt & HF & Hra & [(-> & _)|(Ht & -> & r & Hr & Hm & Hn & ->)]); apply Hnone; split; reflexivity.
  - unfold x_broadcast_id in He. binds He. apply bridge_post_ok in He. destruct He as (-> & Hm & _ & _ & ->). apply Hnone; split; reflexivity.
  - unfold x_broadcast_peer in He. binds He. apply bridge_post_ok in He. destruct He as (-> & Hm & _ & _ & ->). apply Hnone; split; reflexivity.
  - bools. subst. apply Hnone; split; reflexivity.
  - binds He. bools. eapply Henv; [reflexivity|exact He| |discriminate]. cbn. intros a0 Q. apply Some_inj in Q. congruence.
  - binds He. bools. eapply Henv; [reflexivity| | |discriminate]; cbn [run_op op_auth]; [|intros a0 Q; apply Some_inj in Q; congruence].
    rewrite E. cbn [bind]. rewrite H1, addr_eqb_refl. cbn. congruence.
  - binds He. bools. eapply Henv; [reflexivity| | |discriminate]; cbn [run_op op_auth]; [|intros a0 Q; apply Some_inj in Q; congruence].
    rewrite E. cbn [bind]. rewrite H1, addr_eqb_refl. cbn. congruence.
  - binds He. bools. eapply Henv; [reflexivity|exact He| |discriminate]. cbn. intros a0 Q. apply Some_inj in Q. congruence.
  - binds He. bools. eapply Henv; [reflexivity|exact He| |discriminate]. cbn. intros a0 Q. apply Some_inj in Q. congruence.
  - binds He. bools. eapply Henv; [reflexivity| | |discriminate]; cbn [run_op op_auth]; [|intros a0 Q; apply Some_inj in Q; congruence].
    rewrite E. cbn [bind]. rewrite H1. cbn [oaddr_eqb]. rewrite addr_eqb_refl. cbn. congruence.
  - binds He. bools. eapply Henv; [reflexivity| | |discriminate]; cbn [run_op op_auth]; [|intros a0 Q; apply Some_inj in Q; congruence].
    rewrite E. cbn [bind]. rewrite H1, addr_eqb_refl. cbn. congruence.
  - binds He. bools. eapply Henv; [reflexivity| | |discriminate]; cbn [run_op op_auth]; [|intros a0 Q; apply Some_inj in Q; congruence].
    rewrite E. cbn [bind]. rewrite H2, addr_eqb_refl, H1. cbn. congruence.
  - binds He. bools. eapply Henv; [reflexivity|exact He| |]; cbn [op_auth]; [discriminate|]. intros p0 a0 m0 w0 Q. inversion Q; subst. auto.
  - eapply Henv; [reflexivity|exact He| |]; cbn [op_auth]; [discriminate|]. intros p0 a0 m0 w0 Q. inversion Q; subst. auto.
  - binds He. bools. eapply Henv; [reflexivity| | |discriminate]; cbn [run_op op_auth]; [|intros a0 Q; apply Some_inj in Q; congruence].
    rewrite H1. cbn. congruence.
  - binds He. bools. eapply Henv; [reflexivity| | |discriminate]; cbn [run_op op_auth]; [|discriminate].
    rewrite E. cbn. congruence.
  - eapply Henv; [reflexivity|exact He| |]; cbn [op_auth]; discriminate.
  - binds He. bools. subst. apply Hnone; split; reflexivity.
  - binds He. apply bridge_post_ok in He. destruct He as (_ & _ & _ & _ & ->). apply Hnone; split; reflexivity.
  - destruct (st_uauth s); [|discriminate]. binds He. apply loader_ok in He. destruct He as (_ & ->). apply Hnone; split; reflexivity.
  - binds He. destruct (st_accts s a) as [[o d0]|] eqn:Ea; binds He; bools; subst; apply Hnone; split; reflexivity.
  - destruct (st_accts s a) as [[o d0]|] eqn:Ea; [|discriminate]. binds He. bools. subst. apply Hnone; split; reflexivity.
Qed.

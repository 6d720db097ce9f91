(** * Changes of clock, upgrade authority and message log, by instruction. *)
From Verif Require Export TokOps.
Local Open Scope Z_scope.

Inductive rest (s : state) (sg : list addr) : instr -> Z -> option addr -> list post -> Prop :=
  | R_same i : rest s sg i (st_now s) (st_uauth s) (st_posted s)
  | R_clock t : is_i64 t -> rest s sg (EClock t) t (st_uauth s) (st_posted s)
  | R_transfer cfg o n c : has s cfg PManager (DConfig c) -> cf_owner c = o -> signed sg o = true -> st_uauth s = Some o ->
      rest s sg (ITransferOwnership cfg o n) (st_now s) (Some upgrade_lock) (st_posted s)
  | R_one_step cfg o n c : has s cfg PManager (DConfig c) -> cf_owner c = o -> signed sg o = true -> st_uauth s = Some o ->
      rest s sg (ITransferOwnershipOneStep cfg o n) (st_now s) (Some n) (st_posted s)
  | R_claim cfg n c : has s cfg PManager (DConfig c) -> cf_pending c = Some n \/ cf_owner c = n -> signed sg n = true ->
      st_uauth s = Some upgrade_lock ->
      rest s sg (IClaimOwnership cfg n) (st_now s) (Some n) (st_posted s)
  | R_loader new cur : st_uauth s = Some cur -> signed sg cur = true ->
      rest s sg (ESetUpgradeAuthority new) (st_now s) new (st_posted s)
  | R_release p cfg it tr rev c o rt : is_ntt_prog p = true -> outbound_facts s cfg it tr c o rt -> rt_address rt = AProg p ->
      ob_release o <= st_now s -> st_accts s (pda_message p it) = None -> pda_message p it <> it ->
      rest s sg (IXRelease p cfg it tr rev true) (st_now s) (st_uauth s)
        (Post (pda_emitter p) (PPTransfer (outbound_message c it o)) :: st_posted s)
  | R_id p cfg m c mt : is_ntt_prog p = true -> has s cfg PManager (DConfig c) -> st_mints s (cf_mint c) = Some mt ->
      rest s sg (IXBroadcastId p cfg m true) (st_now s) (st_uauth s)
        (Post (pda_emitter p) (PPInfo (AProg PManager) (cf_mode c) (cf_mint c) (mt_decimals mt)) :: st_posted s)
  | R_peer p cfg ch m xp : is_ntt_prog p = true -> has s (pda_xpeer p ch) p (DXPeer xp) ->
      rest s sg (IXBroadcastPeer p cfg ch m true) (st_now s) (st_uauth s)
        (Post (pda_emitter p) (PPReg ch (xp_address xp)) :: st_posted s)
  | R_post m e pl : signed sg e = true ->
      rest s sg (EPost m e pl) (st_now s) (st_uauth s) (Post e pl :: st_posted s).

Lemma rest_same_prog s sg i s' : same_prog s s' -> rest s sg i (st_now s') (st_uauth s') (st_posted s').
Proof. intros (_ & -> & -> & ->). apply R_same. Qed.

Lemma step_rest H s c s' : step H s c = Ok s' -> rest s (signers c) (ins c) (st_now s') (st_uauth s') (st_posted s').
Proof.
  intros Hs. apply step_inv in Hs. destruct Hs as (Hcs & Hty & He). destruct c as [sg i]. cbn [signers ins] in *.
  destruct i; cbn [exec typed] in He, Hty.
  - unfold initialize in He. binds He. bools. subst s'.
    match goal with E : init_custody _ _ _ = _ |- _ => apply init_custody_ok in E; destruct E as (Hs & _ & _) end.
    cbn. now apply rest_same_prog.
  - unfold initialize_lut in He. binds He. bools. subst. exact (R_same s sg _).
  - apply transfer_lock_ok in He. destruct He as (cf & mt & f & pe & am & t & orl & irl & orl' & irl' & ts & s1 & cu & cu' & HF & HT & Hc & Hc' & Ha & ->).
    apply tok_accts_transfer in HT. cbn. now apply rest_same_prog.
  - apply transfer_burn_ok in He. destruct He as (cf & mt & f & pe & am & t & orl & irl & orl' & irl' & ts & s1 & s2 & cu & cu' & HF & HT & HB & Hc & Hc' & Ha & ->).
    apply tok_accts_transfer in HT. apply tok_accts_burn in HB. cbn. apply rest_same_prog. eapply same_prog_trans; eassumption.
  - apply redeem_ok in He.
    destruct He as (cf & rt & p & chain & tm & pe & mt & old & new & irl & orl & am & n & HF & [(Hn & ->)|(Hn & Hst & irl' & orl' & ts & HL & ->)]);
    exact (R_same s sg _).
  - apply release_mint_ok in He. destruct He as (cf & it & mt & rt & HF & [(-> & _)|(ts & s1 & s2 & Hst & Ht & HM & HT & ->)]); [exact (R_same s sg _)|].
    apply tok_accts_transfer in HT. apply tok_accts_mint in HM. cbn. apply rest_same_prog. eapply same_prog_trans; eassumption.
  - apply release_unlock_ok in He. destruct He as (cf & it & mt & rt & HF & [(-> & _)|(ts & s1 & Hst & Ht & HT & ->)]); [exact (R_same s sg _)|].
    apply tok_accts_transfer in HT. cbn. now apply rest_same_prog.
  - unfold transfer_ownership in He. binds He. gets. apply loader_ok in He. destruct He as (Hu & ->). cbn; eapply R_transfer; eauto.
  - unfold transfer_ownership_one_step_unchecked in He. binds He. gets. apply loader_ok in He. destruct He as (Hu & ->). cbn; eapply R_one_step; eauto.
  - unfold claim_ownership in He. binds He. gets. bools. apply loader_ok in He. destruct He as (Hu & ->). cbn; eapply R_claim; eauto.
    apply orb_true_iff in E0. destruct E0; bools; auto.
  - unfold set_paused in He. binds He. bools. subst s'. exact (R_same s sg _).
  - unfold set_peer in He. binds He. bools. subst s'. exact (R_same s sg _).
  - unfold register_transceiver in He. binds He. bools. subst s'. exact (R_same s sg _).
  - unfold set_outbound_limit in He. binds He. bools. subst s'. exact (R_same s sg _).
  - unfold set_inbound_limit in He. binds He. bools. subst s'. exact (R_same s sg _).
  - binds He. bools. subst s0. apply mark_ok in E.
    destruct E as (cf & o & rt & p & HF & Hra & Hsn & Hsg & [(_ & _ & ->)|(_ & Ht & r & Hr & ->)]); exact (R_same s sg _).
  - unfold x_set_peer in He. binds He. bools. subst s'. exact (R_same s sg _).
  - unfold x_receive in He. binds He. destruct v0; try discriminate. destruct m; try discriminate. binds He. bools. subst s'. exact (R_same s sg _).
  - apply x_release_ok in He; [|assumption].
    destruct He as (cf & o & rt & HF & Hra & [(-> & _)|(Ht & -> & r & Hr & Hm & Hn & ->)]); [exact (R_same s sg _)|]. cbn; eapply R_release; eauto.
  - unfold x_broadcast_id in He. binds He. gets. apply bridge_post_ok in He. destruct He as (-> & Hm & _ & _ & ->). cbn; eapply R_id; eauto.
  - unfold x_broadcast_peer in He. binds He. bools. gets. apply bridge_post_ok in He. destruct He as (-> & Hm & _ & _ & ->). cbn; eapply R_peer; eauto.
  - bools. subst. widths. cbn; apply R_clock. assumption.
  - binds He. apply tok_accts_transfer in He. now apply rest_same_prog.
  - binds He. bools. subst. exact (R_same s sg _).
  - binds He. bools. subst. exact (R_same s sg _).
  - binds He. apply tok_accts_mint in He. now apply rest_same_prog.
  - binds He. apply tok_accts_burn in He. now apply rest_same_prog.
  - binds He. bools. subst. exact (R_same s sg _).
  - binds He. bools. subst. exact (R_same s sg _).
  - binds He. bools. subst. exact (R_same s sg _).
  - binds He. apply tok_init_ok in He. decompose [ex and] He. subst. exact (R_same s sg _).
  - apply tok_init_ok in He. decompose [ex and] He. subst. exact (R_same s sg _).
  - binds He. bools. subst. exact (R_same s sg _).
  - binds He. bools. subst. exact (R_same s sg _).
  - binds He. bools. subst. exact (R_same s sg _).
  - binds He. bools. subst. exact (R_same s sg _).
  - binds He. bools. apply bridge_post_ok in He. destruct He as (_ & _ & _ & _ & ->). cbn; apply R_post. assumption.
  - destruct (st_uauth s) eqn:Eu; [|discriminate]. binds He. bools. apply loader_ok in He. destruct He as (_ & ->). cbn; eapply R_loader; eauto.
  - binds He. destruct (st_accts s a) as [[o d0]|] eqn:Ea; binds He; bools; subst; exact (R_same s sg _).
  - destruct (st_accts s a) as [[o d0]|] eqn:Ea; [|discriminate]. binds He. bools. subst. exact (R_same s sg _).
Qed.

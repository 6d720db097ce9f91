(** * Due transfers can be released by anyone (C44). *)
From Verif Require Export VtmFacts.
Local Open Scope Z_scope.

(** ** Reading accounts that are there *)
Lemma prog_eqb_refl p : prog_eqb p p = true.
Proof. unfold prog_eqb. now destruct (prog_eq_dec p p). Qed.
Lemma get_has s a p d : st_accts s a = Some (Acct p d) -> get s p a = Ok d.
Proof. unfold get. intros ->. cbn. now rewrite prog_eqb_refl. Qed.
Lemma get_config_at s a c : config_at s a c -> get_config s a = Ok c.
Proof. intros E. unfold get_config. now rewrite (get_has _ _ _ _ E). Qed.
Lemma get_outbox_at s a c : outbox_at s a c -> get_outbox_item s a = Ok c.
Proof. intros E. unfold get_outbox_item. now rewrite (get_has _ _ _ _ E). Qed.
Lemma get_inbox_at s a c : inbox_at s a c -> get_inbox_item s a = Ok c.
Proof. intros E. unfold get_inbox_item. now rewrite (get_has _ _ _ _ E). Qed.
Lemma get_reg_at s a c : reg_at s a c -> get_reg s a = Ok c.
Proof. intros E. unfold get_reg. now rewrite (get_has _ _ _ _ E). Qed.
Lemma get_tok_at s a t : st_toks s a = Some t -> get_tok s (tk_prog t) a = Ok t.
Proof. unfold get_tok. intros ->. now rewrite prog_eqb_refl. Qed.
Lemma get_mint_at s a m : st_mints s a = Some m -> get_mint s (mt_prog m) a = Ok m.
Proof. unfold get_mint. intros ->. now rewrite prog_eqb_refl. Qed.

Lemma checked_ok M z : 0 <= z <= M -> ok_or (checked M z) TokenErr = Ok z.
Proof. intros Q. unfold checked. destruct (_ && _) eqn:E; [reflexivity|]. exfalso. apply andb_false_iff in E. destruct E; lia. Qed.

(** A transfer by the owner that has what it needs. *)
Lemma owner_transfer s src mnt dst auth x t d m : st_toks s src = Some t -> st_toks s dst = Some d -> st_mints s mnt = Some m ->
  tk_prog t = mt_prog m -> tk_prog d = mt_prog m -> tk_mint t = mnt -> tk_mint d = mnt -> tk_owner t = auth -> tk_delegate t = None ->
  0 <= x <= tk_amount t -> 0 <= fee_of m x <= x -> 0 <= tk_amount d -> 0 <= mt_withheld m ->
  tk_amount d + x <= u64_max -> mt_withheld m + fee_of m x <= u64_max -> exists s', tok_transfer s (mt_prog m) src mnt dst auth x true = Ok s'.
Proof.
  intros Et Ed Em Pt Pd Mt Md Ho Hd Hx Hf Hd0 Hw0 Hd1 Hw1. unfold tok_transfer.
  assert (G1 : get_tok s (mt_prog m) src = Ok t) by (rewrite <- Pt; now apply get_tok_at). assert (G2 : get_tok s (mt_prog m) dst = Ok d) by (rewrite <- Pd; now apply get_tok_at).
  rewrite G1. cbn [bind]. rewrite G2. cbn [bind]. rewrite (get_mint_at _ _ _ Em). cbn [bind].
  rewrite Mt, Md, !addr_eqb_refl. cbn [andb require bind]. destruct (x <=? tk_amount t) eqn:L; [|lia]. cbn [require bind].
  unfold spend. rewrite Hd. cbn [oaddr_eqb]. rewrite Ho, addr_eqb_refl. cbn [require bind].
  destruct (addr_eqb src dst); [eauto|]. rewrite checked_ok by lia. cbn [bind]. rewrite checked_ok by lia. cbn [bind]. eauto.
Qed.

Lemma release_checks_ok H s x md c it m t : reachable H s -> config_at s (la_config x) c -> cf_paused c = false -> cf_mode c = md -> inbox_at s (la_item x) it ->
  st_mints s (cf_mint c) = Some m -> la_tp x = mt_prog m -> st_toks s (destination x c it) = Some t -> tk_owner t = ib_recipient it ->
  release_checks s x md = Ok (c, it, destination x c it).
Proof.
  intros Hr Hc Hp Hm Hit Hmt Htp Ht Ho. pose proof (reachable_inv _ _ Hr) as Hi. pose proof (config_at_pda _ _ _ _ Hr Hc) as Hc'.
  destruct (custody_tok _ _ Hi (inv_config _ Hi _ Hc')) as (cu & Ecu & _ & _).
  destruct (proj1 (inv_ledger _ Hi) _ _ Ht) as (_&_&_&_&_&Q&_&_). destruct (co_prog _ _ (inv_config _ Hi _ Hc')) as (tp & m0 & t0 & Htk & _ & _ & Em0 & Hpr & _).
  assert (m0 = m) by congruence. subst m0. assert (Hk : is_token_prog (la_tp x) = true) by congruence.
  destruct (Q _ _ _ Hk eq_refl) as (K1 & K2).
  unfold release_checks, get_not_paused. rewrite (get_config_at _ _ _ Hc). cbn [bind]. rewrite Hp. cbn [negb require bind].
  replace (mode_eqb (cf_mode c) md) with true by (subst md; destruct (cf_mode c); reflexivity). cbn [require bind].
  rewrite (get_inbox_at _ _ _ Hit). cbn [bind]. unfold any_mint, any_tok. rewrite Hmt, Ecu. cbn [ok_or bind]. fold (destination x c it). rewrite Ht. cbn [ok_or bind].
  rewrite K1, K2, Ho, prog_eqb_refl, !addr_eqb_refl. reflexivity.
Qed.

Lemma fee_le m x : 0 <= x -> 0 <= mt_bps m <= 10000 -> 0 <= mt_maxfee m -> 0 <= fee_of m x <= x.
Proof.
  intros Hx Hb Hm. unfold fee_of. destruct (mt_prog m); try lia. split.
  - apply Z.min_glb; [|lia]. apply Z.div_pos; nia.
  - etransitivity; [apply Z.le_min_l|]. enough ((x * mt_bps m + 9999) / 10000 < x + 1) by lia. apply Z.div_lt_upper_bound; nia.
Qed.

Lemma try_release_due it now ts : ib_status it = ReleaseAfter ts -> ts <= now ->
  inbox_try_release it now = Ok (InboxItem (ib_init it) (ib_bump it) (ib_amount it) (ib_recipient it) (ib_votes it) Released, true).
Proof. intros E L. unfold inbox_try_release. rewrite E. destruct (now <? ts) eqn:Q; [lia|reflexivity]. Qed.

Lemma can_pay_toks H s x c it m t cu : reachable H s -> can_pay s x c it m t cu ->
  tk_prog t = mt_prog m /\ tk_mint t = cf_mint c /\ is_u64 (tk_amount t) /\ tk_prog cu = mt_prog m /\ tk_mint cu = cf_mint c /\ is_u64 (tk_amount cu) /\
  tk_owner cu = token_authority /\ tk_delegate cu = None /\ 0 <= fee_of m (ib_amount it) <= ib_amount it /\ is_u64 (mt_withheld m) /\ is_u64 (ib_amount it) /\
  (cf_mode c = Burning -> mt_auth m = Some token_authority) /\ is_u64 (mt_supply m) /\
  (destination x c it = cf_custody c -> ib_recipient it = token_authority).
Proof.
  intros Hr C. destruct C. pose proof (reachable_inv _ _ Hr) as Hi. pose proof (config_at_pda _ _ _ _ Hr cp_config) as Hc'.
  destruct (co_prog _ _ (inv_config _ Hi _ Hc')) as (tp & m0 & t0 & Htk & _ & Ecu & Em0 & Hpr & Hau & _). assert (m0 = m) by congruence. subst m0.
  destruct (proj2 (inv_ledger _ Hi) _ _ cp_mint) as (_ & _ & _ & Hsu & Hb & Hmx & Hwh).
  destruct (proj1 (inv_ledger _ Hi) _ _ cp_recipient) as (_&_&U1&_&_&Q1&_&_). destruct (proj1 (inv_ledger _ Hi) _ _ cp_custody) as (_&_&U2&_&_&Q2&Q3&Q4).
  assert (Hk : is_token_prog (la_tp x) = true) by congruence. destruct (Q1 _ _ _ Hk eq_refl) as (K1 & K2). destruct (Q2 _ _ _ Htk Ecu) as (K3 & K4).
  pose proof (Q3 _ _ Htk Ecu) as K5. destruct (item_addr _ _ _ Hi cp_item) as (d & Ea & Wa).
  assert (Hu : is_u64 (ib_amount it)) by apply Wa.
  repeat (split; [congruence || assumption || (now apply Q4)|]).
  split; [apply fee_le; ilia|]. repeat (split; [assumption|]). rewrite Ecu. intros C. unfold destination, ata in C. now inversion C.
Qed.

Lemma unlock_live H s sg x c it m t cu r : reachable H s -> forallb can_sign sg = true -> can_pay s x c it m t cu -> cf_mode c = Locking -> ib_amount it <= tk_amount cu ->
  exists s', step H s (Call sg (IReleaseUnlock x r)) = Ok s' /\ payout (Ev s (Call sg (IReleaseUnlock x r)) s') = Some (la_item x).
Proof.
  intros Hr Hsg C Hm Hb. pose proof (can_pay_toks _ _ _ _ _ _ _ _ Hr C) as (P1 & M1 & U1 & P2 & M2 & U2 & O2 & D2 & Fe & Wh & Ua & _ & _ & _).
  destruct C. destruct cp_due as (ts & Est & Lts).
  destruct (owner_transfer s (cf_custody c) (cf_mint c) (destination x c it) token_authority (ib_amount it) cu t m) as (s1 & E1); try assumption; try ilia.
  assert (Hs : step H s (Call sg (IReleaseUnlock x r)) = Ok (put (la_item x) PManager (DInboxItem (InboxItem (ib_init it) (ib_bump it) (ib_amount it) (ib_recipient it) (ib_votes it) Released)) s1)).
  { unfold step. cbn [signers ins typed]. rewrite Hsg. cbn [andb require bind exec]. unfold release_inbound_unlock.
    rewrite (release_checks_ok _ _ _ _ _ _ _ _ Hr cp_config cp_paused Hm cp_item cp_mint cp_tp cp_recipient cp_owner). cbn [bind].
    rewrite (try_release_due _ _ _ Est Lts). cbn [bind negb]. rewrite cp_tp, cp_hook, E1. reflexivity. }
  eexists. split; [exact Hs|]. unfold payout. cbn [e_call e_pre e_post ins release_of]. unfold released. rewrite (status_inbox _ _ _ cp_item), Est.
  unfold status_at. rewrite get_put_same. reflexivity.
Qed.

Lemma mint_live H s sg x c it m t cu r : reachable H s -> forallb can_sign sg = true -> can_pay s x c it m t cu -> cf_mode c = Burning ->
  mt_supply m + ib_amount it <= u64_max -> tk_amount cu + ib_amount it <= u64_max ->
  exists s', step H s (Call sg (IReleaseMint x r)) = Ok s' /\ payout (Ev s (Call sg (IReleaseMint x r)) s') = Some (la_item x).
Proof.
  intros Hr Hsg C Hm Hsup Hcu. pose proof (can_pay_toks _ _ _ _ _ _ _ _ Hr C) as (P1 & M1 & U1 & P2 & M2 & U2 & O2 & D2 & Fe & Wh & Ua & Hau & Us & Nd).
  destruct C. destruct cp_due as (ts & Est & Lts). specialize (Hau Hm).
  assert (E0 : tok_mint_to s (mt_prog m) (cf_mint c) (cf_custody c) token_authority (ib_amount it) =
    Ok (put_mint (cf_mint c) (with_supply m (mt_supply m + ib_amount it)) (put_tok (cf_custody c) (with_amount cu (tk_amount cu + ib_amount it)) s))).
  { unfold tok_mint_to. rewrite (get_mint_at _ _ _ cp_mint). cbn [bind]. replace (get_tok s (mt_prog m) (cf_custody c)) with (Ok cu) by (rewrite <- P2; symmetry; now apply get_tok_at). cbn [bind].
    rewrite M2, Hau. cbn [oaddr_eqb]. rewrite !addr_eqb_refl. cbn [andb require bind]. rewrite !checked_ok by ilia. reflexivity. }
  set (s0 := put_mint _ _ _) in E0.
  assert (Ht : exists s1, tok_transfer s0 (mt_prog (with_supply m (mt_supply m + ib_amount it))) (cf_custody c) (cf_mint c) (destination x c it) token_authority (ib_amount it) true = Ok s1).
  { destruct (addr_eq_dec (destination x c it) (cf_custody c)) as [Q|Nd'].
    { rewrite Q. unfold tok_transfer, get_tok, get_mint. cbn [s0 put_mint put_tok set_mints set_toks st_toks st_mints]. rewrite !upd_same. cbn [tk_prog tk_mint tk_amount with_amount mt_prog with_supply].
      rewrite P2. unfold prog_eqb. destruct (prog_eq_dec (mt_prog m) (mt_prog m)) as [_|C]; [|congruence]. cbn [bind tk_mint with_amount]. rewrite M2, addr_eqb_refl. cbn [andb require bind tk_amount with_amount].
      destruct (ib_amount it <=? tk_amount cu + ib_amount it) eqn:L; [|ilia]. cbn [require bind]. unfold spend. cbn [with_amount tk_delegate tk_owner]. rewrite D2. cbn [oaddr_eqb].
      rewrite O2, addr_eqb_refl. cbn [require bind]. rewrite addr_eqb_refl. eexists. reflexivity. }
    apply (owner_transfer s0 _ _ _ _ _ (with_amount cu (tk_amount cu + ib_amount it)) t); try assumption; try (cbn; ilia).
    - cbn. apply upd_same.
    - cbn. rewrite upd_other by exact Nd'. exact cp_recipient.
    - cbn. apply upd_same. }
  destruct Ht as (s1 & E1).
  assert (Hs : step H s (Call sg (IReleaseMint x r)) = Ok (put (la_item x) PManager (DInboxItem (InboxItem (ib_init it) (ib_bump it) (ib_amount it) (ib_recipient it) (ib_votes it) Released)) s1)).
    { unfold step. cbn [signers ins typed]. rewrite Hsg. cbn [andb require bind exec]. unfold release_inbound_mint.
      rewrite (release_checks_ok _ _ _ _ _ _ _ _ Hr cp_config cp_paused Hm cp_item cp_mint cp_tp cp_recipient cp_owner). cbn [bind].
      rewrite (try_release_due _ _ _ Est Lts). cbn [bind negb]. rewrite cp_tp, cp_hook, E0. cbn [bind]. cbn [mt_prog with_supply] in E1. rewrite E1. reflexivity. }
    eexists. split; [exact Hs|]. unfold payout. cbn [e_call e_pre e_post ins release_of]. unfold released. rewrite (status_inbox _ _ _ cp_item), Est.
    unfold status_at. rewrite get_put_same. reflexivity.
Qed.

(** ** Outbound *)
(** The account of a published message exists only after the flag is set. *)
Lemma flag_kept H s cl s' a id : reachable H s -> step H s cl = Ok s' -> flag s a id = true -> flag s' a id = true.
Proof.
  intros Hr Hs E. destruct (Bool.bool_dec (flag s' a id) true) as [Q|Q]; [exact Q|].
  destruct (flag_step _ _ _ _ a id Hr Hs) as (C & _); [rewrite E; exact Q|congruence].
Qed.

Lemma message_flag H s : reachable H s -> forall p it ac, is_ntt_prog p = true -> st_accts s (pda_message p it) = Some ac ->
  exists rt, reg_at s (pda_reg (AProg p)) rt /\ flag s it (rt_id rt) = true.
Proof.
  revert s. apply (reach_ind H (fun s => forall p it ac, is_ntt_prog p = true -> st_accts s (pda_message p it) = Some ac -> exists rt, reg_at s (pda_reg (AProg p)) rt /\ flag s it (rt_id rt) = true)).
  - intros s Hini p it ac Hp E. exfalso. apply (ini_accts _ Hini) in E. destruct E as (C & _). apply C. destruct p; try discriminate; exact I.
  - intros s cl s' Hr IH Hs p it ac Hp E.
    destruct (st_accts s (pda_message p it)) as [ac0|] eqn:Eold.
    { destruct (IH _ _ _ Hp Eold) as (rt & R & F). exists rt. split; [eapply reg_kept; eassumption|]. eapply flag_kept; eassumption. }
    destruct (step_change _ _ _ _ Hs (pda_message p it)) as [Q|Q]; [congruence|].
    pose proof (step_inv _ _ _ _ Hs) as (Hsg & _ & _). destruct cl as [sg i]. cbn [signers ins] in *.
    assert (Hsn : signed sg (pda_message p it) = true -> False).
    { intros K. pose proof (signed_can _ _ Hsg K) as C. destruct p; discriminate. }
    rewrite E, Eold in Q. remember (pda_message p it) as a eqn:Ea.
    inversion Q; subst; try discriminate; try (exfalso; apply Hsn; congruence).
    + match goal with F : transfer_facts _ _ _ _ _ _ _ _ _ _ _ _ _ _ _ _ |- _ => pose proof (tf_signed _ _ _ _ _ _ _ _ _ _ _ _ _ _ _ _ F) end. exfalso; apply Hsn; congruence.
    + match goal with E : pda_message _ _ = pda_message _ _ |- _ => inversion E; subst end. clear Q.
      apply step_inv in Hs. destruct Hs as (_ & _ & He). cbn [exec ins signers] in He. apply x_release_ok in He; [|exact Hp].
      destruct He as (c' & o' & rt' & F & Hra & [(-> & _)|(_ & _ & r & Hb & _ & Hn & ->)]); [congruence|].
      pose proof (reachable_inv _ _ Hr) as Hi. destruct (reg_addr _ _ _ Hi (of_reg _ _ _ _ _ _ _ F)) as (q & Eq & Hq). rewrite Hra in Hq. inversion Hq; subst q.
      pose proof (reg_id _ _ _ Hi (of_reg _ _ _ _ _ _ _ F)) as Hid. pose proof (of_reg _ _ _ _ _ _ _ F) as Hreg. rewrite Eq in Hreg.
      assert (Nr : pda_reg (AProg p) <> it) by (intros <-; pose proof (of_item _ _ _ _ _ _ _ F) as C; unfold has in *; congruence).
      exists rt'. split.
      * unfold reg_at. cbn [set_posted st_accts]. rewrite get_put_other by discriminate. rewrite get_put_other by exact Nr. exact Hreg.
      * unfold flag. cbn [set_posted st_accts]. rewrite get_put_other by auto. rewrite get_put_same. cbn [set_sent ob_released].
        rewrite BitmapFacts.bm_set_ok in Hb by exact Hid. apply Ok_inj in Hb. subst r. rewrite Z.setbit_eqb by lia. now rewrite Z.eqb_refl.
    + exfalso. match goal with E : exists _ _ _ _, _ = _ |- _ => destruct E as (? & ? & ? & ? & E) end. destruct p; discriminate.
    + exfalso. destruct p; discriminate.
Qed.

Lemma publish_live H s sg p a c o rt r : reachable H s -> forallb can_sign sg = true -> is_ntt_prog p = true -> config_at s pda_config c -> cf_paused c = false ->
  outbox_at s a o -> ob_release o <= st_now s -> reg_at s (pda_reg (AProg p)) rt -> Z.testbit (cf_enabled c) (rt_id rt) = true -> flag s a (rt_id rt) = false ->
  exists s', step H s (Call sg (IXRelease p pda_config a (pda_reg (AProg p)) r true)) = Ok s' /\ published s' p = outbound_message c a o :: published s p.
Proof.
  intros Hr Hsg Hp Hc Hpa Ho Hdue Hreg Hen Hfl. pose proof (reachable_inv _ _ Hr) as Hi.
  pose proof (reg_id _ _ _ Hi Hreg) as Hid. destruct (reg_addr _ _ _ Hi Hreg) as (q & Eq & Hra). inversion Eq; subst q.
  assert (Hfl' : Z.testbit (ob_released o) (rt_id rt) = false) by (unfold flag, outbox_at in *; rewrite Ho in Hfl; exact Hfl).
  assert (Hck : outbound_checks s pda_config a (pda_reg (AProg p)) = Ok (c, o, rt)).
  { unfold outbound_checks, get_not_paused. rewrite (get_config_at _ _ _ Hc). cbn [bind]. rewrite Hpa. cbn [negb require bind].
    rewrite (get_outbox_at _ _ _ Ho). cbn [bind]. rewrite (get_reg_at _ _ _ Hreg). cbn [bind].
    rewrite !BitmapFacts.bm_get_ok by exact Hid. cbn [bind]. rewrite Hfl', Hen. reflexivity. }
  set (o' := OutboxItem (ob_amount o) (ob_sender o) (ob_chain o) (ob_manager o) (ob_recipient o) (ob_release o) (Z.setbit (ob_released o) (rt_id rt))).
  assert (Htr : outbox_try_release o (st_now s) (rt_id rt) = Ok (o', true)).
  { unfold outbox_try_release. destruct (st_now s <? ob_release o) eqn:L; [lia|]. rewrite BitmapFacts.bm_get_ok by exact Hid. cbn [bind]. rewrite Hfl'. cbn [negb require bind].
    rewrite BitmapFacts.bm_set_ok by exact Hid. reflexivity. }
  assert (Hmk : (match p with
     | PManager => let? (o', r) := outbox_try_release o (st_now s) (rt_id rt) in Ok (put a PManager (DOutboxItem o') s, r)
     | _ => mark_outbox_item_as_released s [pda_outbox_signer p] (pda_outbox_signer p) pda_config a (pda_reg (AProg p))
     end) = Ok (put a PManager (DOutboxItem o') s, true)).
  { destruct p; try discriminate; [now rewrite Htr|]. unfold mark_outbox_item_as_released. rewrite Hck. cbn [bind]. rewrite Hra, addr_eqb_refl. cbn [require bind].
    cbn [signed existsb]. rewrite addr_eqb_refl. cbn [orb require bind]. rewrite Htr. reflexivity. }
  assert (Hno : st_accts s (pda_message p a) = None).
  { destruct (st_accts s (pda_message p a)) eqn:E; [|reflexivity]. destruct (message_flag _ _ Hr _ _ _ Hp E) as (rt' & R & F).
    unfold reg_at in *. assert (rt' = rt) by congruence. congruence. }
  assert (Hna : pda_message p a <> a) by (intros C; rewrite C in Hno; unfold outbox_at in Ho; congruence).
  assert (Hfree : free (put a PManager (DOutboxItem o') s) (pda_message p a) = true).
  { assert (Hres : reserved (pda_message p a)) by (destruct p; try discriminate; exact I).
    unfold free, pda_message. fold (pda_message p a). cbn [st_toks st_mints put set_accts st_accts]. rewrite upd_other by exact Hna. rewrite Hno.
    destruct (st_toks s (pda_message p a)) eqn:Et; [exfalso; exact (proj1 (proj1 (inv_ledger _ Hi) _ _ Et) Hres)|].
    destruct (st_mints s (pda_message p a)) eqn:Em; [exfalso; exact (proj1 (proj2 (inv_ledger _ Hi) _ _ Em) Hres)|]. reflexivity. }
  eexists. split.
  - unfold step. cbn [signers ins typed]. rewrite Hsg, Hp. cbn [andb require bind exec]. unfold x_release. rewrite Hck. cbn [bind]. rewrite Hra, addr_eqb_refl. cbn [require bind].
    rewrite Hmk. cbn [bind negb]. rewrite (get_outbox_at _ a o') by apply get_put_same. cbn [bind]. rewrite BitmapFacts.bm_get_ok by exact Hid. cbn [bind].
    unfold o' at 1. cbn [ob_released]. rewrite Z.setbit_eqb by lia. rewrite Z.eqb_refl. cbn [orb require bind]. unfold bridge_post. rewrite Hfree. reflexivity.
  - unfold published. cbn [set_posted st_posted flat_map po_payload po_emitter]. match goal with |- context [if ?d then _ else _] => destruct d as [|C]; [|now destruct C] end. reflexivity.
Qed.

(** * Payouts. *)
From Verif Require Export OutFacts.
Local Open Scope Z_scope.

Lemma facts_pays s x md c it m rt s1 ts : inv s -> release_facts s x md c it m rt -> same_prog s s1 ->
  ib_status it = ReleaseAfter ts -> ts <= st_now s ->
  pays s x md (put (la_item x) PManager (DInboxItem (set_status it Released)) s1) c it m.
Proof.
  intros Hi F Hsp Hst Hts. destruct (item_addr _ _ _ Hi (lf_item _ _ _ _ _ _ _ F)) as (_ & _ & Ri & _).
  pose proof (fee_range _ _ (ib_amount it) (proj2 (inv_ledger _ Hi) _ _ (lf_mint _ _ _ _ _ _ _ F)) ltac:(ilia)) as Hf.
  destruct F. constructor; try assumption.
  - eauto.
  - apply get_put_same.
  - exists rt. auto.
  - intros b B. rewrite get_put_other by assumption. now rewrite (proj1 Hsp).
  - cbn. apply Hsp.
Qed.

Lemma unlock_exact H s sg x r s' : reachable H s -> step H s (Call sg (IReleaseUnlock x r)) = Ok s' ->
  (s' = s /\ r = false /\ exists it, inbox_at s (la_item x) it /\ (ib_status it = NotApproved \/ exists t, ib_status it = ReleaseAfter t /\ st_now s < t)) \/
  exists c it m, pays s x Locking s' c it m /\
    (destination x c it = cf_custody c /\ (forall b, st_toks s' b = st_toks s b) /\ (forall b, st_mints s' b = st_mints s b) \/
     destination x c it <> cf_custody c /\
     balance s' (cf_custody c) = balance s (cf_custody c) - ib_amount it /\
     balance s' (destination x c it) = balance s (destination x c it) + ib_amount it - fee_of m (ib_amount it) /\
     (forall b, b <> cf_custody c -> b <> destination x c it -> st_toks s' b = st_toks s b) /\
     (exists t t', st_toks s (destination x c it) = Some t /\ st_toks s' (destination x c it) = Some t' /\ tk_owner t' = tk_owner t /\ tk_delegate t' = tk_delegate t /\ tk_delegated t' = tk_delegated t) /\
     st_mints s' (cf_mint c) = Some (with_withheld m (mt_withheld m + fee_of m (ib_amount it))) /\
     (forall b, b <> cf_mint c -> st_mints s' b = st_mints s b)).
Proof.
  intros Hr Hs. pose proof (reachable_inv _ _ Hr) as Hi. apply step_inv in Hs. destruct Hs as (Hsg & Hty & He). cbn [exec ins signers typed] in *.
  apply release_unlock_ok in He. destruct He as (c & it & mt & rt & HF & [(-> & -> & Q)|(ts & s1 & Hst & Ht & HT & ->)]).
  { left. split; [reflexivity|]. split; [reflexivity|]. exists it. split; [apply HF|exact Q]. }
  right. exists c, it, mt. split; [eapply facts_pays; eauto using tok_accts_transfer|].
  pose proof (tok_transfer_ok _ _ _ _ _ _ _ _ _ HT) as (t0 & d & m & t' & E1 & E2 & E3 & _ & _ & _ & _ & _ & Hle & Hsp & _ & _ & Q).
  assert (m = mt) by (pose proof (lf_mint _ _ _ _ _ _ _ HF); congruence). subst m. fold (destination x c it) in *.
  destruct Q as [(Q & ->)|(Hne & _ & _ & Qm & Qt)]; [left; auto|right]. split; [congruence|].
  unfold balance. cbn [put set_accts st_toks st_mints]. rewrite Qt, Qm. rewrite upd_other, !upd_same by assumption. rewrite E1, E2. cbn.
  split; [reflexivity|]. split; [lia|]. split; [intros b B1 B2; rewrite !upd_other by assumption; reflexivity|].
  split; [eexists _, _; split; [reflexivity|]; split; [reflexivity|]; auto|]. split; [reflexivity|].
  intros b B. rewrite upd_other by assumption. reflexivity.
Qed.

Lemma mint_exact H s sg x r s' : reachable H s -> step H s (Call sg (IReleaseMint x r)) = Ok s' ->
  (s' = s /\ r = false /\ exists it, inbox_at s (la_item x) it /\ (ib_status it = NotApproved \/ exists t, ib_status it = ReleaseAfter t /\ st_now s < t)) \/
  exists c it m, pays s x Burning s' c it m /\ mt_auth m = Some token_authority /\
    supply_of s' (cf_mint c) = supply_of s (cf_mint c) + ib_amount it /\
    (forall b, b <> cf_mint c -> st_mints s' b = st_mints s b) /\
    (destination x c it = cf_custody c /\ balance s' (cf_custody c) = balance s (cf_custody c) + ib_amount it /\
     (forall b, b <> cf_custody c -> st_toks s' b = st_toks s b) \/
     destination x c it <> cf_custody c /\
     balance s' (destination x c it) = balance s (destination x c it) + ib_amount it - fee_of m (ib_amount it) /\
     (forall b, b <> destination x c it -> st_toks s' b = st_toks s b) /\
     (exists t t', st_toks s (destination x c it) = Some t /\ st_toks s' (destination x c it) = Some t' /\ tk_owner t' = tk_owner t /\ tk_delegate t' = tk_delegate t /\ tk_delegated t' = tk_delegated t)).
Proof.
  intros Hr Hs. pose proof (reachable_inv _ _ Hr) as Hi. apply step_inv in Hs. destruct Hs as (Hsg & Hty & He). cbn [exec ins signers typed] in *.
  apply release_mint_ok in He. destruct He as (c & it & mt & rt & HF & [(-> & -> & Q)|(ts & s0 & s1 & Hst & Ht & HM & HT & ->)]).
  { left. split; [reflexivity|]. split; [reflexivity|]. exists it. split; [apply HF|exact Q]. }
  right. exists c, it, mt.
  assert (Hsp0 : same_prog s s1) by (eapply same_prog_trans; [eapply tok_accts_mint|eapply tok_accts_transfer]; eassumption).
  split; [eapply facts_pays; eauto|].
  destruct (config_ok_at _ _ _ Hi (lf_config _ _ _ _ _ _ _ HF)) as (_ & Hok). destruct (custody_tok _ _ Hi Hok) as (cu & Ect & Hco & Hcm).
  pose proof (tok_mint_to_ok _ _ _ _ _ _ _ HM) as (d0 & m0 & M1 & M2 & _ & _ & _ & Mau & _ & _ & _ & Mt & Mm).
  assert (m0 = mt) by (pose proof (lf_mint _ _ _ _ _ _ _ HF); congruence). subst m0. assert (d0 = cu) by congruence. subst d0.
  split; [exact Mau|].
  pose proof (tok_transfer_ok _ _ _ _ _ _ _ _ _ HT) as (t0 & d & m & t' & E1 & E2 & E3 & _ & _ & _ & _ & _ & Hle & Hsp & _ & _ & Q).
  fold (destination x c it) in *. rewrite Mm, upd_same in E3. apply Some_inj in E3. subst m. rewrite Mt, upd_same in E1. apply Some_inj in E1. subst t0.
  destruct Q as [(Q & ->)|(Hne & _ & _ & Qm & Qt)]; unfold supply_of, balance; cbn [put set_accts st_toks st_mints].
  - rewrite Mm, Mt, !upd_same, M2, Ect. cbn. split; [reflexivity|]. split; [intros b B; rewrite upd_other by assumption; reflexivity|].
    left. split; [auto|]. split; [reflexivity|]. intros b B. rewrite upd_other by assumption; reflexivity.
  - rewrite Qm, Qt, Mm, Mt, !upd_same, M2. split; [reflexivity|]. split; [intros b B; rewrite !upd_other by assumption; reflexivity|].
    right. split; [congruence|]. rewrite Mt, upd_other in E2 by congruence. rewrite E2. split; [cbn; change (fee_of (with_supply _ _)) with (fee_of mt); lia|].
    split; [|eexists _, _; split; [reflexivity|]; split; [reflexivity|]; auto].
    intros b B. rewrite upd_other by assumption. rewrite upd_eq. destruct (addr_eq_dec b (cf_custody c)) as [->|B2]; [|apply upd_other; assumption].
    rewrite Ect. f_equal. apply spend_ok in Hsp. destruct Hsp as (_&_&_&_&[(C&_)|(_&_&->)]).
    + cbn in C. destruct (proj1 (inv_ledger _ Hi) _ _ Ect) as (_&_&_&_&_&_&_&Q). rewrite Q in C by assumption. discriminate.
    + destruct cu; unfold with_amount; cbn. f_equal. lia.
Qed.

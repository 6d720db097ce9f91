(** * The surroundings follow their rules, all of them and no others. *)
From Verif Require Export SpecWorld.
From Verif Require Import MoveFacts Kept LamportFacts.
Import ListNotations.
Local Open Scope Z_scope.

Lemma vacant_free s a : vacant s a <-> free s a = true.
Proof.
  unfold vacant, free. destruct a; try (split; [intros (_ & _ & _ & N & P); exfalso; try (apply N; reflexivity); eapply P; reflexivity|discriminate]);
    destruct (st_accts s _), (st_toks s _), (st_mints s _); split; try discriminate; try (intros (? & ? & ? & _); discriminate); intros _; repeat split; discriminate.
Qed.
Lemma token_iff p : token_program p <-> is_token_prog p = true.
Proof. unfold token_program. destruct p; cbn; intuition congruence. Qed.

Lemma spend_iff t auth x : (exists t1, spend t auth x = Ok t1) <-> may_take t auth x.
Proof.
  unfold spend, may_take, by_delegate, by_holder. destruct (oaddr_eqb (tk_delegate t) auth) eqn:D.
  - apply oaddr_eqb_eq in D. split.
    + intros (t1 & E). binds E. bools. left. split; [exact D|lia].
    + intros [(_ & L)|(_ & N)]; [|congruence]. replace (x <=? tk_delegated t) with true by (symmetry; lia). cbn. eauto.
  - assert (N : tk_delegate t <> Some auth) by (intros K; apply oaddr_eqb_eq in K; congruence). split.
    + intros (t1 & E). binds E. bools. right. auto.
    + intros [(K & _)|(O & _)]; [congruence|]. replace (addr_eqb (tk_owner t) auth) with true by (symmetry; apply addr_eqb_eq; exact O). cbn. eauto.
Qed.
Lemma spend_tok t auth x t1 t' : spend t auth x = Ok t1 -> taken_from t t' auth x <-> t' = with_amount t1 (tk_amount t - x).
Proof.
  unfold spend, taken_from, by_holder, with_amount. destruct t as [pr mn ow am de dd], t' as [pr' mn' ow' am' de' dd']. cbn [tk_prog tk_mint tk_owner tk_amount tk_delegate tk_delegated].
  destruct (oaddr_eqb de auth) eqn:D; intros E.
  - apply oaddr_eqb_eq in D. subst de. binds E. bools. subst t1. cbn [tk_prog tk_mint tk_owner tk_amount tk_delegate tk_delegated]. split.
    + intros (-> & -> & -> & -> & _ & K). destruct (K eq_refl) as (-> & K1 & K2). f_equal. destruct (dd - x =? 0) eqn:Z0; [apply K1; lia|apply K2; lia].
    + intros K. inversion K; subst. repeat (split; [reflexivity|]). split; [intros (_ & N); congruence|]. intros _. split; [reflexivity|].
      destruct (dd - x =? 0) eqn:Z0; split; intros; congruence || lia.
  - assert (N : de <> Some auth) by (intros K; apply oaddr_eqb_eq in K; congruence). binds E. bools. subst t1. cbn [tk_prog tk_mint tk_owner tk_amount tk_delegate tk_delegated]. split.
    + intros (-> & -> & -> & -> & K & _). destruct K as (-> & ->); [split; congruence|]. reflexivity.
    + intros K. inversion K; subst. repeat (split; [reflexivity|]). split; [auto|]. congruence.
Qed.
Lemma fee_iff m x f : is_token_prog (mt_prog m) = true -> fee_is m x f <-> f = fee_of m x.
Proof.
  unfold fee_is, fee_of. intros Tp. destruct (mt_prog m); try discriminate Tp.
  - split; [intros (K & _); auto|]. intros ->. split; [auto|discriminate].
  - pose proof (Z.div_mod (x * mt_bps m + 9999) 10000 ltac:(lia)) as D. pose proof (Z.mod_pos_bound (x * mt_bps m + 9999) 10000 ltac:(lia)) as B.
    set (c := (x * mt_bps m + 9999) / 10000) in *. set (y := x * mt_bps m) in *. clearbody c y. split.
    + intros (_ & K). specialize (K eq_refl). lia.
    + intros ->. split; [discriminate|]. intros _. lia.
Qed.
Lemma fee_small m x : 0 <= mt_bps m <= 10000 -> 0 <= mt_maxfee m -> 0 <= x -> 0 <= fee_of m x <= x.
Proof.
  intros B M X. unfold fee_of. destruct (mt_prog m); try lia. assert (0 <= x * mt_bps m <= x * 10000) by nia.
  pose proof (Z.div_mod (x * mt_bps m + 9999) 10000 ltac:(lia)) as D. pose proof (Z.mod_pos_bound (x * mt_bps m + 9999) 10000 ltac:(lia)). nia.
Qed.
Lemma checked_in m z : 0 <= z <= m -> checked m z = Some z.
Proof. intros R. unfold checked. replace ((0 <=? z) && (z <=? m)) with true by (symmetry; apply andb_true_intro; split; lia). reflexivity. Qed.
Lemma get_tok_in s p a t : st_toks s a = Some t -> tk_prog t = p -> get_tok s p a = Ok t.
Proof. intros E P. unfold get_tok. rewrite E. replace (prog_eqb (tk_prog t) p) with true by (symmetry; apply prog_eqb_eq; exact P). reflexivity. Qed.
Lemma get_mint_in s p a t : st_mints s a = Some t -> mt_prog t = p -> get_mint s p a = Ok t.
Proof. intros E P. unfold get_mint. rewrite E. replace (prog_eqb (mt_prog t) p) with true by (symmetry; apply prog_eqb_eq; exact P). reflexivity. Qed.
Ltac yes e := replace e with true by (symmetry; first [assumption | apply addr_eqb_eq; auto; fail | apply prog_eqb_eq; auto; fail | apply oaddr_eqb_eq; auto; fail | apply signed_In; auto; fail | lia | ilia]).

Lemma step_typed H s sg i s' : step H s (Call sg i) = Ok s' <-> forallb can_sign sg = true /\ typed i = true /\ exec H s sg i = Ok s'.
Proof.
  split; [intros E; apply step_inv in E; exact E|]. intros (A & B & C). unfold step. cbn [signers ins]. rewrite A, B. exact C.
Qed.

Lemma by_rule s sg i st s' : surroundings s sg i st -> st = s' -> surroundings s sg i s'.
Proof. intros R <-. exact R. Qed.
Ltac same := unfold put_mint, put_tok, put, set_mints, set_toks, set_accts, set_now, set_uauth, set_posted, with_mints, with_toks, with_accts, with_amount, with_supply, with_withheld, set_delegate;
  cbn [st_now st_accts st_toks st_mints st_uauth st_posted]; repeat (f_equal; try congruence; try lia).

Ltac fin := first [eassumption | congruence | lia | (unfold at_most_64; ilia) | (apply signed_In; assumption)].
Lemma world_sound H s sg i s' : reachable H s -> of_surroundings i -> typed i = true -> exec H s sg i = Ok s' -> surroundings s sg i s'.
Proof.
  intros Hr O Ty E. pose proof (reachable_inv _ _ Hr) as Hi. destruct (inv_ledger _ Hi) as (Lt & Lm).
  destruct i; try contradiction O; cbn [exec typed] in E, Ty; repeat match goal with K : _ && _ = true |- _ => apply andb_prop in K; destruct K end;
    repeat match goal with K : is_token_prog _ = true |- _ => apply token_iff in K end.
  - apply Ok_inj in E. subst. constructor. apply i64b_ok. assumption.
  - widths. binds E. gets. unfold tok_transfer in E. binds E. gets. bools. assert (Mt : may_take v0 auth amount) by (apply spend_iff; eauto).
    destruct (addr_eqb src dst) eqn:D; bools.
    + subst dst. match goal with K : _ = s' |- _ => rewrite <- K end. eapply S_to_itself with (t := v0); fin.
    + binds E. bools. apply addr_eqb_neq in D. match goal with K : spend _ _ _ = Ok _ |- _ => pose proof (proj2 (spend_tok _ _ _ _ _ K) eq_refl) as T' end.
      eapply by_rule; [eapply S_transfer with (f := fee_of v2 amount); try fin; apply fee_iff; [apply token_iff; congruence|reflexivity]|]. subst. same.
  - widths. binds E. gets. bools. eapply by_rule; [eapply S_approve; fin|]. subst. same.
  - binds E. gets. bools. eapply by_rule; [eapply S_revoke; fin|]. subst. same.
  - widths. binds E. gets. unfold tok_mint_to in E. binds E. gets. bools. eapply by_rule; [eapply S_mint; fin|]. subst. same.
  - widths. binds E. gets. unfold tok_burn in E. binds E. gets. bools. match goal with K : spend _ _ _ = Ok _ |- _ => pose proof (proj2 (spend_tok _ _ _ _ _ K) eq_refl) as T' end.
    eapply by_rule; [eapply S_burn; try fin; apply spend_iff; eauto|]. subst. same.
  - binds E. gets. bools. eapply by_rule; [eapply S_mint_authority; fin|]. subst. same.
  - binds E. gets. bools. eapply by_rule; [eapply S_holder; fin|]. subst. same.
  - binds E. gets. bools. eapply by_rule; [eapply S_close; fin|]. subst. same.
  - unfold tok_init in E. binds E. gets. bools. eapply by_rule; [eapply S_account; try fin; apply vacant_free; assumption|]. subst. same.
  - unfold tok_init in E. binds E. gets. bools. eapply by_rule; [eapply S_associated; try fin; apply vacant_free; assumption|]. subst. same.
  - widths. binds E. bools. eapply by_rule; [eapply S_new_mint; try fin; apply vacant_free; assumption|]. subst. same.
  - widths. binds E. gets. bools. eapply by_rule; [eapply S_fee; fin|]. subst. same.
  - widths. binds E. gets. bools. eapply by_rule; [eapply S_withheld; fin|]. subst. same.
  - widths. binds E. bools. destruct a as [| | | |[]]; try discriminate. eapply by_rule; [eapply S_vaa; try fin; [intros tm ->; assumption|apply vacant_free; assumption]|]. subst. same.
  - unfold bridge_post in E. binds E. bools. eapply by_rule; [eapply S_post; try fin; apply vacant_free; assumption|]. subst. same.
  - unfold loader_set_authority in E. destruct (st_uauth s) as [cur|] eqn:U; [|discriminate]. binds E. bools. eapply by_rule; [eapply S_upgrade_authority; fin|]. subst. same.
  - binds E. bools. eapply by_rule; [eapply S_write; try fin|].
    + intros ch tm ->. bools. widths. auto.
    + destruct (st_accts s a) as [[pr d0]|]; [right|left]; binds E; bools; [cbn [ac_owner] in *; subst; eauto|apply vacant_free; assumption].
    + destruct (st_accts s a) as [[pr d0]|]; binds E; bools; subst; same.
  - destruct (st_accts s a) as [[pr d0]|] eqn:A; [|discriminate]. binds E. bools. cbn [ac_owner] in *. eapply by_rule; [eapply S_erase; subst; eassumption|]. subst. same.
Qed.

Ltac sayyes := repeat match goal with
  | |- context [require ?b _] => first [yes b | replace b with true by (symmetry; repeat (apply andb_true_intro; split); first [apply addr_eqb_eq; congruence | apply oaddr_eqb_eq; congruence | apply signed_In; assumption | assumption | reflexivity | lia])]; cbn [require bind]
  | |- context [checked ?m ?z] => rewrite (checked_in m z) by ilia; cbn [ok_or bind]
  end.
Lemma u64_b z : is_u64 z -> u64b z = true. Proof. unfold is_u64, u64b. intros. apply andb_true_intro. split; lia. Qed.
Lemma u16_b z : is_u16 z -> u16b z = true. Proof. unfold is_u16, u16b. intros. apply andb_true_intro. split; lia. Qed.
Lemma u8_b z : is_u8 z -> u8b z = true. Proof. unfold is_u8, u8b. intros. apply andb_true_intro. split; lia. Qed.

Ltac tys := repeat match goal with |- _ && _ = true => apply andb_true_intro; split end;
  first [reflexivity | assumption | apply token_iff; assumption | apply u64_b; assumption | apply u16_b; assumption | apply u8_b; assumption
        | match goal with |- match ?m with Some _ => _ | None => _ end = true => destruct m; auto; fail end
        | match goal with |- match ?d with DVtm _ _ => _ | _ => _ end = true => destruct d; try reflexivity;
            match goal with K : forall ch tm, DVtm ?c ?t = DVtm ch tm -> _ |- _ => destruct (K c t eq_refl) as (K1 & K2); apply u16_b in K1; rewrite K1, K2; reflexivity end end
        | unfold i64b; apply andb_true_intro; split; ilia | lia].
Ltac reads := repeat match goal with
  | K : st_toks ?s ?a = Some ?t |- context [get_tok ?s ?p ?a] => rewrite (get_tok_in s p a t K) by congruence; cbn [bind]
  | K : st_mints ?s ?a = Some ?t |- context [get_mint ?s ?p ?a] => rewrite (get_mint_in s p a t K) by congruence; cbn [bind] end.
Lemma world_complete H s sg i s' : reachable H s -> surroundings s sg i s' -> typed i = true /\ exec H s sg i = Ok s'.
Proof.
  intros Hr R. pose proof (reachable_inv _ _ Hr) as Hi. destruct (inv_ledger _ Hi) as (Lt & Lm).
  assert (Tr : forall a t, st_toks s a = Some t -> is_u64 (tk_amount t)) by (intros a t K; apply Lt in K; apply K).
  assert (Mr : forall a t, st_mints s a = Some t -> is_u64 (mt_supply t) /\ is_u64 (mt_withheld t) /\ 0 <= mt_bps t <= 10000 /\ is_u64 (mt_maxfee t)) by (intros a t K; apply Lm in K; unfold wf_mint in K; tauto).
  destruct R; cbn [exec typed]; (split; [tys|]); try match goal with K : vacant s _ |- _ => apply vacant_free in K end; try match goal with K : In _ sg |- _ => apply signed_In in K; rewrite K end; cbn [require bind]; unfold at_most_64 in *;
    repeat match goal with
    | K : st_toks s _ = Some ?t |- _ => lazymatch goal with _ : is_u64 (tk_amount t) |- _ => fail | _ => pose proof (Tr _ _ K) end
    | K : st_mints s _ = Some ?t |- _ => lazymatch goal with _ : is_u64 (mt_supply t) |- _ => fail | _ => pose proof (Mr _ _ K) as (? & ? & ? & ?) end end.
  - reflexivity.
  - unfold tok_transfer. reads. sayyes. match goal with K : may_take _ _ _ |- _ => apply spend_iff in K; destruct K as (t1 & Sp) end. rewrite Sp. cbn [bind].
    match goal with K : taken_from _ _ _ _ |- _ => apply (spend_tok _ _ _ _ _ Sp) in K; subst t' end. match goal with K : src <> dst |- _ => apply addr_eqb_neq in K; rewrite K end.
    match goal with K : fee_is _ _ _ |- _ => apply fee_iff in K; [|apply token_iff; congruence]; subst f end. 
    match goal with K : is_u64 ?x, M : st_mints s _ = Some ?m |- context [fee_of ?m ?x] => pose proof (fee_small m x) end. sayyes. f_equal. same.
  - unfold tok_transfer. reads. sayyes. match goal with K : may_take _ _ _ |- _ => apply spend_iff in K; destruct K as (t1 & Sp) end. rewrite Sp. cbn [bind]. yes (addr_eqb src src). reflexivity.
  - reads. sayyes. f_equal. same.
  - reads. sayyes. f_equal. same.
  - unfold tok_mint_to. reads. sayyes. f_equal. same.
  - unfold tok_burn. reads. sayyes. match goal with K : may_take _ _ _ |- _ => apply spend_iff in K; destruct K as (t1 & Sp) end. rewrite Sp. cbn [bind].
    match goal with K : taken_from _ _ _ _ |- _ => apply (spend_tok _ _ _ _ _ Sp) in K; subst t' end. sayyes. f_equal. same.
  - reads. sayyes. f_equal. same.
  - reads. sayyes. f_equal. same.
  - reads. sayyes. f_equal.
  - unfold tok_init. reads. sayyes. f_equal.
  - unfold tok_init. reads. sayyes. f_equal.
  - sayyes. f_equal.
  - reads. sayyes. f_equal. same.
  - reads. sayyes. f_equal. same.
  - sayyes. f_equal.
  - unfold bridge_post. sayyes. f_equal.
  - match goal with K : st_uauth s = Some _ |- _ => rewrite K end. sayyes. unfold loader_set_authority. sayyes. reflexivity.
  - sayyes. match goal with K : _ \/ _ |- _ => destruct K as [V|(d0 & V)] end.
    + rewrite (proj1 V). apply vacant_free in V. rewrite V. reflexivity.
    + rewrite V. cbn [ac_owner]. sayyes. reflexivity.
  - match goal with K : st_accts s a = Some _ |- _ => rewrite K end. cbn [ac_owner]. sayyes. reflexivity.
Qed.

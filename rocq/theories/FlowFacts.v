(** * Custody and supply over histories (C42, C43). *)
From Verif Require Export InFacts.
Local Open Scope Z_scope.

Lemma other_flow H s sg i s' a : reachable H s -> step H s (Call sg i) = Ok s' -> transfer_of i = None -> release_of i = None ->
  (forall t, st_toks s a = Some t -> tk_owner t = token_authority -> balance s a <= balance s' a) /\
  (forall m, st_mints s a = Some m -> mt_auth m = Some token_authority -> supply_of s' a = supply_of s a - burned_by_holder a (Ev s (Call sg i) s')).
Proof.
  intros Hr Hs Ht Hl. pose proof (reachable_inv _ _ Hr) as Hi. pose proof (step_inv _ _ _ _ Hs) as (Hsg & Hty & _). cbn [signers ins] in *.
  destruct (step_ops _ _ _ _ Hs) as (os & s1 & Hops & Hsame & Hw). cbn [signers ins] in *.
  pose proof (why_ok _ _ _ _ _ _ Hi Hsg Hty Hw) as Hok. rewrite (bal_same _ _ _ Hsame), (supply_same _ _ _ Hsame).
  destruct Hw; try discriminate; cbn [run_ops] in Hops.
  - binds Hops. bools. subst. inversion Hok; subst. pose proof (env_no_authority _ _ _ Hsg H1 H0) as Hau. split.
    + intros t Et Ho. eapply op_amount; try eassumption. apply Hi.
    + intros m Em Ha. rewrite (op_supply _ _ _ _ _ E Em), (env_mint _ _ _ _ _ Hau E Em Ha).
      enough (burned_by_op o a = burned_by_holder a (Ev s (Call sg i) s')) by lia.
      unfold burned_by_holder. cbn [e_call ins]. destruct i; cbn in H0; try discriminate; apply Some_inj in H0; subst o; reflexivity.
  - bools. subst. split; [lia|]. intros m Em Ha. unfold burned_by_holder. cbn [e_call ins].
    destruct i; try lia.
    (* a burn is never silent *)
    apply step_inv in Hs. destruct Hs as (_ & _ & He). cbn [exec ins signers] in He. binds He. apply tok_burn_ok in He.
    destruct He as (t0 & mm & t' & E1 & E2 & _ & _ & _ & _ & _ & _ & _ & Q1 & Q2). unfold same_ledger in Hsame. destruct Hsame as [_ Hsm]. rewrite Hsm in Q2.
    destruct (addr_eq_dec mnt a) as [->|]; [|lia]. unfold supply_of.
    assert (st_mints s1 a = Some (with_supply mm (mt_supply mm - amount))) by (rewrite Q2; apply upd_same). rewrite E2 in H0. apply Some_inj in H0.
    assert (mt_supply mm = mt_supply mm - amount) by (rewrite H0 at 1; reflexivity). lia.
  - binds Hops. bools. subst. inversion Hok; subst. split.
    + intros t Et Ho. eapply op_amount; try eassumption; [apply Hi|discriminate].
    + intros m Em _. rewrite (op_supply _ _ _ _ _ E Em). unfold burned_by_holder. cbn. lia.
Qed.

Lemma no_deposit s sg i s' : transfer_of i = None -> deposited (Ev s (Call sg i) s') = 0.
Proof. intros E. unfold deposited. cbn [e_call ins]. now rewrite E. Qed.
Lemma no_payout s sg i s' : release_of i = None -> paid_out (Ev s (Call sg i) s') = 0.
Proof. intros E. unfold paid_out, payout. cbn [e_call ins]. now rewrite E. Qed.
Lemma still_no_payout s cl : paid_out (Ev s cl s) = 0.
Proof. unfold paid_out, payout. cbn. destruct (release_of (ins cl)); [|reflexivity]. destruct (released s (la_item r)); reflexivity. Qed.

Lemma config_at_pda H s a c : reachable H s -> config_at s a c -> config_at s pda_config c.
Proof. intros Hr E. pose proof (config_addr _ _ _ (reachable_inv _ _ Hr) E). subst. exact E. Qed.

Lemma sum_cons f e tr : sum f (e :: tr) = f e + sum f tr.
Proof. reflexivity. Qed.

(** ** C42 *)
Lemma custody_step H s cl s' c : reachable H s -> step H s cl = Ok s' -> config_at s pda_config c -> cf_mode c = Locking ->
  balance s (cf_custody c) + deposited (Ev s cl s') - paid_out (Ev s cl s') <= balance s' (cf_custody c).
Proof.
  intros Hr Hs Hc Hm. pose proof (reachable_inv _ _ Hr) as Hi. destruct cl as [sg i].
  pose proof (inv_config _ Hi _ Hc) as Hok. destruct (custody_tok _ _ Hi Hok) as (cu & Ecu & Hown & _).
  assert (Hoth : transfer_of i = None -> release_of i = None -> balance s (cf_custody c) + deposited (Ev s (Call sg i) s') - paid_out (Ev s (Call sg i) s') <= balance s' (cf_custody c)).
  { intros E1 E2. rewrite (no_deposit _ _ _ _ E1), (no_payout _ _ _ _ E2). destruct (other_flow _ _ _ _ _ (cf_custody c) Hr Hs E1 E2) as (Q & _). specialize (Q _ Ecu Hown). lia. }
  destruct i; try (apply Hoth; reflexivity); clear Hoth.
  - destruct (lock_exact _ _ _ _ _ _ Hr Hs) as (c' & m & pe & f & o & v & T & _ & _ & _ & _ & _ & Q & _).
    destruct (config_one _ _ _ _ _ _ Hr (tr_config _ _ _ _ _ _ _ _ _ _ _ _ T) Hc) as (_ & <-). rewrite no_payout by reflexivity.
    unfold deposited. cbn [e_call e_pre ins transfer_of]. rewrite (deposit_value_ok _ _ _ _ _ _ _ _ _ _ _ _ T). lia.
  - exfalso. destruct (burn_exact _ _ _ _ _ _ Hr Hs) as (c' & m & pe & f & o & v & T & _).
    destruct (config_one _ _ _ _ _ _ Hr (tr_config _ _ _ _ _ _ _ _ _ _ _ _ T) Hc) as (_ & <-). pose proof (tr_mode _ _ _ _ _ _ _ _ _ _ _ _ T). congruence.
  - destruct (mint_exact _ _ _ _ _ _ Hr Hs) as [(-> & _)|(c' & it & m & P & _)].
    + rewrite still_no_payout. rewrite no_deposit by reflexivity. lia.
    + exfalso. destruct (config_one _ _ _ _ _ _ Hr (py_config _ _ _ _ _ _ _ P) Hc) as (_ & <-). pose proof (py_mode _ _ _ _ _ _ _ P). congruence.
  - destruct (unlock_exact _ _ _ _ _ _ Hr Hs) as [(-> & _)|(c' & it & m & P & Q)].
    + rewrite still_no_payout. rewrite no_deposit by reflexivity. lia.
    + destruct (config_one _ _ _ _ _ _ Hr (py_config _ _ _ _ _ _ _ P) Hc) as (_ & <-). rewrite no_deposit by reflexivity.
      destruct (pays_payout _ sg (IReleaseUnlock x revert_on_delay) _ _ _ _ _ _ P eq_refl) as (_ & ->). pose proof (py_amount _ _ _ _ _ _ _ P).
      destruct Q as [(_ & Q & _)|(_ & Q & _)]; [|lia]. unfold balance. rewrite Q. ilia.
Qed.

Lemma custody_run H s0 tr s c : reachable H s0 -> run H s0 tr s -> config_at s0 pda_config c -> cf_mode c = Locking ->
  balance s0 (cf_custody c) + sum deposited tr - sum paid_out tr <= balance s (cf_custody c).
Proof.
  intros Hr R Hc Hm. induction R as [|tr s cl s' R IH E]; [cbn; lia|].
  assert (Hrs : reachable H s) by (eapply run_reachable; eassumption).
  destruct (config_kept _ _ _ _ _ _ Hr R Hc) as (c' & Hc' & Hid). unfold identity in Hid. injection Hid as I1 I2 I3 I4 I5 I6.
  pose proof (custody_step _ _ _ _ _ Hrs E Hc' ltac:(congruence)) as Q. replace (cf_custody c') with (cf_custody c) in Q by congruence. rewrite !sum_cons. lia.
Qed.

(** Tokens leave custody only by payouts. *)
Lemma custody_out H s cl s' c : reachable H s -> step H s cl = Ok s' -> config_at s pda_config c -> cf_mode c = Locking ->
  balance s' (cf_custody c) < balance s (cf_custody c) ->
  exists x r it m, ins cl = IReleaseUnlock x r /\ pays s x Locking s' c it m /\ balance s (cf_custody c) - balance s' (cf_custody c) = ib_amount it /\ payout (Ev s cl s') = Some (la_item x).
Proof.
  intros Hr Hs Hc Hm Hlt. pose proof (custody_step _ _ _ _ _ Hr Hs Hc Hm) as Q. destruct cl as [sg i].
  assert (D : 0 <= deposited (Ev s (Call sg i) s')).
  { unfold deposited. cbn [e_call e_pre ins]. destruct (transfer_of i) as [[[md x] a]|] eqn:Et; [|lia].
    destruct (transfer_limits _ _ _ _ _ _ _ _ Hr Hs Et) as (c' & m & pe & f & o & v & _ & _ & _ & _ & T & _).
    rewrite (deposit_value_ok _ _ _ _ _ _ _ _ _ _ _ _ T). apply T. }
  assert (Hex : exists x, release_of i = Some x) by (destruct (release_of i) eqn:Er; [eauto|rewrite (no_payout _ _ _ _ Er) in Q; lia]).
  destruct Hex as (x & Ex). destruct i; try discriminate; cbn in Ex; apply Some_inj in Ex; subst x0.
  - destruct (mint_exact _ _ _ _ _ _ Hr Hs) as [(-> & _)|(c' & it & m & P & _)]; [lia|].
    exfalso. destruct (config_one _ _ _ _ _ _ Hr (py_config _ _ _ _ _ _ _ P) Hc) as (_ & <-). pose proof (py_mode _ _ _ _ _ _ _ P). congruence.
  - destruct (unlock_exact _ _ _ _ _ _ Hr Hs) as [(-> & _)|(c' & it & m & P & K)]; [lia|].
    destruct (config_one _ _ _ _ _ _ Hr (py_config _ _ _ _ _ _ _ P) Hc) as (_ & <-).
    exists x, revert_on_delay, it, m. split; [reflexivity|]. split; [exact P|]. destruct K as [(_ & K & _)|(_ & K & _)]; [unfold balance in Hlt; rewrite K in Hlt; lia|].
    split; [lia|]. exact (proj1 (pays_payout _ sg (IReleaseUnlock x revert_on_delay) _ _ _ _ _ _ P eq_refl)).
Qed.

(** ** C43 *)
Lemma supply_step H s cl s' c : reachable H s -> step H s cl = Ok s' -> config_at s pda_config c -> cf_mode c = Burning ->
  supply_of s' (cf_mint c) = supply_of s (cf_mint c) + paid_out (Ev s cl s') - deposited (Ev s cl s') - burned_by_holder (cf_mint c) (Ev s cl s').
Proof.
  intros Hr Hs Hc Hm. pose proof (reachable_inv _ _ Hr) as Hi. destruct cl as [sg i].
  pose proof (inv_config _ Hi _ Hc) as Hok. destruct (co_prog _ _ Hok) as (tp & m & t & _ & _ & _ & Em & _ & Hau & _). specialize (Hau Hm).
  assert (Hoth : transfer_of i = None -> release_of i = None -> supply_of s' (cf_mint c) = supply_of s (cf_mint c) + paid_out (Ev s (Call sg i) s') - deposited (Ev s (Call sg i) s') - burned_by_holder (cf_mint c) (Ev s (Call sg i) s')).
  { intros E1 E2. rewrite (no_deposit _ _ _ _ E1), (no_payout _ _ _ _ E2). destruct (other_flow _ _ _ _ _ (cf_mint c) Hr Hs E1 E2) as (_ & Q). rewrite (Q _ Em Hau). lia. }
  destruct i; try (apply Hoth; reflexivity); clear Hoth; unfold burned_by_holder; cbn [e_call ins].
  - exfalso. destruct (lock_exact _ _ _ _ _ _ Hr Hs) as (c' & m' & pe & f & o & v & T & _).
    destruct (config_one _ _ _ _ _ _ Hr (tr_config _ _ _ _ _ _ _ _ _ _ _ _ T) Hc) as (_ & <-). pose proof (tr_mode _ _ _ _ _ _ _ _ _ _ _ _ T). congruence.
  - destruct (burn_exact _ _ _ _ _ _ Hr Hs) as (c' & m' & pe & f & o & v & T & _ & _ & _ & _ & _ & _ & _ & Q & _).
    destruct (config_one _ _ _ _ _ _ Hr (tr_config _ _ _ _ _ _ _ _ _ _ _ _ T) Hc) as (_ & <-). rewrite no_payout by reflexivity.
    unfold deposited. cbn [e_call e_pre ins transfer_of]. rewrite (deposit_value_ok _ _ _ _ _ _ _ _ _ _ _ _ T).
    pose proof (tr_mint _ _ _ _ _ _ _ _ _ _ _ _ T) as E'. unfold supply_of. rewrite Q, E'. cbn. lia.
  - destruct (mint_exact _ _ _ _ _ _ Hr Hs) as [(-> & _)|(c' & it & m' & P & _ & Q & _)].
    + rewrite still_no_payout. rewrite no_deposit by reflexivity. lia.
    + destruct (config_one _ _ _ _ _ _ Hr (py_config _ _ _ _ _ _ _ P) Hc) as (_ & <-). rewrite no_deposit by reflexivity.
      destruct (pays_payout _ sg (IReleaseMint x revert_on_delay) _ _ _ _ _ _ P eq_refl) as (_ & ->). lia.
  - destruct (unlock_exact _ _ _ _ _ _ Hr Hs) as [(-> & _)|(c' & it & m' & P & Q)].
    + rewrite still_no_payout. rewrite no_deposit by reflexivity. lia.
    + exfalso. destruct (config_one _ _ _ _ _ _ Hr (py_config _ _ _ _ _ _ _ P) Hc) as (_ & <-). pose proof (py_mode _ _ _ _ _ _ _ P). congruence.
Qed.

Lemma supply_run H s0 tr s c : reachable H s0 -> run H s0 tr s -> config_at s0 pda_config c -> cf_mode c = Burning ->
  supply_of s (cf_mint c) = supply_of s0 (cf_mint c) + sum paid_out tr - sum deposited tr - sum (burned_by_holder (cf_mint c)) tr.
Proof.
  intros Hr R Hc Hm. induction R as [|tr s cl s' R IH E]; [cbn; lia|].
  assert (Hrs : reachable H s) by (eapply run_reachable; eassumption).
  destruct (config_kept _ _ _ _ _ _ Hr R Hc) as (c' & Hc' & Hid). unfold identity in Hid. injection Hid as I1 I2 I3 I4 I5 I6.
  pose proof (supply_step _ _ _ _ _ Hrs E Hc' ltac:(congruence)) as Q. replace (cf_mint c') with (cf_mint c) in Q by congruence. rewrite !sum_cons. lia.
Qed.

(** Supply is created only by payouts. *)
Lemma supply_up H s cl s' c : reachable H s -> step H s cl = Ok s' -> config_at s pda_config c -> cf_mode c = Burning ->
  supply_of s (cf_mint c) < supply_of s' (cf_mint c) ->
  exists x r it m, ins cl = IReleaseMint x r /\ pays s x Burning s' c it m /\ supply_of s' (cf_mint c) - supply_of s (cf_mint c) = ib_amount it /\ payout (Ev s cl s') = Some (la_item x).
Proof.
  intros Hr Hs Hc Hm Hlt. pose proof (supply_step _ _ _ _ _ Hr Hs Hc Hm) as Q. destruct cl as [sg i].
  pose proof (step_inv _ _ _ _ Hs) as (_ & Hty & _). cbn [ins] in Hty.
  assert (D : 0 <= deposited (Ev s (Call sg i) s')).
  { unfold deposited. cbn [e_call e_pre ins]. destruct (transfer_of i) as [[[md x] a]|] eqn:Et; [|lia].
    destruct (transfer_limits _ _ _ _ _ _ _ _ Hr Hs Et) as (c' & m & pe & f & o & v & _ & _ & _ & _ & T & _).
    rewrite (deposit_value_ok _ _ _ _ _ _ _ _ _ _ _ _ T). apply T. }
  assert (B : 0 <= burned_by_holder (cf_mint c) (Ev s (Call sg i) s')).
  { unfold burned_by_holder. cbn [e_call ins]. destruct i; try lia. cbn in Hty. destruct (addr_eq_dec mnt (cf_mint c)); [|lia]. unfold u64b in Hty. bools. lia. }
  assert (Hex : exists x, release_of i = Some x) by (destruct (release_of i) eqn:Er; [eauto|rewrite (no_payout _ _ _ _ Er) in Q; lia]).
  destruct Hex as (x & Ex). destruct i; try discriminate; cbn in Ex; apply Some_inj in Ex; subst x0.
  - destruct (mint_exact _ _ _ _ _ _ Hr Hs) as [(-> & _)|(c' & it & m & P & _ & K & _)]; [lia|].
    destruct (config_one _ _ _ _ _ _ Hr (py_config _ _ _ _ _ _ _ P) Hc) as (_ & <-).
    exists x, revert_on_delay, it, m. split; [reflexivity|]. split; [exact P|]. split; [lia|].
    exact (proj1 (pays_payout _ sg (IReleaseMint x revert_on_delay) _ _ _ _ _ _ P eq_refl)).
  - destruct (unlock_exact _ _ _ _ _ _ Hr Hs) as [(-> & _)|(c' & it & m & P & _)]; [lia|].
    exfalso. destruct (config_one _ _ _ _ _ _ Hr (py_config _ _ _ _ _ _ _ P) Hc) as (_ & <-). pose proof (py_mode _ _ _ _ _ _ _ P). congruence.
Qed.

(** Custody keeps nothing of transfers and payouts, unless a payout is addressed to the token authority itself. *)
Lemma burn_custody H s sg i s' c md x a : reachable H s -> step H s (Call sg i) = Ok s' -> config_at s pda_config c -> cf_mode c = Burning ->
  transfer_of i = Some (md, x, a) -> st_toks s' (cf_custody c) = st_toks s (cf_custody c).
Proof.
  intros Hr Hs Hc Hm Ht. destruct i; try discriminate; cbn in Ht; apply Some_inj in Ht; inversion Ht; subst.
  - exfalso. destruct (lock_exact _ _ _ _ _ _ Hr Hs) as (c' & m' & pe & f & o & v & T & _).
    destruct (config_one _ _ _ _ _ _ Hr (tr_config _ _ _ _ _ _ _ _ _ _ _ _ T) Hc) as (_ & <-). pose proof (tr_mode _ _ _ _ _ _ _ _ _ _ _ _ T). congruence.
  - destruct (burn_exact _ _ _ _ _ _ Hr Hs) as (c' & m' & pe & f & o & v & T & N & _ & _ & _ & _ & Q & _).
    destruct (config_one _ _ _ _ _ _ Hr (tr_config _ _ _ _ _ _ _ _ _ _ _ _ T) Hc) as (_ & <-). apply Q. congruence.
Qed.
Lemma mint_custody H s sg i s' c x : reachable H s -> step H s (Call sg i) = Ok s' -> config_at s pda_config c -> cf_mode c = Burning ->
  release_of i = Some x -> (forall it, inbox_at s (la_item x) it -> ib_recipient it <> token_authority) -> st_toks s' (cf_custody c) = st_toks s (cf_custody c).
Proof.
  intros Hr Hs Hc Hm Ht Hn. pose proof (reachable_inv _ _ Hr) as Hi. destruct i; try discriminate; cbn in Ht; apply Some_inj in Ht; subst.
  - destruct (mint_exact _ _ _ _ _ _ Hr Hs) as [(-> & _)|(c' & it & m & P & _ & _ & _ & K)]; [reflexivity|].
    destruct (config_one _ _ _ _ _ _ Hr (py_config _ _ _ _ _ _ _ P) Hc) as (_ & <-).
    specialize (Hn _ (py_item _ _ _ _ _ _ _ P)). destruct (co_prog _ _ (inv_config _ Hi _ Hc)) as (tp & m0 & t & _ & _ & Ecu & _).
    assert (N : destination x c' it <> cf_custody c') by (rewrite Ecu; unfold destination, ata; intros C; inversion C; congruence).
    destruct K as [(C & _)|(_ & _ & K & _)]; [contradiction|]. apply K. congruence.
  - destruct (unlock_exact _ _ _ _ _ _ Hr Hs) as [(-> & _)|(c' & it & m & P & _)]; [reflexivity|].
    exfalso. destruct (config_one _ _ _ _ _ _ Hr (py_config _ _ _ _ _ _ _ P) Hc) as (_ & <-). pose proof (py_mode _ _ _ _ _ _ _ P). congruence.
Qed.

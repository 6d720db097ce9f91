(** * Value flow, liveness and atomicity: C42-C44, C56. *)
From Verif Require Export LiveFacts Scenario.
Local Open Scope Z_scope.

(** ** C42 *)
(** [deposited] and [paid_out] are what transfers moved into and releases moved out of the deployment in one step. *)
Theorem C42_custody : forall H s0 tr s c, reachable H s0 -> run H s0 tr s -> config_at s0 pda_config c -> cf_mode c = Locking ->
  balance s0 (cf_custody c) + sum deposited tr - sum paid_out tr <= balance s (cf_custody c).
Proof. exact custody_run. Qed.
Print Assumptions C42_custody.

(** Whatever lowers the custody balance is the payout of one approved message, of its amount. *)
Theorem C42_only_payouts : forall H s cl s' c, reachable H s -> step H s cl = Ok s' -> config_at s pda_config c -> cf_mode c = Locking ->
  balance s' (cf_custody c) < balance s (cf_custody c) ->
  exists x r it m, ins cl = IReleaseUnlock x r /\ pays s x Locking s' c it m /\
    balance s (cf_custody c) - balance s' (cf_custody c) = ib_amount it /\ payout (Ev s cl s') = Some (la_item x).
Proof. exact custody_out. Qed.
Print Assumptions C42_only_payouts.

(** The events of the worked example after initialisation: 1000000000 deposited (5 left with the user), 400000000 paid out. *)
Fixpoint events (H : hashes) (s : state) (cs : list call) : list ev :=
  match cs with [] => [] | c :: r => match step H s c with Ok s' => events H s' r ++ [Ev s c s'] | Err _ => [] end end.
Lemma events_run H cs : forall s s', exec_tx H s cs = Ok s' -> run H s (events H s cs) s'.
Proof.
  induction cs as [|c r IH]; cbn; intros s s' E; [apply Ok_inj in E; subst; constructor|].
  destruct (step H s c) as [s1|] eqn:Q; [|discriminate]. cbn in E. eapply run_app; [|apply IH, E]. apply run_step; [constructor|exact Q].
Qed.
Definition after_init (md : mode) : list ev := events H0 (at_ md 2) (skipn 2 (calls md)).
Lemma after_init_run md : run H0 (at_ md 2) (after_init md) (at_ md 13).
Proof. apply events_run. destruct md; vm_compute; reflexivity. Qed.
Example C42_case : sum deposited (after_init Locking) = 1000000000 /\ sum paid_out (after_init Locking) = 400000000 /\
  balance (at_ Locking 2) custody = 0 /\ balance (at_ Locking 13) custody = 600000000 /\
  (exists c, config_at (at_ Locking 2) pda_config c /\ cf_mode c = Locking /\ cf_custody c = custody).
Proof. repeat match goal with |- _ /\ _ => split end; try (vm_compute; reflexivity). eexists. split; [vm_compute; reflexivity|]. split; reflexivity. Qed.

(** ** C43 *)
Theorem C43_supply : forall H s0 tr s c, reachable H s0 -> run H s0 tr s -> config_at s0 pda_config c -> cf_mode c = Burning ->
  supply_of s (cf_mint c) = supply_of s0 (cf_mint c) + sum paid_out tr - sum deposited tr - sum (burned_by_holder (cf_mint c)) tr.
Proof. exact supply_run. Qed.
Print Assumptions C43_supply.

Theorem C43_only_messages : forall H s cl s' c, reachable H s -> step H s cl = Ok s' -> config_at s pda_config c -> cf_mode c = Burning ->
  supply_of s (cf_mint c) < supply_of s' (cf_mint c) ->
  exists x r it m, ins cl = IReleaseMint x r /\ pays s x Burning s' c it m /\
    supply_of s' (cf_mint c) - supply_of s (cf_mint c) = ib_amount it /\ payout (Ev s cl s') = Some (la_item x).
Proof. exact supply_up. Qed.
Print Assumptions C43_only_messages.

(** Custody keeps nothing of a transfer, and nothing of a release except one addressed to the custody owner itself. *)
Theorem C43_transfer_custody : forall H s sg i s' c md x a, reachable H s -> step H s (Call sg i) = Ok s' -> config_at s pda_config c -> cf_mode c = Burning ->
  transfer_of i = Some (md, x, a) -> st_toks s' (cf_custody c) = st_toks s (cf_custody c).
Proof. exact burn_custody. Qed.
Print Assumptions C43_transfer_custody.

Theorem C43_release_custody : forall H s sg i s' c x, reachable H s -> step H s (Call sg i) = Ok s' -> config_at s pda_config c -> cf_mode c = Burning ->
  release_of i = Some x -> (forall it, inbox_at s (la_item x) it -> ib_recipient it <> token_authority) -> st_toks s' (cf_custody c) = st_toks s (cf_custody c).
Proof. exact mint_custody. Qed.
Print Assumptions C43_release_custody.

(** The worked example, followed by the recipient burning 150. *)
Definition burn150 : list call := [Call [RCPT] (EBurn PToken rcpt_tok MINT RCPT 150)].
Example C43_case : sum deposited (after_init Burning) = 1000000000 /\ sum paid_out (after_init Burning) = 400000000 /\
  supply_of (at_ Burning 2) MINT = 5000000000 /\ supply_of (at_ Burning 13) MINT = 4400000000 /\
  sum (burned_by_holder MINT) (events H0 (at_ Burning 13) burn150) = 150 /\ supply_of (apply_tx H0 (at_ Burning 13) burn150) MINT = 4399999850 /\
  balance (apply_tx H0 (at_ Burning 13) burn150) custody = 0 /\
  (exists c, config_at (at_ Burning 2) pda_config c /\ cf_mode c = Burning /\ cf_mint c = MINT).
Proof. repeat match goal with |- _ /\ _ => split end; try (vm_compute; reflexivity). eexists. split; [vm_compute; reflexivity|]. split; reflexivity. Qed.

(** ** C44 *)
(** [can_pay] holds what the release needs; no signer is needed and none gets in the way. *)
Theorem C44_unlock : forall H s sg x c it m t cu r, reachable H s -> forallb can_sign sg = true -> can_pay s x c it m t cu -> cf_mode c = Locking -> ib_amount it <= tk_amount cu ->
  exists s', step H s (Call sg (IReleaseUnlock x r)) = Ok s' /\ payout (Ev s (Call sg (IReleaseUnlock x r)) s') = Some (la_item x).
Proof. exact unlock_live. Qed.
Print Assumptions C44_unlock.

Theorem C44_mint : forall H s sg x c it m t cu r, reachable H s -> forallb can_sign sg = true -> can_pay s x c it m t cu -> cf_mode c = Burning ->
  mt_supply m + ib_amount it <= u64_max -> tk_amount cu + ib_amount it <= u64_max ->
  exists s', step H s (Call sg (IReleaseMint x r)) = Ok s' /\ payout (Ev s (Call sg (IReleaseMint x r)) s') = Some (la_item x).
Proof. exact mint_live. Qed.
Print Assumptions C44_mint.

Theorem C44_publish : forall H s sg p a c o rt r, reachable H s -> forallb can_sign sg = true -> is_ntt_prog p = true -> config_at s pda_config c -> cf_paused c = false ->
  outbox_at s a o -> ob_release o <= st_now s -> reg_at s (pda_reg (AProg p)) rt -> Z.testbit (cf_enabled c) (rt_id rt) = true -> flag s a (rt_id rt) = false ->
  exists s', step H s (Call sg (IXRelease p pda_config a (pda_reg (AProg p)) r true)) = Ok s' /\ published s' p = outbound_message c a o :: published s p.
Proof. exact publish_live. Qed.
Print Assumptions C44_publish.

(** Both premises hold in the worked example after the recipient's account was made; without it, or before the redemption, the
    release fails. *)
Lemma can_pay_at md : exists c it m t cu, can_pay (at_ md 12) the_release c it m t cu /\ cf_mode c = md /\ ib_amount it = 400000000 /\
  (md = Locking -> ib_amount it <= tk_amount cu) /\ mt_supply m + ib_amount it <= u64_max /\ tk_amount cu + ib_amount it <= u64_max /\ ib_recipient it <> token_authority.
Proof.
  destruct md; do 5 eexists; (split; [constructor; try (vm_compute; reflexivity); try (eexists; split; [vm_compute; reflexivity|vm_compute; discriminate]); vm_compute; discriminate|]);
    repeat match goal with |- _ /\ _ => split end; try (vm_compute; reflexivity); try (vm_compute; discriminate); try (intros _; vm_compute; discriminate); discriminate.
Qed.
Example C44_case : forall md, let rel := match md with Locking => IReleaseUnlock the_release true | Burning => IReleaseMint the_release true end in
  map (fun k => ok_at md k (Call [RCPT] rel)) [10; 11; 12]%nat = [false; false; true] /\
  map (fun k => ok_at md k (Call [] (IXRelease PManager pda_config ITEM (pda_reg (AProg PManager)) true true))) [6; 7; 8]%nat = [false; true; false] /\
  flag (at_ md 7) ITEM 0 = false.
Proof. intros []; cbv zeta; repeat match goal with |- _ /\ _ => split end; vm_compute; reflexivity. Qed.

(** ** C56 *)
(** [apply_txs] applies each transaction completely or not at all; the same state is reached by the single instructions of the
    successful ones, in order. *)
Theorem C56_atomic : forall H txs s, exists tr, run H s tr (apply_txs H s txs) /\ calls_of tr = concat (done H s txs).
Proof. exact apply_txs_run. Qed.
Print Assumptions C56_atomic.

Theorem C56_reachable : forall H txs s, reachable H s -> reachable H (apply_txs H s txs).
Proof. intros H txs s Hr. destruct (apply_txs_run H txs s) as (tr & R & _). eapply run_reachable; eassumption. Qed.
Print Assumptions C56_reachable.

(** A failing transaction in the middle, whose first instructions would succeed alone. *)
Example C56_case : let good := [Call [USER] (EApprove PToken user_tok USER (AKey 9) 7)] in
  let bad := [Call [USER] (EApprove PToken user_tok USER (AKey 8) 5); Call [] (IRedeem the_redeem)] in
  is_ok (step H0 (at_ Locking 13) (Call [USER] (EApprove PToken user_tok USER (AKey 8) 5))) = true /\
  done H0 (at_ Locking 13) [bad; good; bad] = [good] /\
  apply_txs H0 (at_ Locking 13) [bad; good; bad] = apply_tx H0 (at_ Locking 13) good.
Proof. cbv zeta. repeat match goal with |- _ /\ _ => split end; vm_compute; reflexivity. Qed.

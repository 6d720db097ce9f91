(** * Token extensions the ledger does not have: C108. *)
From Verif Require Export PropsFlow WildFacts.
From Verif Require PropsAdmin.
Local Open Scope Z_scope.

(** Histories of the ledger as modelled elsewhere are among these. *)
Theorem C108_more : forall H s0 tr s, run H s0 tr s -> wrun H s0 tr s.
Proof. exact wrun_of_run. Qed.
Print Assumptions C108_more.

(** ** Settings (C24, C25) *)
Theorem C108_settings : forall H s c s' a, wreachable H s -> step H s c = Ok s' ->
  settings (st_accts s' a) <> settings (st_accts s a) ->
  (exists b cf o, config_at s b cf /\ admin_by (ins c) = Some o /\ In o (signers c) /\
     (o = cf_owner cf \/ (is_claim (ins c) /\ cf_pending cf = Some o))) \/
  (exists d m tp ch l md, (forall b cf, ~ config_at s b cf) /\ ins c = IInitialize d m tp ch l md /\ In d (signers c) /\ st_uauth s = Some d).
Proof. exact settings_owner. Qed.
Print Assumptions C108_settings.

(** Mint, token program, mode, chain, custody address and threshold are fixed at initialisation. *)
Theorem C108_identity : forall H s tr s' a c b d, wreachable H s -> wrun H s tr s' -> config_at s a c -> config_at s' b d ->
  a = b /\ identity d = identity c.
Proof.
  intros H s tr s' a c b d Hr R E F. pose proof (config_addr _ _ _ (wreachable_inv _ _ Hr) E).
  pose proof (config_addr _ _ _ (wreachable_inv _ _ (wrun_reachable _ _ _ _ Hr R)) F). split; [congruence|]. exact (wrun_config _ _ _ _ _ _ _ _ Hr R E F).
Qed.
Print Assumptions C108_identity.

(** ** Inbound (C35-C39) *)
Theorem C108_votes : forall H s0 tr s a it, initial s0 -> wrun H s0 tr s -> inbox_at s a it -> ib_status it <> NotApproved ->
  exists tr2 e tr1 c ps, tr = tr2 ++ e :: tr1 /\ config_at (e_pre e) pda_config c /\ NoDup ps /\ cf_threshold c <= Z.of_nat (length ps) /\
    status_at (e_pre e) a <> Some Released /\ (forall t, status_at (e_pre e) a <> Some (ReleaseAfter t)) /\ (exists t, status_at (e_post e) a = Some (ReleaseAfter t)) /\
    forall p, In p ps -> exists rt e' ch nm, reg_at (e_pre e) (pda_reg (AProg p)) rt /\ Z.testbit (cf_enabled c) (rt_id rt) = true /\
      In e' (e :: tr1) /\ delivery e' p ch nm /\ item_of H ch nm = a.
Proof. exact approval_votes. Qed.
Print Assumptions C108_votes.

(** Recipient and amount are those of the first delivery, the amount in units of the mint as it was then. *)
Theorem C108_origin : forall H s0 tr s a it, initial s0 -> wrun H s0 tr s -> inbox_at s a it ->
  exists e p ch nm c m, In e tr /\ delivery e p ch nm /\ item_of H ch nm = a /\ config_at (e_pre e) pda_config c /\ st_mints (e_pre e) (cf_mint c) = Some m /\
    ib_recipient it = nm_to nm /\ ib_amount it = local_amount m nm.
Proof. exact content_origin. Qed.
Print Assumptions C108_origin.

Theorem C108_once : forall H s0 tr s ch nm, wreachable H s0 -> wrun H s0 tr s ->
  (length (filter (pays_item (item_of H ch nm)) tr) <= 1)%nat.
Proof. intros H s0 tr s ch nm Hr R. exact (proj1 (payout_once _ _ _ _ _ Hr R)). Qed.
Print Assumptions C108_once.

Theorem C108_forward : forall H s tr s' a it, wreachable H s -> wrun H s tr s' -> inbox_at s a it ->
  exists it', inbox_at s' a it' /\ ib_amount it' = ib_amount it /\ ib_recipient it' = ib_recipient it /\ later (ib_status it) (ib_status it').
Proof. exact status_run. Qed.
Print Assumptions C108_forward.

(** An item is marked paid only by a release that is due, in the mode of the deployment and while it is not paused. *)
Theorem C108_due : forall H s cl s' a, wreachable H s -> step H s cl = Ok s' -> released s a = false -> released s' a = true ->
  exists md x r c it t, ins cl = (match md with Locking => IReleaseUnlock x r | Burning => IReleaseMint x r end) /\ la_item x = a /\
    config_at s (la_config x) c /\ cf_paused c = false /\ cf_mode c = md /\ inbox_at s a it /\ ib_status it = ReleaseAfter t /\ t <= st_now s.
Proof. exact paid_when_due. Qed.
Print Assumptions C108_due.

(** What a redemption does to votes, status and limiters: the fields of [redeemed]. *)
Theorem C108_redeem : forall H s sg x s', wreachable H s -> step H s (Call sg (IRedeem x)) = Ok s' ->
  exists p ch tm c rt pe m before after, redeemed H s x s' p ch tm c rt pe m before after.
Proof. exact redeem_exact. Qed.
Print Assumptions C108_redeem.

(** ** Outbound (C32-C34) *)
Theorem C108_limits : forall H s sg i s' md x a, wreachable H s -> step H s (Call sg i) = Ok s' -> transfer_of i = Some (md, x, a) ->
  exists c m pe f o v orl irl orl' irl', transferred s sg x a s' md c m pe f o v /\
    out_limiter s orl /\ in_limiter s (ar_chain a) irl /\ out_limiter s' orl' /\ in_limiter s' (ar_chain a) irl' /\
    (v <= capacity orl (st_now s) ->
       ob_release o = st_now s /\ orl' = RL (rl_limit orl) (capacity orl (st_now s) - v) (st_now s) /\
       irl' = RL (rl_limit irl) (Z.min (capacity irl (st_now s) + v) (rl_limit irl)) (st_now s)) /\
    (capacity orl (st_now s) < v -> ar_queue a = true /\ ob_release o = st_now s + day /\ orl' = orl /\ irl' = irl) /\
    (forall b, b <> xa_outbox_item x -> b <> pda_outbox_rl -> b <> pda_inbox_rl (ar_chain a) -> st_accts s' b = st_accts s b).
Proof. exact transfer_limits. Qed.
Print Assumptions C108_limits.

Theorem C108_published_once : forall H s p, wreachable H s -> is_ntt_prog p = true -> NoDup (map (fun m => nm_id (tm_msg m)) (published s p)).
Proof. intros H s p Hr Hp. exact (proj1 (log_once _ _ _ Hp Hr)). Qed.
Print Assumptions C108_published_once.

Theorem C108_published : forall H s0 tr s p m, initial s0 -> wrun H s0 tr s -> is_ntt_prog p = true -> In m (published s p) ->
  exists e c mt pe f o v md x ar, In e tr /\ deposit e (nm_id (tm_msg m)) c mt pe f o v md x ar /\ states m (nm_id (tm_msg m)) c mt pe f ar v.
Proof. exact log_states. Qed.
Print Assumptions C108_published.

Theorem C108_one_deposit : forall H s0 e e' a tr1 tr2 tr3 s, wreachable H s0 -> wrun H s0 (tr3 ++ e' :: tr2 ++ e :: tr1) s ->
  (exists md x ar, transfer_of (ins (e_call e)) = Some (md, x, ar) /\ xa_outbox_item x = a) ->
  (exists md x ar, transfer_of (ins (e_call e')) = Some (md, x, ar) /\ xa_outbox_item x = a) -> False.
Proof. exact deposit_once. Qed.
Print Assumptions C108_one_deposit.

(** A publication flag is set, never cleared, and only by its own transceiver (C46). *)
Theorem C108_flags : forall H s cl s' a id, wreachable H s -> step H s cl = Ok s' -> flag s' a id <> flag s a id ->
  flag s a id = false /\ flag s' a id = true /\
  exists p cfg tr rt o, reg_at s tr rt /\ rt_address rt = AProg p /\ rt_id rt = id /\ outbox_at s a o /\ ob_release o <= st_now s /\
    ((ins cl = IMark (pda_outbox_signer p) cfg a tr /\ In (pda_outbox_signer p) (signers cl)) \/
     (exists rev, is_ntt_prog p = true /\ ins cl = IXRelease p cfg a tr rev true)).
Proof. exact flag_step. Qed.
Print Assumptions C108_flags.

(** ** What does not remain *)
(** The worked deployment, its custody emptied by a permanent delegate after the deposit. *)
Definition change_tok (a : addr) (x : Z) (s : state) : state :=
  match st_toks s a with Some t => put_tok a (with_amount t x) s | None => s end.
Definition remade (d : Z) (s : state) : state :=
  match st_mints s MINT with
  | Some m => put_mint MINT (Mint (mt_prog m) d (mt_supply m) (mt_auth m) (mt_bps m) (mt_maxfee m) (mt_withheld m)) s
  | None => s end.
Lemma change_tok_wild a x s : dec_ok s -> wild s (change_tok a x s).
Proof. intros D. unfold change_tok. destruct (st_toks s a); constructor; auto. Qed.
Lemma remade_wild d s : dec_ok s -> is_u8 d -> wild s (remade d s).
Proof.
  intros D U. unfold remade. destruct (st_mints s MINT); constructor; auto. intros b m1. cbn. rewrite upd_eq. destruct (addr_eq_dec b MINT); [|apply D].
  intros E. apply Some_inj in E. now subst.
Qed.
Lemma at_dec md k : dec_ok (at_ md k).
Proof. intros a m E. exact (winv_dec _ (inv_winv _ (reachable_inv _ _ (at_reachable md k))) _ _ E). Qed.

(** Custody need not cover what was deposited and not paid out (C42). *)
Theorem C108_custody : exists s0 tr s c, reachable H0 s0 /\ wrun H0 s0 tr s /\ config_at s0 pda_config c /\ cf_mode c = Locking /\
  balance s (cf_custody c) < balance s0 (cf_custody c) + sum deposited tr - sum paid_out tr.
Proof.
  exists (at_ Locking 2), (after_init Locking), (change_tok custody 0 (at_ Locking 13)), (PropsAdmin.ex_cfg Locking).
  split; [apply at_reachable|]. split; [eapply wrun_wild; [apply wrun_of_run, after_init_run|apply change_tok_wild, at_dec]|].
  split; [vm_compute; reflexivity|]. split; [reflexivity|]. vm_compute. reflexivity.
Qed.
Print Assumptions C108_custody.

(** A mint closed and made anew with other decimals between redemption and release: the payout is the number of units computed
    before, not the amount the message states (C40). *)
Theorem C108_decimals : exists s cl s' c it m, wreachable H0 s /\ step H0 s cl = Ok s' /\ payout (Ev s cl s') = Some in_inbox /\
  config_at s pda_config c /\ st_mints s (cf_mint c) = Some m /\ inbox_at s in_inbox it /\
  balance s' rcpt_tok - balance s rcpt_tok = ib_amount it /\ ib_amount it = 1000 * local_amount m (tm_msg in_msg) /\ 0 < ib_amount it.
Proof.
  exists (remade 6 (at_ Burning 12)), (Call [] (IReleaseMint the_release true)), (apply_tx H0 (remade 6 (at_ Burning 12)) [Call [] (IReleaseMint the_release true)]),
    (with_next (PropsAdmin.ex_cfg Burning) 1 1), (InboxItem true 0 400000000 RCPT 1 (ReleaseAfter 1000)), (Mint PToken 6 4000000000 (Some token_authority) 0 0 0).
  split.
  { destruct (at_reachable Burning 12) as (s0 & tr & Hi & R). exists s0, tr. split; [exact Hi|]. eapply wrun_wild; [apply wrun_of_run, R|].
    apply remade_wild; [apply at_dec|ilia]. }
  repeat match goal with |- _ /\ _ => split end; vm_compute; reflexivity.
Qed.
Print Assumptions C108_decimals.

(** The worked deployment goes on with the ledger changed: custody emptied, then filled by someone; the payout waits and then happens,
    once. *)
Example C108_case :
  is_ok (step H0 (change_tok custody 0 (at_ Locking 12)) (Call [] (IReleaseUnlock the_release true))) = false /\
  status_at (change_tok custody 0 (at_ Locking 12)) in_inbox = Some (ReleaseAfter 1000) /\
  let s := change_tok custody 400000000 (change_tok custody 0 (at_ Locking 12)) in
  let s' := apply_tx H0 s [Call [] (IReleaseUnlock the_release true)] in
  status_at s' in_inbox = Some Released /\ balance s' custody = 0 /\ balance s' rcpt_tok = 400000000 /\
  is_ok (step H0 (change_tok custody 400000000 s') (Call [] (IReleaseUnlock the_release true))) = false /\
  is_ok (step H0 (change_tok custody 400000000 s') (Call [] (IRedeem the_redeem))) = false.
Proof. cbv zeta. repeat match goal with |- _ /\ _ => split end; vm_compute; reflexivity. Qed.

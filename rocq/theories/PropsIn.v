(** * Inbound transfers: C35-C41, C45, C47, C55. *)
From Verif Require Export LiveFacts Scenario.
Local Open Scope Z_scope.

(** ** C35 *)
(** Behind every approved or released item: [ps] different transceiver programs, at least threshold many, each registered and
    enabled when the item was approved, each having delivered a message of this item by then from an account it owns. *)
Theorem C35_votes : forall H s0 tr s a it, initial s0 -> run H s0 tr s -> inbox_at s a it -> ib_status it <> NotApproved ->
  exists tr2 e tr1 c ps, tr = tr2 ++ e :: tr1 /\ config_at (e_pre e) pda_config c /\ NoDup ps /\ cf_threshold c <= Z.of_nat (length ps) /\
    status_at (e_pre e) a <> Some Released /\ (forall t, status_at (e_pre e) a <> Some (ReleaseAfter t)) /\ (exists t, status_at (e_post e) a = Some (ReleaseAfter t)) /\
    forall p, In p ps -> exists rt e' ch nm, reg_at (e_pre e) (pda_reg (AProg p)) rt /\ Z.testbit (cf_enabled c) (rt_id rt) = true /\
      In e' (e :: tr1) /\ delivery e' p ch nm /\ item_of H ch nm = a.
Proof. exact approval_votes. Qed.
Print Assumptions C35_votes.

(** All of them delivered the same message, if the hash has no collision among the delivered messages. *)
Theorem C35_same_message : forall H s0 tr s a it c m, initial s0 -> run H s0 tr s -> inbox_at s a it -> config_at s pda_config c -> st_mints s (cf_mint c) = Some m ->
  no_collision H tr ->
  exists ch nm, ib_recipient it = nm_to nm /\ ib_amount it = local_amount m nm /\
    forall e' p' ch' nm', In e' tr -> delivery e' p' ch' nm' -> item_of H ch' nm' = a -> ch' = ch /\ nm' = nm.
Proof.
  intros H s0 tr s a it c m Hini R Hd Hc Hm NC. destruct (item_message _ _ _ _ _ _ _ _ Hini R Hd Hc Hm) as (e & p & ch & nm & _ & _ & _ & E1 & E2 & U).
  exists ch, nm. repeat (split; [assumption|]). exact (U NC).
Qed.
Print Assumptions C35_same_message.

(** Finding: in every deployment the threshold is one; no instruction changes it. *)
Theorem C35_threshold_is_one : forall H s a c, reachable H s -> config_at s a c -> cf_threshold c = 1.
Proof. exact threshold_one. Qed.
Print Assumptions C35_threshold_is_one.

(** Two transceivers registered; an account of a program that is not registered, or one that is not the transceiver's, does
    not count; the transceiver's own does. *)
Definition FORGED := AKey 77.
Definition redeem_from (msg reg : addr) : call := Call [] (IRedeem (RedeemAccts pda_config msg reg pda_outbox_rl)).
Definition with_forged : state := apply_tx H0 (at_ Locking 10)
  [Call [DEPLOYER] (IRegisterTransceiver pda_config DEPLOYER (AProg PTransceiver)); Call [FORGED] (EWrite 3 FORGED (DVtm 2 in_msg))].
Example C35_case : map (fun c => is_ok (step H0 with_forged c))
   [redeem_from FORGED (pda_reg (AProg PManager)); redeem_from FORGED (pda_reg (AProg PTransceiver)); redeem_from FORGED (pda_reg (AProg (PUser 3)));
    redeem_from (pda_vtm PManager 2 (ARaw 20)) (pda_reg (AProg PTransceiver)); redeem_from (pda_vtm PManager 2 (ARaw 20)) (pda_reg (AProg PManager))] =
   [false; false; false; false; true] /\
  status_at (apply_tx H0 with_forged [redeem_from (pda_vtm PManager 2 (ARaw 20)) (pda_reg (AProg PManager))]) in_inbox = Some (ReleaseAfter 1000) /\
  st_accts with_forged FORGED = Some (Acct (PUser 3) (DVtm 2 in_msg)).
Proof. repeat match goal with |- _ /\ _ => split end; vm_compute; reflexivity. Qed.

(** ** C36 *)
Theorem C36_origin : forall H s0 tr s a it, initial s0 -> run H s0 tr s -> inbox_at s a it ->
  exists e x p ch tm c pe, In e tr /\ ins (e_call e) = IRedeem x /\ item_of H ch (tm_msg tm) = a /\
    st_accts (e_pre e) (ra_message x) = Some (Acct p (DVtm ch tm)) /\ config_at (e_pre e) (ra_config x) c /\
    peer_at (e_pre e) ch pe /\ pe_address pe = tm_source tm /\ tm_recipient tm = AProg PManager /\ nm_to_chain (tm_msg tm) = cf_chain c /\
    ib_recipient it = nm_to (tm_msg tm).
Proof.
  intros H s0 tr s a it Hini R Hd. destruct (content_origin _ _ _ _ _ _ Hini R Hd) as (e & p & ch & nm & _ & _ & Hin & D & Ea & _ & _ & Er & _).
  destruct D as (x & tm & c & rt & pe & Ei & D & <-). destruct D. exists e, x, p, ch, tm, c, pe. repeat (split; [assumption|]). assumption.
Qed.
Print Assumptions C36_origin.

(** Every redemption checks this, whatever accounts the caller supplies. *)
Theorem C36_every_redemption : forall H s sg x s', reachable H s -> step H s (Call sg (IRedeem x)) = Ok s' ->
  exists p ch tm c rt pe, delivers s x p ch tm c rt pe.
Proof.
  intros H s sg x s' Hr Hs. destruct (redeem_exact _ _ _ _ _ Hr Hs) as (p & ch & tm & c & rt & pe & m & b & af & Rd).
  exists p, ch, tm, c, rt, pe. apply Rd.
Qed.
Print Assumptions C36_every_redemption.

(** The message of the worked example with a wrong source manager, recipient manager, or chain is refused at redemption (the last
    one already at receipt), even when the peer transceiver vouches for it. *)
Definition VAA2 := APda PWormhole (TUser 2) 0 ANull ANull.
Definition deliver (tm : tr_msg) : list call :=
  [Call [] (EPostVaa VAA2 2 (ARaw 8) (Some tm)); Call [] (IXReceive PManager pda_config VAA2); redeem_from (pda_vtm PManager 2 (nm_id (tm_msg tm))) (pda_reg (AProg PManager))].
Definition msg_with (src rcp : addr) (chain : Z) : tr_msg := TrMsg src rcp (NttMsg (ARaw 30) (ARaw 21) (Trim 40000000 8) (ARaw 22) chain RCPT).
Example C36_case : map (fun tm => is_ok (exec_tx H0 (at_ Locking 8) (deliver tm)))
   [msg_with (ARaw 7) (AProg PManager) 1; msg_with (ARaw 6) (AProg PManager) 1; msg_with (ARaw 7) (AProg PTransceiver) 1; msg_with (ARaw 7) (AProg PManager) 2] =
   [true; false; false; false].
Proof. vm_compute. reflexivity. Qed.

(** ** C37 *)
Theorem C37_once : forall H s0 tr s ch nm, reachable H s0 -> run H s0 tr s ->
  (length (filter (pays_item (item_of H ch nm)) tr) <= 1)%nat.
Proof. intros H s0 tr s ch nm Hr R. exact (proj1 (payout_once _ _ _ _ _ Hr R)). Qed.
Print Assumptions C37_once.

(** Nothing else takes tokens out of custody or creates supply. *)
Theorem C37_custody_out : forall H s cl s' c, reachable H s -> step H s cl = Ok s' -> config_at s pda_config c -> cf_mode c = Locking ->
  balance s' (cf_custody c) < balance s (cf_custody c) ->
  exists x r it m, ins cl = IReleaseUnlock x r /\ pays s x Locking s' c it m /\
    balance s (cf_custody c) - balance s' (cf_custody c) = ib_amount it /\ payout (Ev s cl s') = Some (la_item x).
Proof. exact custody_out. Qed.
Print Assumptions C37_custody_out.

Theorem C37_supply_up : forall H s cl s' c, reachable H s -> step H s cl = Ok s' -> config_at s pda_config c -> cf_mode c = Burning ->
  supply_of s (cf_mint c) < supply_of s' (cf_mint c) ->
  exists x r it m, ins cl = IReleaseMint x r /\ pays s x Burning s' c it m /\
    supply_of s' (cf_mint c) - supply_of s (cf_mint c) = ib_amount it /\ payout (Ev s cl s') = Some (la_item x).
Proof. exact supply_up. Qed.
Print Assumptions C37_supply_up.

(** After the payout of the worked example neither release instruction works again, and neither does redemption, also not through
    the second transceiver. *)
Definition second_delivery : list call :=
  [Call [DEPLOYER] (IRegisterTransceiver pda_config DEPLOYER (AProg PTransceiver)); Call [DEPLOYER] (IXSetPeer PTransceiver pda_config DEPLOYER 2 (ARaw 8));
   Call [] (IXReceive PTransceiver pda_config VAA)].
Definition twice (md : mode) : state := apply_tx H0 (at_ md 13) second_delivery.
Definition replays (md : mode) : list call :=
  [Call [] (IReleaseUnlock the_release false); Call [] (IReleaseMint the_release false); Call [] (IRedeem the_redeem);
   redeem_from (pda_vtm PTransceiver 2 (ARaw 20)) (pda_reg (AProg PTransceiver))].
Example C37_case : forall md, st_accts (twice md) (pda_vtm PTransceiver 2 (ARaw 20)) = Some (Acct PTransceiver (DVtm 2 in_msg)) /\
  released (twice md) in_inbox = true /\ map (fun c => is_ok (step H0 (twice md) c)) (replays md) = [false; false; false; false].
Proof. intros []; repeat match goal with |- _ /\ _ => split end; vm_compute; reflexivity. Qed.

(** ** C38 *)
Theorem C38_forward : forall H s tr s' a it, reachable H s -> run H s tr s' -> inbox_at s a it ->
  exists it', inbox_at s' a it' /\ ib_amount it' = ib_amount it /\ ib_recipient it' = ib_recipient it /\ later (ib_status it) (ib_status it').
Proof. exact status_run. Qed.
Print Assumptions C38_forward.

Example C38_case : map (fun k => status_at (at_ Locking k) in_inbox) [10; 11; 12; 13]%nat = [None; Some (ReleaseAfter 1000); Some (ReleaseAfter 1000); Some Released] /\
  ~ later (ReleaseAfter 5) (ReleaseAfter 6) /\ ~ later Released (ReleaseAfter 5) /\ ~ later (ReleaseAfter 5) NotApproved.
Proof. split; [vm_compute; reflexivity|]. repeat match goal with |- _ /\ _ => split end; intros C; inversion C. Qed.

(** ** C39 *)
(** What a redemption does to status and limiters: the fields of [redeemed]. *)
Theorem C39_redeem : forall H s sg x s', reachable H s -> step H s (Call sg (IRedeem x)) = Ok s' ->
  exists p ch tm c rt pe m before after, redeemed H s x s' p ch tm c rt pe m before after.
Proof. exact redeem_exact. Qed.
Print Assumptions C39_redeem.

Theorem C39_delay : forall H s0 tr s e a, initial s0 -> run H s0 tr s -> In e tr -> payout e = Some a ->
  exists tr3 tr2 tr1 e1 p ch tm c m it t irl, tr = tr3 ++ e :: tr2 ++ e1 :: tr1 /\ approves H e1 a p ch tm c m it t /\ t <= st_now (e_pre e) /\
    in_limiter (e_pre e1) ch irl /\
    (local_amount m (tm_msg tm) <= capacity irl (st_now (e_pre e1)) /\ t = st_now (e_pre e1) \/
     capacity irl (st_now (e_pre e1)) < local_amount m (tm_msg tm) /\ t = st_now (e_pre e1) + day).
Proof. exact payout_delay. Qed.
Print Assumptions C39_delay.

(** Inbound limit lowered to 399999999, below the message's 400000000: paid only a day later. With 400000000: at once. *)
Definition limited (l : Z) : list call :=
  [Call [DEPLOYER] (ISetInboundLimit pda_config DEPLOYER 2 l); Call [] (IRedeem the_redeem); Call [] (ECreateAta PToken RCPT MINT)].
Definition unlock_now : call := Call [] (IReleaseUnlock the_release true).
Example C39_case :
  is_ok (exec_tx H0 (at_ Locking 10) (limited 399999999 ++ [Call [] (EClock 87399); unlock_now])) = false /\
  is_ok (exec_tx H0 (at_ Locking 10) (limited 399999999 ++ [Call [] (EClock 87400); unlock_now])) = true /\
  is_ok (exec_tx H0 (at_ Locking 10) (limited 400000000 ++ [unlock_now])) = true /\
  map (fun k => st_accts (at_ Locking k) (pda_inbox_rl 2)) [10; 11]%nat =
    [Some (Acct PManager (DInboxRL (RL 3000000000 3000000000 1000))); Some (Acct PManager (DInboxRL (RL 3000000000 2600000000 1000)))] /\
  map (fun k => st_accts (at_ Locking k) pda_outbox_rl) [10; 11]%nat =
    [Some (Acct PManager (DOutboxRL (RL 3000000000 2000000000 1000))); Some (Acct PManager (DOutboxRL (RL 3000000000 2400000000 1000)))].
Proof. repeat match goal with |- _ /\ _ => split end; vm_compute; reflexivity. Qed.

(** ** C40 *)
Theorem C40_message : forall H s0 tr s e a, initial s0 -> run H s0 tr s -> In e tr -> payout e = Some a ->
  exists md x r c it m e1 p ch nm, ins (e_call e) = (match md with Locking => IReleaseUnlock x r | Burning => IReleaseMint x r end) /\ la_item x = a /\
    pays (e_pre e) x md (e_post e) c it m /\ In e1 tr /\ delivery e1 p ch nm /\ item_of H ch nm = a /\
    ib_recipient it = nm_to nm /\ ib_amount it = local_amount m nm /\
    (no_collision H tr -> forall e' p' ch' nm', In e' tr -> delivery e' p' ch' nm' -> item_of H ch' nm' = a -> ch' = ch /\ nm' = nm).
Proof. exact payout_message. Qed.
Print Assumptions C40_message.

Theorem C40_unlock : forall H s sg x r s', reachable H s -> step H s (Call sg (IReleaseUnlock x r)) = Ok s' ->
  (s' = s /\ r = false /\ exists it, inbox_at s (la_item x) it /\ (ib_status it = NotApproved \/ exists t, ib_status it = ReleaseAfter t /\ st_now s < t)) \/
  exists c it m, pays s x Locking s' c it m /\
    (destination x c it = cf_custody c /\ (forall b, st_toks s' b = st_toks s b) /\ (forall b, st_mints s' b = st_mints s b) \/
     destination x c it <> cf_custody c /\
     balance s' (cf_custody c) = balance s (cf_custody c) - ib_amount it /\
     balance s' (destination x c it) = balance s (destination x c it) + ib_amount it - fee_of m (ib_amount it) /\
     (forall b, b <> cf_custody c -> b <> destination x c it -> st_toks s' b = st_toks s b) /\
     (exists t t', st_toks s (destination x c it) = Some t /\ st_toks s' (destination x c it) = Some t' /\ tk_owner t' = tk_owner t /\ tk_delegate t' = tk_delegate t /\ tk_delegated t' = tk_delegated t) /\
     st_mints s' (cf_mint c) = Some (with_withheld m (mt_withheld m + fee_of m (ib_amount it))) /\
     (forall b, b <> cf_mint c -> st_mints s' b = st_mints s b)).
Proof. exact unlock_exact. Qed.
Print Assumptions C40_unlock.

Theorem C40_mint : forall H s sg x r s', reachable H s -> step H s (Call sg (IReleaseMint x r)) = Ok s' ->
  (s' = s /\ r = false /\ exists it, inbox_at s (la_item x) it /\ (ib_status it = NotApproved \/ exists t, ib_status it = ReleaseAfter t /\ st_now s < t)) \/
  exists c it m, pays s x Burning s' c it m /\ mt_auth m = Some token_authority /\
    supply_of s' (cf_mint c) = supply_of s (cf_mint c) + ib_amount it /\
    (forall b, b <> cf_mint c -> st_mints s' b = st_mints s b) /\
    (destination x c it = cf_custody c /\ balance s' (cf_custody c) = balance s (cf_custody c) + ib_amount it /\
     (forall b, b <> cf_custody c -> st_toks s' b = st_toks s b) \/
     destination x c it <> cf_custody c /\
     balance s' (destination x c it) = balance s (destination x c it) + ib_amount it - fee_of m (ib_amount it) /\
     (forall b, b <> destination x c it -> st_toks s' b = st_toks s b) /\
     (exists t t', st_toks s (destination x c it) = Some t /\ st_toks s' (destination x c it) = Some t' /\ tk_owner t' = tk_owner t /\ tk_delegate t' = tk_delegate t /\ tk_delegated t' = tk_delegated t)).
Proof. exact mint_exact. Qed.
Print Assumptions C40_mint.

(** "Exactly the amount" fails for mints with a transfer fee: the recipient then gets less. Witness: the worked example with a
    token-2022 mint of 1 % fee, set after the outbound transfer. *)
Definition s_start22 : state :=
  State 0 no_accts
    (upd (fun _ => None) (ata PToken22 USER MINT) (Some (Tok PToken22 MINT USER 5000000000 None 0)))
    (upd (fun _ => None) MINT (Some (Mint PToken22 9 5000000000 (Some ISSUER) 0 0 0))) (Some DEPLOYER) [].
Definition accts22 : transfer_accts := TransferAccts pda_config (ata PToken22 USER MINT) PToken22 ITEM pda_outbox_rl true.
Definition calls22 : list call :=
  [ Call [] (EClock 1000);
    Call [DEPLOYER] (IInitialize DEPLOYER MINT PToken22 1 3000000000 Locking);
    Call [DEPLOYER] (IRegisterTransceiver pda_config DEPLOYER (AProg PManager));
    Call [DEPLOYER] (ISetPeer pda_config DEPLOYER 2 (ARaw 7) 3000000000 18);
    Call [DEPLOYER] (IXSetPeer PManager pda_config DEPLOYER 2 (ARaw 8));
    Call [USER] (EApprove PToken22 (ata PToken22 USER MINT) USER (pda_session USER (h_args H0 the_args)) 1000000005);
    Call [ITEM] (ITransferLock accts22 the_args);
    Call [] (EPostVaa VAA 2 (ARaw 8) (Some in_msg));
    Call [] (IXReceive PManager pda_config VAA);
    Call [] (IRedeem the_redeem);
    Call [] (ECreateAta PToken22 RCPT MINT);
    Call [] (ESetFee PToken22 MINT 100 u64_max)].
Definition s_fee : state := apply_tx H0 s_start22 calls22.
Definition s_fee' : state := apply_tx H0 s_fee [Call [] (IReleaseUnlock (ReleaseAccts pda_config in_inbox PToken22 true) true)].
Lemma s_start22_initial : initial s_start22.
Proof.
  constructor; cbn.
  - ilia.
  - discriminate.
  - intros a t. rewrite upd_eq. match goal with |- context [addr_eq_dec ?x ?y] => destruct (addr_eq_dec x y) as [->|]; [|discriminate] end. intros E. apply Some_inj in E. subst.
    unfold wf_tok. cbn. split; [intros []|]. split; [reflexivity|]. split; [ilia|]. split; [ilia|].
    split; [eexists; split; [unfold upd, addr_eqb; cbn; reflexivity|reflexivity]|]. split; [|split; [|reflexivity]].
    + intros p w m Hp Q. inversion Q; subst. destruct p; try discriminate; auto.
    + intros p m Hp Q. inversion Q.
  - intros a m. rewrite upd_eq. match goal with |- context [addr_eq_dec ?x ?y] => destruct (addr_eq_dec x y) as [->|]; [|discriminate] end. intros E. apply Some_inj in E. subst.
    unfold wf_mint. cbn. split; [intros []|]. split; [reflexivity|]. ilia.
  - intros a E. apply Some_inj in E. subst. intros [].
  - contradiction.
Qed.
Theorem C40_fee_refuted : exists s s', reachable H0 s /\
  step H0 s (Call [] (IReleaseUnlock (ReleaseAccts pda_config in_inbox PToken22 true) true)) = Ok s' /\
  amount_of s in_inbox = 400000000 /\ balance s (ata PToken22 RCPT MINT) = 0 /\ balance s' (ata PToken22 RCPT MINT) = 396000000.
Proof.
  exists s_fee, s_fee'. split; [apply apply_reachable, initial_reachable, s_start22_initial|]. repeat match goal with |- _ /\ _ => split end; vm_compute; reflexivity.
Qed.
Print Assumptions C40_fee_refuted.

Example C40_case : local_amount (Mint PToken 9 0 None 0 0 0) (tm_msg in_msg) = 400000000 /\
  (amount_at Locking 12 rcpt_tok, amount_at Locking 13 rcpt_tok, amount_at Locking 12 custody, amount_at Locking 13 custody) =
    (Some 0, Some 400000000, Some 1000000000, Some 600000000) /\
  (amount_at Burning 12 rcpt_tok, amount_at Burning 13 rcpt_tok, amount_at Burning 13 custody, supply_at Burning 12, supply_at Burning 13) =
    (Some 0, Some 400000000, Some 0, Some 4000000000, Some 4400000000).
Proof. repeat match goal with |- _ /\ _ => split end; vm_compute; reflexivity. Qed.

(** ** C41 *)
Theorem C41_replay_fails : forall H s sg x p ch tm it, reachable H s -> st_accts s (ra_message x) = Some (Acct p (DVtm ch tm)) ->
  inbox_at s (item_of H ch (tm_msg tm)) it -> ib_status it <> NotApproved -> ~ succeeds (step H s (Call sg (IRedeem x))).
Proof. exact redeem_again. Qed.
Print Assumptions C41_replay_fails.

(** A transaction that contains such a redemption has no effect at all, whatever else it does before and after. *)
Theorem C41_no_effect : forall H s before s1 sg x after p ch tm it, reachable H s -> inbox_at s (item_of H ch (tm_msg tm)) it -> ib_status it <> NotApproved ->
  exec_tx H s before = Ok s1 -> st_accts s1 (ra_message x) = Some (Acct p (DVtm ch tm)) ->
  apply_tx H s (before ++ Call sg (IRedeem x) :: after) = s.
Proof.
  intros H s before s1 sg x after p ch tm it Hr Hd Hst Hb Hm.
  assert (Hr1 : reachable H s1 /\ exists it', inbox_at s1 (item_of H ch (tm_msg tm)) it' /\ ib_status it' <> NotApproved).
  { destruct (exec_tx_run _ _ _ _ Hb) as (tr & R & _). split; [eapply run_reachable; eassumption|].
    destruct (status_run _ _ _ _ _ _ Hr R Hd) as (it' & E & _ & _ & L). exists it'. split; [exact E|]. intros C. rewrite C in L. inversion L; congruence. }
  destruct Hr1 as (Hr1 & it' & Hd' & Hst').
  assert (Q : exists e, exec_tx H s (before ++ Call sg (IRedeem x) :: after) = Err e).
  { clear Hr Hd. revert s Hb. induction before as [|c b IH]; cbn; intros s0 Hb.
    - apply Ok_inj in Hb. subst s0. destruct (step H s1 (Call sg (IRedeem x))) as [s3|e] eqn:Q; [|cbn; eauto]. exfalso.
      eapply redeem_again; try eassumption. exists s3. exact Q.
    - destruct (step H s0 c) as [s3|]; cbn in *; [eauto|discriminate]. }
  unfold apply_tx. destruct Q as (e & ->). reflexivity.
Qed.
Print Assumptions C41_no_effect.

(** The worked example: the first redemption succeeds; after it, redeeming again fails, before and after the payout. *)
Example C41_case : forall md, map (fun k => ok_at md k (Call [] (IRedeem the_redeem))) [10; 11; 12; 13]%nat = [true; false; false; false] /\
  st_accts (at_ md 11) (ra_message the_redeem) = Some (Acct PManager (DVtm 2 in_msg)) /\ item_of H0 2 (tm_msg in_msg) = in_inbox /\
  status_at (at_ md 11) in_inbox = Some (ReleaseAfter 1000) /\
  apply_tx H0 (at_ md 11) [Call [] (EClock 2000); Call [] (IRedeem the_redeem)] = at_ md 11.
Proof. intros []; repeat match goal with |- _ /\ _ => split end; vm_compute; reflexivity. Qed.

(** ** C45 *)
(** A received message lies at the address of its chain and id, and came from a record of the core bridge naming the peer. *)
Theorem C45_authentic : forall H s0 tr s a p ch tm, initial s0 -> run H s0 tr s -> is_ntt_prog p = true -> st_accts s a = Some (Acct p (DVtm ch tm)) ->
  a = received_at p ch (nm_id (tm_msg tm)) /\
  exists e xp v, In e tr /\ receipt e p ch tm /\
    st_accts (e_pre e) (pda_xpeer p ch) = Some (Acct p (DXPeer xp)) /\
    (st_accts s0 v = Some (Acct PWormhole (DVaa ch (xp_address xp) (Some tm))) \/ exists e', In e' tr /\ attested e' ch (xp_address xp) tm).
Proof. exact message_authentic. Qed.
Print Assumptions C45_authentic.

Theorem C45_once : forall H s0 tr1 e2 tr2 s e1 p ch tm1 tm2, run H s0 (tr1 ++ e2 :: tr2) s -> In e1 tr2 -> receipt e1 p ch tm1 -> receipt e2 p ch tm2 ->
  nm_id (tm_msg tm1) <> nm_id (tm_msg tm2).
Proof. intros H s0 tr1 e2 tr2 s e1 p ch tm1 tm2 R Hin A B C. exact (receipt_once _ _ _ _ _ _ _ _ _ _ _ R Hin A B C). Qed.
Print Assumptions C45_once.

Theorem C45_never_changes : forall H s tr s' a p ch tm, run H s tr s' -> is_ntt_prog p = true ->
  st_accts s a = Some (Acct p (DVtm ch tm)) -> st_accts s' a = Some (Acct p (DVtm ch tm)).
Proof. exact vtm_run. Qed.
Print Assumptions C45_never_changes.

(** What a receipt writes. *)
Theorem C45_receive : forall H s sg p cfg v s', step H s (Call sg (IXReceive p cfg v)) = Ok s' -> is_ntt_prog p = true /\
  exists ch tm, receipt (Ev s (Call sg (IXReceive p cfg v)) s') p ch tm /\ st_accts s (received_at p ch (nm_id (tm_msg tm))) = None /\
    st_accts s' (received_at p ch (nm_id (tm_msg tm))) = Some (Acct p (DVtm ch tm)) /\
    (forall b, b <> received_at p ch (nm_id (tm_msg tm)) -> st_accts s' b = st_accts s b).
Proof. exact receive_exact. Qed.
Print Assumptions C45_receive.

(** Right peer; other emitter; other chain; unparseable payload; same id with other contents after the first; account not of the bridge. *)
Definition post (ch : Z) (em : addr) (tm : option tr_msg) : list call := [Call [] (EPostVaa VAA2 ch em tm); Call [] (IXReceive PManager pda_config VAA2)].
Definition other_msg : tr_msg := TrMsg (ARaw 7) (AProg PManager) (NttMsg (ARaw 20) (ARaw 99) (Trim 1 8) (ARaw 22) 1 USER).
Example C45_case : map (fun tx => is_ok (exec_tx H0 (at_ Locking 9) tx))
   [post 2 (ARaw 8) (Some in_msg); post 2 (ARaw 9) (Some in_msg); post 3 (ARaw 8) (Some in_msg); post 2 (ARaw 8) None;
    [Call [] (IXReceive PManager pda_config VAA)] ++ post 2 (ARaw 8) (Some other_msg); post 2 (ARaw 8) (Some other_msg);
    [Call [FORGED] (EWrite 3 FORGED (DVaa 2 (ARaw 8) (Some in_msg))); Call [] (IXReceive PManager pda_config FORGED)]] =
   [true; false; false; false; false; true; false] /\
  st_accts (at_ Locking 10) (received_at PManager 2 (ARaw 20)) = Some (Acct PManager (DVtm 2 in_msg)).
Proof. split; vm_compute; reflexivity. Qed.

(** ** C47 *)
(** Refuted: setting a peer again makes a new limiter, with full capacity. Witness: the worked example after a redemption. *)
Theorem C47_refuted : exists s s' pe r r', reachable H0 s /\ peer_at s 2 pe /\ in_limiter s 2 r /\ in_limiter s' 2 r' /\
  step H0 s (Call [DEPLOYER] (ISetPeer pda_config DEPLOYER 2 (pe_address pe) (rl_limit r) (pe_decimals pe))) = Ok s' /\
  capacity r (st_now s) < capacity r' (st_now s').
Proof.
  exists (at_ Locking 11), (apply_tx H0 (at_ Locking 11) [Call [DEPLOYER] (ISetPeer pda_config DEPLOYER 2 (ARaw 7) 3000000000 18)]).
  eexists (Peer _ (ARaw 7) 18), (RL 3000000000 2600000000 1000), (RL 3000000000 3000000000 0).
  split; [apply at_reachable|]. repeat match goal with |- _ /\ _ => split end; vm_compute; reflexivity.
Qed.
Print Assumptions C47_refuted.

(** The exact rule of the inbound limiter: what each instruction makes of it. Only the owner's two instructions change its
    limit; [ISetInboundLimit] keeps what has been used, [ISetPeer] does not. *)
Theorem C47_partial : forall H s sg i s' ch r, reachable H s -> step H s (Call sg i) = Ok s' -> in_limiter s ch r ->
  exists r', in_limiter s' ch r' /\
  (r' = r \/
   (exists md x a c m pe f o v, transfer_of i = Some (md, x, a) /\ ar_chain a = ch /\ transferred s sg x a s' md c m pe f o v /\
      r' = RL (rl_limit r) (Z.min (capacity r (st_now s) + v) (rl_limit r)) (st_now s)) \/
   (exists x p tm c rt pe m b af, i = IRedeem x /\ redeemed H s x s' p ch tm c rt pe m b af /\ local_amount m (tm_msg tm) <= capacity r (st_now s) /\
      r' = RL (rl_limit r) (capacity r (st_now s) - local_amount m (tm_msg tm)) (st_now s)) \/
   (exists cfg o l c, i = ISetInboundLimit cfg o ch l /\ config_at s cfg c /\ cf_owner c = o /\ In o sg /\
      r' = RL l (Z.max 0 (capacity r (st_now s) + (l - rl_limit r))) (st_now s)) \/
   (exists cfg o a l d c, i = ISetPeer cfg o ch a l d /\ config_at s cfg c /\ cf_owner c = o /\ In o sg /\ r' = RL l l 0)).
Proof. exact inbound_limiter_step. Qed.
Print Assumptions C47_partial.

(** ** C55 *)
(** Every vote of an item, approved or not, is that of a registered program that delivered the very message the item is for. *)
Theorem C55_votes : forall H s0 tr s a it, initial s0 -> run H s0 tr s -> inbox_at s a it -> no_collision H tr ->
  exists ch nm, ib_recipient it = nm_to nm /\ item_of H ch nm = a /\
    forall i, Z.testbit (ib_votes it) i = true -> exists e p rt, In e tr /\ delivery e p ch nm /\ reg_at s (pda_reg (AProg p)) rt /\ rt_id rt = i.
Proof.
  intros H s0 tr s a it Hini R Hd NC. destruct (content_origin _ _ _ _ _ _ Hini R Hd) as (e & p & ch & nm & _ & _ & Hin & D & Ea & _ & _ & Er & _).
  exists ch, nm. split; [exact Er|]. split; [exact Ea|]. intros i Hi.
  destruct (votes_origin _ _ _ _ _ _ _ Hini R Hd Hi) as (e' & p' & ch' & nm' & rt & Hin' & D' & Ea' & Hreg & Hid).
  destruct (NC e' e p' p ch' nm' ch nm Hin' Hin D' D) as (-> & ->); [apply inbox_inj; unfold item_of in *; congruence|]. exists e', p', rt. auto.
Qed.
Print Assumptions C55_votes.

(** A redemption does not touch the item of a message with another hash. *)
Theorem C55_separate : forall H s sg x s' p ch tm ch' nm', reachable H s -> step H s (Call sg (IRedeem x)) = Ok s' ->
  st_accts s (ra_message x) = Some (Acct p (DVtm ch tm)) -> h_msg H ch (tm_msg tm) <> h_msg H ch' nm' ->
  st_accts s' (item_of H ch' nm') = st_accts s (item_of H ch' nm').
Proof.
  intros H s sg x s' p ch tm ch' nm' Hr Hs Hm Hn. destruct (redeem_exact _ _ _ _ _ Hr Hs) as (p0 & ch0 & tm0 & c & rt & pe & m & b & af & Rd).
  pose proof (dl_message _ _ _ _ _ _ _ _ (rd_delivers _ _ _ _ _ _ _ _ _ _ _ _ _ Rd)) as Q. rewrite Hm in Q. injection Q as <- <- <-.
  assert (N : item_of H ch' nm' <> item_of H ch (tm_msg tm)) by (intros C; apply Hn; symmetry; apply inbox_inj; exact C).
  destruct (rd_status _ _ _ _ _ _ _ _ _ _ _ _ _ Rd) as [(_ & _ & K)|(_ & _ & irl & orl & irl' & orl' & t & _ & _ & _ & _ & _ & _ & _ & K)]; apply K; [exact N|exact N|discriminate|discriminate].
Qed.
Print Assumptions C55_separate.

(** Two deliveries that differ in the amount only make two items with one vote each. *)
Definition near_msg : tr_msg := TrMsg (ARaw 7) (AProg PManager) (NttMsg (ARaw 20) (ARaw 21) (Trim 40000001 8) (ARaw 22) 1 RCPT).
Definition two_votes : state := apply_tx H0 (at_ Locking 11)
  [Call [DEPLOYER] (IRegisterTransceiver pda_config DEPLOYER (AProg PTransceiver)); Call [DEPLOYER] (IXSetPeer PTransceiver pda_config DEPLOYER 2 (ARaw 8));
   Call [] (EPostVaa VAA2 2 (ARaw 8) (Some near_msg)); Call [] (IXReceive PTransceiver pda_config VAA2);
   redeem_from (pda_vtm PTransceiver 2 (ARaw 20)) (pda_reg (AProg PTransceiver))].
Example C55_case : st_accts two_votes in_inbox = st_accts (at_ Locking 11) in_inbox /\
  st_accts two_votes in_inbox = Some (Acct PManager (DInboxItem (InboxItem true 0 400000000 RCPT 1 (ReleaseAfter 1000)))) /\
  st_accts two_votes (item_of H0 2 (tm_msg near_msg)) = Some (Acct PManager (DInboxItem (InboxItem true 0 400000010 RCPT 2 (ReleaseAfter 1000)))).
Proof. repeat match goal with |- _ /\ _ => split end; vm_compute; reflexivity. Qed.

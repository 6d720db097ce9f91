(** * A worked deployment, for examples: initial state, calls, reached states. *)
From Verif Require Export Transact.
Local Open Scope Z_scope.

(** Injective stand-ins for the hash functions. *)
Definition enc (z : Z) (a b : addr) : addr := APda PWormhole (TUser 0) z a b.
Definition H0 : hashes := Hashes
  (fun ch m => enc ch (nm_id m) (enc (ta_amount (nm_amount m)) (nm_sender m)
                 (enc (ta_decimals (nm_amount m)) (nm_token m) (enc (nm_to_chain m) (nm_to m) ANull))))
  (fun a => enc (ar_amount a) (ar_to a) (enc (ar_chain a) ANull (enc (if ar_queue a then 1 else 0) ANull ANull))).

Definition DEPLOYER := AKey 0.
Definition USER := AKey 1.
Definition RCPT := AKey 2.
Definition ISSUER := AKey 5.
Definition MINT := AKey 100.
Definition ITEM := AKey 50.
Definition VAA := APda PWormhole (TUser 1) 0 ANull ANull.
Definition user_tok := ata PToken USER MINT.
Definition rcpt_tok := ata PToken RCPT MINT.
Definition custody := ata PToken token_authority MINT.

Definition no_accts : addr -> option acct := fun _ => None.
Definition s_start (md : mode) : state :=
  State 0 no_accts
    (upd (fun _ => None) user_tok (Some (Tok PToken MINT USER 5000000000 None 0)))
    (upd (fun _ => None) MINT (Some (Mint PToken 9 5000000000 (Some (match md with Locking => ISSUER | Burning => token_authority end)) 0 0 0)))
    (Some DEPLOYER) [].

Definition the_args : targs := TransferArgs 1000000005 2 (ARaw 9) false.
Definition the_accts : transfer_accts := TransferAccts pda_config user_tok PToken ITEM pda_outbox_rl true.
Definition in_msg : tr_msg := TrMsg (ARaw 7) (AProg PManager) (NttMsg (ARaw 20) (ARaw 21) (Trim 40000000 8) (ARaw 22) 1 RCPT).
Definition in_inbox : addr := pda_inbox (h_msg H0 2 (tm_msg in_msg)).
Definition the_redeem : redeem_accts := RedeemAccts pda_config (pda_vtm PManager 2 (ARaw 20)) (pda_reg (AProg PManager)) pda_outbox_rl.
Definition the_release : release_accts := ReleaseAccts pda_config in_inbox PToken true.

Definition calls (md : mode) : list call :=
  [ Call [] (EClock 1000);
    Call [DEPLOYER] (IInitialize DEPLOYER MINT PToken 1 3000000000 md);
    Call [DEPLOYER] (IRegisterTransceiver pda_config DEPLOYER (AProg PManager));
    Call [DEPLOYER] (ISetPeer pda_config DEPLOYER 2 (ARaw 7) 3000000000 18);
    Call [DEPLOYER] (IXSetPeer PManager pda_config DEPLOYER 2 (ARaw 8));
    Call [USER] (EApprove PToken user_tok USER (pda_session USER (h_args H0 the_args)) 1000000005);
    Call [ITEM] (match md with Locking => ITransferLock the_accts the_args | Burning => ITransferBurn the_accts the_args end);
    Call [] (IXRelease PManager pda_config ITEM (pda_reg (AProg PManager)) true true);
    Call [] (EPostVaa VAA 2 (ARaw 8) (Some in_msg));
    Call [] (IXReceive PManager pda_config VAA);
    Call [] (IRedeem the_redeem);
    Call [] (ECreateAta PToken RCPT MINT);
    Call [] (match md with Locking => IReleaseUnlock the_release true | Burning => IReleaseMint the_release true end) ].

(** The state after the first [k] calls. *)
Definition at_ (md : mode) (k : nat) : state := apply_tx H0 (s_start md) (firstn k (calls md)).
Definition is_ok {A} (r : result A) : bool := match r with Ok _ => true | Err _ => false end.

Lemma s_start_initial md : initial (s_start md).
Proof.
  constructor; cbn.
  - ilia.
  - discriminate.
  - intros a t. rewrite upd_eq. destruct (addr_eq_dec a user_tok) as [->|]; [|discriminate]. intros E. apply Some_inj in E. subst.
    unfold wf_tok. cbn. split; [intros []|]. split; [reflexivity|]. split; [ilia|]. split; [ilia|].
    split; [eexists; split; [unfold upd, addr_eqb; cbn; reflexivity|reflexivity]|]. split; [|split; [|reflexivity]].
    + intros p w m Hp Q. inversion Q; subst. destruct p; try discriminate; auto.
    + intros p m Hp Q. inversion Q.
  - intros a m. rewrite upd_eq. destruct (addr_eq_dec a MINT) as [->|]; [|discriminate]. intros E. apply Some_inj in E. subst.
    unfold wf_mint. cbn. split; [intros []|]. split; [reflexivity|]. ilia.
  - intros a E. apply Some_inj in E. subst. intros [].
  - contradiction.
Qed.

Lemma apply_reachable H s tx : reachable H s -> reachable H (apply_tx H s tx).
Proof.
  intros Hr. unfold apply_tx. destruct (exec_tx H s tx) eqn:E; [|exact Hr].
  destruct (exec_tx_run _ _ _ _ E) as (tr & R & _). eapply run_reachable; eassumption.
Qed.
Lemma at_reachable md k : reachable H0 (at_ md k).
Proof. apply apply_reachable, initial_reachable, s_start_initial. Qed.

Lemma calls_succeed md : is_ok (exec_tx H0 (s_start md) (calls md)) = true.
Proof. destruct md; vm_compute; reflexivity. Qed.

Lemma h_msg_inj c m c' m' : h_msg H0 c m = h_msg H0 c' m' -> c = c' /\ m = m'.
Proof. destruct m as [i s [a d] t ch to], m' as [i' s' [a' d'] t' ch' to']. cbn. unfold enc. intros E. inversion E; subst. auto. Qed.
Lemma h_args_inj a a' : h_args H0 a = h_args H0 a' -> a = a'.
Proof. destruct a as [x c t q], a' as [x' c' t' q']. cbn. unfold enc. intros E. inversion E; subst. destruct q, q'; try discriminate; reflexivity. Qed.

(** One more call in the state after [k] calls. *)
Definition ok_at (md : mode) (k : nat) (c : call) : bool := is_ok (step H0 (at_ md k) c).
Definition amount_at (md : mode) (k : nat) (a : addr) : option Z := option_map tk_amount (st_toks (at_ md k) a).
Definition supply_at (md : mode) (k : nat) : option Z := option_map mt_supply (st_mints (at_ md k) MINT).

Example scenario_lock : map (fun k => (amount_at Locking k user_tok, amount_at Locking k custody, amount_at Locking k rcpt_tok)) [6; 7; 13]%nat =
  [(Some 5000000000, Some 0, None); (Some 4000000000, Some 1000000000, None); (Some 4000000000, Some 600000000, Some 400000000)].
Proof. vm_compute. reflexivity. Qed.
Example scenario_burn : map (fun k => (amount_at Burning k user_tok, amount_at Burning k custody, supply_at Burning k, amount_at Burning k rcpt_tok)) [6; 7; 13]%nat =
  [(Some 5000000000, Some 0, Some 5000000000, None); (Some 4000000000, Some 0, Some 4000000000, None);
   (Some 4000000000, Some 0, Some 4400000000, Some 400000000)].
Proof. vm_compute. reflexivity. Qed.

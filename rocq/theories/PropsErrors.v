(** * What the reported errors mean: C88. *)
From Coq Require Import String.
From Verif Require Export ErrorFacts PropsGov PropsPanic.
From Verif Require Import PropsAdmin PropsHook PropsQuoter.
Import ListNotations.
Local Open Scope Z_scope.

(** An error with a number tells the truth: whatever instruction of the manager or a transceiver reports it, in whatever reachable state, what the number
    stands for is the case, and an instruction reports no number that is not listed for it. Which one of several true ones is reported depends on the order
    in which the generated code checks, which the model does not follow. *)
Theorem C88_manager : forall H s c e, reachable H s -> step H s c = Err e -> cause H s (ins c) e.
Proof.
  intros H s [sg i] e Hr. unfold step. cbn [Exec.ins signers]. apply (tells_bind (cause H s i)); [apply tells_require; intros; exact I|]. intros u G. bools. apply reported; assumption.
Qed.
Print Assumptions C88_manager.

Theorem C88_quoter : forall E q c e, q_reachable E q -> q_step E q c = Err e -> q_cause E q (q_ins c) e.
Proof.
  intros E q [sg i] e Hr. unfold q_step. cbn [q_ins q_signers]. apply (tells_bind (q_cause E q i)); [apply tells_require; intros; destruct i; exact I|]. intros u G. bools. apply q_reported; assumption.
Qed.
Print Assumptions C88_quoter.

Theorem C88_governance : forall W (E : genv W) n st ctx data e, g_exec E n st ctx data = Err e -> g_cause E st e.
Proof. intros W E n st ctx data e. apply g_reported. Qed.
Print Assumptions C88_governance.

(** The numbers, names and texts are those published. *)
Definition listed (l : list variant) : list (Z * string * string) := map (fun cv => (fst cv, va_name (snd cv), va_msg (snd cv))) (codes l).
Theorem C88_numbers : listed NTTError = manager_errors /\ listed NttQuoterError = quoter_errors /\ listed GovernanceError = governance_errors.
Proof. repeat split; reflexivity. Qed.
Print Assumptions C88_numbers.

Lemma code_entry l e n : code_of l e = Some n -> In (n, e) (map (fun cv => (fst cv, va_error (snd cv))) (codes l)).
Proof.
  unfold code_of. destruct (find _ _) as [[k v]|] eqn:F; [|discriminate]. intros E. apply Some_inj in E. cbn [fst] in E. subst k.
  apply find_some in F as [F G]. cbn [snd] in G. destruct (error_eq_dec (va_error v) e) as [<-|]; [|discriminate].
  apply in_map_iff. now exists (n, v).
Qed.
Lemma code_entry_inj l n e f : NoDup (map fst (codes l)) -> In (n, e) (map (fun cv => (fst cv, va_error (snd cv))) (codes l)) ->
  In (n, f) (map (fun cv => (fst cv, va_error (snd cv))) (codes l)) -> e = f.
Proof.
  generalize (codes l). clear l. intros l. induction l as [|[k v] l IH]; intros N; [intros []|]. cbn [map fst snd In]. cbn [map fst] in N. apply NoDup_cons_iff in N as [N M].
  assert (X : forall g, In (n, g) (map (fun cv => (fst cv, va_error (snd cv))) l) -> In n (map fst l)).
  { intros g G. apply in_map_iff in G as ([k' v'] & E & G). injection E as <- _. apply in_map_iff. now exists (k', v'). }
  intros [E|E] [F|F].
  - congruence.
  - injection E as -> _. apply X in F. contradiction.
  - injection F as -> _. apply X in E. contradiction.
  - now apply IH.
Qed.

(** A number stands for one error of its program. *)
Theorem C88_distinct : forall l e f n, In l [NTTError; NttQuoterError; GovernanceError] -> code_of l e = Some n -> code_of l f = Some n -> e = f.
Proof.
  intros l e f n Hl He Hf. apply (code_entry_inj l n); [|now apply code_entry|now apply code_entry].
  destruct Hl as [<-|[<-|[<-|[]]]]; vm_compute; repeat constructor; cbn [In]; intuition discriminate.
Qed.
Print Assumptions C88_distinct.

(** ** Each of them is reported *)
Definition says (s : state) (l : list call) (c : call) : option error := if is_ok (exec_tx H0 s l) then err_of (step H0 (apply_tx H0 s l) c) else None.
Definition to_chain_3 : tr_msg := TrMsg (ARaw 7) (AProg PManager) (NttMsg (ARaw 20) (ARaw 21) (Trim 40000000 8) (ARaw 22) 3 RCPT).
Definition from_stranger : tr_msg := TrMsg (ARaw 6) (AProg PManager) (NttMsg (ARaw 20) (ARaw 21) (Trim 40000000 8) (ARaw 22) 1 RCPT).
Definition to_other : tr_msg := TrMsg (ARaw 7) (AProg (PUser 3)) (NttMsg (ARaw 20) (ARaw 21) (Trim 40000000 8) (ARaw 22) 1 RCPT).
Definition very_fine : tr_msg := TrMsg (ARaw 7) (AProg PManager) (NttMsg (ARaw 20) (ARaw 21) (Trim 40000000 50) (ARaw 22) 1 RCPT).
Definition very_much : tr_msg := TrMsg (ARaw 7) (AProg PManager) (NttMsg (ARaw 20) (ARaw 21) (Trim u64_max 0) (ARaw 22) 1 RCPT).
Definition received (m : tr_msg) : list call := [Call [] (EPostVaa VAA 2 (ARaw 8) (Some m)); Call [] (IXReceive PManager pda_config VAA)].
Definition at_once : targs := TransferArgs 4000000000 2 (ARaw 9) false.
Definition x22 : transfer_accts := TransferAccts pda_config (acct22 USER) PToken22 ITEM pda_outbox_rl true.
(** Without tokens in custody beforehand, the token program refuses the burn of what has not arrived. *)
Definition custody22 : addr := acct22 token_authority.
Definition with_fee (md : mode) : list call := firstn 6 (script22 md) ++ [Call [] (ESetFee PToken22 MINT 100 u64_max)].
Definition witnesses : list (error * (state * list call * call)) :=
  [(CantReleaseYet, (at_ Locking 7, [approve_again 4000000000; again 4000000000], Call [] (IXRelease PManager pda_config (AKey 61) (pda_reg (AProg PManager)) true true)));
   (InvalidPendingOwner, (at_ Locking 5, [], Call [USER] (IClaimOwnership pda_config USER)));
   (InvalidChainId, (at_ Locking 8, [Call [] (EPostVaa VAA 2 (ARaw 8) (Some to_chain_3))], Call [] (IXReceive PManager pda_config VAA)));
   (InvalidTransceiverPeer, (at_ Locking 8, [Call [] (EPostVaa VAA 2 (ARaw 9) (Some in_msg))], Call [] (IXReceive PManager pda_config VAA)));
   (InvalidNttManagerPeer, (at_ Locking 8, received from_stranger, Call [] (IRedeem the_redeem)));
   (InvalidRecipientNttManager, (at_ Locking 8, received to_other, Call [] (IRedeem the_redeem)));
   (TransferAlreadyRedeemed, (at_ Locking 13, [], Call [] (IReleaseUnlock the_release true)));
   (TransferCannotBeRedeemed, (at_ Locking 11, [], Call [] (IRedeem the_redeem)));
   (MessageAlreadySent, (at_ Locking 8, [], Call [] (IXRelease PManager pda_config ITEM (pda_reg (AProg PManager)) true true)));
   (InvalidMode, (at_ Locking 6, [], Call [ITEM] (ITransferBurn the_accts the_args)));
   (InvalidMintAuthority, (s_start Locking, [], burning_init));
   (TransferExceedsRateLimit, (at_ Locking 5, [Call [USER] (EApprove PToken user_tok USER (pda_session USER (h_args H0 at_once)) 4000000000)], Call [ITEM] (ITransferLock the_accts at_once)));
   (Paused, (at_ Locking 6, [Call [DEPLOYER] (ISetPaused pda_config DEPLOYER true)], Call [ITEM] (ITransferLock the_accts the_args)));
   (BadAmountAfterTransfer, (start22 Locking, with_fee Locking, Call [ITEM] (ITransferLock x22 the_args)));
   (BadAmountAfterBurn, (start22 Burning, firstn 2 (script22 Burning) ++ Call [USER] (ETransfer PToken22 (acct22 USER) MINT custody22 USER 100000000) :: skipn 2 (with_fee Burning), Call [ITEM] (ITransferBurn x22 the_args)));
   (OverflowExponent, (at_ Locking 8, received very_fine, Call [] (IRedeem the_redeem)));
   (OverflowScaledAmount, (at_ Locking 8, received very_much, Call [] (IRedeem the_redeem)));
   (BitmapIndexOutOfBounds, (at_ Locking 5, register_n 127, Call [DEPLOYER] (IRegisterTransceiver pda_config DEPLOYER (AProg (PUser 200)))));
   (NoRegisteredTransceivers, (s_start Locking, map (fun k => nth k (calls Locking) (Call [] (EClock 0))) [0; 1; 3; 5]%nat, Call [ITEM] (ITransferLock the_accts the_args)))].
Example C88_case : map (fun w => let '(s, l, c) := snd w in says s l c) witnesses = map (fun w => Some (fst w)) witnesses.
Proof. vm_compute. reflexivity. Qed.

Lemma witness_reachable : Forall (fun w => reachable H0 (let '(s, l, c) := snd w in apply_tx H0 s l)) witnesses.
Proof. repeat constructor; cbn [snd]; apply apply_reachable; first [apply at_reachable | apply initial_reachable; first [apply s_start_initial | apply start22_initial]]. Qed.
(** So the numbers the manager and the transceivers report are exactly the published ones but five, which no run reports. *)
Theorem C88_manager_reports : forall e n, code_of NTTError e = Some n -> (exists H s c, reachable H s /\ step H s c = Err e) <-> ~ In e manager_never.
Proof.
  intros e n N. split.
  - intros (H & s & c & R & E) K. pose proof (C88_manager _ _ _ _ R E) as F. repeat destruct K as [<-|K]; try exact F. exact K.
  - intros K. assert (L : In e (map fst witnesses)) by (clear -N K; destruct e; try discriminate N; cbn in *; tauto). clear N K. apply in_map_iff in L. destruct L as ([e' [[s l] c] ] & Q & L). cbn in Q. subst e'.
    exists H0, (apply_tx H0 s l), c. split; [exact (proj1 (Forall_forall _ _) witness_reachable _ L)|].
    pose proof (proj1 map_ext_in_iff C88_case _ L) as Y. cbn [snd fst] in Y.
    unfold says in Y. destruct (is_ok _); [|discriminate Y]. unfold err_of in Y. destruct (step _ _ c); [discriminate Y|]. congruence.
Qed.
Print Assumptions C88_manager_reports.

(** The quoter: all it publishes but one, and one of the manager's that it does not publish. *)
Definition q_renumbered (n : Z) : list qcall := [QCall [ASSIST] (QDeregisterNtt QInst ASSIST (AProg PManager)); QCall [ASSIST] (QRegisterNtt QInst ASSIST (AProg PManager) n 500000)].
Definition q_witnesses : list (error * (nat * list qcall * qcall)) :=
  [(ExceedsUserMaxFee, (7%nat, [], QCall [USER] (QRequestRelay USER QInst ITEM 1000000 220666665)));
   (ExceedsMaxGasDropoff, (7%nat, [], QCall [USER] (QRequestRelay USER QInst ITEM 2000001 300000000)));
   (InvalidFeeRecipient, (8%nat, [], QCall [ASSIST] (QCloseRelay QInst ASSIST (QExt USER) (QReq ITEM))));
   (RelayingToChainDisabled, (6%nat, [], QCall [USER] (QRequestRelay USER QInst ITEM 0 u64_max)));
   (OutboxItemNotReleased, (7%nat, q_renumbered 1, QCall [USER] (QRequestRelay USER QInst ITEM 0 u64_max)));
   (ScalingOverflow, (7%nat, [QCall [ASSIST] (QUpdateChainParams QInst ASSIST (QChain 2) u64_max 100000)], ask (u64_max - 10000000)));
   (FeeRecipientCannotBeDefault, (1%nat, [], QCall [DEPLOYER] (QSetFeeRecipient QInst DEPLOYER (QExt ANull))));
   (NotAuthorized, (1%nat, [], QCall [USER] (QUpdateSolPrice QInst USER 1)));
   (PriceCannotBeZero, (4%nat, [], QCall [USER] (QRequestRelay USER QInst ITEM 0 u64_max)));
   (BitmapIndexOutOfBounds, (7%nat, q_renumbered 200, QCall [USER] (QRequestRelay USER QInst ITEM 0 u64_max)))].
Definition q_says (k : nat) (l : list qcall) (c : qcall) : option error := if q_all_ok E0q (q_at k) l then err_of (q_step E0q (q_apply E0q (q_at k) l) c) else None.
Definition of_quoter (i : qinstr) : Prop := match i with QWorld _ => False | _ => True end.
Example C88_quoter_case : map (fun w => let '(k, l, c) := snd w in q_says k l c) q_witnesses = map (fun w => Some (fst w)) q_witnesses.
Proof. vm_compute. reflexivity. Qed.
Theorem C88_quoter_reports : forall e n, code_of NttQuoterError e = Some n \/ code_of NTTError e = Some n ->
  (exists E q c, q_reachable E q /\ of_quoter (q_ins c) /\ q_step E q c = Err e) <-> (code_of NttQuoterError e <> None /\ ~ In e quoter_never) \/ e = BitmapIndexOutOfBounds.
Proof.
  intros e n N. split.
  - intros (E & q & c & R & O & F). pose proof (C88_quoter _ _ _ _ R F) as G. assert (L : q_cause E q (q_ins c) e -> e <> DivByZero) by (intros J ->; destruct (q_ins c); solve [exact J|exact O]).
    specialize (L G). clear R F. destruct e; destruct N as [N|N]; try discriminate N; destruct (q_ins c); try contradiction O; try contradiction G; try congruence; auto; left; (split; [discriminate|]); intros [K|[]]; discriminate K.
  - intros K. assert (L : In e (map fst q_witnesses)) by (clear -K; destruct K as [(K & J)| ->]; [destruct e; try (destruct K; reflexivity); cbn in *; tauto|cbn; tauto]).
    clear N K. apply in_map_iff in L. destruct L as ([e' [[k l] c] ] & Q & L). cbn in Q. subst e'.
    exists E0q, (q_apply E0q (q_at k) l), c. split; [apply q_apply_reachable, q_at_reachable|].
    split; [clear -L; cbn in L; repeat destruct L as [L|L]; try contradiction L; injection L as _ _ _ <-; exact I|].
    pose proof (proj1 map_ext_in_iff C88_quoter_case _ L) as Y. cbn [snd fst] in Y.
    unfold q_says in Y. destruct (q_all_ok _ _ _); [|discriminate Y]. unfold err_of in Y. destruct (q_step _ _ c); [discriminate Y|]. congruence.
Qed.
Print Assumptions C88_quoter_reports.

(** The governance program: messages 4 to 6 of C54's example, and an ordinary one. *)
Example C88_governance_case : map (fun k => err_of (submit g0 (unique (100 + k)) k [])) [4; 5; 6; 1] =
  [Some InvalidGovernanceChain; Some InvalidGovernanceEmitter; Some InvalidGovernanceProgram; None].
Proof. vm_compute. reflexivity. Qed.
(** Two of the quoter's numbers have the same text, and the one number it takes from the manager is not among its own. *)
Example C88_text : nth_error quoter_errors 3 = Some (6004, "RelayingToChainDisabled", "Relaying to the specified chain is disabled")%string /\
  nth_error quoter_errors 4 = Some (6005, "OutboxItemNotReleased", "Relaying to the specified chain is disabled")%string /\
  code_of NTTError BitmapIndexOutOfBounds = Some 6022 /\ ~ In 6022 (map (fun x => fst (fst x)) quoter_errors).
Proof. repeat split; try reflexivity. vm_compute. intuition discriminate. Qed.

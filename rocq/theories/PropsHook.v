(** * C78: transfer hooks cannot be bypassed. *)
From Verif Require Import HookFacts Scenario PropsIn.
Import ListNotations.
Local Open Scope Z_scope.

(** A run with the hook is a run without it: all other properties hold for it. *)
Theorem C78_refines W (h : hook W) H s0 w0 tr s w : h_run h H s0 w0 tr s w ->
  run H s0 (map (fun e => Ev (he_pre e) (he_call e) (he_post e)) tr) s.
Proof. exact (h_run_plain h H s0 w0 tr s w). Qed.
Print Assumptions C78_refines.

(** An instruction that succeeds apart from the hook succeeds with it exactly if the hook accepts the calls owed to it; these are
    then the calls it got. If it refuses, the instruction fails. *)
Theorem C78_exact W (h : hook W) H s c s' : reachable H s -> step H s c = Ok s' ->
  exists mid, forall w, h_step h H s w c =
    match answers h mid w (due (hk_mints h) H s (ins c)) with
    | Some w' => Ok (s', w', due (hk_mints h) H s (ins c))
    | None => Err TokenErr
    end.
Proof. exact (h_step_iff h H s c s'). Qed.
Print Assumptions C78_exact.
Theorem C78_only W (h : hook W) H s w c s' w' l : reachable H s -> h_step h H s w c = Ok (s', w', l) ->
  step H s c = Ok s' /\ l = due (hk_mints h) H s (ins c) /\ exists mid, answers h mid w l = Some w'.
Proof.
  exact (fun R E => conj (h_step_plain h H s w c s' w' l E) (conj (h_step_due h H s w c s' w' l R E) (h_step_answers h H s w c s' w' l R E))).
Qed.
Print Assumptions C78_only.

(** An outbound transfer of a token with a hook calls it exactly once: for the movement of what is recorded from the sender's account
    to custody, in the name of the session authority; in burning mode too. *)
Theorem C78_outbound W (h : hook W) H s w sg i s' w' l md x ar cf : reachable H s -> h_step h H s w (Call sg i) = Ok (s', w', l) ->
  transfer_of i = Some (md, x, ar) -> config_at s pda_config cf -> has_hook (hk_mints h) s (cf_mint cf) ->
  exists f o v, st_toks s (xa_from x) = Some f /\ xa_from x <> cf_custody cf /\ outbox_at s' (xa_outbox_item x) o /\ ob_sender o = tk_owner f /\
    v = deposit_value s x ar /\ held s (cf_mint cf) (xa_from x) - held s' (cf_mint cf) (xa_from x) = v /\
    l = [HookCall (xa_from x) (cf_mint cf) (cf_custody cf) (pda_session (tk_owner f) (h_args H ar)) v].
Proof. exact (outbound_call h H s w sg i s' w' l md x ar cf). Qed.
Print Assumptions C78_outbound.

(** A release that pays calls it exactly once: for the item's amount from custody to the recipient's account, in the name of the token
    authority; in burning mode too, where the tokens are minted first. (Not if the recipient is the token authority itself: nothing
    leaves custody then.) *)
Theorem C78_inbound W (h : hook W) H s w sg i s' w' l x cf it : reachable H s -> h_step h H s w (Call sg i) = Ok (s', w', l) ->
  release_of i = Some x -> inbox_at s (la_item x) it -> ib_status it <> Released -> released s' (la_item x) = true ->
  config_at s pda_config cf -> has_hook (hk_mints h) s (cf_mint cf) ->
  let to := ata PToken22 (ib_recipient it) (cf_mint cf) in
  l = if addr_eqb (ib_recipient it) token_authority then []
      else [HookCall (cf_custody cf) (cf_mint cf) to token_authority (ib_amount it)].
Proof. exact (inbound_call h H s w sg i s' w' l x cf it). Qed.
Print Assumptions C78_inbound.

(** Over any history, what any account holds of a token with a hook, other than the custody of a burning deployment, is what it held
    before, what the hook was told went in and out, and what others minted, burnt or withdrew as fees. *)
Theorem C78_ledger W (h : hook W) H s0 w0 tr s w m a : reachable H s0 -> h_run h H s0 w0 tr s w -> has_hook (hk_mints h) s0 m -> not_burnt_from s a ->
  held s m a = held s0 m a + htotal (fun e => told (he_pre e) m a (he_hooks e) + elsewhere m a (ins (he_call e))) tr.
Proof. exact (h_run_told h H s0 w0 tr s w m a). Qed.
Print Assumptions C78_ledger.

(** So a hook that refuses to let an account receive, or pay, decides so for the programs. *)
Theorem C78_no_receipt W (h : hook W) H s w sg i s' w' l m a : reachable H s -> h_step h H s w (Call sg i) = Ok (s', w', l) -> of_program i = true ->
  has_hook (hk_mints h) s m -> not_burnt_from s a ->
  (forall s w c, hc_mint c = m -> hc_dest c = a -> hk_execute h s w c = None) -> held s' m a <= held s m a.
Proof. exact (barred_dest h H s w sg i s' w' l m a). Qed.
Print Assumptions C78_no_receipt.
Theorem C78_no_payment W (h : hook W) H s w sg i s' w' l m a : reachable H s -> h_step h H s w (Call sg i) = Ok (s', w', l) -> of_program i = true ->
  has_hook (hk_mints h) s m -> not_burnt_from s a ->
  (forall s w c, hc_mint c = m -> hc_source c = a -> hk_execute h s w c = None) -> held s m a <= held s' m a.
Proof. exact (barred_source h H s w sg i s' w' l m a). Qed.
Print Assumptions C78_no_payment.

(** The hook of the tests counts its calls, and serves the one mint it was initialised for. *)
Theorem C78_counter H mints s0 k s w : reachable H s0 -> d_run H mints s0 k s w ->
  (du_count w = None /\ k = [] /\ forall m, du_metas w m = false) \/
  (exists m, du_count w = Some (Z.of_nat (length k)) /\ forall m', du_metas w m' = true <-> m' = m).
Proof. exact (d_run_count H mints s0 k s w). Qed.
Print Assumptions C78_counter.
(** Tokens of any other mint that names it cannot be transferred, by the manager or by anyone. *)
Theorem C78_one_mint H mints s0 k s w m sg i s' w' l a : reachable H s0 -> d_run H mints s0 k s w -> du_metas w m = false ->
  has_hook mints s m -> not_burnt_from s a -> h_step (dummy_hook mints) H s w (Call sg i) = Ok (s', w', l) ->
  held s' m a = held s m a + elsewhere m a i.
Proof. exact (d_stuck H mints s0 k s w m sg i s' w' l a). Qed.
Print Assumptions C78_one_mint.
(** When it accepts a call, exactly: both accounts are of the mint, the counter exists and does not overflow. *)
Theorem C78_accepts s w src mnt dst w' : dummy_transfer_hook s w src mnt dst = Ok w' <->
  (exists t, st_toks s src = Some t /\ tk_mint t = mnt) /\ (exists m, st_mints s mnt = Some m) /\ (exists d, st_toks s dst = Some d /\ tk_mint d = mnt) /\
  exists n, du_count w = Some n /\ -1 <= n < u64_max /\ du_count w' = Some (n + 1) /\ du_metas w' = du_metas w.
Proof. exact (dummy_accepts s w src mnt dst w'). Qed.
Print Assumptions C78_accepts.

(** ** Cases *)

(** A hook that writes down its calls and refuses payments to account [no]. *)
Definition guard (no : addr) : hook (list hookcall) :=
  Hook (fun m => addr_eqb m MINT) (fun _ w c => if addr_eqb (hc_dest c) no then None else Some (c :: w)).
Fixpoint h_all {W} (h : hook W) (s : state) (w : W) (cs : list call) : state * W * nat :=
  match cs with
  | [] => (s, w, O)
  | c :: r => match h_step h H0 s w c with Ok (s', w', _) => h_all h s' w' r | Err _ => (s, w, length cs) end
  end.
Lemma h_all_run W (h : hook W) cs : forall s0 w0 tr s w, h_run h H0 s0 w0 tr s w -> exists tr', h_run h H0 s0 w0 tr' (fst (fst (h_all h s w cs))) (snd (fst (h_all h s w cs))).
Proof.
  induction cs as [|c cs IH]; intros s0 w0 tr s w R; cbn [h_all]; [eauto|]. destruct (h_step h H0 s w c) as [[[s' w'] l]|e] eqn:E; [|eauto].
  eapply IH. econstructor; eassumption.
Qed.
Definition acct22 (who : addr) : addr := ata PToken22 who MINT.
Definition release22 (md : mode) : call :=
  Call [] (match md with Locking => IReleaseUnlock | Burning => IReleaseMint end (ReleaseAccts pda_config in_inbox PToken22 true) true).
(** Deployments of a Token-2022 mint in both modes. *)
Definition start22 (md : mode) : state :=
  State 0 no_accts (st_toks s_start22)
    (upd (fun _ => None) MINT (Some (Mint PToken22 9 5000000000 (Some (match md with Locking => ISSUER | Burning => token_authority end)) 0 0 0))) (Some DEPLOYER) [].
Definition script22 (md : mode) : list call :=
  [ Call [] (EClock 1000);
    Call [DEPLOYER] (IInitialize DEPLOYER MINT PToken22 1 3000000000 md);
    Call [DEPLOYER] (IRegisterTransceiver pda_config DEPLOYER (AProg PManager));
    Call [DEPLOYER] (ISetPeer pda_config DEPLOYER 2 (ARaw 7) 3000000000 18);
    Call [DEPLOYER] (IXSetPeer PManager pda_config DEPLOYER 2 (ARaw 8));
    Call [USER] (EApprove PToken22 (acct22 USER) USER (pda_session USER (h_args H0 the_args)) 1000000005);
    Call [ITEM] (match md with Locking => ITransferLock | Burning => ITransferBurn end accts22 the_args);
    Call [] (EPostVaa VAA 2 (ARaw 8) (Some in_msg));
    Call [] (IXReceive PManager pda_config VAA);
    Call [] (IRedeem the_redeem);
    Call [] (ECreateAta PToken22 RCPT MINT);
    release22 md].
(** A round trip, in both modes: two calls, newest first. *)
Example C78_round : forall md, let '(s, w, rest) := h_all (guard ANull) (start22 md) [] (script22 md) in
  w = [HookCall (acct22 token_authority) MINT (acct22 RCPT) token_authority 400000000;
       HookCall (acct22 USER) MINT (acct22 token_authority) (pda_session USER (h_args H0 the_args)) 1000000000] /\
  rest = 0%nat /\ held s MINT (acct22 USER) = 4000000000 /\ held s MINT (acct22 RCPT) = 400000000 /\
  held s MINT (acct22 token_authority) = match md with Locking => 600000000 | Burning => 0 end.
Proof. intros []; vm_compute; repeat split. Qed.
(** If the hook refuses the recipient, or custody, the release, or the transfer, fails, in both modes. *)
Example C78_refused : forall md,
  (let '(s, w, rest) := h_all (guard (acct22 RCPT)) (start22 md) [] (script22 md) in (rest, held s MINT (acct22 RCPT), length w)) = (1%nat, 0, 1%nat) /\
  (let '(s, w, rest) := h_all (guard (acct22 token_authority)) (start22 md) [] (script22 md) in (rest, held s MINT (acct22 USER), length w)) = (6%nat, 5000000000, 0%nat).
Proof. intros []; vm_compute; repeat split. Qed.
(** The premises of the theorems are met. *)
Lemma start22_initial md : initial (start22 md).
Proof.
  destruct (s_start22_initial) as [A B C D E F]. constructor; try assumption.
  - intros a t Q. destruct (C a t Q) as (W1 & W2 & W3 & W4 & (m & Em & Ep) & W6). split; [exact W1|]. split; [exact W2|]. split; [exact W3|]. split; [exact W4|].
    split; [|exact W6]. cbn in Em |- *. rewrite upd_eq in Em |- *. destruct (addr_eq_dec (tk_mint t) MINT); [|discriminate].
    eexists. split; [reflexivity|]. apply Some_inj in Em. subst m. exact Ep.
  - intros a m. cbn. rewrite upd_eq. destruct (addr_eq_dec a MINT) as [->|]; [|discriminate]. intros Q. apply Some_inj in Q. subst.
    unfold wf_mint. cbn. split; [intros []|]. split; [reflexivity|]. ilia.
Qed.
Example C78_applies : forall md, reachable H0 (start22 md) /\ has_hook (hk_mints (guard ANull)) (start22 md) MINT /\
  (let s := fst (fst (h_all (guard ANull) (start22 md) [] (script22 md))) in
   not_burnt_from s (acct22 RCPT) /\ exists tr w, h_run (guard ANull) H0 (start22 md) [] tr s w).
Proof.
  intros md. split; [apply initial_reachable, start22_initial|]. split; [|split].
  - split; [reflexivity|]. eexists. split; reflexivity.
  - intros c C M. destruct md.
    + assert (Q : match st_accts (fst (fst (h_all (guard ANull) (start22 Locking) [] (script22 Locking)))) pda_config with
        Some (Acct _ (DConfig c)) => cf_mode c | _ => Locking end = Locking) by (vm_compute; reflexivity).
      unfold config_at in C. rewrite C in Q. congruence.
    + assert (Q : match st_accts (fst (fst (h_all (guard ANull) (start22 Burning) [] (script22 Burning)))) pda_config with
        Some (Acct _ (DConfig c)) => cf_custody c | _ => ANull end = acct22 token_authority) by (vm_compute; reflexivity).
      unfold config_at in C. rewrite C in Q. rewrite Q. discriminate.
  - destruct (h_all_run _ (guard ANull) (script22 md) (start22 md) [] [] (start22 md) [] (h_nil _ _ _ _)) as (tr & R). eauto.
Qed.
(** The theorem tells wrong programs: one that burnt straight from the sender's account would leave the hook without a word. *)
Example C78_wrong : let s := fst (fst (h_all (guard ANull) (start22 Burning) [] (firstn 6 (script22 Burning)))) in
  match tok_burn s PToken22 (acct22 USER) MINT (pda_session USER (h_args H0 the_args)) 1000000000 with
  | Ok s' => held s' MINT (acct22 USER) =? held s MINT (acct22 USER) + told s MINT (acct22 USER) [] + 0
  | Err _ => true
  end = false.
Proof. vm_compute. reflexivity. Qed.

(** The hook of the tests over the same script, initialised for the mint: two calls counted. Before that, and after being initialised for another
    mint, the transfer fails. Its function may be called by anyone, so that the count is not the number of transfers. *)
Definition with_init (w : dummy) (s : state) (m : addr) : dummy := match dummy_initialize s w m with Ok w' => w' | Err _ => w end.
Definition two_mints (md : mode) : state := put_mint (AKey 101) (Mint PToken22 6 0 None 0 0 0) (start22 md).
Definition names_it (m : addr) : bool := true.
Example C78_dummy : forall md,
  (let '(s, w, rest) := h_all (dummy_hook names_it) (start22 md) (with_init dummy0 (start22 md) MINT) (script22 md) in (du_count w, rest)) = (Some 2, 0%nat) /\
  (let '(s, w, rest) := h_all (dummy_hook names_it) (start22 md) dummy0 (script22 md) in (du_count w, rest)) = (None, 6%nat) /\
  (let '(s, w, rest) := h_all (dummy_hook names_it) (two_mints md) (with_init (with_init dummy0 (two_mints md) (AKey 101)) (two_mints md) MINT) (script22 md) in (du_count w, rest)) = (Some 0, 6%nat) /\
  (match dummy_transfer_hook (start22 md) (with_init dummy0 (start22 md) MINT) (acct22 USER) MINT (acct22 USER) with Ok w => du_count w | Err _ => None end) = Some 1.
Proof. intros []; vm_compute; repeat split. Qed.

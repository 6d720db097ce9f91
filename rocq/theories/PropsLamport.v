(** * Who pays for what (C79). *)
From Verif Require Export LamportFacts Scenario.
Import ListNotations.
Local Open Scope Z_scope.

(** ** C79 *)

(** Every history with lamports is a history without. *)
Theorem C79_refines : forall E l0 tr l, f_run E l0 tr l -> exists tr', run (le_hashes E) (f_world l0) tr' (f_world l).
Proof. exact f_run_worlds. Qed.
Print Assumptions C79_refines.

(** Each instruction that could succeed but for lamports has a bill. *)
Theorem C79_bill : forall E l sg i take s', step (le_hashes E) (f_world l) (Call sg i) = Ok s' -> of_program i = true -> exists b, bill E l s' i take b.
Proof. intros E l sg i take s' Hs Hp. eexists. exact (dues_bill E l s' sg i take Hs Hp). Qed.
Print Assumptions C79_bill.

(** It then succeeds exactly if the payer has signed, is not one of the new accounts and can pay the bill, and moves exactly what is on the bill.
    In particular the core bridge never misses its fee. *)
Theorem C79_exact : forall E l sg i payer take s' b, f_reachable E l -> step (le_hashes E) (f_world l) (Call sg i) = Ok s' -> of_program i = true ->
  is_u64 (fst take) -> is_u64 (snd take) -> bill E l s' i take b ->
  ((exists l', f_step E l (LDo (Call sg i) payer take) = Ok l') <-> pays E l s' sg i payer b) /\
  (forall l', f_step E l (LDo (Call sg i) payer take) = Ok l' -> f_world l' = s' /\ f_fee l' = f_fee l /\ settled (f_purse l) (f_purse l') payer b).
Proof. exact do_exact. Qed.
Print Assumptions C79_exact.

(** The cost of an outbound transfer. *)
Theorem C79_transfer_cost : forall E l sg i x payer take l', f_reachable E l -> i = ITransferLock (fst x) (snd x) \/ i = ITransferBurn (fst x) (snd x) ->
  f_step E l (LDo (Call sg i) payer take) = Ok l' ->
  let a := xa_outbox_item (fst x) in let c := Z.max 0 (le_rent E 139 - f_purse l (HA a)) in
  payer <> a /\ f_purse l' (HA a) = f_purse l (HA a) + c /\ f_purse l' (HA payer) = f_purse l (HA payer) - c /\
  (forall h, h <> HA a -> h <> HA payer -> f_purse l' h = f_purse l h).
Proof. exact transfer_cost. Qed.
Print Assumptions C79_transfer_cost.

(** Inbound releases and the administration of existing accounts cost nothing. *)
Theorem C79_free : forall E l sg i payer take l', f_reachable E l -> costs_nothing i = true -> f_step E l (LDo (Call sg i) payer take) = Ok l' ->
  forall h, f_purse l' h = f_purse l h.
Proof. exact no_cost. Qed.
Print Assumptions C79_free.

(** Whoever loses lamports in an instruction signed it as the payer, with an account without data. *)
Theorem C79_payers : forall E l c payer take l' h, f_reachable E l -> f_step E l (LDo c payer take) = Ok l' -> f_purse l' h < f_purse l h ->
  h = HA payer /\ In payer (signers c) /\ bare (f_world l) payer.
Proof. intros E l c payer take l' h R Q L. exact (loses E l (LDo c payer take) l' h R Q L). Qed.
Print Assumptions C79_payers.

(** Others than the programs move lamports exactly where they may, which nobody may for the accounts of the programs or the bridge. *)
Theorem C79_moves : forall E l sg src dst x, f_reachable E l ->
  ((exists l', f_step E l (LMove sg src dst x) = Ok l') <-> (forall a, In a sg -> can_sign a = true) /\ 0 <= x <= f_purse l src /\ may_draw (f_world l) sg src) /\
  (forall l', f_step E l (LMove sg src dst x) = Ok l' -> f_world l' = f_world l /\ f_fee l' = f_fee l /\
     forall h, f_purse l' h = f_purse l h + (if handle_eqb h dst then x else 0) - (if handle_eqb h src then x else 0)).
Proof. exact move_exact. Qed.
Print Assumptions C79_moves.

(** No account of the programs ever vanishes, changes size or loses lamports, whatever anyone does. *)
Theorem C79_kept : forall E l tr l' a n, f_reachable E l -> f_run E l tr l' -> program_account (f_world l) a n ->
  program_account (f_world l') a n /\ f_purse l (HA a) <= f_purse l' (HA a).
Proof. exact account_run. Qed.
Print Assumptions C79_kept.

(** Nor does the custody account lose lamports. *)
Theorem C79_custody : forall E l tr l' c, f_reachable E l -> f_run E l tr l' -> config_at (f_world l) pda_config c ->
  exists c', config_at (f_world l') pda_config c' /\ cf_custody c' = cf_custody c /\ f_purse l (HA (cf_custody c)) <= f_purse l' (HA (cf_custody c)).
Proof. exact custody_run. Qed.
Print Assumptions C79_custody.

(** Every account of the programs holds the rent-exempt minimum of its size. *)
Theorem C79_exempt : forall E l a n, f_reachable E l -> program_account (f_world l) a n -> le_rent E n <= f_purse l (HA a).
Proof. intros E l a n R. exact (all_exempt E l R a n). Qed.
Print Assumptions C79_exempt.

(** Lamports sent anywhere, say to an address where an account is to be created, make no instruction fail or more expensive. *)
Theorem C79_prefund : forall E l l2 sg i payer take l', f_reachable E l -> f_reachable E l2 -> richer l l2 -> of_program i = true ->
  f_step E l (LDo (Call sg i) payer take) = Ok l' ->
  exists l2', f_step E l2 (LDo (Call sg i) payer take) = Ok l2' /\ f_world l2' = f_world l' /\ (forall h, f_purse l' h <= f_purse l2' h) /\
    f_purse l2 (HA payer) - f_purse l2' (HA payer) <= f_purse l (HA payer) - f_purse l' (HA payer).
Proof. exact prefunded. Qed.
Print Assumptions C79_prefund.

(** No lamport appears or disappears. *)
Theorem C79_conserved : forall E l e l' hs, f_reachable E l -> f_step E l e = Ok l' -> NoDup hs -> (forall h, f_purse l' h <> f_purse l h -> In h hs) ->
  worth (f_purse l') hs = worth (f_purse l) hs.
Proof. exact conserved. Qed.
Print Assumptions C79_conserved.

(** ** A worked deployment *)
Definition PAYER := AKey 60.
Definition STRANGER := AKey 61.
Definition E0 : lenv := LEnv H0 (fun n => (Z.max 0 n + 128) * 6960) (fun _ => 165).
Definition purse0 : purse := fun h => (if handle_eqb (HA PAYER) h then 1000000000 else 0) + (if handle_eqb (HA STRANGER) h then 5000000 else 0).
Definition f_start (md : mode) : fstate := FState (s_start md) purse0 100 0.
Definition paid_by (p : addr) (take : Z * Z) (c : call) : levent := LDo (Call (p :: signers c) (ins c)) p take.
Definition events (md : mode) : list levent :=
  map (fun c => paid_by PAYER (match ins c with IXRelease _ _ _ _ _ _ => (946560, 2477760) | _ => (0, 0) end) c) (calls md).
Fixpoint f_all (l : fstate) (es : list levent) : fstate * nat :=
  match es with [] => (l, 0%nat) | e :: r => match f_step E0 l e with Ok l' => f_all l' r | Err _ => (l, length es) end end.
Definition f_at (md : mode) (k : nat) : fstate := fst (f_all (f_start md) (firstn k (events md))).
Definition has_at (md : mode) (k : nat) (h : handle) : Z := f_purse (f_at md k) h.

Lemma f_start_initial md : f_initial E0 (f_start md).
Proof.
  constructor; cbn.
  - apply s_start_initial.
  - split.
    + intros h. unfold purse0. destruct (handle_eqb _ _), (handle_eqb _ _); lia.
    + intros hs D. change (worth purse0 hs) with (sums purse0 hs). unfold purse0. rewrite sums_add, !sums_one by exact D. repeat destruct (in_dec _ _ _); unfold u64_max; lia.
  - split; [ilia|]. unfold purse0. cbn. lia.
  - intros n. lia.
Qed.
Lemma f_all_run es : forall l0 tr l, f_run E0 l0 tr l -> exists tr', f_run E0 l0 tr' (fst (f_all l es)).
Proof.
  induction es as [|e es IH]; intros l0 tr l R; cbn [f_all]; [eauto|]. destruct (f_step E0 l e) eqn:Q; [|cbn; eauto]. eapply IH. eapply f_cons; eassumption.
Qed.
Lemma f_at_reachable md k : f_reachable E0 (f_at md k).
Proof. destruct (f_all_run (firstn k (events md)) (f_start md) [] (f_start md) (f_nil _ _)) as [tr R]. exists (f_start md), tr. split; [apply f_start_initial|exact R]. Qed.

(** All thirteen calls succeed. What the payer has left after each. *)
Example C79_costs : forall md, snd (f_all (f_start md) (events md)) = 0%nat /\
  map (fun k => has_at md k (HA PAYER)) (seq 0 14) =
  [1000000000; 1000000000; 994619920; 993436720; 991132960; 989956720; 989956720; 988098400; 984673980; 984673980; 981409740; 979996860; 979996860; 979996860].
Proof. intros []; vm_compute; repeat split. Qed.
(** Where the lamports are in the end. *)
Example C79_held : forall md, map (fun h => has_at md 13 h)
  [HA pda_config; HA pda_outbox_rl; HA custody; HA (pda_reg (AProg PManager)); HA (pda_peer 2); HA (pda_inbox_rl 2); HA (pda_xpeer PManager 2); HA ITEM; HFeeCollector;
   HSequence PManager; HA (pda_message PManager ITEM); HA (pda_vtm PManager 2 (ARaw 20)); HA in_inbox] =
  [2227200; 1113600; 2039280; 1183200; 1183200; 1120560; 1176240; 1858320; 100; 946560; 2477760; 3264240; 1412880].
Proof. intros []; vm_compute; reflexivity. Qed.
(** The transfer (event 7) with lamports already at the item, with other payers, and attempts to take lamports from accounts of the programs. *)
Definition tr_event (md : mode) (p : addr) : levent := nth 6 (map (paid_by p (0, 0)) (calls md)) (LSetFee 0).
Definition after (md : mode) (k : nat) (es : list levent) (h : handle) : option Z :=
  match f_all (f_at md k) es with (l, O) => Some (f_purse l h) | _ => None end.
Example C79_prefunded : forall md,
  after md 6 [LMove [STRANGER] (HA STRANGER) (HA ITEM) 858320; tr_event md PAYER] (HA PAYER) = Some (989956720 - 1000000) /\
  after md 6 [LMove [STRANGER] (HA STRANGER) (HA ITEM) 3000000; tr_event md PAYER] (HA PAYER) = Some 989956720 /\
  after md 6 [LMove [STRANGER] (HA STRANGER) (HA ITEM) 3000000; tr_event md PAYER] (HA ITEM) = Some 3000000.
Proof. intros []; vm_compute; repeat split. Qed.
Example C79_other_payers : forall md,
  after md 6 [tr_event md STRANGER] (HA STRANGER) = Some (5000000 - 1858320) /\
  after md 6 [LMove [STRANGER] (HA STRANGER) (HA ITEM) 5000000; tr_event md ITEM] (HA ITEM) = None /\
  after md 6 [LMove [STRANGER] (HA STRANGER) (HA PAYER) 4000000; tr_event md STRANGER] (HA PAYER) = None /\
  after md 6 [match tr_event md PAYER with LDo (Call sg i) _ tk => LDo (Call sg i) STRANGER tk | e => e end] (HA PAYER) = None.
Proof. intros []; vm_compute; repeat split. Qed.
Example C79_untouchable : forall md,
  after md 13 [LMove [pda_config; DEPLOYER; PAYER] (HA pda_config) (HA STRANGER) 1] (HA STRANGER) = None /\
  after md 13 [LMove [ITEM; USER; PAYER] (HA ITEM) (HA STRANGER) 1] (HA STRANGER) = None /\
  after md 13 [LMove [ITEM; USER; PAYER] (HA custody) (HA STRANGER) 1] (HA STRANGER) = None /\
  after md 13 [LMove [PAYER] (HA PAYER) (HA pda_config) 1] (HA pda_config) = Some 2227201.
Proof. intros []; vm_compute; repeat split. Qed.
(** The fee: a new one is charged, and the bridge is paid also after it has given away what it had collected. *)
Example C79_fee : forall md,
  after md 7 [LSetFee 5000; nth 7 (events md) (LSetFee 0)] HFeeCollector = Some 5000 /\
  after md 7 [LMove [STRANGER] (HA STRANGER) HFeeCollector 900; LCollect (HA STRANGER) 700; nth 7 (events md) (LSetFee 0)] HFeeCollector = Some 300.
Proof. intros []; vm_compute; repeat split. Qed.
(** The premises of [C79_exact] and of [C79_prefund] are met. *)
Example C79_exact_applies : forall md, f_reachable E0 (f_at md 6) /\
  is_ok (step H0 (f_world (f_at md 6)) (Call [PAYER; ITEM] (match md with Locking => ITransferLock the_accts the_args | Burning => ITransferBurn the_accts the_args end))) = true.
Proof. intros md. split; [apply f_at_reachable|]. destruct md; vm_compute; reflexivity. Qed.
Definition purse1 : purse := fun h => purse0 h + (if handle_eqb (HA pda_config) h then 227200 else 0).
Definition f_start1 (md : mode) : fstate := FState (s_start md) purse1 100 0.
Lemma f_start1_initial md : f_initial E0 (f_start1 md).
Proof.
  destruct (f_start_initial md) as [A [B _] C D]. constructor; auto; cbn in *.
  split.
  - intros h. unfold purse1. specialize (B h). destruct (handle_eqb _ _); lia.
  - intros hs N. change (worth purse1 hs) with (sums purse1 hs). unfold purse1, purse0. rewrite !sums_add, !sums_one by exact N. repeat destruct (in_dec _ _ _); unfold u64_max; lia.
Qed.
Example C79_prefund_applies : forall md, let init := LDo (Call [PAYER; DEPLOYER] (IInitialize DEPLOYER MINT PToken 1 3000000000 md)) PAYER (0, 0) in
  f_reachable E0 (f_start md) /\ f_reachable E0 (f_start1 md) /\ richer (f_start md) (f_start1 md) /\
  option_map (fun l => f_purse l (HA PAYER)) (match f_step E0 (f_start md) init with Ok l => Some l | Err _ => None end) = Some 994619920 /\
  option_map (fun l => f_purse l (HA PAYER)) (match f_step E0 (f_start1 md) init with Ok l => Some l | Err _ => None end) = Some 994847120.
Proof.
  intros md. split; [exists (f_start md), []; split; [apply f_start_initial|apply f_nil]|]. split; [exists (f_start1 md), []; split; [apply f_start1_initial|apply f_nil]|].
  split; [|destruct md; vm_compute; split; reflexivity].
  split; [reflexivity|]. split; [reflexivity|]. intros h. cbn [f_purse f_start f_start1]. unfold purse1. destruct (handle_eqb _ _); lia.
Qed.

(** * The canonical lookup table (C65). *)
From Verif Require Export LutFacts Scenario.
Local Open Scope Z_scope.

(** Every table of the program's table authority, whoever made it, is active, belongs to that authority, fits the limit, and holds
    nothing but the accounts of the deployment, in the documented order, once per initialisation, with three addresses chosen by the
    caller in each. *)
Theorem C65_tables : forall H l slot t, l_reachable H l -> l_tabs l (lut_at lut_authority slot) = Some t ->
  lt_auth t = Some lut_authority /\ lt_active t = true /\ Z.of_nat (length (lt_entries t)) <= 256 /\
  (lt_entries t = [] \/ exists c xs, config_at (l_world l) pda_config c /\ xs <> [] /\ lt_entries t = flat_map (canonical c) xs).
Proof. exact own_tables. Qed.
Print Assumptions C65_tables.

(** The record account, once it exists, points at such a table with at least one full set of entries. *)
Theorem C65_recorded : forall H l r, l_reachable H l -> st_accts (l_world l) pda_lut = Some (Acct PManager (DLut r)) ->
  exists slot t c xs, lu_address r = lut_at lut_authority slot /\ l_tabs l (lu_address r) = Some t /\ config_at (l_world l) pda_config c /\
    xs <> [] /\ lt_entries t = flat_map (canonical c) xs.
Proof. exact record_points. Qed.
Print Assumptions C65_recorded.

(** Clients holding an old table keep it: its entries stay, at their indices, in every later state. *)
Theorem C65_append_only : forall H l0 cs l slot t, l_reachable H l0 -> l_run H l0 cs l -> l_tabs l0 (lut_at lut_authority slot) = Some t ->
  exists t' more, l_tabs l (lut_at lut_authority slot) = Some t' /\ lt_entries t' = lt_entries t ++ more.
Proof. exact own_grows. Qed.
Print Assumptions C65_append_only.

(** One step changes a table of the authority only by the canonical initialisation for its slot. *)
Theorem C65_one_step : forall H l c l' slot t, l_reachable H l -> l_step H l c = Ok l' -> l_tabs l (lut_at lut_authority slot) = Some t ->
  exists t', l_tabs l' (lut_at lut_authority slot) = Some t' /\ lt_auth t' = lt_auth t /\ lt_active t' = lt_active t /\
    (lt_entries t' = lt_entries t \/ exists x cf, l_ins c = LInit x slot /\ config_at (l_world l) pda_config cf /\
       lt_entries t' = lt_entries t ++ canonical cf (lx_bridge x, lx_fee_collector x, lx_sequence x)).
Proof. exact own_step. Qed.
Print Assumptions C65_one_step.

(** Front-running does not block: after initialisation any signer can make and record a table at any recent slot whose table, if
    anyone made it already, has room — and can put anything in the three places. *)
Theorem C65_anyone : forall H l c r payer b f q slot, l_reachable H l -> config_at (l_world l) pda_config c ->
  st_accts (l_world l) pda_outbox_rl = Some (Acct PManager (DOutboxRL r)) -> can_sign payer = true -> is_u64 slot -> l_recent l slot = true ->
  (forall t, l_tabs l (lut_at lut_authority slot) = Some t -> Z.of_nat (length (lt_entries t)) <= 242) ->
  let x := LutAccts payer pda_config (cf_custody c) (cf_token_program c) (cf_mint c) pda_outbox_rl b f q in
  exists l' t old, l_step H l (LCall [payer] (LInit x slot)) = Ok l' /\ recorded l' (lut_at lut_authority slot) t /\
    lt_entries t = old ++ canonical c (b, f, q).
Proof. exact anyone_records. Qed.
Print Assumptions C65_anyone.

(** ** The worked deployment *)
Definition BRIDGE := APda PWormhole (TUser 7) 0 ANull ANull.
Definition FEE := APda PWormhole (TUser 8) 0 ANull ANull.
Definition SEQ := APda PWormhole (TUser 9) 0 (pda_emitter PManager) ANull.
Definition l_start : lstate := LState (s_start Locking) (fun _ => None) (fun z => 100 <=? z).
Fixpoint l_all (l : lstate) (cs : list lcall) : result lstate :=
  match cs with [] => Ok l | c :: r => let? l' := l_step H0 l c in l_all l' r end.
Definition l_apply (cs : list lcall) : lstate := match l_all l_start cs with Ok l => l | Err _ => l_start end.
Definition deploy : list lcall := map (fun c => LCall (signers c) (LWorld (ins c))) (firstn 5 (calls Locking)).
Definition init_by (payer f q : addr) (slot : Z) : lcall :=
  LCall [payer] (LInit (LutAccts payer pda_config custody (AProg PToken) MINT pda_outbox_rl BRIDGE f q) slot).

Lemma l_start_initial : l_initial l_start.
Proof. split; [apply s_start_initial|discriminate]. Qed.
Lemma l_apply_reachable cs : l_reachable H0 (l_apply cs).
Proof.
  unfold l_apply. destruct (l_all l_start cs) as [l|] eqn:E; [|exists l_start, []; split; [apply l_start_initial|constructor]].
  assert (G : forall cs l1 tr, l_run H0 l_start tr l1 -> l_all l1 cs = Ok l -> exists tr', l_run H0 l_start tr' l).
  { clear. induction cs as [|c r IH]; intros l1 tr R E; [apply Ok_inj in E; subst; eauto|]. cbn [l_all] in E. binds E. eapply IH; [econstructor; eassumption|exact E]. }
  destruct (G _ _ _ (l_run_nil _ _) E) as (tr & R). exists l_start, tr. split; [apply l_start_initial|exact R].
Qed.
Definition shown (l : lstate) : option (addr * list addr) :=
  match st_accts (l_world l) pda_lut with
  | Some (Acct _ (DLut r)) => option_map (fun t => (lu_address r, lt_entries t)) (l_tabs l (lu_address r))
  | _ => None
  end.
Definition good (f q : addr) : list addr :=
  [AProg PManager; pda_config; custody; AProg PToken; MINT; token_authority; pda_outbox_rl; BRIDGE; f; q; AProg PWormhole; system_program; sysvar_clock; sysvar_rent].

(** Someone creates the table first, nobody but the program can fill, freeze, deactivate or close it, the canonical initialisation
    appends the deployment's accounts; a stale slot or another mint is refused; a second initialisation records another table. *)
Example C65_case :
  let pre := deploy ++ [LCall [AKey 66] (LCreate lut_authority (AKey 66) 120)] in
  let tab := lut_at lut_authority 120 in
  shown (l_apply (pre ++ [init_by USER FEE SEQ 120])) = Some (tab, good FEE SEQ) /\
  shown (l_apply (pre ++ [init_by USER FEE SEQ 120; init_by USER FEE SEQ 130])) = Some (lut_at lut_authority 130, good FEE SEQ) /\
  map (fun c => is_ok (l_all l_start (pre ++ [c])))
    [LCall [AKey 66] (LExtend tab lut_authority [AKey 66]); LCall [AKey 66] (LExtend tab (AKey 66) [AKey 66]); LCall [AKey 66] (LFreeze tab (AKey 66));
     LCall [AKey 66] (LDeactivate tab lut_authority); LCall [AKey 66] (LClose tab (AKey 66)); LCall [lut_authority] (LDeactivate tab lut_authority);
     init_by USER FEE SEQ 99; LCall [USER] (LInit (LutAccts USER pda_config custody (AProg PToken) (AKey 101) pda_outbox_rl BRIDGE FEE SEQ) 120);
     init_by USER FEE SEQ 120]
  = [false; false; false; false; false; false; false; false; true].
Proof. vm_compute. repeat split. Qed.

(** Initialising eighteen times fills a table; the nineteenth is refused there and accepted at another slot. *)
Example C65_full : let many := deploy ++ repeat (init_by USER FEE SEQ 120) 18 in
  is_ok (l_all l_start (many ++ [init_by USER FEE SEQ 120])) = false /\ is_ok (l_all l_start (many ++ [init_by USER FEE SEQ 121])) = true.
Proof. vm_compute. split; reflexivity. Qed.

(** The comment in luts.rs:137-141, that no junk can get into the table, is false: a signer without any role has its own address
    recorded where clients expect the core bridge's fee collector. *)
Theorem C65_only_deployment_refuted : exists l a t c mallory,
  l_reachable H0 l /\ recorded l a t /\ config_at (l_world l) pda_config c /\ cf_owner c <> mallory /\ nth_error (lt_entries t) 8 = Some mallory /\
  (forall z x y tg, mallory <> APda PWormhole tg z x y).
Proof.
  exists (l_apply (deploy ++ [init_by (AKey 66) (AKey 66) SEQ 120])), (lut_at lut_authority 120), (Table (Some lut_authority) true (good (AKey 66) SEQ)).
  eexists. exists (AKey 66). split; [apply l_apply_reachable|]. split; [eexists; split; [vm_compute; reflexivity|split; [reflexivity|vm_compute; reflexivity]]|].
  split; [vm_compute; reflexivity|]. split; [vm_compute; discriminate|]. split; [reflexivity|discriminate].
Qed.
Print Assumptions C65_only_deployment_refuted.

(** * Deployments administered by governance: C71. *)
From Coq Require Import String.
From Verif Require Export GovernedFacts.
From Verif Require Import Scenario.
Import ListNotations.
Local Open Scope Z_scope.
Local Open Scope list_scope.

(** While a deployment belongs to the governance address, its settings, owner and upgrade authority stay as they are until a call
    carrying the governance signature is executed, whatever anyone else does and whichever other calls governance makes. Every executed
    call was authorised by a posted governance message. *)
Theorem C71_unchanged : forall H E G st st', linked H E G -> can_sign G = true -> gm_reachable H E G st -> gm_steps H E G st st' ->
  governed G (gs_world st) ->
  exists new, gs_log st' = new ++ gs_log st /\ (forall e, In e new -> authorised E e) /\
    ((forall e, In e new -> ~ asks E (gv_ix e)) ->
       (forall a, settings (st_accts (gs_world st') a) = settings (st_accts (gs_world st) a)) /\ governed G (gs_world st')).
Proof. exact governed_steps. Qed.
Print Assumptions C71_unchanged.

(** A call carrying the signature comes from a message that says so: it marks the governance address as a signer, by its address or
    through a placeholder. *)
Theorem C71_message : forall E (e : gev state), authorised E e -> asks E (gv_ix e) ->
  exists payer m rest a, v_payload (gv_vaa e) = gov_packet m ++ rest /\ g_gov m = GOV_ID /\
    In a (g_accounts m) /\ ac_signer a = true /\ key_for (ge_addr E SGovernance) payer (ac_key a) = ge_addr E SGovernance.
Proof.
  intros E e (at_ & payer & m & r & _ & _ & _ & P & _ & I & _ & C) A. destruct (asks_message _ _ _ _ C A) as (a & X). exists payer, m, r, a. auto.
Qed.
Print Assumptions C71_message.

(** Governance is never locked out: a posted, unused message that pauses (or resumes) the deployment does so, whoever submits it. *)
Theorem C71_pause : forall H E G st ctx data payer v m ix b, gm_reachable H E G st -> linked H E G -> can_sign G = true -> governed G (gs_world st) ->
  submittable E st ctx data payer v m ix -> g_program m <> GOV_ID ->
  ge_call E (gs_world st) ix = step H (gs_world st) (Call [G] (ISetPaused pda_config G b)) ->
  exists st' c, g_exec E DEPTH st ctx data = Ok st' /\ config_at (gs_world st') pda_config c /\ cf_paused c = b.
Proof. exact governed_pause. Qed.
Print Assumptions C71_pause.

(** ** A deployment handed to governance *)
Definition GA : addr := APda (PUser 9) (TUser 0) 0 ANull ANull.
Definition word (n : Z) : bytes := be_enc 32 n.
Definition addr_of (p : purpose) : bytes := sha256 (List.concat (seeds p)).
Definition PDA_ : bytes := addr_of SGovernance.
(** The called program reads one byte: pause, or create a token account; the owner is the governance address. *)
Definition carries (ix : gix) : bool := existsb (fun a => ac_signer a && bytes_eqb (ac_key a) PDA_) (ix_accounts ix).
Definition decode (ix : gix) : option call :=
  match ix_data ix with
  | [x01] => Some (Call (if carries ix then [GA] else []) (ISetPaused pda_config GA true))
  | [x02] => Some (Call (if carries ix then [GA] else []) (ECreateAta PToken RCPT MINT))
  | _ => None
  end.
Definition gm (accs : list acc) (d : bytes) : gov_msg := Gov GOV_ID (word 7) accs d.
Definition msgs (a : bytes) : option vaa :=
  if bytes_eqb a (word 101) then Some (Vaa 1 GOVERNANCE_EMITTER 1 (gov_packet (gm [Acc OWNER true false] [x01])))
  else if bytes_eqb a (word 102) then Some (Vaa 1 GOVERNANCE_EMITTER 2 (gov_packet (gm [Acc OWNER false false] [x01])))
  else if bytes_eqb a (word 103) then Some (Vaa 1 GOVERNANCE_EMITTER 3 (gov_packet (gm [] [x02])))
  else None.
Definition Em : genv state := GEnv state addr_of (fun _ a => msgs a) (fun _ _ => true)
  (fun w ix => match decode ix with Some c => step H0 w c | None => Err Constraint end).
Local Strategy 1000 [sha256].
Lemma Em_linked : linked H0 Em GA.
Proof.
  intros w ix w' S. cbn [ge_call Em] in S. destruct (decode ix) as [c|] eqn:D; [|discriminate]. exists [Ev w c w']. split; [econstructor; [constructor|exact S]|].
  intros e [<-|[]] Hin. cbn [e_call] in Hin. assert (K : carries ix = true).
  { unfold decode in D. destruct (ix_data ix) as [|b [|]]; try discriminate; destruct b; try discriminate; apply Some_inj in D; subst c; destruct (carries ix); try reflexivity; destruct Hin. }
  apply existsb_exists in K as (a & Ha & K). apply andb_prop in K as [K1 K2]. apply bytes_eqb_eq in K2. exists a. split; [exact Ha|]. split; [exact K1|]. exact K2.
Qed.
Definition w_start : state := apply_tx H0 (at_ Locking 5) [Call [DEPLOYER] (ITransferOwnershipOneStep pda_config DEPLOYER GA)].
Definition gm0 : gstate state := GState w_start (fun _ => false) [].
Definition ctx_for (seq : Z) : list acc :=
  [Acc (word 1) true true; Acc PDA_ false true; Acc (word (100 + seq)) false false; Acc (word 7) false false;
   Acc (addr_of (SReplay 1 GOVERNANCE_EMITTER seq)) false true; Acc (be_enc 32 0) false false].
Definition go (seq : Z) : result (gstate state) := g_exec Em DEPTH gm0 (ctx_for seq) GOV_TAG.
Definition summary (s : state) : option (addr * bool * option addr) :=
  match st_accts s pda_config with Some (Acct PManager (DConfig c)) => Some (cf_owner c, cf_paused c, st_uauth s) | _ => None end.
(** Message 1 pauses; message 2 asks for the same without the signature; message 3 does something else without it. The old owner and
    anyone else are refused. *)
Example C71_case : gm_reachable H0 Em GA gm0 /\ governed GA w_start /\
  match go 1 with Ok st => summary (gs_world st) = Some (GA, true, Some GA) | Err _ => False end /\
  match go 2 with Ok _ => False | Err _ => True end /\
  match go 3 with Ok st => summary (gs_world st) = Some (GA, false, Some GA) /\ st_toks w_start rcpt_tok = None /\ st_toks (gs_world st) rcpt_tok <> None | Err _ => False end /\
  is_ok (step H0 w_start (Call [DEPLOYER] (ISetPaused pda_config DEPLOYER true))) = false /\
  is_ok (step H0 w_start (Call [DEPLOYER] (ISetPaused pda_config GA true))) = false.
Proof.
  split; [exists gm0; split; [split; reflexivity|]; split; [apply apply_reachable, at_reachable|constructor]|].
  split; [assert (K : match st_accts w_start pda_config with Some (Acct PManager (DConfig c)) => cf_owner c = GA /\ cf_pending c = None /\ st_uauth w_start = Some GA | _ => False end) by (vm_compute; auto);
    unfold governed, config_at; exists pda_config; destruct (st_accts w_start pda_config) as [[[] []]|]; try contradiction; eauto|].
  repeat match goal with |- _ /\ _ => split end; try (vm_compute; reflexivity).
  vm_compute. split; [reflexivity|]. split; [reflexivity|discriminate].
Qed.

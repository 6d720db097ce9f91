(** * The relay quoter: C49-C52, C58, C59. *)
From Verif Require Export QuoterFacts Scenario.
Local Open Scope Z_scope.

(** ** Worked deployment, on top of the published transfer of Scenario.v: sol at 150 usd, the destination's token at 3000 usd and 20
    gwei per gas, 500000 gas, 0.1 usd on top. *)
Definition E0q : qenv := QEnv H0 (fun n => 6960 * (128 + n mod 1000)).
Definition ASSIST := AKey 71.
Definition RECV : qaddr := QExt (AKey 70).
Definition q_start : qstate := QState (at_ Locking 8) (fun _ => None) (fun a => match a with QExt (AKey _) => 1000000000 | _ => 0 end) (Some DEPLOYER).
Definition q_calls : list qcall := [
  QCall [DEPLOYER] (QInitialize DEPLOYER RECV);
  QCall [DEPLOYER] (QSetAssistant QInst DEPLOYER (Some (QExt ASSIST)));
  QCall [ASSIST] (QRegisterChain QInst ASSIST 2);
  QCall [ASSIST] (QRegisterNtt QInst ASSIST (AProg PManager) 0 500000);
  QCall [ASSIST] (QUpdateSolPrice QInst ASSIST 150000000);
  QCall [ASSIST] (QUpdateChainPrices QInst ASSIST (QChain 2) 3000000000 20000000000);
  QCall [ASSIST] (QUpdateChainParams QInst ASSIST (QChain 2) 2000000 100000);
  QCall [USER] (QRequestRelay USER QInst ITEM 1000000 300000000);
  QCall [ASSIST] (QCloseRelay QInst ASSIST RECV (QReq ITEM))].
Fixpoint q_apply (E : qenv) (q : qstate) (l : list qcall) : qstate :=
  match l with [] => q | c :: l => match q_step E q c with Ok q' => q_apply E q' l | Err _ => q end end.
Fixpoint q_all_ok (E : qenv) (q : qstate) (l : list qcall) : bool :=
  match l with [] => true | c :: l => match q_step E q c with Ok q' => q_all_ok E q' l | Err _ => false end end.
Definition q_at (k : nat) : qstate := q_apply E0q q_start (firstn k q_calls).
Definition q_ok_at (k : nat) (c : qcall) : bool := is_ok (q_step E0q (q_at k) c).
Definition q_err_at (k : nat) (c : qcall) : option error := match q_step E0q (q_at k) c with Ok _ => None | Err e => Some e end.

Lemma q_apply_reachable E l : forall q, q_reachable E q -> q_reachable E (q_apply E q l).
Proof. induction l as [|c l IH]; intros q Hr; cbn; [exact Hr|]. destruct (q_step E q c) eqn:S; [|exact Hr]. apply IH. eapply q_step_reachable; eassumption. Qed.
Lemma q_start_initial : q_initial E0q q_start.
Proof.
  constructor; [apply at_reachable|reflexivity| |].
  - intros [| | | |[]]; cbn; ilia.
  - intros n. cbn [E0q qe_rent]. pose proof (Z.mod_pos_bound n 1000 ltac:(lia)). ilia.
Qed.
Lemma q_at_reachable k : q_reachable E0q (q_at k).
Proof. apply q_apply_reachable. exists q_start, []. split; [apply q_start_initial|constructor]. Qed.
Example q_calls_succeed : q_all_ok E0q q_start q_calls = true.
Proof. vm_compute. reflexivity. Qed.

(** ** C49 *)
(** The code's fee is the formula, and it has one exactly when every intermediate value fits. *)
Theorem C49_fee : forall i c n d fee, is_u64 (in_sol_price i) -> is_u64 (rc_native_price c) -> is_u64 (rc_gas_price c) ->
  is_u64 (rc_base_price c) -> is_u32 (rn_gas_cost n) -> is_u64 d ->
  (relay_fee i c n d = Ok fee <->
   in_sol_price i <> 0 /\ fee_fits (in_sol_price i) (rc_native_price c) (rc_gas_price c) (rc_base_price c) (rn_gas_cost n) d /\
   fee = fee_formula (in_sol_price i) (rc_native_price c) (rc_gas_price c) (rc_base_price c) (rn_gas_cost n) d).
Proof. exact relay_fee_ok. Qed.
Print Assumptions C49_fee.

(** A request succeeds only with that fee; [relayed] says what it read and what it charged. *)
Theorem C49_request : forall E q sg payer inst item d m q', q_reachable E q -> q_step E q (QCall sg (QRequestRelay payer inst item d m)) = Ok q' ->
  exists i p o n c fee paid, relayed E q sg payer item d m q' i p o n c fee paid.
Proof. exact relay_exact. Qed.
Print Assumptions C49_request.

Example C49_case : fee_formula 150000000 3000000000 20000000000 100000 500000 1000000 = 220666666 /\
  fee_fits 150000000 3000000000 20000000000 100000 500000 1000000 /\
  (** each rounding: 0.9 gwei of gas, 0.9 micro-usd of cost and 0.9 lamports are dropped *)
  gas_gwei 900000000 1 = 0 /\ cost_usd 900000000 1 = 0 /\ fee_formula 10000000000 0 0 9 0 0 = 0 /\
  (** overflow at each of the three places *)
  relay_fee (Instance QInst QInst QInst 1) (RegChain 0 0 0 0 u64_max) (RegNtt 0 0 u32_max) 0 = Err ScalingOverflow /\
  relay_fee (Instance QInst QInst QInst 1) (RegChain 0 0 0 u64_max 0) (RegNtt 0 0 0) u64_max = Err ScalingOverflow /\
  relay_fee (Instance QInst QInst QInst 1) (RegChain 0 0 100000000000 0 0) (RegNtt 0 0 0) 0 = Err ScalingOverflow /\
  relay_fee (Instance QInst QInst QInst 1) (RegChain 0 0 0 0 1000000000) (RegNtt 0 0 1) u64_max = Err Panic.
Proof. unfold fee_fits. cbv zeta. repeat match goal with |- _ /\ _ => split end; vm_compute; reflexivity. Qed.

(** ** C50 *)
(** Missing against the statement: "exactly max(fee, rent)" when the request's address already holds lamports; see
    [C50_refuted] and [C58_charge]. *)
Theorem C50_partial : forall E q sg payer inst item d m q', q_reachable E q -> q_step E q (QCall sg (QRequestRelay payer inst item d m)) = Ok q' ->
  exists i p o n c, In payer sg /\ instance_at q i /\ st_accts (q_world q) item = Some (Acct p (DOutboxItem o)) /\ ntt_at q (AProg p) n /\ chain_at q (ob_chain o) c /\
    in_sol_price i <> 0 /\ rc_base_price c <> u64_max /\ d <= rc_max_dropoff c /\
    let fee := fee_formula (in_sol_price i) (rc_native_price c) (rc_gas_price c) (rc_base_price c) (rn_gas_cost n) d in
    let paid := q_lamports q (QExt payer) - q_lamports q' (QExt payer) in
    0 <= paid <= m /\ q_lamports q' (QReq item) = q_lamports q (QReq item) + paid /\ Z.max fee (request_rent E) <= q_lamports q' (QReq item) /\
    (q_lamports q (QReq item) = 0 -> paid = Z.max fee (request_rent E)) /\
    (forall a, a <> QReq item -> a <> QExt payer -> q_lamports q' a = q_lamports q a).
Proof.
  intros E q sg payer inst item d m q' Hr S. pose proof (q_reachable_inv _ _ Hr) as Hi. pose proof (qv_lamports _ _ Hi (QReq item)). pose proof (qv_rent _ _ Hi 16).
  destruct (relay_exact _ _ _ _ _ _ _ _ _ Hr S) as (i & p & o & n & c & fee & paid & [A B C D F G I J K L M N O P Q R T (U & V & _)]).
  exists i, p, o, n, c. repeat (split; [assumption|]). cbv zeta. rewrite <- M. unfold request_rent in *. rewrite R, T, Q.
  split; [ilia|]. split; [lia|]. split; [lia|]. split; [ilia|exact V].
Qed.
Print Assumptions C50_partial.

(** 1000000 lamports sent to the address of the request before it exists: the payer pays only the rest. *)
Definition q_prefunded : qstate := q_apply E0q (q_at 7) [QCall [RCPT] (QSend RCPT (QReq ITEM) 1000000)].
Theorem C50_refuted : exists E q sg payer inst item d m q' i p o n c, q_reachable E q /\ q_step E q (QCall sg (QRequestRelay payer inst item d m)) = Ok q' /\
  instance_at q i /\ st_accts (q_world q) item = Some (Acct p (DOutboxItem o)) /\ ntt_at q (AProg p) n /\ chain_at q (ob_chain o) c /\
  q_lamports q (QExt payer) - q_lamports q' (QExt payer) <>
  Z.max (fee_formula (in_sol_price i) (rc_native_price c) (rc_gas_price c) (rc_base_price c) (rn_gas_cost n) d) (request_rent E).
Proof.
  destruct (q_step E0q q_prefunded (QCall [USER] (QRequestRelay USER QInst ITEM 1000000 300000000))) as [q'|e] eqn:S; [|vm_compute in S; discriminate].
  exists E0q, q_prefunded, [USER], USER, QInst, ITEM, 1000000, 300000000, q'.
  do 5 eexists. split; [apply q_apply_reachable, q_at_reachable|]. split; [exact S|]. repeat (split; [vm_compute; reflexivity|]).
  assert (B : q_lamports q' (QExt USER) = match q_step E0q q_prefunded (QCall [USER] (QRequestRelay USER QInst ITEM 1000000 300000000)) with Ok q' => q_lamports q' (QExt USER) | Err _ => 0 end) by now rewrite S.
  rewrite B. vm_compute. discriminate.
Qed.
Print Assumptions C50_refuted.

(** Success whenever the conditions hold and the payer has the money. *)
Theorem C50_live : forall E q sg payer item d m i p o n c, q_reachable E q -> forallb can_sign sg = true -> In payer sg -> is_u64 d -> is_u64 m ->
  instance_at q i -> in_sol_price i <> 0 -> st_accts (q_world q) item = Some (Acct p (DOutboxItem o)) -> ntt_at q (AProg p) n -> rn_index n < 128 ->
  Z.testbit (ob_released o) (rn_index n) = true -> chain_at q (ob_chain o) c -> rc_base_price c <> u64_max -> d <= rc_max_dropoff c ->
  fee_fits (in_sol_price i) (rc_native_price c) (rc_gas_price c) (rc_base_price c) (rn_gas_cost n) d ->
  let fee := fee_formula (in_sol_price i) (rc_native_price c) (rc_gas_price c) (rc_base_price c) (rn_gas_cost n) d in
  Z.max fee (request_rent E) <= m -> q_accts q (QReq item) = None ->
  Z.max fee (request_rent E) <= q_lamports q (QExt payer) -> q_lamports q (QReq item) + Z.max fee (request_rent E) <= u64_max ->
  exists q', q_step E q (QCall sg (QRequestRelay payer QInst item d m)) = Ok q'.
Proof. exact relay_live. Qed.
Print Assumptions C50_live.

(** Refused: a limit one lamport too low, a drop-off over the limit, before a price is set, while the chain is disabled. *)
Example C50_case : let req d m := QCall [USER] (QRequestRelay USER QInst ITEM d m) in
  (q_lamports (q_at 8) (QExt USER), q_lamports (q_at 8) (QReq ITEM)) = (1000000000 - 220666666, 220666666) /\
  map (q_err_at 7) [req 1000000 220666666; req 1000000 220666665; req 2000001 300000000] = [None; Some ExceedsUserMaxFee; Some ExceedsMaxGasDropoff] /\
  q_err_at 4 (req 0 u64_max) = Some PriceCannotBeZero /\ q_err_at 6 (req 0 u64_max) = Some RelayingToChainDisabled /\
  request_rent E0q = 1002240.
Proof. cbv zeta. repeat match goal with |- _ /\ _ => split end; vm_compute; reflexivity. Qed.

(** ** C51 *)
(** An open request was made by a request instruction, which saw: the item, the deployment owning it registered, and the flag of the
    registered index set. For items of the manager program the flag is still set. *)
Theorem C51_origin : forall E q0 tr q item r, q_initial E q0 -> q_run E q0 tr q -> request_at q item r ->
  exists e sg payer inst d m i p o n c fee paid, In e tr /\ qe_call e = QCall sg (QRequestRelay payer inst item d m) /\
    relayed E (qe_pre e) sg payer item d m (qe_post e) i p o n c fee paid /\ r = RelayRequest d /\
    (p = PManager -> flag (q_world q) item (rn_index n) = true).
Proof. exact request_origin. Qed.
Print Assumptions C51_origin.

(** A set flag means published: the index is a registered transceiver's, and if that is a program of the code base, the message is
    in its log. *)
Theorem C51_flag_is_published : forall H s, reachable H s -> forall a id, flag s a id = true ->
  exists p tr rt, reg_at s tr rt /\ rt_id rt = id /\ rt_address rt = AProg p /\
    (is_ntt_prog p = true -> exists m, In m (published s p) /\ nm_id (tm_msg m) = a).
Proof. exact flag_logged. Qed.
Print Assumptions C51_flag_is_published.

(** One open request per item: its account is the item's, and no second request succeeds while it is open. *)
Theorem C51_one_open : forall E q, q_reachable E q ->
  (forall a r, q_accts q a = Some (QDRequest r) -> exists item, a = QReq item) /\
  (forall sg payer inst item d m r, request_at q item r -> ~ exists q', q_step E q (QCall sg (QRequestRelay payer inst item d m)) = Ok q').
Proof.
  intros E q Hr. split; [|intros; eapply request_twice; eassumption].
  intros a r K. destruct (qv_accts _ _ (q_reachable_inv _ _ Hr) _ _ K) as (A & _). exact A.
Qed.
Print Assumptions C51_one_open.

(** Not yet published (transfer made, not released); not registered; a second request; a request after the first was closed. *)
Definition q_unpublished : qstate := let q := q_at 7 in QState (at_ Locking 7) (q_accts q) (q_lamports q) (q_uauth q).
Example C51_case : let req := QCall [USER] (QRequestRelay USER QInst ITEM 1000000 300000000) in
  flag (q_world (q_at 8)) ITEM 0 = true /\ is_ok (q_step E0q q_unpublished req) = false /\
  map (fun k => q_ok_at k req) [3; 7; 8; 9]%nat = [false; true; false; true] /\
  request_at (q_at 8) ITEM (RelayRequest 1000000) /\
  is_ok (q_step E0q (q_apply E0q (q_at 7) [QCall [ASSIST] (QDeregisterNtt QInst ASSIST (AProg PManager))]) req) = false.
Proof. cbv zeta. repeat match goal with |- _ /\ _ => split end; vm_compute; reflexivity. Qed.

(** ** C52 *)
(** The instance: its fields change by the owner's signature (recipient, assistant) or a staff signature (price). *)
Theorem C52_instance : forall E q c q' i, q_reachable E q -> q_step E q c = Ok q' -> instance_at q i ->
  exists i', instance_at q' i' /\ in_owner i' = in_owner i /\
    (i' = i \/
     (owner_signed q (q_signers c) /\ (exists r, i' = Instance (in_owner i) (in_assistant i) r (in_sol_price i) /\ r <> QExt ANull)) \/
     (owner_signed q (q_signers c) /\ (exists a, i' = Instance (in_owner i) a (in_fee_recipient i) (in_sol_price i))) \/
     (staff_signed q (q_signers c) /\ (exists p, i' = Instance (in_owner i) (in_assistant i) (in_fee_recipient i) p /\ 0 < p <= u64_max))).
Proof. exact instance_step. Qed.
Print Assumptions C52_instance.

(** Chain prices and parameters, deployment registrations: any change needs a staff signature. *)
Theorem C52_registry : forall E q c q' a, q_reachable E q -> q_step E q c = Ok q' -> (forall it, a <> QReq it) -> a <> QInst ->
  q_accts q' a <> q_accts q a -> staff_signed q (q_signers c).
Proof. exact registry_step. Qed.
Print Assumptions C52_registry.

(** A request account appears by a request and disappears by a staff-signed close that moves its whole balance to the recipient. *)
Theorem C52_requests : forall E q c q' it, q_reachable E q -> q_step E q c = Ok q' -> q_accts q' (QReq it) <> q_accts q (QReq it) ->
  (q_accts q (QReq it) = None /\ exists payer inst d m, q_ins c = QRequestRelay payer inst it d m /\ request_at q' it (RelayRequest d)) \/
  (q_accts q' (QReq it) = None /\ staff_signed q (q_signers c) /\ exists inst o rec i r, q_ins c = QCloseRelay inst o rec (QReq it) /\ request_at q it r /\
    instance_at q i /\ rec = in_fee_recipient i /\ q_lamports q' (QReq it) = 0 /\ q_lamports q' rec = q_lamports q rec + q_lamports q (QReq it) /\
    (forall a, a <> QReq it -> a <> rec -> q_lamports q' a = q_lamports q a)).
Proof. exact request_step. Qed.
Print Assumptions C52_requests.

(** No lamport leaves a request account except by such a close. *)
Theorem C52_money : forall E q c q' x, q_reachable E q -> q_step E q c = Ok q' -> q_lamports q' (QReq x) < q_lamports q (QReq x) ->
  exists inst o rec i, q_ins c = QCloseRelay inst o rec (QReq x) /\ instance_at q i /\ (in_owner i = QExt o \/ in_assistant i = QExt o) /\ In o (q_signers c) /\
    rec = in_fee_recipient i /\ rec <> QReq x /\ (exists r, request_at q x r) /\ q_accts q' (QReq x) = None /\ q_lamports q' (QReq x) = 0 /\
    q_lamports q' rec = q_lamports q rec + q_lamports q (QReq x) /\ (forall a, a <> QReq x -> a <> rec -> q_lamports q' a = q_lamports q a) /\
    (forall a, a <> QReq x -> q_accts q' a = q_accts q a).
Proof. exact lamports_down. Qed.
Print Assumptions C52_money.

(** A stranger, and the assistant where only the owner may act. *)
Example C52_case : let no := map (q_ok_at 8) [
    QCall [USER] (QSetAssistant QInst USER None); QCall [ASSIST] (QSetAssistant QInst ASSIST None); QCall [ASSIST] (QSetFeeRecipient QInst ASSIST (QExt ASSIST));
    QCall [USER] (QUpdateSolPrice QInst USER 1); QCall [USER] (QCloseRelay QInst USER RECV (QReq ITEM)); QCall [ASSIST] (QCloseRelay QInst ASSIST (QExt ASSIST) (QReq ITEM));
    QCall [] (QUpdateSolPrice QInst ASSIST 1); QCall [DEPLOYER] (QInitialize DEPLOYER RECV)] in
  let yes := map (q_ok_at 8) [QCall [DEPLOYER] (QSetAssistant QInst DEPLOYER None); QCall [DEPLOYER] (QSetFeeRecipient QInst DEPLOYER (QExt USER));
    QCall [DEPLOYER] (QCloseRelay QInst DEPLOYER RECV (QReq ITEM))] in
  no = repeat false 8 /\ yes = repeat true 3 /\
  (q_lamports (q_at 9) RECV, q_lamports (q_at 9) (QReq ITEM)) = (1220666666, 0).
Proof. cbv zeta. repeat match goal with |- _ /\ _ => split end; vm_compute; reflexivity. Qed.

(** ** C58 *)
Theorem C58_charge : forall E q sg payer inst item d m q', q_reachable E q -> q_step E q (QCall sg (QRequestRelay payer inst item d m)) = Ok q' ->
  exists i p o n c, instance_at q i /\ st_accts (q_world q) item = Some (Acct p (DOutboxItem o)) /\ ntt_at q (AProg p) n /\ chain_at q (ob_chain o) c /\
    let fee := fee_formula (in_sol_price i) (rc_native_price c) (rc_gas_price c) (rc_base_price c) (rn_gas_cost n) d in
    q_lamports q (QExt payer) - q_lamports q' (QExt payer) = Z.max fee (request_rent E) - Z.min (q_lamports q (QReq item)) (request_rent E).
Proof.
  intros E q sg payer inst item d m q' Hr S. destruct (relay_exact _ _ _ _ _ _ _ _ _ Hr S) as (i & p & o & n & c & fee & paid & [A B C D F G I J K L M N O P Q R T U]).
  exists i, p, o, n, c. repeat (split; [assumption|]). cbv zeta. rewrite <- M, R, Q. lia.
Qed.
Print Assumptions C58_charge.

Example C58_case : q_lamports q_prefunded (QReq ITEM) = 1000000 /\
  match q_step E0q q_prefunded (QCall [USER] (QRequestRelay USER QInst ITEM 1000000 300000000)) with
  | Ok q' => (q_lamports q' (QExt USER), q_lamports q' (QReq ITEM)) = (1000000000 - 219666666, 220666666) | Err _ => False end.
Proof. split; vm_compute; reflexivity. Qed.

(** ** C59 *)
(** The owner never changes, and is the upgrade authority that signed the initialisation. *)
Theorem C59_owner : forall E q tr q' i, q_reachable E q -> q_run E q tr q' -> instance_at q i -> exists i', instance_at q' i' /\ in_owner i' = in_owner i.
Proof. exact owner_fixed. Qed.
Print Assumptions C59_owner.
Theorem C59_made : forall E q c q' i, q_reachable E q -> q_step E q c = Ok q' -> q_accts q QInst = None -> instance_at q' i ->
  exists o r, q_ins c = QInitialize o r /\ q_uauth q = Some o /\ In o (q_signers c) /\ r <> QExt ANull /\ i = Instance (QExt o) (QExt ANull) r 0.
Proof. exact instance_made. Qed.
Print Assumptions C59_made.
(** The key standing for "no assistant" cannot sign. *)
Theorem C59_no_assistant : forall E q c q', q_step E q c = Ok q' -> ~ In ANull (q_signers c).
Proof.
  intros E q c q' S Hin. apply q_step_inv in S. destruct S as (S & _). rewrite forallb_forall in S. specialize (S _ Hin). discriminate.
Qed.
Print Assumptions C59_no_assistant.

Example C59_case : instance_at (q_at 1) (Instance (QExt DEPLOYER) (QExt ANull) RECV 0) /\ instance_at (q_at 9) (Instance (QExt DEPLOYER) (QExt ASSIST) RECV 150000000) /\
  map (q_ok_at 0) [QCall [USER] (QInitialize USER RECV); QCall [DEPLOYER] (QInitialize DEPLOYER (QExt ANull)); QCall [DEPLOYER] (QInitialize DEPLOYER RECV)] = [false; false; true].
Proof. repeat match goal with |- _ /\ _ => split end; vm_compute; reflexivity. Qed.

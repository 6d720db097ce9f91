(** * The client library and the quoter: its instructions (C98), its prices (C99), automatic transfers (C100). *)
From Coq Require Import String.
From Verif Require Export QTxFacts.
From Verif Require Import Scenario PropsQuoter PropsEntry PropsQEntry PropsTx.
From Verif Require Import Quoter QEntry.
From Verif Require ClientFacts.
Import ListNotations.
Local Open Scope Z_scope.
Local Open Scope list_scope.
Local Strategy 1000 [sha256].

(** ** C98 *)

(** The quoter's staff: what the library builds is what the quoter takes for the instruction of that name, with the library's arguments. *)
Theorem C98_staff : forall I nm E q authority ch program index gas price dropoff base native gas_price,
  is_u16 ch -> is32 program -> is_u8 index -> is_u32 gas -> js_safe price -> js_safe dropoff -> js_safe base -> js_safe native -> js_safe gas_price ->
  q_means I nm E q (createRegisterChain authority ch) (QRegisterChain QInst authority ch) /\
  q_means I nm E q (createRegisterNtt nm authority program gas index) (QRegisterNtt QInst authority (nm program) index gas) /\
  q_means I nm E q (createDeregisterNtt nm authority program) (QDeregisterNtt QInst authority (nm program)) /\
  q_means I nm E q (createUpdateSolPrice authority price) (QUpdateSolPrice QInst authority price) /\
  q_means I nm E q (createUpdateChainParams authority ch dropoff base) (QUpdateChainParams QInst authority (QChain ch) dropoff base) /\
  q_means I nm E q (createUpdateChainPrices authority ch native gas_price) (QUpdateChainPrices QInst authority (QChain ch) native gas_price) /\
  q_means I nm E q (createPauseRelayForChain authority ch) (QUpdateChainParams QInst authority (QChain ch) 0 u64_max).
Proof.
  intros. repeat match goal with |- _ /\ _ => split end;
    [apply qm_register_chain|apply qm_register_ntt|apply qm_deregister_ntt|apply qm_sol_price|apply qm_params|apply qm_prices|apply qm_pause]; assumption.
Qed.
Print Assumptions C98_staff.

(** The owner, whom the library looks up. The quoter's own id for the assistant stands for none. *)
Theorem C98_owner : forall I nm E q i a r, q_reachable E q -> instance_at q i -> js_safe (in_sol_price i) ->
  exists o, in_owner i = QExt o /\
    (a <> in_assistant i -> q_means I nm E q (createSetAssistant q a) (QSetAssistant QInst o (if qaddr_eqb a (QExt (qd_self I)) then None else Some a))) /\
    (a = in_assistant i -> createSetAssistant q a = None) /\
    (r <> in_fee_recipient i -> r <> QExt ANull -> q_means I nm E q (createSetFeeRecipient q r) (QSetFeeRecipient QInst o r)) /\
    (r = in_fee_recipient i \/ r = QExt ANull -> createSetFeeRecipient q r = None).
Proof.
  intros I nm E q i a r R A J. pose proof (qv_accts _ _ (q_reachable_inv _ _ R) _ _ A) as (_ & (o & O) & _).
  assert (G : getInstance q = Gives i) by (apply (get_instance _ _ _ R); auto). exists o. split; [exact O|]. split; [|split; [|split]].
  - intros N. eapply qm_set_assistant; eassumption.
  - intros ->. unfold createSetAssistant. rewrite G, qaddr_eqb_refl. reflexivity.
  - intros N N'. eapply qm_set_recipient; eassumption.
  - unfold createSetFeeRecipient. rewrite G. intros [->| ->]; rewrite qaddr_eqb_refl; [destruct (qaddr_eqb _ _)|]; reflexivity.
Qed.
Print Assumptions C98_owner.

(** A relay request, for the chain and from the manager of the outbox item; with another chain or manager the quoter refuses whatever else happens. *)
Theorem C98_request : forall I nm E q payer item ntt ch max_fee dropoff, js_safe max_fee -> js_safe dropoff ->
  (forall p o, st_accts (q_world q) item = Some (Acct p (DOutboxItem o)) -> ob_chain o = ch /\ AProg p = ntt) ->
  q_means I nm E q (createRequestRelay payer item ntt ch max_fee dropoff) (QRequestRelay payer QInst item dropoff max_fee).
Proof. exact qm_request. Qed.
Print Assumptions C98_request.
Theorem C98_request_wrong : forall I nm E q payer item ntt ch max_fee dropoff,
  (forall p o, st_accts (q_world q) item = Some (Acct p (DOutboxItem o)) -> ob_chain o <> ch \/ AProg p <> ntt) ->
  q_futile I nm E q (createRequestRelay payer item ntt ch max_fee dropoff).
Proof. exact request_wrong. Qed.
Print Assumptions C98_request_wrong.

(** Numbers from 2^53 on are refused by the library. *)
Theorem C98_numbers : forall payer item ntt authority ch x y, ~ js_safe x \/ ~ js_safe y ->
  createRequestRelay payer item ntt ch x y = None /\ createUpdateChainParams authority ch x y = None /\ createUpdateChainPrices authority ch x y = None /\
  (~ js_safe x -> createUpdateSolPrice authority x = None).
Proof.
  intros payer item ntt au ch x y N. unfold createRequestRelay, createUpdateChainParams, createUpdateChainPrices, createUpdateSolPrice.
  assert (Z : (u64_to x = None) \/ u64_to y = None) by (destruct N; [left|right]; apply u64_to_none; assumption).
  split; [|split; [|split]]; try (destruct Z as [->| ->]; [|destruct (u64_to x)]; reflexivity). intros N'. rewrite (u64_to_none _ N'). reflexivity.
Qed.
Print Assumptions C98_numbers.

(** Two that are never built: closing a request lacks the fee recipient; the layout for program data fits none, so the quoter's initialization throws. *)
Theorem C98_never : forall I nm known authority item recipient tag slot upgrade_authority code,
  List.length tag = 4%nat -> List.length slot = 8%nat -> List.length upgrade_authority = 33%nat ->
  createCloseRelay authority item = None /\ createInitializeQuoter I nm known (Some (tag ++ slot ++ upgrade_authority ++ code)) recipient = None.
Proof. intros. split; [apply no_close|apply no_initialize; assumption]. Qed.
Print Assumptions C98_never.
(** The latter would be built for such data as the library expects. *)
Theorem C98_initialize : forall I nm known data recipient, createInitializeQuoter I nm known data recipient <> None <->
  exists slot o, is_u64 slot /\ List.length o = 32%nat /\ data = Some (le_enc 8 slot ++ [x01] ++ o).
Proof.
  intros I nm known data recipient. unfold createInitializeQuoter. split.
  - destruct data as [b|]; [|contradiction]. destruct (Client.c_deserialize known Client.c_program_data b) as [v|] eqn:E; [|contradiction].
    apply ClientFacts.program_data_exact in E as (slot & U & [(_ & ->)|(o & L & -> & _)]); [contradiction|]. intros _. eauto.
  - intros (slot & o & U & L & ->).
    rewrite (proj2 (ClientFacts.program_data_exact known (le_enc 8 slot ++ [x01] ++ o) [Client.VN slot; Client.VN 1; Client.VB o])) by (exists slot; split; [exact U|right; exists o; auto]).
    unfold q_build. set (p := q_place _ _). assert (P : p <> None) by (subst p; cbn; discriminate). destruct p; [discriminate|contradiction].
Qed.
Print Assumptions C98_initialize.

(** The signatures asked for. *)
Theorem C98_signers : forall nm E q i o payer item ntt authority ch program index gas x y a r, js_safe x -> js_safe y ->
  q_reachable E q -> instance_at q i -> js_safe (in_sol_price i) -> in_owner i = QExt o -> a <> in_assistant i -> r <> in_fee_recipient i -> r <> QExt ANull ->
  q_wants (createRegisterChain authority ch) [authority] /\ q_wants (createRegisterNtt nm authority program gas index) [authority] /\
  q_wants (createDeregisterNtt nm authority program) [authority] /\ q_wants (createUpdateSolPrice authority x) [authority] /\
  q_wants (createUpdateChainParams authority ch x y) [authority] /\ q_wants (createUpdateChainPrices authority ch x y) [authority] /\
  q_wants (createPauseRelayForChain authority ch) [authority] /\ q_wants (createRequestRelay payer item ntt ch x y) [payer] /\
  q_wants (createSetAssistant q a) [o] /\ q_wants (createSetFeeRecipient q r) [o].
Proof.
  intros nm E q i o payer item ntt au ch p k g x y a r Jx Jy R A J O N1 N2 N3. assert (G : getInstance q = Gives i) by (apply (get_instance _ _ _ R); auto).
  repeat match goal with |- _ /\ _ => split end; [apply qw_register_chain|apply qw_register_ntt|apply qw_deregister_ntt|apply qw_sol_price|apply qw_params|apply qw_prices|
    apply qw_pause|apply qw_request|eapply qw_set_assistant|eapply qw_set_recipient]; eassumption.
Qed.
Print Assumptions C98_signers.

(** The worked deployment: the library's request has the accounts and the data of C81's example and runs, with all privileges as well; for another
    chain or another manager it fails. *)
Definition q_runs (q : qstate) (b : option qix) (f : list qmeta -> list qmeta) : bool :=
  match b with Some x => is_ok (q_entry I0 nm1 E0q q (f (qx_metas x)) (qx_data x)) | None => false end.
Example C98_case :
  let b ntt ch := createRequestRelay USER ITEM ntt ch 300000000 1000000 in
  option_map qx_metas (b (AProg PManager) 2) = Some relay_metas /\ option_map qx_data (b (AProg PManager) 2) = Some relay_data /\
  q_runs (q_at 7) (b (AProg PManager) 2) (fun l => l) = true /\ q_runs (q_at 7) (b (AProg PManager) 2) (fun l => map (fun m => QMeta (qm_key m) (qm_signer m) true) l ++ [qSW RCPT]) = true /\
  q_runs (q_at 7) (b (AProg PManager) 3) (fun l => l) = false /\ q_runs (q_at 7) (b (AProg PTransceiver) 2) (fun l => l) = false /\
  q_runs (q_at 6) (createUpdateChainParams ASSIST 2 2000000 100000) (fun l => l) = true /\ q_runs (q_at 1) (createUpdateChainParams ASSIST 2 2000000 100000) (fun l => l) = false /\
  q_runs (q_at 1) (createSetAssistant (q_at 1) (QExt ASSIST)) (fun l => l) = true /\ createSetAssistant (q_at 2) (QExt ASSIST) = None.
Proof. cbv zeta. repeat match goal with |- _ /\ _ => split end; vm_compute; reflexivity. Qed.

(** ** C99 *)

(** Whether relaying is possible: yes for a registered chain all of whose numbers are below 2^53, no for an unknown one, an error otherwise. *)
Theorem C99_enabled : forall E q ch, q_reachable E q ->
  (isRelayEnabled q ch = Some true <-> exists c, chain_at q ch c /\ js_chain c) /\
  (isRelayEnabled q ch = Some false <-> q_accts q (QChain ch) = None) /\
  (isRelayEnabled q ch = None <-> exists c, chain_at q ch c /\ ~ js_chain c).
Proof. exact enabled_iff. Qed.
Print Assumptions C99_enabled.
(** So that for a chain whose relaying is paused there is always an error, and never the answer no, *)
Theorem C99_paused : forall E q ch c, q_reachable E q -> chain_at q ch c -> rc_base_price c = u64_max -> isRelayEnabled q ch = None.
Proof. exact paused_throws. Qed.
Print Assumptions C99_paused.
(** and the answer yes is never given for a chain whose requests the quoter refuses as disabled. *)
Theorem C99_yes : forall E q ch, q_reachable E q -> isRelayEnabled q ch = Some true -> exists c, chain_at q ch c /\ rc_base_price c <> u64_max.
Proof.
  intros E q ch R Y. apply (enabled_iff _ _ _ R) in Y. destruct Y as (c & A & (_ & (_ & S) & _)). exists c. split; [exact A|]. intros B. rewrite B in S. vm_compute in S. discriminate S.
Qed.
Print Assumptions C99_yes.
(** What the library says of a request. *)
Theorem C99_requested : forall E q item, q_reachable E q ->
  (wasRelayRequested q item = Some None <-> q_accts q (QReq item) = None) /\
  (forall d, wasRelayRequested q item = Some (Some d) <-> request_at q item (RelayRequest d) /\ js_safe d).
Proof. exact requested_iff. Qed.
Print Assumptions C99_requested.

(** The quote: rent plus the unrounded fee for a drop-off in wei. *)
Theorem C99_quote : forall evm E q ntt ch wei a b, q_reachable E q ->
  quoteDeliveryPrice evm E q ntt ch wei = Some (a, b) <->
  evm ch = true /\ exists c i n, chain_at q ch c /\ js_chain c /\ instance_at q i /\ js_safe (in_sol_price i) /\ ntt_at q ntt n /\
    rc_native_price c <> 0 /\ in_sol_price i <> 0 /\ wei <= rc_max_dropoff c * 10 ^ 9 /\
    b = 10 ^ 9 * in_sol_price i /\
    a = request_rent E * b + fee_numerator_wei (rc_native_price c) (rc_gas_price c) (rc_base_price c) (rn_gas_cost n) wei.
Proof. exact quote_iff. Qed.
Print Assumptions C99_quote.

(** With five percent on top, however the library rounds, it covers what the quoter charges for the same drop-off, while the price has not risen by more than four. *)
Theorem C99_covers : forall evm E q0 q ntt ch wei a b m c i n d, q_reachable E q0 -> q_reachable E q ->
  quoteDeliveryPrice evm E q0 ntt ch wei = Some (a, b) -> near_105 a b m -> 0 <= wei ->
  chain_at q ch c -> instance_at q i -> ntt_at q ntt n -> in_sol_price i <> 0 -> 0 <= d ->
  100 * ((request_rent E * (10 ^ 9 * in_sol_price i) + fee_numerator (rc_native_price c) (rc_gas_price c) (rc_base_price c) (rn_gas_cost n) d) * b) <= 104 * (a * (10 ^ 9 * in_sol_price i)) ->
  Z.max (fee_formula (in_sol_price i) (rc_native_price c) (rc_gas_price c) (rc_base_price c) (rn_gas_cost n) d) (request_rent E) <= m.
Proof. exact quote_covers. Qed.
Print Assumptions C99_covers.
Theorem C99_covers_now : forall evm E q ntt ch d a b m, q_reachable E q -> quoteDeliveryPrice evm E q ntt ch (d * 10 ^ 9) = Some (a, b) -> near_105 a b m -> 0 <= d ->
  exists c i n, chain_at q ch c /\ instance_at q i /\ ntt_at q ntt n /\
    Z.max (fee_formula (in_sol_price i) (rc_native_price c) (rc_gas_price c) (rc_base_price c) (rn_gas_cost n) d) (request_rent E) <= m.
Proof.
  intros evm E q ntt ch d a b m R Q Nr D. destruct (proj1 (quote_iff _ _ _ _ _ _ _ _ R) Q) as (_ & c & i & n & A & _ & Ai & Ji & An & _ & N0 & _ & Hb & Ha).
  exists c, i, n. split; [exact A|]. split; [exact Ai|]. split; [exact An|]. assert (Wn : 0 <= d * 10 ^ 9) by lia.
  apply (quote_covers evm E q q ntt ch (d * 10 ^ 9) a b m); try assumption. rewrite <- Hb.
  replace (fee_numerator (rc_native_price c) (rc_gas_price c) (rc_base_price c) (rn_gas_cost n) d)
    with (fee_numerator_wei (rc_native_price c) (rc_gas_price c) (rc_base_price c) (rn_gas_cost n) (d * 10 ^ 9)) by reflexivity.
  rewrite <- Ha. assert (0 <= a).
  { pose proof (q_reachable_inv _ _ R) as Iv. pose proof (qv_rent _ _ Iv 16) as Rn. destruct (chain_pos _ _ _ _ R A) as (_ & P2 & P3 & P4). pose proof (qv_accts _ _ Iv _ _ An) as (_ & _ & Ug).
    unfold js_safe in Ji. rewrite Ha, Hb. unfold fee_numerator_wei, request_rent. apply Z.add_nonneg_nonneg; [apply Z.mul_nonneg_nonneg; ilia|].
    assert (0 <= rc_gas_price c * rn_gas_cost n) by (apply Z.mul_nonneg_nonneg; ilia). apply Z.add_nonneg_nonneg; apply Z.mul_nonneg_nonneg; ilia. }
  assert (0 < b) by (unfold js_safe in Ji; rewrite Hb; lia). assert (0 <= a * b) by (apply Z.mul_nonneg_nonneg; lia). lia.
Qed.
Print Assumptions C99_covers_now.

(** The cost in SOL, which the library calculates without the five percent and without looking at the kind of chain or for zero prices, *)
Theorem C99_cost : forall E q ntt ch wei a b, q_reachable E q ->
  calcRelayCostInSol E q ntt ch wei = Some (a, b) <->
  exists c i n, chain_at q ch c /\ js_chain c /\ instance_at q i /\ js_safe (in_sol_price i) /\ ntt_at q ntt n /\ wei <= rc_max_dropoff c * 10 ^ 9 /\
    b = 10 ^ 9 * in_sol_price i /\
    a = request_rent E * b + fee_numerator_wei (rc_native_price c) (rc_gas_price c) (rc_base_price c) (rn_gas_cost n) wei.
Proof. exact cost_iff. Qed.
Print Assumptions C99_cost.
(** is the quote wherever there is one, *)
Theorem C99_cost_of_quote : forall evm E q ntt ch wei p, quoteDeliveryPrice evm E q ntt ch wei = Some p -> calcRelayCostInSol E q ntt ch wei = Some p.
Proof. exact cost_of_quote. Qed.
Print Assumptions C99_cost_of_quote.
(** and before rounding covers what is charged in the same state; it is infinite exactly while the price of SOL is 0, when the quoter refuses every request. *)
Theorem C99_cost_bound : forall E q ntt ch d a b, q_reachable E q -> calcRelayCostInSol E q ntt ch (d * 10 ^ 9) = Some (a, b) -> 0 <= d ->
  exists c i n, chain_at q ch c /\ instance_at q i /\ ntt_at q ntt n /\ b = 10 ^ 9 * in_sol_price i /\
    (b = 0 <-> in_sol_price i = 0) /\
    (in_sol_price i <> 0 -> Z.max (fee_formula (in_sol_price i) (rc_native_price c) (rc_gas_price c) (rc_base_price c) (rn_gas_cost n) d) (request_rent E) * b <= a).
Proof. exact cost_bound. Qed.
Print Assumptions C99_cost_bound.
(** The price of SOL is 0 until it is first set; with all else in place the cost is then infinite, and there is no quote. *)
Definition evm0 (ch : Z) : bool := (ch =? 2) || (ch =? 3).
Example C99_cost_case :
  option_map (fun p => fst p / snd p) (calcRelayCostInSol E0q (q_at 7) (AProg PManager) 2 (10 ^ 15)) = Some 221668906 /\
  calcRelayCostInSol E0q (q_at 7) (AProg PManager) 2 (3 * 10 ^ 15) = None /\ calcRelayCostInSol E0q (q_at 7) (AProg PManager) 3 0 = None /\
  let calls := firstn 4 q_calls ++ firstn 2 (skipn 5 q_calls) in let q := q_apply E0q q_start calls in
  q_all_ok E0q q_start calls = true /\
  option_map snd (calcRelayCostInSol E0q q (AProg PManager) 2 (10 ^ 15)) = Some 0 /\ quoteDeliveryPrice evm0 E0q q (AProg PManager) 2 (10 ^ 15) = None.
Proof. cbv zeta. repeat match goal with |- _ /\ _ => split end; vm_compute; reflexivity. Qed.

(** The worked deployment: the price of 0.001 eth dropped off is 221668906 lamports, with 5% on top 232752352; 220666666 are charged. Before the prices
    are set there is no quote, and before the chain's parameters are set the library throws when asked. *)
Example C99_case :
  option_map (fun p => fst p / snd p) (quoteDeliveryPrice evm0 E0q (q_at 7) (AProg PManager) 2 (10 ^ 15)) = Some 221668906 /\
  (match quoteDeliveryPrice evm0 E0q (q_at 7) (AProg PManager) 2 (10 ^ 15) with Some (a, b) => near_105 a b 232752352 | None => False end) /\
  quoteDeliveryPrice evm0 E0q (q_at 7) (AProg PManager) 2 (3 * 10 ^ 15) = None /\ quoteDeliveryPrice evm0 E0q (q_at 6) (AProg PManager) 2 0 = None /\
  map (fun k => isRelayEnabled (q_at k) 2) [2; 3; 6; 7]%nat = [Some false; None; None; Some true] /\ isRelayEnabled (q_at 7) 3 = Some false /\
  wasRelayRequested (q_at 7) ITEM = Some None /\ wasRelayRequested (q_at 8) ITEM = Some (Some 1000000).
Proof. unfold near_105. repeat match goal with |- _ /\ _ => split end; try (vm_compute; reflexivity). vm_compute. discriminate. Qed.

(** ** C100 *)

(** The automatic transfer: approval, deposit, publication and relay request. It succeeds exactly when the transfer would (C97) and goes out at once, and the
    quoter's conditions hold; then the transfer is done, the drop-off given is recorded and the charge is with the request. *)
Theorem C100_transfer : forall I nm E q c tp sender amount chain to qu item x m d, q_reachable E q -> fetched (q_world q) c -> cf_paused c = false -> cf_token_program c = AProg tp ->
  can_sign sender = true -> can_sign item = true -> is_ntt_prog x = true -> is_u64 amount -> is_u16 chain -> is32 to -> js_safe m -> js_safe d ->
  let H := qe_hashes E in let s := q_world q in
  let a := TransferArgs amount chain (nm to) qu in let from := ata tp sender (cf_mint c) in
  exists i1 i2 i3, client_transfer nm H sender amount chain to qu item c x = Some [i1; i2; i3] /\ forall ok0 ok ok',
    let r := submit_automatic I nm E sender q [(i1, ok0); (i2, ok); (i3, ok')] (createRequestRelay sender item (AProg PManager) chain m d) in
    (succeeds r <-> exists mt pe f cu orl irl rt v i n rc charge, sendable s c x sender from item a ok ok' mt pe f cu orl irl rt v /\
       v <= capacity orl (st_now s) /\ relay_ready E q sender item chain d m rt i n rc charge) /\
    (forall q', r = Ok q' -> exists mt pe f cu orl irl rt v i n rc charge, sendable s c x sender from item a ok ok' mt pe f cu orl irl rt v /\
       v <= capacity orl (st_now s) /\ relay_ready E q sender item chain d m rt i n rc charge /\
       sent H s (q_world q') c x sender from item a mt pe f cu orl irl rt v /\ request_at q' item (RelayRequest d) /\
       (forall b, b <> QReq item -> q_accts q' b = q_accts q b) /\ q_uauth q' = q_uauth q /\
       moved q q' (QExt sender) (QReq item) (charge - Z.min (q_lamports q (QReq item)) (request_rent E))).
Proof. exact automatic_tx. Qed.
Print Assumptions C100_transfer.

(** Without a drop-off the quote is enough: of the quoter's conditions remain the transceiver's number, room for the account and its lamports, and that the fee fits. *)
Theorem C100_no_dropoff : forall evm E q sender item ch a b m rt, q_reachable E q ->
  quoteDeliveryPrice evm E q (AProg PManager) ch 0 = Some (a, b) -> near_105 a b m ->
  exists i n c, instance_at q i /\ ntt_at q (AProg PManager) n /\ chain_at q ch c /\
    let charge := Z.max (fee_formula (in_sol_price i) (rc_native_price c) (rc_gas_price c) (rc_base_price c) (rn_gas_cost n) 0) (request_rent E) in
    let paid := charge - Z.min (q_lamports q (QReq item)) (request_rent E) in
    charge <= m /\
    (relay_ready E q sender item ch 0 m rt i n c charge <->
     rn_index n = rt_id rt /\ q_accts q (QReq item) = None /\ fee_fits (in_sol_price i) (rc_native_price c) (rc_gas_price c) (rc_base_price c) (rn_gas_cost n) 0 /\
     paid <= q_lamports q (QExt sender) /\ q_lamports q (QReq item) + paid <= u64_max).
Proof.
  intros evm E q sender item ch a b m rt R Q Nr. destruct (proj1 (quote_iff _ _ _ _ _ _ _ _ R) Q) as (_ & c & i & n & A & Jc & Ai & Ji & An & _ & N0 & _ & Hb & Ha).
  destruct (C99_covers_now evm E q (AProg PManager) ch 0 a b m R Q Nr ltac:(lia)) as (c' & i' & n' & A' & Ai' & An' & Cov).
  unfold chain_at, instance_at, ntt_at in *. rewrite A in A'. rewrite Ai in Ai'. rewrite An in An'. injection A' as <-. injection Ai' as <-. injection An' as <-.
  exists i, n, c. split; [exact Ai|]. split; [exact An|]. split; [exact A|]. cbv zeta. split; [exact Cov|]. split.
  - intros [B1 B2 B3 B4 B5 B6 B7 B8 B9 B10 B11 B12 B13]. auto.
  - intros (X1 & X2 & X3 & X4 & X5). destruct (chain_pos _ _ _ _ R A) as (P1 & _). constructor; try assumption; try reflexivity.
    + intros B. destruct Jc as (_ & (_ & S) & _). rewrite B in S. vm_compute in S. discriminate S.
    + ilia.
Qed.
Print Assumptions C100_no_dropoff.

(** With a drop-off: [d] is what the library hands over for [wei], a number of gwei for the quoter. What is asked for is a billion times what was quoted
    (up to rounding), and is refused if the number of wei exceeds that of the gwei allowed. *)
Theorem C100_dropoff : forall E q sender item ch wei m d rt i n c charge, near wei d -> relay_ready E q sender item ch d m rt i n c charge ->
  999 * 10 ^ 6 * wei <= d * 10 ^ 9 <= 1001 * 10 ^ 6 * wei /\ 999 * wei <= 1000 * rc_max_dropoff c.
Proof. intros E q sender item ch wei m d rt i n c charge Nr [_ _ _ _ _ _ L _ _ _ _ _ _]. unfold near in Nr. lia. Qed.
Print Assumptions C100_dropoff.

(** That the request asks for the drop-off that was quoted is false: here 0.001 eth is quoted, the request for the quoted amount would be accepted at the quoted
    price, and the one the library makes, however it rounds, is not. *)
Theorem C100_dropoff_refuted : exists evm E q ch wei a b m sender item rt, q_reachable E q /\ 0 < wei /\ wei mod 10 ^ 9 = 0 /\
  quoteDeliveryPrice evm E q (AProg PManager) ch wei = Some (a, b) /\ near_105 a b m /\
  (exists i n c charge, relay_ready E q sender item ch (wei / 10 ^ 9) m rt i n c charge) /\
  (forall d m' sender' item' rt' i n c charge, near wei d -> ~ relay_ready E q sender' item' ch d m' rt' i n c charge).
Proof.
  exists evm0, E0q, (q_at 7), 2, (10 ^ 15).
  destruct (quoteDeliveryPrice evm0 E0q (q_at 7) (AProg PManager) 2 (10 ^ 15)) as [[a b]|] eqn:Q; [|vm_compute in Q; discriminate Q].
  exists a, b, 232752352, USER, USER, (Registered 0 0 ANull). split; [apply q_at_reachable|]. split; [reflexivity|]. split; [reflexivity|]. split; [reflexivity|]. split.
  { assert (Q' : quoteDeliveryPrice evm0 E0q (q_at 7) (AProg PManager) 2 (10 ^ 15) = Some (33250336000000000000000000, 150000000000000000)) by (vm_compute; reflexivity).
    rewrite Q in Q'. injection Q' as -> ->. unfold near_105. vm_compute. discriminate. }
  split.
  - exists (Instance (QExt DEPLOYER) (QExt ASSIST) RECV 150000000), (RegNtt 0 0 500000), (RegChain 0 2000000 100000 3000000000 20000000000), 220666666.
    constructor; try (vm_compute; reflexivity); try (vm_compute; discriminate). unfold fee_fits. cbv zeta. repeat split; vm_compute; reflexivity.
  - intros d m' s' it' rt' i n c y Nr [_ _ _ _ Ch _ L _ _ _ _ _ _]. assert (C : c = RegChain 0 2000000 100000 3000000000 20000000000).
    { assert (K : q_accts (q_at 7) (QChain 2) = Some (QDChain (RegChain 0 2000000 100000 3000000000 20000000000))) by (vm_compute; reflexivity). unfold chain_at in Ch. congruence. }
    subst c. cbn [rc_max_dropoff] in L. unfold near in Nr. lia.
Qed.
Print Assumptions C100_dropoff_refuted.

(** The worked deployment before the transfer: the automatic transfer without drop-off at the quoted price succeeds; at a lower maximum, or with
    a drop-off of 0.001 eth as the library hands it over, it fails. *)
Definition q_before : qstate := q_apply E0q (QState (at_ Locking 5) (fun _ => None) (q_lamports q_start) (Some DEPLOYER)) (firstn 7 q_calls).
Definition do_automatic (q : qstate) (chain m d : Z) : result qstate :=
  submit_automatic I0 nm0 E0q USER q (with_oks (client_transfer nm0 H0 USER 1000000005 2 (repeat x09 32) false ITEM (config_of (q_world q)) PManager))
    (createRequestRelay USER ITEM (AProg PManager) chain m d).
Example C100_case :
  (match quoteDeliveryPrice evm0 E0q q_before (AProg PManager) 2 0 with Some (a, b) => near_105 a b 211752351 | None => False end) /\
  (match do_automatic q_before 2 211752351 0 with
   | Ok q => Some (q_accts q (QReq ITEM), q_lamports q (QReq ITEM), option_map tk_amount (st_toks (q_world q) custody), List.length (st_posted (q_world q)))
   | Err _ => None end) = Some (Some (QDRequest (RelayRequest 0)), 200666666, Some 1000000000, 1%nat) /\
  is_ok (do_automatic q_before 2 200666665 0) = false /\ is_ok (do_automatic q_before 2 232752352 (10 ^ 15)) = false.
Proof. unfold near_105. repeat match goal with |- _ /\ _ => split end; try (vm_compute; reflexivity). vm_compute. discriminate. Qed.

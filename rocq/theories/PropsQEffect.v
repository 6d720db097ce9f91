(** * Exact effects of the quoter's instructions (C68) and of its pricing (C69).

    As in C66 each theorem says when exactly the instruction succeeds in a reachable state, and everything it does then. *)
From Verif Require Export QEffectFacts PropsQuoter.
Local Open Scope Z_scope.

(** ** C68 *)
(** Initialisation: the upgrade authority, once; pays the rent of the instance. *)
Theorem C68_initialize : forall E q sg o r, q_reachable E q -> forallb can_sign sg = true ->
  (succeeds (q_step E q (QCall sg (QInitialize o r))) <->
   In o sg /\ r <> QExt ANull /\ q_uauth q = Some o /\ can_open E q (QExt o) QInst 112) /\
  (forall q', q_step E q (QCall sg (QInitialize o r)) = Ok q' ->
     opened E q q' (QExt o) QInst 112 (QDInstance (Instance (QExt o) (QExt ANull) r 0))).
Proof. intros E q sg o r Hr Hs. exact (q_initialize_effect E q sg Hr Hs o r). Qed.
Print Assumptions C68_initialize.

(** Changing the fee recipient: the owner; not to the default key. *)
Theorem C68_set_fee_recipient : forall E q sg a o r, q_reachable E q -> forallb can_sign sg = true ->
  (succeeds (q_step E q (QCall sg (QSetFeeRecipient a o r))) <-> (exists i, by_q_owner q sg a o i) /\ r <> QExt ANull) /\
  (forall q', q_step E q (QCall sg (QSetFeeRecipient a o r)) = Ok q' -> exists i, by_q_owner q sg a o i /\
     stored q q' QInst (QDInstance (Instance (in_owner i) (in_assistant i) r (in_sol_price i)))).
Proof. intros E q sg a o r Hr Hs. exact (q_recipient_effect E q sg Hr Hs a o r). Qed.
Print Assumptions C68_set_fee_recipient.

(** Changing the assistant: the owner; no account given stands for no assistant. *)
Theorem C68_set_assistant : forall E q sg a o x, q_reachable E q -> forallb can_sign sg = true ->
  (succeeds (q_step E q (QCall sg (QSetAssistant a o x))) <-> (exists i, by_q_owner q sg a o i)) /\
  (forall q', q_step E q (QCall sg (QSetAssistant a o x)) = Ok q' -> exists i, by_q_owner q sg a o i /\
     stored q q' QInst (QDInstance (Instance (in_owner i) (match x with Some b => b | None => QExt ANull end) (in_fee_recipient i) (in_sol_price i)))).
Proof. intros E q sg a o x Hr Hs. exact (q_assistant_effect E q sg Hr Hs a o x). Qed.
Print Assumptions C68_set_assistant.

(** Registering a chain: the owner or the assistant, who pays the rent; relaying there starts disabled. *)
Theorem C68_register_chain : forall E q sg a o ch, q_reachable E q -> forallb can_sign sg = true -> is_u16 ch ->
  (succeeds (q_step E q (QCall sg (QRegisterChain a o ch))) <-> (exists i, by_staff q sg a o i) /\ can_open E q (QExt o) (QChain ch) 41) /\
  (forall q', q_step E q (QCall sg (QRegisterChain a o ch)) = Ok q' ->
     opened E q q' (QExt o) (QChain ch) 41 (QDChain (RegChain 0 0 u64_max 0 0))).
Proof. intros E q sg a o ch Hr Hs. exact (q_register_chain_effect E q sg Hr Hs a o ch). Qed.
Print Assumptions C68_register_chain.

(** Registering a deployment. *)
Theorem C68_register_ntt : forall E q sg a o p k g, q_reachable E q -> forallb can_sign sg = true -> is_u8 k -> is_u32 g ->
  (succeeds (q_step E q (QCall sg (QRegisterNtt a o p k g))) <-> (exists i, by_staff q sg a o i) /\ can_open E q (QExt o) (QNtt p) 14) /\
  (forall q', q_step E q (QCall sg (QRegisterNtt a o p k g)) = Ok q' ->
     opened E q q' (QExt o) (QNtt p) 14 (QDNtt (RegNtt 0 k g))).
Proof. intros E q sg a o p k g Hr Hs. exact (q_register_ntt_effect E q sg Hr Hs a o p k g). Qed.
Print Assumptions C68_register_ntt.

(** Removing a deployment: its lamports go to whoever removes it. *)
Theorem C68_deregister_ntt : forall E q sg a o p, q_reachable E q -> forallb can_sign sg = true ->
  (succeeds (q_step E q (QCall sg (QDeregisterNtt a o p))) <->
   (exists i, by_staff q sg a o i) /\ (exists n, ntt_at q p n) /\ can_close q (QNtt p) (QExt o)) /\
  (forall q', q_step E q (QCall sg (QDeregisterNtt a o p)) = Ok q' -> closed q q' (QNtt p) (QExt o)).
Proof. intros E q sg a o p Hr Hs. exact (q_deregister_effect E q sg Hr Hs a o p). Qed.
Print Assumptions C68_deregister_ntt.

(** The three updates of prices and parameters. *)
Theorem C68_update_sol_price : forall E q sg a o p, q_reachable E q -> forallb can_sign sg = true -> is_u64 p ->
  (succeeds (q_step E q (QCall sg (QUpdateSolPrice a o p))) <-> (exists i, by_staff q sg a o i) /\ p <> 0) /\
  (forall q', q_step E q (QCall sg (QUpdateSolPrice a o p)) = Ok q' -> exists i, by_staff q sg a o i /\
     stored q q' QInst (QDInstance (Instance (in_owner i) (in_assistant i) (in_fee_recipient i) p))).
Proof. intros E q sg a o p Hr Hs. exact (q_price_effect E q sg Hr Hs a o p). Qed.
Print Assumptions C68_update_sol_price.

Theorem C68_update_chain_prices : forall E q sg a o x n g, q_reachable E q -> forallb can_sign sg = true -> is_u64 n -> is_u64 g ->
  (succeeds (q_step E q (QCall sg (QUpdateChainPrices a o x n g))) <-> (exists i, by_staff q sg a o i) /\ (exists ch c, x = QChain ch /\ chain_at q ch c)) /\
  (forall q', q_step E q (QCall sg (QUpdateChainPrices a o x n g)) = Ok q' -> exists ch c, x = QChain ch /\ chain_at q ch c /\
     stored q q' x (QDChain (RegChain (rc_bump c) (rc_max_dropoff c) (rc_base_price c) n g))).
Proof. intros E q sg a o x n g Hr Hs. exact (q_prices_effect E q sg Hr Hs a o x n g). Qed.
Print Assumptions C68_update_chain_prices.

Theorem C68_update_chain_params : forall E q sg a o x d b, q_reachable E q -> forallb can_sign sg = true -> is_u64 d -> is_u64 b ->
  (succeeds (q_step E q (QCall sg (QUpdateChainParams a o x d b))) <-> (exists i, by_staff q sg a o i) /\ (exists ch c, x = QChain ch /\ chain_at q ch c)) /\
  (forall q', q_step E q (QCall sg (QUpdateChainParams a o x d b)) = Ok q' -> exists ch c, x = QChain ch /\ chain_at q ch c /\
     stored q q' x (QDChain (RegChain (rc_bump c) d b (rc_native_price c) (rc_gas_price c)))).
Proof. intros E q sg a o x d b Hr Hs. exact (q_params_effect E q sg Hr Hs a o x d b). Qed.
Print Assumptions C68_update_chain_params.

(** A relay request: [relayable] lists all it needs. *)
Theorem C68_request_relay : forall E q sg payer a item d m, q_reachable E q -> forallb can_sign sg = true -> is_u64 d -> is_u64 m ->
  (succeeds (q_step E q (QCall sg (QRequestRelay payer a item d m))) <-> exists i p o n c x, relayable E q sg payer a item d m i p o n c x) /\
  (forall q', q_step E q (QCall sg (QRequestRelay payer a item d m)) = Ok q' -> exists i p o n c x, relayable E q sg payer a item d m i p o n c x /\
     request_at q' item (RelayRequest d) /\ only_acct (QReq item) q q' /\
     moved q q' (QExt payer) (QReq item) (x - Z.min (q_lamports q (QReq item)) (request_rent E))).
Proof. intros E q sg payer a item d m Hr Hs. exact (q_request_effect E q sg Hr Hs payer a item d m). Qed.
Print Assumptions C68_request_relay.

(** Closing a request: all of its lamports go to the fee recipient. *)
Theorem C68_close_relay : forall E q sg a o r x, q_reachable E q -> forallb can_sign sg = true ->
  (succeeds (q_step E q (QCall sg (QCloseRelay a o r x))) <->
   exists i item d, by_staff q sg a o i /\ r = in_fee_recipient i /\ x = QReq item /\ request_at q item d /\ can_close q x r) /\
  (forall q', q_step E q (QCall sg (QCloseRelay a o r x)) = Ok q' -> closed q q' x r).
Proof. intros E q sg a o r x Hr Hs. exact (q_close_relay_effect E q sg Hr Hs a o r x). Qed.
Print Assumptions C68_close_relay.

(** No instruction makes or destroys lamports: over any history, on every list of addresses that contains those touched. *)
Theorem C68_conserved : forall E q tr q', q_reachable E q -> q_run E q tr q' ->
  exists t, (forall a, ~ In a t -> q_lamports q' a = q_lamports q a) /\ (forall l, NoDup l -> incl t l -> lamports_of q' l = lamports_of q l).
Proof. exact run_conserved. Qed.
Print Assumptions C68_conserved.

(** The worked deployment: each instruction once (C49-C52), and here one spoiled condition each: initialising with the default recipient, twice;
    a chain and a deployment already registered; an account that is not a chain's; a payer without lamports; a request whose registered index is
    outside the bitmap; closing in favour of someone else. *)
Definition q_index (k : Z) : qstate := q_apply E0q (q_at 7) [QCall [ASSIST] (QDeregisterNtt QInst ASSIST (AProg PManager)); QCall [ASSIST] (QRegisterNtt QInst ASSIST (AProg PManager) k 500000)].
Example C68_case : let req := QCall [USER] (QRequestRelay USER QInst ITEM 1000000 300000000) in
  map (q_ok_at 0) [QCall [DEPLOYER] (QInitialize DEPLOYER (QExt ANull)); QCall [] (QInitialize DEPLOYER RECV); QCall [DEPLOYER] (QInitialize DEPLOYER RECV)] = [false; false; true] /\
  map (q_ok_at 7) [QCall [DEPLOYER] (QInitialize DEPLOYER RECV); QCall [ASSIST] (QRegisterChain QInst ASSIST 2); QCall [ASSIST] (QRegisterChain QInst ASSIST 3);
    QCall [ASSIST] (QRegisterNtt QInst ASSIST (AProg PManager) 1 1); QCall [ASSIST] (QUpdateChainPrices QInst ASSIST QInst 1 1); QCall [ASSIST] (QUpdateChainPrices QInst ASSIST (QChain 2) 1 1);
    QCall [ASSIST] (QUpdateSolPrice QInst ASSIST 0); QCall [AProg PManager] (QRequestRelay (AProg PManager) QInst ITEM 1000000 300000000); req] =
    [false; false; true; false; false; true; false; false; true] /\
  map (fun k => is_ok (q_step E0q (q_index k) req)) [0; 1; 128] = [true; false; false] /\
  map (q_ok_at 8) [QCall [ASSIST] (QCloseRelay QInst ASSIST (QExt USER) (QReq ITEM)); QCall [ASSIST] (QCloseRelay QInst ASSIST RECV (QReq ITEM))] = [false; true] /\
  (** rent of the new accounts, paid by whoever asked *)
  (q_lamports (q_at 4) (QExt DEPLOYER), q_lamports (q_at 4) (QExt ASSIST)) = (1000000000 - 6960 * 240, 1000000000 - 6960 * (169 + 142)) /\
  lamports_of (q_at 9) [QExt USER; QExt DEPLOYER; QExt ASSIST; RECV; QInst; QChain 2; QNtt (AProg PManager); QReq ITEM] = 4000000000.
Proof. cbv zeta. repeat match goal with |- _ /\ _ => split end; vm_compute; reflexivity. Qed.

(** ** C69 *)
(** The price of a relay never falls when the destination's prices, the gas, the drop-off or the base price rise, or the price of sol falls. *)
Theorem C69_monotone : forall s s' n n' g g' b b' k k' d d', 0 < s' <= s -> 0 <= n <= n' -> 0 <= g <= g' -> 0 <= b <= b' -> 0 <= k <= k' -> 0 <= d <= d' ->
  fee_formula s n g b k d <= fee_formula s' n' g' b' k' d'.
Proof. exact fee_monotone. Qed.
Print Assumptions C69_monotone.

(** All rounding is in favour of the payer, by less than one lamport plus the value of one gwei and of 10^-6 usd. *)
Theorem C69_rounding : forall s n g b k d, 0 < s -> 0 <= n -> 0 <= g -> 0 <= b -> 0 <= k -> 0 <= d ->
  let f := fee_formula s n g b k d in let x := fee_numerator n g b k d in
  f * (10 ^ 9 * s) <= x /\ x < (f + 1) * (10 ^ 9 * s) + (n * 10 ^ 9 + 10 ^ 18).
Proof. exact fee_rounding. Qed.
Print Assumptions C69_rounding.

Example C69_case : fee_formula 150000000 3000000000 20000000000 100000 500000 1000000 = 220666666 /\
  fee_numerator 3000000000 20000000000 100000 500000 1000000 / (10 ^ 9 * 150000000) = 220666666 /\
  fee_formula 150000000 3000000000 20000000001 100000 500000 1000001 = 220666686 /\
  (** the bound cannot be dropped: 3 lamports are lost to the first two roundings *)
  fee_formula 1000000000 3999999999 999999999 0 1 0 = 0 /\ fee_numerator 3999999999 999999999 0 1 0 / (10 ^ 9 * 1000000000) = 3 /\
  (** the whole fee of a disabled chain would not fit *)
  ~ fee_fits 1 0 0 u64_max 0 0.
Proof. unfold fee_fits. cbv zeta. repeat match goal with |- _ /\ _ => split end; try (vm_compute; reflexivity). intros (_ & _ & K). vm_compute in K. discriminate. Qed.

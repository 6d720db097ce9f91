(** * What the client library's instructions mean to the quoter (C98), and its prices (C99). *)
From Verif Require Export QBuilder SpecQEffect SpecTx.
Import ListNotations.
Local Open Scope Z_scope.

(** As in SpecBuilder.v: the accounts [ms], with their privileges or more, and any further ones behind. *)
Definition q_at_least (ms ms' : list qmeta) : Prop :=
  exists l r, ms' = l ++ r /\
    Forall2 (fun m m' => qm_key m' = qm_key m /\ (qm_signer m = true -> qm_signer m' = true) /\ (qm_writable m = true -> qm_writable m' = true)) ms l.
(** The library builds an instruction, and for the quoter this is instruction [i] in state [q]. *)
Definition q_means (I : qids) (nm : bytes -> addr) (E : qenv) (q : qstate) (b : option qix) (i : qinstr) : Prop :=
  exists x, b = Some x /\ forall ms, q_at_least (qx_metas x) ms ->
    forall q', q_entry I nm E q ms (qx_data x) = Ok q' <-> q_step E q (QCall (q_signers_of ms) i) = Ok q'.
Definition q_wants (b : option qix) (l : list addr) : Prop := exists x, b = Some x /\ forall a, q_given_signer (qx_metas x) a <-> In a l.
(** Whatever is sent of what the library builds, the quoter refuses. *)
Definition q_futile (I : qids) (nm : bytes -> addr) (E : qenv) (q : qstate) (b : option qix) : Prop :=
  forall x ms q', b = Some x -> q_at_least (qx_metas x) ms -> q_entry I nm E q ms (qx_data x) <> Ok q'.

(** A number the library can hand over or take in without an error. *)
Definition js_safe (z : Z) : Prop := 0 <= z < 2 ^ 53.
Definition js_chain (c : reg_chain) : Prop := js_safe (rc_max_dropoff c) /\ js_safe (rc_base_price c) /\ js_safe (rc_native_price c) /\ js_safe (rc_gas_price c).

(** Results of floating-point computations: within a thousandth of [z], so exact below 1000; within one percent of [1.05 * n / d]. *)
Definition near (z r : Z) : Prop := 1000 * Z.abs (r - z) <= z.
Definition near_105 (n d r : Z) : Prop := Z.abs (100 * r * d - 105 * n) <= n.

(** The price of a relay with a drop-off of [wei], not rounded, is [fee_numerator_wei / (10^9 * sol_price)] lamports. *)
Definition fee_numerator_wei (native_price gas_price base_price gas_cost wei : Z) : Z :=
  native_price * (wei + gas_price * gas_cost) + base_price * 10 ^ 18.

(** What the quoter adds to the conditions of a transfer when the relay is requested with it: [charge] is what it costs, in terms of the state before
    the transaction. The message must go out at once, by the transceiver whose number is registered with the quoter. *)
Record relay_ready (E : qenv) (q : qstate) (sender item : addr) (ch dropoff max_fee : Z) (rt : registered addr) (i : instance qaddr) (n : reg_ntt) (c : reg_chain) (charge : Z) : Prop := {
  rr_instance : instance_at q i;
  rr_price : in_sol_price i <> 0;
  rr_ntt : ntt_at q (AProg PManager) n;
  rr_index : rn_index n = rt_id rt;
  rr_chain : chain_at q ch c;
  rr_enabled : rc_base_price c <> u64_max;
  rr_allowed : dropoff <= rc_max_dropoff c;
  rr_new : q_accts q (QReq item) = None;
  rr_fits : fee_fits (in_sol_price i) (rc_native_price c) (rc_gas_price c) (rc_base_price c) (rn_gas_cost n) dropoff;
  rr_charge : charge = Z.max (fee_formula (in_sol_price i) (rc_native_price c) (rc_gas_price c) (rc_base_price c) (rn_gas_cost n) dropoff) (request_rent E);
  rr_max : charge <= max_fee;
  rr_funds : charge - Z.min (q_lamports q (QReq item)) (request_rent E) <= q_lamports q (QExt sender);
  rr_room : q_lamports q (QReq item) + (charge - Z.min (q_lamports q (QReq item)) (request_rent E)) <= u64_max }.

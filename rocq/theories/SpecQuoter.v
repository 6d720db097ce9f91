(** * Specification vocabulary for the relay quoter. *)
From Verif Require Export Quoter Flow.
Local Open Scope Z_scope.

(** The published price. Gas is priced in wei per unit, drop-off in gwei, prices in 10^-6 usd per whole token; the result is in
    lamports. Three roundings down: gas cost to gwei, destination cost to 10^-6 usd, total to lamports. *)
Definition gas_gwei (gas_price gas_cost : Z) : Z := gas_price * gas_cost / 10 ^ 9.
Definition cost_usd (native_price gwei : Z) : Z := native_price * gwei / 10 ^ 9.
Definition fee_formula (sol_price native_price gas_price base_price gas_cost dropoff : Z) : Z :=
  (cost_usd native_price (dropoff + gas_gwei gas_price gas_cost) + base_price) * 10 ^ 9 / sol_price.
(** Every value computed on the way fits 64 bits. *)
Definition fee_fits (sol_price native_price gas_price base_price gas_cost dropoff : Z) : Prop :=
  let gwei := dropoff + gas_gwei gas_price gas_cost in
  let usd := cost_usd native_price gwei + base_price in
  gwei < 2 ^ 64 /\ usd < 2 ^ 64 /\ usd * 10 ^ 9 / sol_price < 2 ^ 64.

(** Accounts by contents. *)
Definition instance_at (q : qstate) (i : instance qaddr) : Prop := q_accts q QInst = Some (QDInstance i).
Definition chain_at (q : qstate) (ch : Z) (c : reg_chain) : Prop := q_accts q (QChain ch) = Some (QDChain c).
Definition ntt_at (q : qstate) (program : addr) (n : reg_ntt) : Prop := q_accts q (QNtt program) = Some (QDNtt n).
Definition request_at (q : qstate) (item : addr) (r : relay_request) : Prop := q_accts q (QReq item) = Some (QDRequest r).

(** Who signed. *)
Definition owner_signed (q : qstate) (sg : list addr) : Prop := exists i o, instance_at q i /\ in_owner i = QExt o /\ In o sg.
Definition staff_signed (q : qstate) (sg : list addr) : Prop :=
  exists i o, instance_at q i /\ (in_owner i = QExt o \/ in_assistant i = QExt o) /\ In o sg.

(** Rent-exempt minimum of a request account. *)
Definition request_rent (E : qenv) : Z := qe_rent E 16.

(** What a successful relay request looked at and did. [paid] is what left the payer. *)
Record relayed (E : qenv) (q : qstate) (sg : list addr) (payer item : addr) (dropoff max_fee : Z) (q' : qstate)
  (i : instance qaddr) (p : prog) (o : outbox_item addr) (n : reg_ntt) (c : reg_chain) (fee paid : Z) : Prop := {
  rl_signed : In payer sg;
  rl_instance : instance_at q i;
  rl_price : in_sol_price i <> 0;
  rl_item : st_accts (q_world q) item = Some (Acct p (DOutboxItem o));
  rl_ntt : ntt_at q (AProg p) n;
  rl_published : Z.testbit (ob_released o) (rn_index n) = true;
  rl_chain : chain_at q (ob_chain o) c;
  rl_enabled : rc_base_price c <> u64_max;
  rl_dropoff : dropoff <= rc_max_dropoff c;
  rl_fits : fee_fits (in_sol_price i) (rc_native_price c) (rc_gas_price c) (rc_base_price c) (rn_gas_cost n) dropoff;
  rl_fee : fee = fee_formula (in_sol_price i) (rc_native_price c) (rc_gas_price c) (rc_base_price c) (rn_gas_cost n) dropoff;
  rl_max : Z.max fee (request_rent E) <= max_fee;
  rl_new : q_accts q (QReq item) = None;
  rl_request : request_at q' item (RelayRequest dropoff);
  rl_paid : paid = Z.max fee (request_rent E) - Z.min (q_lamports q (QReq item)) (request_rent E);
  rl_payer : q_lamports q' (QExt payer) = q_lamports q (QExt payer) - paid;
  rl_held : q_lamports q' (QReq item) = q_lamports q (QReq item) + paid;
  rl_rest : (forall a, a <> QReq item -> q_accts q' a = q_accts q a) /\
            (forall a, a <> QReq item -> a <> QExt payer -> q_lamports q' a = q_lamports q a) /\
            q_world q' = q_world q /\ q_uauth q' = q_uauth q }.

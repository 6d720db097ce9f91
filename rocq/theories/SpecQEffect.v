(** * Vocabulary of the exact effects of the quoter's instructions (C68). *)
From Verif Require Export SpecQuoter.
Local Open Scope Z_scope.

(** The owner or the assistant of the quoter, who signs. *)
Definition by_staff (q : qstate) (sg : list addr) (inst : qaddr) (who : addr) (i : instance qaddr) : Prop :=
  inst = QInst /\ instance_at q i /\ In who sg /\ (in_owner i = QExt who \/ in_assistant i = QExt who).
Definition by_q_owner (q : qstate) (sg : list addr) (inst : qaddr) (who : addr) (i : instance qaddr) : Prop :=
  inst = QInst /\ instance_at q i /\ In who sg /\ in_owner i = QExt who.

(** Only the account [a] may differ; the other programs and the upgrade authority do not. *)
Definition only_acct (a : qaddr) (q q' : qstate) : Prop :=
  (forall b, b <> a -> q_accts q' b = q_accts q b) /\ q_world q' = q_world q /\ q_uauth q' = q_uauth q.
(** Exactly [x] lamports went from [src] to [dst]. *)
Definition moved (q q' : qstate) (src dst : qaddr) (x : Z) : Prop :=
  q_lamports q' src = q_lamports q src - x /\ q_lamports q' dst = q_lamports q dst + x /\
  (forall b, b <> src -> b <> dst -> q_lamports q' b = q_lamports q b).
Definition same_money (q q' : qstate) : Prop := forall b, q_lamports q' b = q_lamports q b.

(** What the payer of a new account of [size] bytes at [a] lays out: what is missing to the rent-exempt minimum. *)
Definition rent_due (E : qenv) (q : qstate) (a : qaddr) (size : Z) : Z := Z.max 0 (qe_rent E size - q_lamports q a).
Definition can_open (E : qenv) (q : qstate) (payer a : qaddr) (size : Z) : Prop :=
  q_accts q a = None /\ rent_due E q a size <= q_lamports q payer.
Definition opened (E : qenv) (q q' : qstate) (payer a : qaddr) (size : Z) (d : qdata) : Prop :=
  q_accts q' a = Some d /\ only_acct a q q' /\ moved q q' payer a (rent_due E q a size).
Definition stored (q q' : qstate) (a : qaddr) (d : qdata) : Prop :=
  q_accts q' a = Some d /\ only_acct a q q' /\ same_money q q'.
Definition can_close (q : qstate) (a dst : qaddr) : Prop := a <> dst /\ q_lamports q dst + q_lamports q a <= u64_max.
Definition closed (q q' : qstate) (a dst : qaddr) : Prop :=
  q_accts q' a = None /\ only_acct a q q' /\ moved q q' a dst (q_lamports q a).

(** What a relay request needs. *)
Record relayable (E : qenv) (q : qstate) (sg : list addr) (payer : addr) (inst : qaddr) (item : addr) (dropoff max_fee : Z)
  (i : instance qaddr) (p : prog) (o : outbox_item addr) (n : reg_ntt) (c : reg_chain) (charge : Z) : Prop := {
  ra_signed : In payer sg;
  ra_instance : inst = QInst /\ instance_at q i;
  ra_price : in_sol_price i <> 0;
  ra_item : st_accts (q_world q) item = Some (Acct p (DOutboxItem o));
  ra_ntt : ntt_at q (AProg p) n;
  ra_index : rn_index n < 128;
  ra_published : Z.testbit (ob_released o) (rn_index n) = true;
  ra_chain : chain_at q (ob_chain o) c;
  ra_enabled : rc_base_price c <> u64_max;
  ra_dropoff : dropoff <= rc_max_dropoff c;
  ra_new : q_accts q (QReq item) = None;
  ra_fits : fee_fits (in_sol_price i) (rc_native_price c) (rc_gas_price c) (rc_base_price c) (rn_gas_cost n) dropoff;
  ra_charge : charge = Z.max (fee_formula (in_sol_price i) (rc_native_price c) (rc_gas_price c) (rc_base_price c) (rn_gas_cost n) dropoff) (request_rent E);
  ra_max : charge <= max_fee;
  ra_funds : charge - Z.min (q_lamports q (QReq item)) (request_rent E) <= q_lamports q (QExt payer);
  ra_room : q_lamports q (QReq item) + (charge - Z.min (q_lamports q (QReq item)) (request_rent E)) <= u64_max }.

(** Lamports held together by the addresses of a list. *)
Definition lamports_of (q : qstate) (l : list qaddr) : Z := fold_right (fun a n => q_lamports q a + n) 0 l.

(** The unrounded fee is [fee_numerator / (10^9 * sol_price)] lamports. *)
Definition fee_numerator (native_price gas_price base_price gas_cost dropoff : Z) : Z :=
  native_price * (dropoff * 10 ^ 9 + gas_price * gas_cost) + base_price * 10 ^ 18.

(** * When the two sides mean the same transfer. *)
From Verif Require Export SpecWire WireFacts Evm.
Local Open Scope Z_scope.

(** The amount, as a number of units and a number of decimals. *)
Definition same_amount (x : trimmed) (v : Z) : Prop := e_amount v = ta_amount x /\ e_decimals v = ta_decimals x.

(** All that a transfer says: both managers, the identifier and the sender, amount, token, recipient and chain. *)
Definition same_transfer (m : std_tmsg) (t : e_tm) (n : e_nmm) (p : e_ntt) : Prop :=
  let d := t_data m in let q := m_payload (t_nmm d) in
  t_source d = et_source t /\ t_recipient d = et_recipient t /\
  m_id (t_nmm d) = en_id n /\ m_sender (t_nmm d) = en_sender n /\
  same_amount (n_amount q) (ee_amount p) /\
  n_source_token q = ee_token p /\ n_to q = ee_to p /\ n_to_chain q = ee_chain p.

(** The payload of the manager's message is a transfer without an additional payload: the 79 bytes of docs/NttManager.md. *)
Definition e_plain (n : e_nmm) : Prop := length (en_payload n) = 79%nat.

(** A message of Solana in the EVM side's terms. *)
Definition e_of (m : std_tmsg) : e_ntt :=
  let q := m_payload (t_nmm (t_data m)) in
  ENtt (e_pack (ta_amount (n_amount q)) (ta_decimals (n_amount q))) (n_source_token q) (n_to q) (n_to_chain q) [].

(** The mode as a Solidity enumeration. *)
Definition e_mode (m : mode) : Z := match m with Locking => 0 | Burning => 1 end.

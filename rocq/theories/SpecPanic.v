(** * Where the programs can panic (C86). *)
From Verif Require Export SpecSupply SpecQuoter.
Import ListNotations.
Local Open Scope Z_scope.

(** The rate limiters an instruction measures against. *)
Definition metered_by (s : state) (i : instr) : list addr :=
  match i with
  | ITransferLock x a | ITransferBurn x a => [xa_outbox_rl x; pda_inbox_rl (ar_chain a)]
  | IRedeem x => match st_accts s (ra_message x) with Some (Acct _ (DVtm ch _)) => [ra_outbox_rl x; pda_inbox_rl ch] | _ => [] end
  | ISetOutboundLimit _ _ r _ => [r]
  | ISetInboundLimit _ _ ch _ => [pda_inbox_rl ch]
  | _ => []
  end.
Definition limiter_at (s : state) (a : addr) (r : rl) : Prop := has s a PManager (DOutboxRL r) \/ has s a PManager (DInboxRL r).
(** The clock is behind the last use of one of them, or so late that the end of the delay cannot be expressed. *)
Definition out_of_time (s : state) (i : instr) : Prop :=
  exists a r, In a (metered_by s i) /\ limiter_at s a r /\ (st_now s < rl_last r \/ i64_max < st_now s + day).

(** initialize in burning mode for a mint nobody can mint from, by the right deployer, at the right time. *)
Definition no_mint_authority (s : state) (c : call) : Prop :=
  exists d mnt tp ch l m, ins c = IInitialize d mnt tp ch l Burning /\ st_mints s mnt = Some m /\ mt_auth m = None /\
    In d (signers c) /\ d = match st_uauth s with Some a => a | None => ANull end /\ is_token_prog tp = true /\
    free s pda_config = true /\ free s pda_outbox_rl = true.

(** The clock of a history never goes back, starting from a time that is not negative. *)
Fixpoint forward (tr : list ev) : Prop :=
  match tr with [] => True | e :: tr => st_now (e_pre e) <= st_now (e_post e) /\ forward tr end.

(** A fee one of whose two sums exceeds 64 bits. *)
Definition sum_overflows (q : qstate) (c : qcall) : Prop :=
  exists payer inst item d m i p o n ch, q_ins c = QRequestRelay payer inst item d m /\ instance_at q i /\
    st_accts (q_world q) item = Some (Acct p (DOutboxItem o)) /\ ntt_at q (AProg p) n /\ chain_at q (ob_chain o) ch /\
    let gwei := d + gas_gwei (rc_gas_price ch) (rn_gas_cost n) in
    2 ^ 64 <= gwei \/ 2 ^ 64 <= cost_usd (rc_native_price ch) gwei + rc_base_price ch.
(** More lamports than 64 bits hold. *)
Definition too_rich (q : qstate) (c : qcall) : Prop :=
  exists src dst, 2 ^ 64 <= q_lamports q dst + q_lamports q src /\
    ((exists inst au, q_ins c = QCloseRelay inst au dst src) \/ (exists inst au p, q_ins c = QDeregisterNtt inst au p /\ src = QNtt p /\ dst = QExt au)).

(** * Governance messages to the manager and the stand-alone transceiver.

    Governance.v leaves open what a called program does; here the calls to the two programs run their entry points (Entry.v) on the accounts and
    data of the message, as [invoke_signed] hands them over (programs/wormhole-governance/src/instructions/governance.rs:455-482). What other
    programs do stays open. *)
From Verif Require Export Governed Entry.
Import ListNotations.
Local Open Scope Z_scope.

(** Which account a 32-byte string is, which address it is as a value in the data, and the ids of the programs (lib.rs:36, ntt-transceiver lib.rs:8,
    [declare_id!]). *)
Record gnames := GNames { gn_account : bytes -> handle; gn_value : bytes -> addr; gn_id : program -> bytes }.

(** The accounts as the called program sees them. *)
Definition metas_of (N : gnames) (l : list acc) : list meta := map (fun a => Meta (gn_account N (ac_key a)) (ac_signer a) (ac_writable a)) (merge l).

(** A call of a program. [ok] answers for the programs that the called program calls in turn, [others] is what other programs do. *)
Definition world_call (N : gnames) (H : hashes) (ok : state -> gix -> bool) (others : state -> gix -> result state) (w : state) (ix : gix) : result state :=
  let run p := entry (gn_value N) (ok w ix) H w p (metas_of N (ix_accounts ix)) (ix_data ix) in
  if bytes_eqb (ix_program ix) (gn_id N AManager) then run AManager
  else if bytes_eqb (ix_program ix) (gn_id N ATransceiver) then run ATransceiver
  else others w ix.
Definition world_env (N : gnames) (H : hashes) (ok : state -> gix -> bool) (others : state -> gix -> result state)
  (address : purpose -> bytes) (posted : state -> bytes -> option vaa) (executable : state -> bytes -> bool) : genv state :=
  GEnv state address posted executable (world_call N H ok others).

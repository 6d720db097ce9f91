(** * What the client library's instructions mean to the programs (C96). *)
From Verif Require Export Builder SpecEntry SpecTransfer.
Import ListNotations.
Local Open Scope Z_scope.

(** The accounts [ms], with their privileges or more, and any further ones behind: what reaches the program when other instructions of the
    transaction ask for more privileges and a transfer hook asks for more accounts. *)
Definition at_least (ms ms' : list meta) : Prop :=
  exists l r, ms' = l ++ r /\
    Forall2 (fun m m' => me_key m' = me_key m /\ (me_signer m = true -> me_signer m' = true) /\ (me_writable m = true -> me_writable m' = true)) ms l.

(** The library builds an instruction, and for the program it called this is instruction [i] in state [s]. *)
Definition means (nm : bytes -> addr) (ok : bool) (H : hashes) (s : state) (b : option ix) (i : instr) : Prop :=
  exists x, b = Some x /\ forall ms, at_least (ix_metas x) ms ->
    forall s', entry nm ok H s (ix_program x) ms (ix_data x) = Ok s' <-> step H s (Call (signers_of ms) i) = Ok s'.

(** The addresses whose signatures it asks for. *)
Definition wants (b : option ix) (l : list addr) : Prop := exists x, b = Some x /\ forall a, given_signer (ix_metas x) a <-> In a l.

(** The accounts the library has fetched. *)
Definition fetched (s : state) (c : config addr) : Prop := st_accts s pda_config = Some (Acct PManager (DConfig c)).

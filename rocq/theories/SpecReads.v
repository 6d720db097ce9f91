(** * Vocabulary of the properties of the client library's reads (C103, C104). *)
From Verif Require Export Reads SpecTx.
Local Open Scope Z_scope.

(** How far the transfer whose inbox item is at [a] has come. *)
Definition stage (s : state) (a : addr) : progress :=
  match status_at s a with
  | None => RAttested
  | Some NotApproved => RInitiated
  | Some (ReleaseAfter t) => RQueued t
  | Some Released => RFinalized
  end.
(** The times of JavaScript's exact numbers, in seconds: 285 million years. *)
Definition timely (s : state) (a : addr) : Prop := forall t, status_at s a = Some (ReleaseAfter t) -> Z.abs t < 2 ^ 53.
Inductive stage_le : progress -> progress -> Prop :=
  | SL_start r : stage_le RAttested r
  | SL_wait t : stage_le (RQueued t) (RQueued t)
  | SL_paid t : stage_le (RQueued t) RFinalized
  | SL_end : stage_le RFinalized RFinalized.

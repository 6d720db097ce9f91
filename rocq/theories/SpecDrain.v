(** * Vocabulary of what can be lost within a day (C111). *)
From Verif Require Export SpecWindow.
Import ListNotations.
Local Open Scope Z_scope.

(** What a payout pays for an item that was scheduled in [s] already. *)
Definition waited (s : state) (e : ev) : Z :=
  match payout e with
  | Some a => match scheduled s a with Some _ => amount_of (e_pre e) a | None => 0 end
  | None => 0
  end.
(** What the limiters of the chains [chs] have to give together at [t0] and up to [t1], in units of a token per day. *)
Definition given (lim : Z -> rl) (t0 t1 : Z) (chs : list Z) : Z :=
  fold_right (fun ch n => room (lim ch) t0 + (t1 - t0) * rl_limit (lim ch) + n) 0 chs.
(** All messages delivered in [tr] came from the chains [chs]. *)
Definition from_chains (chs : list Z) (tr : list ev) : Prop := forall e p ch nm, In e tr -> delivery e p ch nm -> In ch chs.

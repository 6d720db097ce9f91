(** * Vocabulary of who can have whose transfer delayed (C112). *)
From Verif Require Export SpecWindow.
Import ListNotations.
Local Open Scope Z_scope.

(** The clock does not go back in [tr]. *)
Definition onward (tr : list ev) : Prop := forall e, In e tr -> st_now (e_pre e) <= st_now (e_post e).
(** Event [e] is a transfer to chain [ch], the delivery of a message from there, or the owner's setting of its peer or limit. *)
Definition concerns (ch : Z) (e : ev) : Prop :=
  (exists md x a, transfer_of (ins (e_call e)) = Some (md, x, a) /\ ar_chain a = ch) \/ (exists p nm, delivery e p ch nm) \/ sets_inbound ch (ins (e_call e)).

(** * Vocabulary of what happens after a peer is replaced (C114). *)
From Verif Require Export SpecWindow.
Local Open Scope Z_scope.

(** The owner's instruction that names the manager on chain [ch]. *)
Definition sets_peer (ch : Z) (i : instr) : Prop := exists cfg o a l d, i = ISetPeer cfg o ch a l d.
(** The contract on chain [ch] whose messages transceiver [p] takes. *)
Definition emitter_at (s : state) (p : prog) (ch : Z) (a : addr) : Prop := exists b, st_accts s (pda_xpeer p ch) = Some (Acct p (DXPeer (XPeer b a))).

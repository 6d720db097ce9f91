(** * The surroundings of lookup tables and quoter: C89. *)
From Verif Require Export PlatformFacts PropsLut PropsQuoter.
Import ListNotations.
Local Open Scope Z_scope.

(** Tables are made and changed exactly as the lookup table program's rules say. *)
Theorem C89_tables : forall H l c l', of_tables (l_ins c) -> l_step H l c = Ok l' <-> forallb can_sign (l_signers c) = true /\ table_rule l (l_signers c) (l_ins c) l'.
Proof. exact tables_iff. Qed.
Print Assumptions C89_tables.

(** Besides its instructions and the other programs' steps, lamports are sent, and the quoter's upgrade authority passed on, exactly by these rules. *)
Theorem C89_only : forall E q c q', q_reachable E q -> beside_quoter (q_ins c) -> q_step E q c = Ok q' -> forallb can_sign (q_signers c) = true /\ quoter_rule q (q_signers c) (q_ins c) q'.
Proof. exact beside_only. Qed.
Print Assumptions C89_only.
Theorem C89_can : forall E q c q', q_reachable E q -> beside_quoter (q_ins c) -> forallb can_sign (q_signers c) = true -> quoter_rule q (q_signers c) (q_ins c) q' ->
  exists q1, q_step E q c = Ok q1 /\ same_state q1 q'.
Proof. exact beside_can. Qed.
Print Assumptions C89_can.

(** A life of a table: two calls of each kind, the one refused, the other not. Slot 99 is not recent. *)
Definition mine : addr := lut_at USER 100.
Definition life : list lcall :=
  [LCall [RCPT] (LCreate USER RCPT 100); LCall [USER] (LExtend mine USER [RCPT; MINT]); LCall [USER] (LDeactivate mine USER); LCall [USER] (LClose mine USER)].
Definition l_tries (k : nat) (cs : list lcall) : list bool := map (fun c => is_ok (l_step H0 (l_apply (firstn k life)) c)) cs.
Example C89_tables_case :
  map (fun k => l_tabs (l_apply (firstn k life)) mine) [0; 1; 2; 3; 4]%nat =
    [None; Some (Table (Some USER) true []); Some (Table (Some USER) true [RCPT; MINT]); Some (Table (Some USER) false [RCPT; MINT]); None] /\
  l_tries 0 [LCall [RCPT] (LCreate USER RCPT 99); LCall [USER] (LCreate USER RCPT 100); LCall [USER] (LExtend mine USER [RCPT])] = [false; false; false] /\
  l_tries 1 [LCall [RCPT] (LExtend mine USER [RCPT]); LCall [RCPT] (LExtend mine RCPT [RCPT]); LCall [USER] (LExtend mine USER []); LCall [USER] (LFreeze mine USER); LCall [USER] (LClose mine USER)] =
    [false; false; false; false; false] /\
  l_tries 1 [LCall [USER] (LExtend mine USER (repeat RCPT 257)); LCall [USER] (LExtend mine USER (repeat RCPT 256)); LCall [RCPT] (LCreate USER RCPT 100)] = [false; true; true] /\
  l_tries 3 [LCall [USER] (LExtend mine USER [RCPT]); LCall [USER] (LFreeze mine USER); LCall [USER] (LDeactivate mine USER)] = [false; false; false] /\
  l_tries 2 [LCall [USER] (LFreeze mine USER)] = [true].
Proof. vm_compute. repeat split. Qed.
Example C89_case : let tries l := map (fun c => is_ok (q_step E0q (q_at 7) c)) l in
  tries [QCall [RCPT] (QSend RCPT (QReq ITEM) 1000000000); QCall [RCPT] (QSend RCPT (QReq ITEM) 1000000001); QCall [USER] (QSend RCPT (QReq ITEM) 1); QCall [RCPT] (QSend RCPT (QExt RCPT) 1000000000)] =
    [true; false; false; true] /\
  tries [QCall [DEPLOYER] (QSetUpgradeAuthority DEPLOYER None); QCall [USER] (QSetUpgradeAuthority DEPLOYER None); QCall [USER] (QSetUpgradeAuthority USER None)] = [true; false; false] /\
  q_lamports q_prefunded (QReq ITEM) = 1000000 /\ q_lamports q_prefunded (QExt RCPT) = 999000000.
Proof. vm_compute. repeat split. Qed.

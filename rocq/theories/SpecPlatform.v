(** * What surrounds the lookup tables and the quoter (C89): one rule per operation of the lookup table program, of lamports and of the loader. *)
From Verif Require Export Lut Quoter.
Import ListNotations.
Local Open Scope Z_scope.

Definition with_table (l : lstate) (a : addr) (t : option table) : lstate := LState (l_world l) (upd (l_tabs l) a t) (l_recent l).
(** Anybody may pay for the table of anybody, at the address given by its authority and a recent slot; only the authority changes it afterwards. A frozen
    table has no authority. *)
Inductive table_rule (l : lstate) (sg : list addr) : linstr -> lstate -> Prop :=
  | T_new a p slot : In p sg -> is_u64 slot -> l_recent l slot = true -> l_tabs l (lut_at a slot) = None ->
      table_rule l sg (LCreate a p slot) (with_table l (lut_at a slot) (Some (Table (Some a) true [])))
  | T_there a p slot t : In p sg -> is_u64 slot -> l_recent l slot = true -> l_tabs l (lut_at a slot) = Some t -> table_rule l sg (LCreate a p slot) l
  | T_extend tab a es new : In a sg -> l_tabs l tab = Some (Table (Some a) true es) -> new <> [] -> (length es + length new <= 256)%nat ->
      table_rule l sg (LExtend tab a new) (with_table l tab (Some (Table (Some a) true (es ++ new))))
  | T_freeze tab a es : In a sg -> l_tabs l tab = Some (Table (Some a) true es) -> es <> [] ->
      table_rule l sg (LFreeze tab a) (with_table l tab (Some (Table None true es)))
  | T_deactivate tab a es : In a sg -> l_tabs l tab = Some (Table (Some a) true es) ->
      table_rule l sg (LDeactivate tab a) (with_table l tab (Some (Table (Some a) false es)))
  | T_close tab a es : In a sg -> l_tabs l tab = Some (Table (Some a) false es) -> table_rule l sg (LClose tab a) (with_table l tab None)
  | T_slots f : table_rule l sg (LRecent f) (LState (l_world l) (l_tabs l) f).
Definition of_tables (i : linstr) : Prop := match i with LInit _ _ | LWorld _ => False | _ => True end.

(** Lamports are sent by their holder, the receiver's balance has to stay within 64 bits; the upgrade authority is passed on by itself. *)
Inductive quoter_rule (q : qstate) (sg : list addr) : qinstr -> qstate -> Prop :=
  | Q_send a b x q' : In a sg -> is_u64 x -> x <= q_lamports q (QExt a) -> QExt a <> b -> q_lamports q b + x <= u64_max ->
      q_lamports q' (QExt a) = q_lamports q (QExt a) - x -> q_lamports q' b = q_lamports q b + x ->
      (forall c, c <> QExt a -> c <> b -> q_lamports q' c = q_lamports q c) -> q_world q' = q_world q -> q_accts q' = q_accts q -> q_uauth q' = q_uauth q ->
      quoter_rule q sg (QSend a b x) q'
  | Q_send_itself a x q' : In a sg -> is_u64 x -> x <= q_lamports q (QExt a) ->
      (forall c, q_lamports q' c = q_lamports q c) -> q_world q' = q_world q -> q_accts q' = q_accts q -> q_uauth q' = q_uauth q -> quoter_rule q sg (QSend a (QExt a) x) q'
  | Q_authority cur new : In cur sg -> q_uauth q = Some cur -> quoter_rule q sg (QSetUpgradeAuthority cur new) (QState (q_world q) (q_accts q) (q_lamports q) new).
(** States with the same contents. *)
Definition same_state (q q' : qstate) : Prop :=
  q_world q = q_world q' /\ q_accts q = q_accts q' /\ (forall a, q_lamports q a = q_lamports q' a) /\ q_uauth q = q_uauth q'.
Definition beside_quoter (i : qinstr) : Prop := match i with QSend _ _ _ | QSetUpgradeAuthority _ _ => True | _ => False end.

(** * The canonical lookup table (instructions/luts.rs), beside the other programs.

    Tables belong to the address lookup table program (1.18.10), so the state is the state of the other programs plus the tables.
    [lut_at] is the derived address of a table ([PUser 0] stands for the lookup table program).
    Simplified: slots enter only through the set of recent ones, which the environment changes at will; the waiting time before a
    deactivated table may be closed is dropped; lamports are not counted; the core bridge's configuration account is any address
    (the code checks the owner program of that account, the model does not). *)
From Verif Require Export Exec.
Local Open Scope Z_scope.

Definition lut_at (authority : addr) (slot : Z) : addr := APda (PUser 0) TLut slot authority ANull.
(** The system program is the all-zero key; the two sysvars are constants. *)
Definition system_program : addr := ANull.
Definition sysvar_clock : addr := ARaw 0.
Definition sysvar_rent : addr := ARaw 1.

Record table := Table { lt_auth : option addr; lt_active : bool; lt_entries : list addr }.
Record lstate := LState { l_world : state; l_tabs : addr -> option table; l_recent : Z -> bool }.
Definition set_tab (a : addr) (t : option table) (l : lstate) : lstate := LState (l_world l) (upd (l_tabs l) a t) (l_recent l).

(** ** The lookup table program *)

(** LOOKUP_TABLE_MAX_ADDRESSES *)
Definition MAX_ADDRESSES : Z := 256.

(** CreateLookupTable: the payer signs, the authority need not; an existing table is left alone. *)
Definition lut_create (l : lstate) (sg : list addr) (authority payer : addr) (slot : Z) : result lstate :=
  let? _ := require (signed sg payer) Constraint in
  let? _ := require (l_recent l slot) Constraint in
  match l_tabs l (lut_at authority slot) with
  | Some _ => Ok l
  | None => Ok (set_tab (lut_at authority slot) (Some (Table (Some authority) true [])) l)
  end.

(** Checks common to the other instructions: the table exists and its authority signs. *)
Definition lut_mine (l : lstate) (sg : list addr) (tab authority : addr) : result table :=
  let? t := ok_or (l_tabs l tab) Constraint in
  let? _ := require (signed sg authority) Constraint in
  let? _ := require (oaddr_eqb (lt_auth t) authority) Constraint in Ok t.

(** ExtendLookupTable *)
Definition lut_extend (l : lstate) (sg : list addr) (tab authority : addr) (new : list addr) : result lstate :=
  let? t := lut_mine l sg tab authority in
  let? _ := require (lt_active t) Constraint in
  let? _ := require (0 <? Z.of_nat (length new)) Constraint in
  let? _ := require (Z.of_nat (length (lt_entries t)) + Z.of_nat (length new) <=? MAX_ADDRESSES) Constraint in
  Ok (set_tab tab (Some (Table (lt_auth t) true (lt_entries t ++ new))) l).

(** FreezeLookupTable *)
Definition lut_freeze (l : lstate) (sg : list addr) (tab authority : addr) : result lstate :=
  let? t := lut_mine l sg tab authority in
  let? _ := require (lt_active t && (0 <? Z.of_nat (length (lt_entries t)))) Constraint in
  Ok (set_tab tab (Some (Table None true (lt_entries t))) l).

(** DeactivateLookupTable *)
Definition lut_deactivate (l : lstate) (sg : list addr) (tab authority : addr) : result lstate :=
  let? t := lut_mine l sg tab authority in
  let? _ := require (lt_active t) Constraint in
  Ok (set_tab tab (Some (Table (lt_auth t) false (lt_entries t))) l).

(** CloseLookupTable *)
Definition lut_close (l : lstate) (sg : list addr) (tab authority : addr) : result lstate :=
  let? t := lut_mine l sg tab authority in
  let? _ := require (negb (lt_active t)) Constraint in
  Ok (set_tab tab None l).

(** ** luts.rs *)

(** luts.rs:38-112: the accounts the caller chooses; the others are pinned by seeds or type. accounts.rs:18-40 for the last three:
    [UncheckedAccount]s "checked by the core bridge", which this instruction does not call. *)
Record lut_accts := LutAccts {
  lx_payer : addr; lx_config : addr; lx_custody : addr; lx_token_program : addr; lx_mint : addr; lx_outbox_rl : addr;
  lx_bridge : addr; lx_fee_collector : addr; lx_sequence : addr }.

(** luts.rs:154-157: the program id, then the accounts of [Entries] in the order of their declaration. *)
Definition lut_entries (x : lut_accts) : list addr :=
  [AProg PManager; lx_config x; lx_custody x; lx_token_program x; lx_mint x; token_authority; lx_outbox_rl x;
   lx_bridge x; lx_fee_collector x; lx_sequence x; AProg PWormhole; system_program; sysvar_clock; sysvar_rent].

(** luts.rs:114-178 with the constraints of 38-112; the record account as in [Manager.initialize_lut]. *)
Definition l_initialize (l : lstate) (sg : list addr) (x : lut_accts) (slot : Z) : result lstate :=
  let? _ := require (signed sg (lx_payer x)) Constraint in
  let? c := get_config (l_world l) (lx_config x) in
  let? _ := require (addr_eqb (lx_custody x) (cf_custody c)) Constraint in
  let? _ := require (addr_eqb (lx_token_program x) (cf_token_program c)) Constraint in
  let? _ := require (addr_eqb (lx_mint x) (cf_mint c)) Constraint in
  let? s := initialize_lut (l_world l) (lx_config x) (lx_outbox_rl x) (lut_at lut_authority slot) true in
  let? l1 := lut_create (LState s (l_tabs l) (l_recent l)) sg lut_authority (lx_payer x) slot in
  lut_extend l1 (lut_authority :: sg) (lut_at lut_authority slot) lut_authority (lut_entries x).

(** ** Executions *)
Inductive linstr :=
  | LInit (x : lut_accts) (slot : Z)
  | LWorld (i : instr)
  | LCreate (authority payer : addr) (slot : Z)
  | LExtend (tab authority : addr) (new : list addr)
  | LFreeze (tab authority : addr)
  | LDeactivate (tab authority : addr)
  | LClose (tab authority : addr)
  | LRecent (f : Z -> bool).
Record lcall := LCall { l_signers : list addr; l_ins : linstr }.

(** [LWorld] is any other instruction or environment step of Exec.v. *)
Definition l_exec (H : hashes) (l : lstate) (sg : list addr) (i : linstr) : result lstate :=
  match i with
  | LInit x slot => let? _ := require (u64b slot) Constraint in l_initialize l sg x slot
  | LWorld (IInitializeLut _ _ _ _) => Err Constraint
  | LWorld i => let? s := step H (l_world l) (Call sg i) in Ok (LState s (l_tabs l) (l_recent l))
  | LCreate a p slot => let? _ := require (u64b slot) Constraint in lut_create l sg a p slot
  | LExtend t a new => lut_extend l sg t a new
  | LFreeze t a => lut_freeze l sg t a
  | LDeactivate t a => lut_deactivate l sg t a
  | LClose t a => lut_close l sg t a
  | LRecent f => Ok (LState (l_world l) (l_tabs l) f)
  end.
Definition l_step (H : hashes) (l : lstate) (c : lcall) : result lstate :=
  let? _ := require (forallb can_sign (l_signers c)) Constraint in l_exec H l (l_signers c) (l_ins c).

Inductive l_run (H : hashes) (l0 : lstate) : list lcall -> lstate -> Prop :=
  | l_run_nil : l_run H l0 [] l0
  | l_run_step cs l c l' : l_run H l0 cs l -> l_step H l c = Ok l' -> l_run H l0 (c :: cs) l'.

(** Before deployment: tables naming the program's authority may exist, made by anyone, but they are empty. *)
Record l_initial (l : lstate) : Prop := {
  li_world : initial (l_world l);
  li_tabs : forall slot t, l_tabs l (lut_at lut_authority slot) = Some t -> t = Table (Some lut_authority) true [] }.
Definition l_reachable (H : hashes) (l : lstate) : Prop := exists l0 cs, l_initial l0 /\ l_run H l0 cs l.

(** ** Vocabulary *)

(** The entries of one initialisation: the deployment's accounts and three addresses [b], [f], [q]. *)
Definition canonical (c : config addr) (e : addr * addr * addr) : list addr :=
  let '(b, f, q) := e in
  [AProg PManager; pda_config; cf_custody c; cf_token_program c; cf_mint c; token_authority; pda_outbox_rl;
   b; f; q; AProg PWormhole; system_program; sysvar_clock; sysvar_rent].
(** The table the record account points at. *)
Definition recorded (l : lstate) (a : addr) (t : table) : Prop :=
  exists r, st_accts (l_world l) pda_lut = Some (Acct PManager (DLut r)) /\ lu_address r = a /\ l_tabs l a = Some t.

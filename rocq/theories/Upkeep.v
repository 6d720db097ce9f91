(** * The client library: its transactions as messages, and the upkeep of the lookup table.

    Source: solana/ts/sdk/ntt.ts:880-891, 1008-1019, solana/ts/lib/ntt.ts:277-373, 871-892. *)
From Verif Require Export Compress Builder.
From Verif Require Export Lut.
Import ListNotations.
Local Open Scope Z_scope.

(** ** Messages *)

(** The keys of the programs called. *)
Definition program_key (p : program) : handle := match prog_of p with Some q => HA (AProg q) | None => HOther 2 end.
Definition as_account (m : meta) : account handle := Account (me_key m) (me_signer m) (me_writable m).
Definition as_meta (a : account handle) : meta := Meta (ac_key a) (ac_signer a) (ac_writable a).
(** The token program's [Approve] is number 4, with the amount. An instruction that could not be built is an error before this point. *)
Definition to_cix (i : tx_item) : cix handle :=
  match i with
  | Ours (Some i) => Cix (program_key (ix_program i)) (map as_account (ix_metas i)) (ix_data i)
  | Ours None => Cix (HOther 3) [] []
  | Approve tp _ _ _ n => Cix (HA tp) (map as_account (metas_of i)) (x04 :: le_enc 8 n)
  end.

(** The runtime runs the instructions it has loaded, each with its own accounts. The items [l] say which instructions these are. *)
Fixpoint run_message (nm : bytes -> addr) (H : hashes) (s : state) (l : list (tx_item * bool)) (xs : list (cix handle)) : result state :=
  match l, xs with
  | [], [] => Ok s
  | (i, ok) :: l, x :: xs =>
    let ms := map as_meta (cx_accounts x) in
    let? s' := match i with
               | Ours (Some i) => entry nm ok H s (ix_program i) ms (cx_data x)
               | Ours None => Err Constraint
               | Approve tp a d o n => match tp with AProg p => step H s (Call (signers_of ms) (EApprove p a o d n)) | _ => Err Constraint end
               end in
    run_message nm H s' l xs
  | _, _ => Err Constraint
  end.
(** Tables as they are in a state; [hn] names the accounts of Entry.v by their addresses in Lut.v. *)
Definition tables_in (hn : addr -> handle) (l : lstate) (k : handle) : option (list handle) :=
  match k with HA a => option_map (fun t => map hn (lt_entries t)) (l_tabs l a) | _ => None end.
Definition send (nm : bytes -> addr) (H : hashes) (hn : addr -> handle) (l : lstate) (items : list (tx_item * bool)) (g : message handle) : result state :=
  match Compress.load handle_eq_dec g (tables_in hn l) with
  | Some (_, xs) => run_message nm H (l_world l) items xs
  | None => Err Constraint
  end.

(** lib/ntt.ts:871-892 [getAddressLookupTable]: the table the record account points at. The outer [None] is a thrown error. *)
Definition getAddressLookupTable (l : lstate) : option (option (addr * table)) :=
  match st_accts (l_world l) pda_lut with
  | Some (Acct PManager (DLut r)) => match l_tabs l (lu_address r) with Some t => Some (Some (lu_address r, t)) | None => None end
  | Some _ => None
  | None => Some None
  end.
(** sdk/ntt.ts:879-882, 1007-1010, 1257-1272: the tables given to the compiler. Errors are caught; a table once read is kept, so [l] may be long past. *)
Definition luts (hn : addr -> handle) (l : lstate) : list (handle * list handle) :=
  match getAddressLookupTable l with Some (Some (a, t)) => [(HA a, map hn (lt_entries t))] | _ => [] end.
(** Compiled, for the payer [payer]. *)
Definition pack (payer : addr) (items : list tx_item) (tables : list (handle * list handle)) : option (message handle) :=
  Compress.compile handle_eq_dec (HA payer) (map to_cix items) tables.

(** ** Upkeep *)

(** lib/ntt.ts:307-342: the addresses wanted. [e]: bridge, fee collector and sequence as derived from the core bridge's id and the transceiver. *)
Definition wanted (c : config addr) (e : addr * addr * addr) : list addr :=
  let '(b, f, q) := e in
  [pda_config; cf_custody c; cf_token_program c; cf_mint c; token_authority; pda_outbox_rl; b; f; q; AProg PWormhole; system_program; sysvar_clock; sysvar_rent].
(** lib/ntt.ts:279-373: whether there is something to build; the instruction itself is [Builder.initializeOrUpdateLUT]. [None] is a thrown error. *)
Definition update_needed (l : lstate) (c : config addr) (e : addr * addr * addr) : option bool :=
  match getAddressLookupTable l with
  | None => None
  | Some None => Some true
  | Some (Some (_, t)) => Some (negb (forallb (fun a => existsb (addr_eqb a) (lt_entries t)) (wanted c e)))
  end.
(** The accounts that the instruction names. *)
Definition update_accts (payer : addr) (c : config addr) (e : addr * addr * addr) : lut_accts :=
  let '(b, f, q) := e in LutAccts payer pda_config (cf_custody c) (cf_token_program c) (cf_mint c) pda_outbox_rl b f q.

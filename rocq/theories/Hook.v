(** * Transfer hooks.

    A mint of Token-2022 may name a program, the hook, that Token-2022 calls in every transfer of the mint's tokens between two
    accounts; if the hook fails, so does the transfer. Exec.v leaves the hook's verdict to the caller's choice of accounts
    ([xa_hook_ok], [la_hook_ok]); here the hook is a program of its own with a state [W], and the instructions of Manager.v that
    move tokens are run together with it.

    Simplified: the hook changes only its own accounts; which program a mint names is fixed ([hk_mints]: the mints that name the
    hook in question). The runtime forbids re-entering the manager or Token-2022 from the hook. *)
From Verif Require Export Exec.
Import ListNotations.
Local Open Scope Z_scope.

(** What Token-2022 hands to the hook (spl-transfer-hook-interface [Execute]): source, mint, destination, authority, amount.
    The amount is the one asked for, with the fee, if any, still in it. *)
Record hookcall := HookCall { hc_source : addr; hc_mint : addr; hc_dest : addr; hc_auth : addr; hc_amount : Z }.

(** A hook program: the mints that name it, and what it does to its own state when called, [None] if it fails. It may read the
    accounts of the chain, whose balances have moved already. *)
Record hook (W : Type) := Hook { hk_mints : addr -> bool; hk_execute : state -> W -> hookcall -> option W }.
Arguments Hook {W}. Arguments hk_mints {W}. Arguments hk_execute {W}.

Section Hooked.
Context {W : Type} (h : hook W) (H : hashes).

(** A state of chain and hook, and the calls made to the hook. *)
Definition outcome : Type := state * W * list hookcall.

(** spl-token-2022 [process_transfer]: a transfer from an account to itself returns before anything moves; otherwise the hook is
    called ([invoke_execute]) once the balances are written. The classic token program has no hooks. *)
Definition h_transfer (s : state) (w : W) (p : prog) (src mnt dst auth : addr) (amount : Z) (ok : bool) : result outcome :=
  let? s := tok_transfer s p src mnt dst auth amount ok in
  if prog_eqb p PToken22 && hk_mints h mnt && negb (addr_eqb src dst) then
    let? w := ok_or (hk_execute h s w (HookCall src mnt dst auth amount)) TokenErr in
    Ok (s, w, [HookCall src mnt dst auth amount])
  else Ok (s, w, []).

(** transfer.rs:155-256; the transfer at 190-209 *)
Definition h_transfer_burn (s : state) (w : W) (sg : list addr) (x : transfer_accts) (a : targs) : result outcome :=
  let? (c, mt, f, pe) := transfer_checks s sg x a Burning in
  let? (amount, t) := remove_dust (ar_amount a) (mt_decimals mt) (pe_decimals pe) in
  let? before := any_tok s (cf_custody c) in
  let? (s, w, l) := h_transfer s w (xa_tp x) (xa_from x) (cf_mint c) (cf_custody c) (pda_session (tk_owner f) (h_args H a)) amount (xa_hook_ok x) in
  let? s := tok_burn s (xa_tp x) (cf_custody c) (cf_mint c) token_authority amount in
  let? after := any_tok s (cf_custody c) in
  let? _ := require (tk_amount after =? tk_amount before) BadAmountAfterBurn in
  let? s := insert_into_outbox s x (tk_owner f) amount t (ar_chain a) (pe_address pe) (ar_to a) (ar_queue a) in
  Ok (s, w, l).

(** transfer.rs:296-363 *)
Definition h_transfer_lock (s : state) (w : W) (sg : list addr) (x : transfer_accts) (a : targs) : result outcome :=
  let? (c, mt, f, pe) := transfer_checks s sg x a Locking in
  let? (amount, t) := remove_dust (ar_amount a) (mt_decimals mt) (pe_decimals pe) in
  let? before := any_tok s (cf_custody c) in
  let? (s, w, l) := h_transfer s w (xa_tp x) (xa_from x) (cf_mint c) (cf_custody c) (pda_session (tk_owner f) (h_args H a)) amount (xa_hook_ok x) in
  let? after := any_tok s (cf_custody c) in
  let? want := plain u64_max (tk_amount before + amount) in
  let? _ := require (tk_amount after =? want) BadAmountAfterTransfer in
  let? s := insert_into_outbox s x (tk_owner f) amount t (ar_chain a) (pe_address pe) (ar_to a) (ar_queue a) in
  Ok (s, w, l).

(** release_inbound.rs:76-142 *)
Definition h_release_mint (s : state) (w : W) (x : release_accts) (revert_on_delay : bool) : result outcome :=
  let? (c, i, ra) := release_checks s x Burning in
  let? (i', released) := inbox_try_release i (st_now s) in
  if negb released then (if revert_on_delay then Err CantReleaseYet else Ok (s, w, []))
  else
    let? s := tok_mint_to s (la_tp x) (cf_mint c) (cf_custody c) token_authority (ib_amount i) in
    let? (s, w, l) := h_transfer s w (la_tp x) (cf_custody c) (cf_mint c) ra token_authority (ib_amount i) (la_hook_ok x) in
    Ok (put (la_item x) PManager (DInboxItem i') s, w, l).

(** release_inbound.rs:161-192 *)
Definition h_release_unlock (s : state) (w : W) (x : release_accts) (revert_on_delay : bool) : result outcome :=
  let? (c, i, ra) := release_checks s x Locking in
  let? (i', released) := inbox_try_release i (st_now s) in
  if negb released then (if revert_on_delay then Err CantReleaseYet else Ok (s, w, []))
  else
    let? (s, w, l) := h_transfer s w (la_tp x) (cf_custody c) (cf_mint c) ra token_authority (ib_amount i) (la_hook_ok x) in
    Ok (put (la_item x) PManager (DInboxItem i') s, w, l).

(** Every other instruction moves no tokens between accounts. *)
Definition h_exec (s : state) (w : W) (sg : list addr) (i : instr) : result outcome :=
  match i with
  | ITransferLock x a => h_transfer_lock s w sg x a
  | ITransferBurn x a => h_transfer_burn s w sg x a
  | IReleaseMint x r => h_release_mint s w x r
  | IReleaseUnlock x r => h_release_unlock s w x r
  | ETransfer p src mnt dst auth x =>
      let? _ := require (signed sg auth) TokenErr in h_transfer s w p src mnt dst auth x true
  | _ => let? s := exec H s sg i in Ok (s, w, [])
  end.

Definition h_step (s : state) (w : W) (c : call) : result outcome :=
  let? _ := require (forallb can_sign (signers c) && typed (ins c)) Constraint in
  h_exec s w (signers c) (ins c).

(** Histories with the calls made to the hook, newest first. *)
Record hev := Hev { he_pre : state; he_call : call; he_post : state; he_hooks : list hookcall }.
Inductive h_run (s0 : state) (w0 : W) : list hev -> state -> W -> Prop :=
  | h_nil : h_run s0 w0 [] s0 w0
  | h_cons tr s w c s' w' l : h_run s0 w0 tr s w -> h_step s w c = Ok (s', w', l) -> h_run s0 w0 (Hev s c s' l :: tr) s' w'.
End Hooked.

(** ** The hook of the repository's tests, programs/dummy-transfer-hook/src/lib.rs. *)

(** lib.rs:98-102: the counter, an account at the program's address of seed "counter"; and the mints whose list of extra accounts
    (seeds "extra-account-metas" and mint) exists. *)
Record dummy := Dummy { du_count : option Z; du_metas : addr -> bool }.
Definition dummy0 : dummy := Dummy None (fun _ => false).

(** lib.rs:29-69, 104-133: both accounts are created ([init]), so neither may exist. Anyone may call it for any mint. *)
Definition dummy_initialize (s : state) (w : dummy) (mnt : addr) : result dummy :=
  let? _ := ok_or (st_mints s mnt) Constraint in
  let? _ := require (negb (du_metas w mnt)) Constraint in
  let? _ := require (match du_count w with None => true | Some _ => false end) Constraint in
  Ok (Dummy (Some 0) (fun m => addr_eqb m mnt || du_metas w m)).

(** lib.rs:71-74, 139-174: both token accounts are of the mint, the counter exists; the other accounts are only addresses.
    [count += 1] panics on overflow (solana/Cargo.toml:65). *)
Definition dummy_transfer_hook (s : state) (w : dummy) (src mnt dst : addr) : result dummy :=
  let? t := ok_or (st_toks s src) Constraint in
  let? _ := ok_or (st_mints s mnt) Constraint in
  let? d := ok_or (st_toks s dst) Constraint in
  let? _ := require (addr_eqb (tk_mint t) mnt && addr_eqb (tk_mint d) mnt) Constraint in
  let? n := ok_or (du_count w) Constraint in
  let? n := plain u64_max (n + 1) in
  Ok (Dummy (Some n) (du_metas w)).

(** Called by Token-2022: the extra accounts are looked up in the mint's list (spl-transfer-hook-interface [onchain::invoke_execute]),
    without which the hook's accounts are incomplete. *)
Definition dummy_hook (mints : addr -> bool) : hook dummy :=
  Hook mints (fun s w c =>
    if du_metas w (hc_mint c) then
      match dummy_transfer_hook s w (hc_source c) (hc_mint c) (hc_dest c) with Ok w' => Some w' | Err _ => None end
    else None).

(** The chain together with this hook: instructions of the chain, initialisation, and direct calls of [transfer_hook], which
    nothing restricts to Token-2022. The calls that [transfer_hook] got, newest first. *)
Inductive d_run (H : hashes) (mints : addr -> bool) (s0 : state) : list hookcall -> state -> dummy -> Prop :=
  | d_nil : d_run H mints s0 [] s0 dummy0
  | d_step k s w c s' w' l : d_run H mints s0 k s w -> h_step (dummy_hook mints) H s w c = Ok (s', w', l) -> d_run H mints s0 (l ++ k) s' w'
  | d_init k s w m w' : d_run H mints s0 k s w -> dummy_initialize s w m = Ok w' -> d_run H mints s0 k s w'
  | d_call k s w c w' : d_run H mints s0 k s w -> dummy_transfer_hook s w (hc_source c) (hc_mint c) (hc_dest c) = Ok w' ->
      d_run H mints s0 (c :: k) s w'.

(** * The entry point: accounts by position, their privileges, instruction data.

    In Exec.v an instruction names only the accounts the caller chooses freely. Here the caller passes a list of accounts, each with the
    privileges (signer, writable) it is given, and data. The data select the instruction (Dispatch.v), the positions give its free accounts,
    and every position must hold the account that the [#[derive(Accounts)]] struct demands, with the privileges it demands. Accounts after the
    last declared one (the ones a transfer hook asks for) are not looked at. The order of evaluation of constraints is left out, as in Manager.v. *)
From Verif Require Export Exec Dispatch.
From Verif Require Import Lut.
Import ListNotations.
Local Open Scope Z_scope.

(** What an account can be: one of the model's addresses; the manager's program data account; the core bridge's config, fee collector and the
    sequence of an emitter; the upgradeable loader; or an account the model leaves out. *)
Inductive handle := HA (a : addr) | HProgramData | HBridge | HFeeCollector | HSequence (p : prog) | HLoader | HOther (n : nat).
Definition handle_eq_dec (x y : handle) : {x = y} + {x <> y}.
Proof. decide equality; auto using Nat.eq_dec, prog_eq_dec, addr_eq_dec. Defined.
Definition handle_eqb (x y : handle) : bool := if handle_eq_dec x y then true else false.

(** [AccountMeta]. *)
Record meta := Meta { me_key : handle; me_signer : bool; me_writable : bool }.

(** What a field of an [Accounts] struct demands: the account, if it is pinned, and the privileges. *)
Record need := Need { ne_key : option handle; ne_signer : bool; ne_writable : bool }.
Definition ro (a : addr) : need := Need (Some (HA a)) false false.
Definition mu (a : addr) : need := Need (Some (HA a)) false true.
Definition sig_ (a : addr) : need := Need (Some (HA a)) true false.
Definition sigmu (a : addr) : need := Need (Some (HA a)) true true.
Definition payer : need := Need None true true.
Definition other : need := Need None false false.
(** [Program<System>], [Program<BpfLoaderUpgradeable>], [Sysvar<Clock>], [Sysvar<Rent>] *)
Definition system : need := ro system_program.
Definition loader : need := Need (Some HLoader) false false.
Definition clock : need := ro sysvar_clock.
Definition rent : need := ro sysvar_rent.
Definition program_data (w : bool) : need := Need (Some HProgramData) false w.

(** transceivers/wormhole/accounts.rs:18-40 (both programs): bridge, fee collector, sequence, then program, system program, clock, rent. The
    addresses of the first three are checked by the core bridge. *)
Definition free_mu : need := Need None false true.
Definition wormhole_accounts (p : prog) : list need :=
  [Need (Some HBridge) false true; Need (Some HFeeCollector) false true; Need (Some (HSequence p)) false true; ro (AProg PWormhole); system; clock; rent].

(** The structs, field by field, [Common] structs in place. Pinned accounts are computed from the accounts they refer to. *)
Definition layout (H : hashes) (s : state) (i : instr) : result (list need) :=
  match i with
  | IInitialize d m tp _ _ _ => (* initialize.rs:15-88 *)
    Ok [payer; sig_ d; program_data false; mu pda_config; ro m; mu pda_outbox_rl; ro token_authority; mu (ata tp token_authority m);
        ro (AProg tp); ro (AProg PAta); loader; system]
  | IInitializeLut cfg orl a _ => (* luts.rs:38-112; the core bridge is not called, so nothing checks the addresses of its three accounts. That the
                                     first belongs to the bridge ([Account<BridgeData>]) is left out. The lookup table program's position only has to hold a
                                     program, which is left out too. *)
    let? c := get_config s cfg in
    Ok [payer; ro lut_authority; mu a; mu pda_lut; other; system; ro cfg; ro (cf_custody c); ro (cf_token_program c); ro (cf_mint c);
         ro token_authority; ro orl; free_mu; free_mu; free_mu; ro (AProg PWormhole); system; clock; rent]
  | ITransferBurn x a | ITransferLock x a => (* transfer.rs:36-83, 112-153, 260-294 *)
    let? c := get_config s (xa_config x) in
    let? f := any_tok s (xa_from x) in
    Ok ([payer; ro (xa_config x); mu (cf_mint c); mu (xa_from x); ro (AProg (xa_tp x)); sigmu (xa_outbox_item x); mu (xa_outbox_rl x);
         mu (cf_custody c); system; mu (pda_inbox_rl (ar_chain a)); ro (pda_peer (ar_chain a)); ro (pda_session (tk_owner f) (h_args H a))]
        ++ match i with ITransferBurn _ _ => [ro token_authority] | _ => [] end)
  | IRedeem x => (* redeem.rs:20-101 *)
    let? c := get_config s (ra_config x) in
    let? rt := get_reg s (ra_transceiver x) in
    let? (chain, tm) := get_message s (ra_message x) (rt_address rt) in
    Ok [payer; ro (ra_config x); ro (pda_peer chain); ro (ra_message x); ro (ra_transceiver x); ro (cf_mint c);
        mu (pda_inbox (h_msg H chain (tm_msg tm))); mu (pda_inbox_rl chain); mu (ra_outbox_rl x); system]
  | IReleaseMint x _ | IReleaseUnlock x _ => (* release_inbound.rs:12-52, 61-67, 147-153 *)
    let? c := get_config s (la_config x) in
    let? it := get_inbox_item s (la_item x) in
    Ok [payer; ro (la_config x); mu (la_item x); mu (ata (la_tp x) (ib_recipient it) (cf_mint c)); ro token_authority; mu (cf_mint c);
        ro (AProg (la_tp x)); mu (cf_custody c)]
  | ITransferOwnership cfg o n | ITransferOwnershipOneStep cfg o n => (* admin.rs:31-60 *)
    Ok [mu cfg; sig_ o; ro n; ro upgrade_lock; program_data true; loader]
  | IClaimOwnership cfg n => (* admin.rs:106-134 *)
    Ok [mu cfg; ro upgrade_lock; sig_ n; program_data true; loader]
  | ISetPaused cfg o _ => Ok [sig_ o; mu cfg] (* admin.rs:326-335 *)
  | ISetPeer cfg o ch _ _ _ => Ok [payer; sig_ o; ro cfg; mu (pda_peer ch); mu (pda_inbox_rl ch); system] (* admin.rs:159-194 *)
  | IRegisterTransceiver cfg o t => Ok [mu cfg; sig_ o; payer; ro t; mu (pda_reg t); system] (* admin.rs:221-247 *)
  | ISetOutboundLimit cfg o r _ => Ok [ro cfg; sig_ o; mu r] (* admin.rs:267-278 *)
  | ISetInboundLimit cfg o ch _ => Ok [ro cfg; sig_ o; mu (pda_inbox_rl ch)] (* admin.rs:293-312 *)
  | IMark sn cfg it tr => Ok [sig_ sn; ro cfg; mu it; ro tr] (* mark_outbox_item_as_released.rs:9-30 *)
  | IXSetPeer p cfg o ch _ => Ok [ro cfg; sig_ o; payer; mu (pda_xpeer p ch); system] (* transceivers/wormhole/instructions/admin.rs:6-29 *)
  | IXReceive p cfg v => (* receive_message.rs:16-62 *)
    let? d := get s PWormhole v in
    match d with
    | DVaa chain _ (Some tm) => Ok [payer; ro cfg; ro (pda_xpeer p chain); ro v; mu (pda_vtm p chain (nm_id (tm_msg tm))); system]
    | _ => Err Constraint
    end
  | IXRelease p cfg it tr _ _ => (* release_outbound.rs:13-49; ntt-transceiver release_outbound.rs:17-63 *)
    Ok ([payer; ro cfg; mu it; ro tr; mu (pda_message p it); ro (pda_emitter p)] ++ wormhole_accounts p
        ++ match p with PTransceiver => [ro (AProg PManager); ro (pda_outbox_signer p)] | _ => [] end)
  | IXBroadcastId p cfg m _ => (* broadcast_id.rs:7-30 *)
    let? c := get_config s cfg in
    Ok ([payer; ro cfg; ro (cf_mint c); sigmu m; ro (pda_emitter p)] ++ wormhole_accounts p)
  | IXBroadcastPeer p cfg ch m _ => (* broadcast_peer.rs:9-35 *)
    Ok ([payer; ro cfg; ro (pda_xpeer p ch); sigmu m; ro (pda_emitter p)] ++ wormhole_accounts p)
  | _ => Err Constraint
  end.

(** The instruction a call amounts to: the free accounts by position. [nm] names the 32-byte strings in the data. [ok] is the answer of the programs
    the instruction calls (token program and transfer hook, core bridge, lookup table program), as in Manager.v. *)
Notation "'let!' x := e 'in' b" := (match e with Some x => b | None => None end) (at level 200, x pattern, right associativity).
Definition at_key (ms : list meta) (n : nat) : option addr :=
  match nth_error ms n with Some m => match me_key m with HA a => Some a | _ => None end | None => None end.
(** [Interface<TokenInterface>] *)
Definition at_token_program (ms : list meta) (n : nat) : option prog :=
  match at_key ms n with Some (AProg p) => if is_token_prog p then Some p else None | _ => None end.
Definition instr_of (nm : bytes -> addr) (ok : bool) (p : prog) (g : gcall) (ms : list meta) : option instr :=
  let k := at_key ms in
  match g with
  | GInitialize ch l md => let! d := k 1%nat in let! m := k 4%nat in let! tp := at_token_program ms 8 in Some (IInitialize d m tp ch l md)
  | GInitializeLut slot =>
    let! a := k 2%nat in let! cfg := k 6%nat in let! orl := k 11%nat in
    if addr_eqb a (lut_at lut_authority slot) then Some (IInitializeLut cfg orl a ok) else None
  | GTransferBurn a ch to q =>
    let! cfg := k 1%nat in let! f := k 3%nat in let! tp := at_token_program ms 4 in let! it := k 5%nat in let! orl := k 6%nat in
    Some (ITransferBurn (TransferAccts cfg f tp it orl ok) (TransferArgs a ch (nm to) q))
  | GTransferLock a ch to q =>
    let! cfg := k 1%nat in let! f := k 3%nat in let! tp := at_token_program ms 4 in let! it := k 5%nat in let! orl := k 6%nat in
    Some (ITransferLock (TransferAccts cfg f tp it orl ok) (TransferArgs a ch (nm to) q))
  | GRedeem =>
    let! cfg := k 1%nat in let! m := k 3%nat in let! tr := k 4%nat in let! orl := k 8%nat in Some (IRedeem (RedeemAccts cfg m tr orl))
  | GReleaseMint r =>
    let! cfg := k 1%nat in let! it := k 2%nat in let! tp := at_token_program ms 6 in Some (IReleaseMint (ReleaseAccts cfg it tp ok) r)
  | GReleaseUnlock r =>
    let! cfg := k 1%nat in let! it := k 2%nat in let! tp := at_token_program ms 6 in Some (IReleaseUnlock (ReleaseAccts cfg it tp ok) r)
  | GTransferOwnership => let! cfg := k 0%nat in let! o := k 1%nat in let! n := k 2%nat in Some (ITransferOwnership cfg o n)
  | GTransferOwnershipOneStep => let! cfg := k 0%nat in let! o := k 1%nat in let! n := k 2%nat in Some (ITransferOwnershipOneStep cfg o n)
  | GClaimOwnership => let! cfg := k 0%nat in let! n := k 2%nat in Some (IClaimOwnership cfg n)
  | GSetPaused b => let! o := k 0%nat in let! cfg := k 1%nat in Some (ISetPaused cfg o b)
  | GSetPeer ch a l d => let! o := k 1%nat in let! cfg := k 2%nat in Some (ISetPeer cfg o ch (nm a) l d)
  | GRegisterTransceiver => let! cfg := k 0%nat in let! o := k 1%nat in let! t := k 3%nat in Some (IRegisterTransceiver cfg o t)
  | GSetOutboundLimit l => let! cfg := k 0%nat in let! o := k 1%nat in let! r := k 2%nat in Some (ISetOutboundLimit cfg o r l)
  | GSetInboundLimit l ch => let! cfg := k 0%nat in let! o := k 1%nat in Some (ISetInboundLimit cfg o ch l)
  | GMark => let! sn := k 0%nat in let! cfg := k 1%nat in let! it := k 2%nat in let! tr := k 3%nat in Some (IMark sn cfg it tr)
  | GSetWormholePeer ch a => let! cfg := k 0%nat in let! o := k 1%nat in Some (IXSetPeer p cfg o ch (nm a))
  | GReceive => let! cfg := k 1%nat in let! v := k 3%nat in Some (IXReceive p cfg v)
  | GReleaseOutbound r => let! cfg := k 1%nat in let! it := k 2%nat in let! tr := k 3%nat in Some (IXRelease p cfg it tr r ok)
  | GBroadcastId => let! cfg := k 1%nat in let! m := k 3%nat in Some (IXBroadcastId p cfg m ok)
  | GBroadcastPeer ch => let! cfg := k 1%nat in let! m := k 3%nat in Some (IXBroadcastPeer p cfg ch m ok)
  | _ => None
  end.

(** The accounts passed meet the demands, position by position. *)
Definition meets (n : need) (m : meta) : bool :=
  match ne_key n with Some k => handle_eqb k (me_key m) | None => true end && implb (ne_signer n) (me_signer m) && implb (ne_writable n) (me_writable m).
Fixpoint meet (ns : list need) (ms : list meta) : bool :=
  match ns, ms with
  | [], _ => true
  | n :: ns, m :: ms => meets n m && meet ns ms
  | _ :: _, [] => false
  end.

Definition signers_of (ms : list meta) : list addr :=
  flat_map (fun m => match me_key m with HA a => if me_signer m then [a] else [] | _ => [] end) ms.
Definition prog_of (p : program) : option prog := match p with AManager => Some PManager | ATransceiver => Some PTransceiver | _ => None end.

(** One instruction of the manager or of the stand-alone transceiver, as the runtime hands it over. *)
Definition entry (nm : bytes -> addr) (ok : bool) (H : hashes) (s : state) (p : program) (ms : list meta) (data : bytes) : result state :=
  let? q := ok_or (prog_of p) Constraint in
  let? g := ok_or (dispatch p data) Constraint in
  match g with
  | GVersion | GTransceiverType => Ok s
  | _ =>
    let? i := ok_or (instr_of nm ok q g ms) Constraint in
    let? ns := layout H s i in
    let? _ := require (meet ns ms) Constraint in
    step H s (Call (signers_of ms) i)
  end.

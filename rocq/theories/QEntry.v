(** * The entry point of the quoter: accounts by position, their privileges, instruction data.

    As Entry.v, for programs/ntt-quoter. The data select the function (Dispatch.v), the positions give the accounts that Quoter.v takes from the
    caller, and every position must hold the account that the [#[derive(Accounts)]] struct demands, with the privileges it demands. Every account of
    these structs is either free and named by the instruction of Quoter.v, or pinned. Accounts after the last declared one are not looked at. The
    order of evaluation of constraints is left out, as in Quoter.v. *)
From Verif Require Export Dispatch Quoter.
Import ListNotations.
Local Open Scope Z_scope.

(** [AccountMeta]. *)
Record qmeta := QMeta { qm_key : qaddr; qm_signer : bool; qm_writable : bool }.

(** lib.rs:16, [declare_id!]: the program's id, and its program data account (admin.rs:33-39). The id of the system program is the default key. *)
Record qids := QIds { qd_self : addr; qd_data : addr }.
Definition q_system : qaddr := QExt ANull.

(** The structs, field by field. *)
Definition q_layout (I : qids) (q : qstate) (i : qinstr) : result (list qmeta) :=
  let ro a := QMeta a false false in
  let mu a := QMeta a false true in
  let sg a := QMeta (QExt a) true false in
  let sgmu a := QMeta (QExt a) true true in
  match i with
  | QInitialize o r => Ok [sgmu o; mu QInst; ro r; mu (QExt (qd_data I)); ro q_system] (* processor/admin.rs:8-40 *)
  | QSetFeeRecipient inst o r => Ok [sg o; mu inst; ro r] (* admin.rs:50-63 *)
  | QSetAssistant inst o a => (* admin.rs:70-80. Anchor 0.29: the program's own id in the place of an optional account stands for none. *)
    Ok [sg o; mu inst; ro (match a with Some a => a | None => QExt (qd_self I) end)]
  | QRegisterChain inst au ch => Ok [sgmu au; ro inst; mu (QChain ch); ro q_system] (* admin.rs:98-119 *)
  | QRegisterNtt inst au p _ _ => Ok [sgmu au; ro inst; mu (QNtt p); ro q_system] (* admin.rs:134-155 *)
  | QDeregisterNtt inst au p => Ok [sgmu au; ro inst; mu (QNtt p); ro q_system] (* admin.rs:169-189 *)
  | QUpdateSolPrice inst au _ => Ok [sg au; mu inst] (* update_prices.rs:12-21 *)
  | QUpdateChainPrices inst au c _ _ | QUpdateChainParams inst au c _ _ => Ok [sg au; ro inst; mu c] (* update_prices.rs:39-48, 65-74 *)
  | QRequestRelay p inst it _ _ => (* request_relay.rs:32-77 *)
    let? po := outbox_view (q_world q) it in
    Ok [sgmu p; ro inst; ro (QChain (ob_chain (snd po))); ro (QNtt (AProg (fst po))); ro (QExt it); mu (QReq it); ro q_system]
  | QCloseRelay inst au r x => Ok [sg au; ro inst; mu r; mu x; ro q_system] (* close_relay.rs:8-24 *)
  | _ => Err Constraint
  end.

(** The instruction a call amounts to: its free accounts by position. [nm] names the 32-byte strings in the data. Only addresses outside the
    quoter sign, pay, or hold an outbox item. *)
Definition q_key (ms : list qmeta) (n : nat) : option qaddr := option_map qm_key (nth_error ms n).
Definition q_ext (ms : list qmeta) (n : nat) : option addr := match q_key ms n with Some (QExt a) => Some a | _ => None end.
Notation "'let!' x := e 'in' b" := (match e with Some x => b | None => None end) (at level 200, x pattern, right associativity).
Definition q_instr_of (I : qids) (nm : bytes -> addr) (g : gcall) (ms : list qmeta) : option qinstr :=
  let k := q_key ms in
  let e := q_ext ms in
  match g with
  | Dispatch.QRequestRelay d f => let! p := e 0%nat in let! inst := k 1%nat in let! it := e 4%nat in Some (QRequestRelay p inst it d f)
  | Dispatch.QCloseRelay => let! au := e 0%nat in let! inst := k 1%nat in let! r := k 2%nat in let! x := k 3%nat in Some (QCloseRelay inst au r x)
  | Dispatch.QInitialize => let! o := e 0%nat in let! r := k 2%nat in Some (QInitialize o r)
  | Dispatch.QSetAssistant =>
    let! o := e 0%nat in let! inst := k 1%nat in let! a := k 2%nat in
    Some (QSetAssistant inst o (if qaddr_eqb a (QExt (qd_self I)) then None else Some a))
  | Dispatch.QSetFeeRecipient => let! o := e 0%nat in let! inst := k 1%nat in let! r := k 2%nat in Some (QSetFeeRecipient inst o r)
  | Dispatch.QRegisterChain ch => let! au := e 0%nat in let! inst := k 1%nat in Some (QRegisterChain inst au ch)
  | Dispatch.QRegisterNtt p x c => let! au := e 0%nat in let! inst := k 1%nat in Some (QRegisterNtt inst au (nm p) x c)
  | Dispatch.QDeregisterNtt p => let! au := e 0%nat in let! inst := k 1%nat in Some (QDeregisterNtt inst au (nm p))
  | Dispatch.QUpdateSolPrice p => let! au := e 0%nat in let! inst := k 1%nat in Some (QUpdateSolPrice inst au p)
  | Dispatch.QUpdateChainPrices n x => let! au := e 0%nat in let! inst := k 1%nat in let! c := k 2%nat in Some (QUpdateChainPrices inst au c n x)
  | Dispatch.QUpdateChainParams m b => let! au := e 0%nat in let! inst := k 1%nat in let! c := k 2%nat in Some (QUpdateChainParams inst au c m b)
  | _ => None
  end.

(** The accounts passed meet the demands, position by position. *)
Definition q_meets (n m : qmeta) : bool :=
  qaddr_eqb (qm_key n) (qm_key m) && implb (qm_signer n) (qm_signer m) && implb (qm_writable n) (qm_writable m).
Fixpoint q_meet (ns ms : list qmeta) : bool :=
  match ns, ms with
  | [], _ => true
  | n :: ns, m :: ms => q_meets n m && q_meet ns ms
  | _ :: _, [] => false
  end.
Definition q_signers_of (ms : list qmeta) : list addr :=
  flat_map (fun m => match qm_key m with QExt a => if qm_signer m then [a] else [] | _ => [] end) ms.

(** One instruction of the quoter, as the runtime hands it over. *)
Definition q_entry (I : qids) (nm : bytes -> addr) (E : qenv) (q : qstate) (ms : list qmeta) (data : bytes) : result qstate :=
  let? g := ok_or (dispatch AQuoter data) Constraint in
  let? i := ok_or (q_instr_of I nm g ms) Constraint in
  let? ns := q_layout I q i in
  let? _ := require (q_meet ns ms) Constraint in
  q_step E q (QCall (q_signers_of ms) i).

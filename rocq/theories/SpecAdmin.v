(** * Vocabulary of the administration properties (C23-C28). *)
From Verif Require Export Exec.
Local Open Scope Z_scope.

Definition config_at (s : state) (a : addr) (c : config addr) : Prop := st_accts s a = Some (Acct PManager (DConfig c)).
Definition reg_at (s : state) (a : addr) (r : registered addr) : Prop := st_accts s a = Some (Acct PManager (DReg r)).

(** What identifies a deployment. *)
Definition identity (c : config addr) : addr * addr * mode * Z * addr * Z :=
  (cf_mint c, cf_token_program c, cf_mode c, cf_chain c, cf_custody c, cf_threshold c).

(** The settings an account holds: everything an administrator decides. Limiter usage, votes and queues are not settings. *)
Inductive setting :=
  | SConfig (owner : addr) (pending : option addr) (paused : bool) (next enabled : Z)
  | SPeer (p : peer addr)
  | SLimit (limit : Z)
  | SReg (r : registered addr)
  | SXPeer (x : xpeer addr).
Definition settings (o : option acct) : option setting :=
  match o with
  | Some (Acct PManager (DConfig c)) => Some (SConfig (cf_owner c) (cf_pending c) (cf_paused c) (cf_next c) (cf_enabled c))
  | Some (Acct PManager (DPeer p)) => Some (SPeer p)
  | Some (Acct PManager (DOutboxRL r)) | Some (Acct PManager (DInboxRL r)) => Some (SLimit (rl_limit r))
  | Some (Acct PManager (DReg r)) => Some (SReg r)
  | Some (Acct PManager (DXPeer x)) | Some (Acct PTransceiver (DXPeer x)) => Some (SXPeer x)
  | _ => None
  end.

(** The administration instructions, with the owner they name. *)
Definition admin_by (i : instr) : option addr :=
  match i with
  | ITransferOwnership _ o _ | ITransferOwnershipOneStep _ o _ | ISetPaused _ o _ | ISetPeer _ o _ _ _ _
  | IRegisterTransceiver _ o _ | ISetOutboundLimit _ o _ _ | ISetInboundLimit _ o _ _ | IXSetPeer _ _ o _ _
  | IClaimOwnership _ o => Some o
  | _ => None
  end.
Definition is_claim (i : instr) : Prop := exists a n, i = IClaimOwnership a n.

(** One ownership move: owner and pending owner before and after. *)
Inductive ownership (sg : list addr) : instr -> addr -> option addr -> addr -> option addr -> Prop :=
  | O_same i o p : ownership sg i o p o p
  | O_offer a o p n : In o sg -> ownership sg (ITransferOwnership a o n) o p o (Some n)
  | O_give a o p n : In o sg -> ownership sg (ITransferOwnershipOneStep a o n) o p n None
  | O_claim a o n : In n sg -> ownership sg (IClaimOwnership a n) o (Some n) n None
  | O_cancel a o p : In o sg -> ownership sg (IClaimOwnership a o) o p o None.

(** Instructions that move value or messages; they need an unpaused deployment. *)
Definition moves_value (i : instr) : bool :=
  match i with
  | ITransferLock _ _ | ITransferBurn _ _ | IReleaseMint _ _ | IReleaseUnlock _ _ | IMark _ _ _ _ | IXReceive _ _ _
  | IXRelease _ _ _ _ _ _ => true
  | _ => false
  end.
(** Instructions of the modelled programs, as opposed to third-party actions. *)
Definition of_program (i : instr) : bool :=
  match i with
  | IInitialize _ _ _ _ _ _ | IInitializeLut _ _ _ _ | ITransferLock _ _ | ITransferBurn _ _ | IRedeem _ | IReleaseMint _ _
  | IReleaseUnlock _ _ | ITransferOwnership _ _ _ | ITransferOwnershipOneStep _ _ _ | IClaimOwnership _ _ | ISetPaused _ _ _
  | ISetPeer _ _ _ _ _ _ | IRegisterTransceiver _ _ _ | ISetOutboundLimit _ _ _ _ | ISetInboundLimit _ _ _ _ | IMark _ _ _ _
  | IXSetPeer _ _ _ _ _ | IXReceive _ _ _ | IXRelease _ _ _ _ _ _ | IXBroadcastId _ _ _ _ | IXBroadcastPeer _ _ _ _ _ => true
  | _ => false
  end.
(** Balance of a token account and supply of a mint; zero where there is none. *)
Definition balance (s : state) (a : addr) : Z := match st_toks s a with Some t => tk_amount t | None => 0 end.
Definition supply_of (s : state) (a : addr) : Z := match st_mints s a with Some m => mt_supply m | None => 0 end.
(** The transfer messages published by transceiver program [p], newest first. *)
Definition published (s : state) (p : prog) : list tr_msg :=
  flat_map (fun po => match po_payload po with
                      | PPTransfer m => if addr_eq_dec (po_emitter po) (pda_emitter p) then [m] else []
                      | _ => [] end) (st_posted s).

(** * What the reported errors mean (C88), and their published numbers. *)
From Coq Require Import String.
From Verif Require Export SpecTransfer SpecWorld SpecQuoter Governance Errors.
Import ListNotations.
Local Open Scope Z_scope.

Definition message_at (s : state) (a : addr) (chain : Z) (tm : tr_msg) : Prop := exists p, st_accts s a = Some (Acct p (DVtm chain tm)).
Definition vaa_at (s : state) (a : addr) (chain : Z) (emitter : addr) (m : option tr_msg) : Prop := st_accts s a = Some (Acct PWormhole (DVaa chain emitter m)).
(** The mint of the deployment. *)
Definition mint_at (s : state) (cfg : addr) (m : mint) : Prop := exists c, config_at s cfg c /\ st_mints s (cf_mint c) = Some m.
Definition paused_at (s : state) (cfg : addr) : Prop := exists c, config_at s cfg c /\ cf_paused c = true.
Definition mode_is_not (s : state) (cfg : addr) (md : mode) : Prop := exists c, config_at s cfg c /\ cf_mode c <> md.
(** A release is not due: not enough approvals yet, or its time has not come. *)
Definition not_due (s : state) (a : addr) : Prop :=
  exists it, inbox_at s a it /\ (ib_status it = NotApproved \/ exists t, ib_status it = ReleaseAfter t /\ st_now s < t).
Definition already_sent (s : state) (a t : addr) : Prop := exists r, reg_at s t r /\ flag s a (rt_id r) = true.
Definition charges_fee (s : state) (x : transfer_accts) (a : targs) : Prop :=
  exists m f, mint_at s (xa_config x) m /\ mt_prog m = PToken22 /\ fee_is m (deposit_value s x a) f /\ 0 < f.
Definition over_limit (s : state) (x : transfer_accts) (a : targs) : Prop :=
  ar_queue a = false /\ exists r, out_limiter s r /\ capacity r (st_now s) < deposit_value s x a.
(** 10^20 is beyond 64 bits. *)
Definition far (a b : Z) : Prop := 20 <= Z.abs (a - b).
Definition too_fine (s : state) (x : transfer_accts) (a : targs) : Prop :=
  exists m pe, mint_at s (xa_config x) m /\ peer_at s (ar_chain a) pe /\ far (mt_decimals m) (shared (mt_decimals m) (pe_decimals pe)).
Definition unregistered (s : state) : Prop := forall t r, ~ reg_at s t r.

(** What is the case when instruction [i] reports [e]. Nothing is said of refusals without a number of the manager's. *)
Definition cause (H : hashes) (s : state) (i : instr) (e : error) : Prop :=
  match e with
  | CantReleaseYet =>
      match i with
      | IReleaseMint x true | IReleaseUnlock x true => not_due s (la_item x)
      | IXRelease _ _ a _ true _ => exists o, outbox_at s a o /\ st_now s < ob_release o
      | _ => False
      end
  | InvalidPendingOwner =>
      match i with IClaimOwnership a n => exists c, config_at s a c /\ cf_owner c <> n /\ cf_pending c <> Some n | _ => False end
  | InvalidChainId =>
      match i with
      | IRedeem x => exists c ch tm, config_at s (ra_config x) c /\ message_at s (ra_message x) ch tm /\ nm_to_chain (tm_msg tm) <> cf_chain c
      | IXReceive _ a v => exists c ch em tm, config_at s a c /\ vaa_at s v ch em (Some tm) /\ nm_to_chain (tm_msg tm) <> cf_chain c
      | _ => False
      end
  | InvalidTransceiverPeer =>
      match i with
      | IXReceive p _ v => exists ch em m xp, vaa_at s v ch em m /\ st_accts s (pda_xpeer p ch) = Some (Acct p (DXPeer xp)) /\ xp_address xp <> em
      | _ => False
      end
  | InvalidNttManagerPeer =>
      match i with IRedeem x => exists ch tm pe, message_at s (ra_message x) ch tm /\ peer_at s ch pe /\ pe_address pe <> tm_source tm | _ => False end
  | InvalidRecipientNttManager =>
      match i with IRedeem x => exists ch tm, message_at s (ra_message x) ch tm /\ tm_recipient tm <> AProg PManager | _ => False end
  | TransferAlreadyRedeemed =>
      match i with IReleaseMint x _ | IReleaseUnlock x _ => status_at s (la_item x) = Some Released | _ => False end
  | TransferCannotBeRedeemed =>
      match i with
      | IRedeem x => exists ch tm st, message_at s (ra_message x) ch tm /\ status_at s (pda_inbox (h_msg H ch (tm_msg tm))) = Some st /\ st <> NotApproved
      | _ => False
      end
  | MessageAlreadySent => match i with IMark _ _ a t | IXRelease _ _ a t _ _ => already_sent s a t | _ => False end
  | InvalidMode =>
      match i with
      | ITransferLock x _ => mode_is_not s (xa_config x) Locking
      | ITransferBurn x _ => mode_is_not s (xa_config x) Burning
      | IReleaseUnlock x _ => mode_is_not s (la_config x) Locking
      | IReleaseMint x _ => mode_is_not s (la_config x) Burning
      | _ => False
      end
  | InvalidMintAuthority =>
      match i with
      | IInitialize _ m _ _ _ Burning => exists mt b, st_mints s m = Some mt /\ mt_auth mt = Some b /\ b <> token_authority
      | _ => False
      end
  | TransferExceedsRateLimit => match i with ITransferLock x a | ITransferBurn x a => over_limit s x a | _ => False end
  | Paused =>
      match i with
      | ITransferLock x _ | ITransferBurn x _ => paused_at s (xa_config x)
      | IReleaseMint x _ | IReleaseUnlock x _ => paused_at s (la_config x)
      | IMark _ a _ _ | IXReceive _ a _ | IXRelease _ a _ _ _ _ => paused_at s a
      | _ => False
      end
  | BadAmountAfterTransfer => match i with ITransferLock x a => charges_fee s x a | _ => False end
  | BadAmountAfterBurn => match i with ITransferBurn x a => charges_fee s x a | _ => False end
  | OverflowExponent =>
      match i with
      | ITransferLock x a | ITransferBurn x a => too_fine s x a
      | IRedeem x => exists m ch tm, mint_at s (ra_config x) m /\ message_at s (ra_message x) ch tm /\ far (mt_decimals m) (ta_decimals (nm_amount (tm_msg tm)))
      | _ => False
      end
  | OverflowScaledAmount =>
      match i with
      | IRedeem x => exists m ch tm, mint_at s (ra_config x) m /\ message_at s (ra_message x) ch tm /\
          u64_max < convert (ta_amount (nm_amount (tm_msg tm))) (ta_decimals (nm_amount (tm_msg tm))) (mt_decimals m)
      | _ => False
      end
  | BitmapIndexOutOfBounds => match i with IRegisterTransceiver a _ _ => exists c, config_at s a c /\ cf_next c = 128 | _ => False end
  | NoRegisteredTransceivers => match i with ITransferLock _ _ | ITransferBurn _ _ => unregistered s | _ => False end
  | Constraint | TokenErr | LoaderErr | BridgeErr | Panic => True
  | _ => False
  end.

(** ** The quoter *)
(** Who acts as the quoter's staff. *)
Definition staff_of (i : qinstr) : option addr :=
  match i with
  | QRegisterChain _ a _ | QRegisterNtt _ a _ _ _ | QDeregisterNtt _ a _ | QUpdateSolPrice _ a _ | QUpdateChainPrices _ a _ _ _ | QUpdateChainParams _ a _ _ _
  | QCloseRelay _ a _ _ => Some a
  | _ => None
  end.
(** The outbound transfer a request is for, what the quoter knows of its manager, and of its destination. *)
Definition wanted (q : qstate) (item : addr) (o : outbox_item addr) (n : reg_ntt) : Prop :=
  exists p, st_accts (q_world q) item = Some (Acct p (DOutboxItem o)) /\ ntt_at q (AProg p) n.
Definition priced (q : qstate) (item : addr) (i : instance qaddr) (n : reg_ntt) (c : reg_chain) : Prop :=
  exists o, wanted q item o n /\ chain_at q (ob_chain o) c /\ instance_at q i.

Definition q_cause (E : qenv) (q : qstate) (i : qinstr) (e : error) : Prop :=
  match i with QWorld c => cause (qe_hashes E) (q_world q) c e | _ =>
  match e with
  | NotAuthorized =>
      match staff_of i with Some a => exists t, instance_at q t /\ in_owner t <> QExt a /\ in_assistant t <> QExt a | None => False end
  | FeeRecipientCannotBeDefault => match i with QInitialize _ r | QSetFeeRecipient _ _ r => r = QExt ANull | _ => False end
  | InvalidFeeRecipient => match i with QCloseRelay _ _ r _ => exists t, instance_at q t /\ in_fee_recipient t <> r | _ => False end
  | PriceCannotBeZero =>
      match i with
      | QUpdateSolPrice _ _ p => p = 0
      | QRequestRelay _ _ _ _ _ => exists t, instance_at q t /\ in_sol_price t = 0
      | _ => False
      end
  | OutboxItemNotReleased =>
      match i with QRequestRelay _ _ item _ _ => exists o n, wanted q item o n /\ Z.testbit (ob_released o) (rn_index n) = false | _ => False end
  | BitmapIndexOutOfBounds => match i with QRequestRelay _ _ item _ _ => exists o n, wanted q item o n /\ 128 <= rn_index n | _ => False end
  | RelayingToChainDisabled =>
      match i with QRequestRelay _ _ item _ _ => exists t n c, priced q item t n c /\ rc_base_price c = u64_max | _ => False end
  | ExceedsMaxGasDropoff =>
      match i with QRequestRelay _ _ item d _ => exists t n c, priced q item t n c /\ rc_max_dropoff c < d | _ => False end
  | ExceedsUserMaxFee =>
      match i with
      | QRequestRelay _ _ item d mx => exists t n c, priced q item t n c /\
          mx < Z.max (fee_formula (in_sol_price t) (rc_native_price c) (rc_gas_price c) (rc_base_price c) (rn_gas_cost n) d) (request_rent E)
      | _ => False
      end
  | ScalingOverflow =>
      match i with
      | QRequestRelay _ _ item d _ => exists t n c, priced q item t n c /\
          let gas := gas_gwei (rc_gas_price c) (rn_gas_cost n) in
          2 ^ 64 <= gas \/ 2 ^ 64 <= cost_usd (rc_native_price c) (d + gas) \/
          2 ^ 64 <= fee_formula (in_sol_price t) (rc_native_price c) (rc_gas_price c) (rc_base_price c) (rn_gas_cost n) d
      | _ => False
      end
  | Constraint | LoaderErr | Panic => True
  | _ => False
  end end.

(** ** The governance program *)
(** A posted message that is not the governance contract's, or not for this program; or the governed program's own report. *)
Definition g_cause {W} (E : genv W) (st : gstate W) (e : error) : Prop :=
  (exists ix, ge_call E (gs_world st) ix = Err e) \/
  match e with
  | InvalidGovernanceChain => exists k v, ge_posted E (gs_world st) k = Some v /\ v_chain v <> 1
  | InvalidGovernanceEmitter => exists k v, ge_posted E (gs_world st) k = Some v /\ v_emitter v <> GOVERNANCE_EMITTER
  | InvalidGovernanceProgram => exists k v m rest, ge_posted E (gs_world st) k = Some v /\ read_gov (v_payload v) = Some (m, rest) /\ g_gov m <> GOV_ID
  | Constraint => True
  | _ => False
  end.

(** The [errors] of solana/ts/idl/3_0_0/json/*.json: number, name, text. The first and the last file's texts are the names. *)
Local Open Scope string_scope.
Definition named (l : list (Z * string)) : list (Z * string * string) := map (fun x => (fst x, snd x, snd x)) l.
Definition manager_errors : list (Z * string * string) := named
  [(6000, "CantReleaseYet"); (6001, "InvalidPendingOwner"); (6002, "InvalidChainId"); (6003, "InvalidRecipientAddress");
   (6004, "InvalidTransceiverPeer"); (6005, "InvalidNttManagerPeer"); (6006, "InvalidRecipientNttManager"); (6007, "TransferAlreadyRedeemed");
   (6008, "TransferCannotBeRedeemed"); (6009, "TransferNotApproved"); (6010, "MessageAlreadySent"); (6011, "InvalidMode");
   (6012, "InvalidMintAuthority"); (6013, "TransferExceedsRateLimit"); (6014, "Paused"); (6015, "DisabledTransceiver"); (6016, "InvalidDeployer");
   (6017, "BadAmountAfterTransfer"); (6018, "BadAmountAfterBurn"); (6019, "ZeroThreshold"); (6020, "OverflowExponent");
   (6021, "OverflowScaledAmount"); (6022, "BitmapIndexOutOfBounds"); (6023, "NoRegisteredTransceivers")].
Definition quoter_errors : list (Z * string * string) :=
  [(6001, "ExceedsUserMaxFee", "Relay fees exceeds specified max");
   (6002, "ExceedsMaxGasDropoff", "Requested gas dropoff exceeds max allowed for chain");
   (6003, "InvalidFeeRecipient", "The specified fee recipient does not match the address in the instance accound");
   (6004, "RelayingToChainDisabled", "Relaying to the specified chain is disabled");
   (6005, "OutboxItemNotReleased", "Relaying to the specified chain is disabled"); (6006, "ScalingOverflow", "Scaled value exceeds u64::MAX");
   (6007, "DivByZero", "Cannot divide by zero"); (6257, "FeeRecipientCannotBeDefault", "The fee recipient cannot be the default address (0x0)");
   (6258, "NotAuthorized", "Must be owner or assistant"); (6259, "PriceCannotBeZero", "The price cannot be zero")].
Definition governance_errors : list (Z * string * string) := named
  [(6000, "InvalidGovernanceChain"); (6001, "InvalidGovernanceEmitter"); (6002, "InvalidGovernanceProgram")].

(** Numbers no run reports. *)
Definition manager_never : list error := [InvalidRecipientAddress; TransferNotApproved; DisabledTransceiver; InvalidDeployer; ZeroThreshold].
Definition quoter_never : list error := [DivByZero].

(** * Lamports: who pays for new accounts and for messages.

    Exec.v leaves lamports out. Here every address has a balance, the instructions of the programs have a payer, and each account they
    create is paid for as Anchor's [init] does it. The rest of an instruction is that of Exec.v.
    The core bridge and the lookup table program take from the payer what they want for the accounts they create ([take], chosen by
    the caller of the model, any amounts). Who may spend the lamports of accounts of other programs is in [movable].
    Simplified: rent-exempt minima do not change; accounts with data never vanish for lack of lamports (C79 shows that those of the
    programs keep the minimum); the instructions of others cost nothing here beyond what [LMove] moves; transaction fees. *)
From Verif Require Export Entry Accounts.
Import ListNotations.
Local Open Scope Z_scope.

Definition purse : Type := handle -> Z.
Definition pset (h : handle) (x : Z) (p : purse) : purse := fun k => if handle_eqb k h then x else p k.

(** The rent sysvar: rent-exempt minimum by size. [le_tok_size]: bytes of a token account of the mint (Token-2022 makes it depend on
    the mint's extensions). *)
Record lenv := LEnv { le_hashes : hashes; le_rent : Z -> Z; le_tok_size : addr -> Z }.

(** [f_fee], [f_last]: [config.fee] and [last_lamports] in the core bridge's account ([BridgeData]). *)
Record fstate := FState { f_world : state; f_purse : purse; f_fee : Z; f_last : Z }.
Definition f_put (l : fstate) (s : state) (p : purse) : fstate := FState s p (f_fee l) (f_last l).

(** System program [transfer]: the source must not carry data. *)
Definition f_pay (s : state) (p : purse) (src : addr) (dst : handle) (x : Z) : result purse :=
  let? _ := require (free s src) Constraint in
  let? _ := require (x <=? p (HA src)) Constraint in
  let p := pset (HA src) (p (HA src) - x) p in
  let? y := ok_or (checked u64_max (p dst + x)) Constraint in
  Ok (pset dst y p).
Definition f_take (s : state) (p : purse) (src : addr) (dst : handle) (x : Z) : result purse :=
  if x =? 0 then Ok p else f_pay s p src dst x.

(** Anchor's [init] (anchor-lang 0.29, generated code): an address without lamports is created with the minimum; one that already has
    some is topped up to the minimum (at least 1), if it has less. The payer cannot be the new account. The associated token program
    does the same for its accounts. *)
Definition f_init (E : lenv) (s : state) (p : purse) (payer a : addr) (size : Z) : result purse :=
  let? _ := require (negb (addr_eqb payer a)) Constraint in
  let cur := p (HA a) in
  f_take s p payer (HA a) (if cur =? 0 then le_rent E size else sat_sub (Z.max (le_rent E size) 1) cur).
Definition bytes_of (k : kind) : Z := Z.of_nat (space k).

(** transceivers/wormhole/accounts.rs:42-101 (both programs: ntt-transceiver wormhole/accounts.rs:31-90): [pay_wormhole_fee], then the core
    bridge's [post_message], which checks that its collector has got the fee since the last message, notes the collector's balance, and creates
    the emitter's sequence account, if new, and the message account at the payer's expense. *)
Definition f_post (l : fstate) (payer : addr) (take : Z * Z) (msg emitter : addr) (sq : handle) (pl : post_payload) (ok : bool) : result fstate :=
  let s := f_world l in
  let? p := (if 0 <? f_fee l then f_pay s (f_purse l) payer HFeeCollector (f_fee l) else Ok (f_purse l)) in
  let? _ := require (f_last l + f_fee l <=? p HFeeCollector) BridgeErr in
  let last := p HFeeCollector in
  let? p := f_take s p payer sq (fst take) in
  let? p := f_take s p payer (HA msg) (snd take) in
  let? s := bridge_post s msg emitter pl ok in
  Ok (FState s p (f_fee l) last).

(** release_outbound.rs:51-103 (built-in) and ntt-transceiver release_outbound.rs:93-141; Manager.v, [x_release]. *)
Definition f_release (l : fstate) (payer : addr) (take : Z * Z) (p : prog) (cfg item transceiver : addr) (revert_on_delay bridge_ok : bool) : result fstate :=
  let s := f_world l in
  let? (c, o, rt) := outbound_checks s cfg item transceiver in
  let? _ := require (addr_eqb (rt_address rt) (AProg p)) Constraint in
  let? (s1, released) :=
    (match p with
     | PManager => let? (o', r) := outbox_try_release o (st_now s) (rt_id rt) in Ok (put item PManager (DOutboxItem o') s, r)
     | _ => mark_outbox_item_as_released s [pda_outbox_signer p] (pda_outbox_signer p) cfg item transceiver
     end) in
  if negb released then (if revert_on_delay then Err CantReleaseYet else Ok l)
  else
    let? o' := get_outbox_item s1 item in
    let? sent := bm_get (ob_released o') (rt_id rt) in
    let? _ := require sent Panic in
    f_post (f_put l s1 (f_purse l)) payer take (pda_message p item) (pda_emitter p) (HSequence p) (PPTransfer (outbound_message c item o')) bridge_ok.

(** broadcast_id.rs:32-54, broadcast_peer.rs:37-62; Manager.v *)
Definition f_broadcast_id (l : fstate) (sg : list addr) (payer : addr) (take : Z * Z) (p : prog) (cfg msg : addr) (bridge_ok : bool) : result fstate :=
  let s := f_world l in
  let? c := get_config s cfg in
  let? mt := any_mint s (cf_mint c) in
  let? _ := require (signed sg msg) Constraint in
  f_post l payer take msg (pda_emitter p) (HSequence p) (PPInfo (AProg PManager) (cf_mode c) (cf_mint c) (mt_decimals mt)) bridge_ok.
Definition f_broadcast_peer (l : fstate) (sg : list addr) (payer : addr) (take : Z * Z) (p : prog) (cfg : addr) (chain : Z) (msg : addr) (bridge_ok : bool) : result fstate :=
  let s := f_world l in
  let? _ := get_config s cfg in
  let? xp := get_xpeer s p (pda_xpeer p chain) in
  let? _ := require (signed sg msg) Constraint in
  f_post l payer take msg (pda_emitter p) (HSequence p) (PPReg chain (xp_address xp)) bridge_ok.

(** An instruction that creates accounts: [init] constraints first, in the order of the struct, then the handler. *)
Section Init.
Context (E : lenv) (l : fstate) (sg : list addr) (payer : addr).
Definition init1 (p : purse) (a : addr) (k : kind) : result purse := f_init E (f_world l) p payer a (bytes_of k).
(** [init_if_needed] *)
Definition init0 (p : purse) (a : addr) (k : kind) : result purse := match st_accts (f_world l) a with None => init1 p a k | Some _ => Ok p end.
Definition init_tok (p : purse) (a mnt : addr) : result purse :=
  match st_toks (f_world l) a with None => f_init E (f_world l) p payer a (le_tok_size E mnt) | Some _ => Ok p end.
Definition finish (i : instr) (p : purse) : result fstate := let? s := exec (le_hashes E) (f_world l) sg i in Ok (f_put l s p).

Definition f_exec (take : Z * Z) (i : instr) : result fstate :=
  let s := f_world l in
  let p := f_purse l in
  let paying := require (signed sg payer) Constraint in
  match i with
  | IInitialize _ m tp _ _ _ => (* initialize.rs:15-88 *)
      let? _ := paying in
      let? p := init1 p pda_config KConfig in
      let? p := init1 p pda_outbox_rl KOutboxRateLimit in
      let? p := init_tok p (ata tp token_authority m) m in
      finish i p
  | IInitializeLut _ _ a _ => (* luts.rs:38-112, 144-178: the table is created and extended at the payer's expense *)
      let? _ := paying in
      let? p := init0 p pda_lut KLut in
      let? p := f_take s p payer (HA a) (fst take) in
      finish i p
  | ITransferLock x _ | ITransferBurn x _ => let? _ := paying in let? p := init1 p (xa_outbox_item x) KOutboxItem in finish i p (* transfer.rs:36-83 *)
  | IRedeem x => (* redeem.rs:20-101 *)
      let? _ := paying in
      let? rt := get_reg s (ra_transceiver x) in
      let? (chain, tm) := get_message s (ra_message x) (rt_address rt) in
      let? p := init0 p (pda_inbox (h_msg (le_hashes E) chain (tm_msg tm))) KInboxItem in
      finish i p
  | IReleaseMint _ _ | IReleaseUnlock _ _ => let? _ := paying in finish i p (* release_inbound.rs:12-52: a payer who pays nothing *)
  | ISetPeer _ _ ch _ _ _ => (* admin.rs:159-194 *)
      let? _ := paying in
      let? p := init0 p (pda_peer ch) KPeer in
      let? p := init0 p (pda_inbox_rl ch) KInboxRateLimit in
      finish i p
  | IRegisterTransceiver _ _ t => let? _ := paying in let? p := init1 p (pda_reg t) KRegistered in finish i p (* admin.rs:221-247 *)
  | IXSetPeer q _ _ ch _ => let? _ := paying in let? p := init1 p (pda_xpeer q ch) KXPeer in finish i p (* wormhole admin.rs:6-29 *)
  | IXReceive q _ v => (* receive_message.rs:16-62 *)
      let? _ := paying in
      let? d := get s PWormhole v in
      match d with
      | DVaa chain _ (Some tm) => let? p := init1 p (pda_vtm q chain (nm_id (tm_msg tm))) KVtm in finish i p
      | _ => Err Constraint
      end
  | IXRelease q cfg it tr r ok => let? _ := paying in f_release l payer take q cfg it tr r ok
  | IXBroadcastId q cfg m ok => let? _ := paying in f_broadcast_id l sg payer take q cfg m ok
  | IXBroadcastPeer q cfg ch m ok => let? _ := paying in f_broadcast_peer l sg payer take q cfg ch m ok
  | EPost m e pl => (* anyone's message, paid for by anyone, to a sequence account that is left out *)
      let? _ := require (signed sg m && signed sg e && signed sg payer) BridgeErr in f_post l payer take m e (HOther 0) pl true
  | _ => finish i p
  end.
End Init.

(** Whose lamports others than the programs can move: of an address without data its holder; of an account of another program that program (of a
    token account on demand of its owner); of no account of the programs. The bridge's accounts: see [LCollect]. *)
Definition movable (s : state) (sg : list addr) (h : handle) : bool :=
  match h with
  | HA a =>
    match st_accts s a with Some ac => negb (is_ntt_prog (ac_owner ac)) | None => true end &&
    match st_toks s a with Some t => signed sg (tk_owner t) | None => true end &&
    match st_accts s a, st_toks s a, st_mints s a with None, None, None => signed sg a | _, _, _ => true end
  | HProgramData | HLoader | HOther _ => true
  | HBridge | HFeeCollector | HSequence _ => false
  end.

(** What can happen: an instruction of Exec.v, with payer and takes; lamports moved by others; the bridge's governance sets its fee, or
    transfers collected fees and notes the new balance. *)
Inductive levent :=
  | LDo (c : call) (payer : addr) (take : Z * Z)
  | LMove (sg : list addr) (src dst : handle) (x : Z)
  | LSetFee (x : Z)
  | LCollect (dst : handle) (x : Z).

Definition move (p : purse) (src dst : handle) (x : Z) : result purse :=
  let? _ := require (u64b x && (x <=? p src)) Constraint in
  let p := pset src (p src - x) p in
  let? y := ok_or (checked u64_max (p dst + x)) Constraint in
  Ok (pset dst y p).

Definition f_step (E : lenv) (l : fstate) (e : levent) : result fstate :=
  match e with
  | LDo c payer take =>
      let? _ := require (forallb can_sign (signers c) && typed (ins c) && u64b (fst take) && u64b (snd take)) Constraint in
      f_exec E l (signers c) payer take (ins c)
  | LMove sg src dst x =>
      let? _ := require (forallb can_sign sg && movable (f_world l) sg src) Constraint in
      let? p := move (f_purse l) src dst x in Ok (f_put l (f_world l) p)
  | LSetFee x => let? _ := require (u64b x) Constraint in Ok (FState (f_world l) (f_purse l) x (f_last l))
  | LCollect dst x => let? p := move (f_purse l) HFeeCollector dst x in Ok (FState (f_world l) p (f_fee l) (p HFeeCollector))
  end.

(** Histories, newest event first. *)
Record lev := Lev { le_pre : fstate; le_event : levent; le_post : fstate }.
Inductive f_run (E : lenv) (l0 : fstate) : list lev -> fstate -> Prop :=
  | f_nil : f_run E l0 [] l0
  | f_cons tr l e l' : f_run E l0 tr l -> f_step E l e = Ok l' -> f_run E l0 (Lev l e l' :: tr) l'.

(** Before deployment (Exec.v): balances are not negative and together fit 64 bits (there are about 2^59 lamports); the collector has what the
    bridge noted. The minima are positive. *)
Definition worth (p : purse) (hs : list handle) : Z := fold_right (fun h n => p h + n) 0 hs.
Definition sound (p : purse) : Prop := (forall h, 0 <= p h) /\ forall hs, NoDup hs -> worth p hs <= u64_max.
Record f_initial (E : lenv) (l : fstate) : Prop := {
  li_world : initial (f_world l);
  li_purse : sound (f_purse l);
  li_fee : is_u64 (f_fee l) /\ 0 <= f_last l <= f_purse l HFeeCollector;
  li_rent : forall n, 0 < le_rent E n }.
Definition f_reachable (E : lenv) (l : fstate) : Prop := exists l0 tr, f_initial E l0 /\ f_run E l0 tr l.

(** * Executions: instructions, environment, histories, transactions. *)
From Verif Require Export Manager.
Local Open Scope Z_scope.

(** ** Instructions. The first group are the instructions of the programs (lib.rs:73-189 of the manager and lib.rs of
    ntt-transceiver; [version] and [transceiver_type] only return constants). The second group is everything else that can
    happen on the chain, by anyone. *)
Inductive instr :=
  | IInitialize (deployer mnt : addr) (tp : prog) (chain limit : Z) (m : mode)
  | IInitializeLut (cfg outbox_rl lut_address : addr) (ok : bool)
  | ITransferLock (x : transfer_accts) (a : targs)
  | ITransferBurn (x : transfer_accts) (a : targs)
  | IRedeem (x : redeem_accts)
  | IReleaseMint (x : release_accts) (revert_on_delay : bool)
  | IReleaseUnlock (x : release_accts) (revert_on_delay : bool)
  | ITransferOwnership (cfg owner new_owner : addr)
  | ITransferOwnershipOneStep (cfg owner new_owner : addr)
  | IClaimOwnership (cfg new_owner : addr)
  | ISetPaused (cfg owner : addr) (paused : bool)
  | ISetPeer (cfg owner : addr) (chain : Z) (address : addr) (limit decimals : Z)
  | IRegisterTransceiver (cfg owner transceiver : addr)
  | ISetOutboundLimit (cfg owner rl_acct : addr) (limit : Z)
  | ISetInboundLimit (cfg owner : addr) (chain limit : Z)
  | IMark (signer cfg item transceiver : addr)
  | IXSetPeer (p : prog) (cfg owner : addr) (chain : Z) (address : addr)
  | IXReceive (p : prog) (cfg vaa : addr)
  | IXRelease (p : prog) (cfg item transceiver : addr) (revert_on_delay bridge_ok : bool)
  | IXBroadcastId (p : prog) (cfg msg : addr) (bridge_ok : bool)
  | IXBroadcastPeer (p : prog) (cfg : addr) (chain : Z) (msg : addr) (bridge_ok : bool)
  (** environment: clock; token programs; core bridge; loader; third-party programs *)
  | EClock (t : Z)
  | ETransfer (p : prog) (src mnt dst auth : addr) (amount : Z)
  | EApprove (p : prog) (src owner delegate : addr) (amount : Z)
  | ERevoke (p : prog) (src owner : addr)
  | EMintTo (p : prog) (mnt dst auth : addr) (amount : Z)
  | EBurn (p : prog) (src mnt auth : addr) (amount : Z)
  | ESetMintAuth (p : prog) (mnt auth : addr) (new : option addr)
  | ESetTokOwner (p : prog) (a owner new : addr)
  | ECloseTok (p : prog) (a owner : addr)
  | EInitTok (p : prog) (a mnt owner : addr)
  | ECreateAta (p : prog) (wallet mnt : addr)
  | EInitMint (p : prog) (a : addr) (decimals : Z) (auth : option addr)
  | ESetFee (p : prog) (mnt : addr) (bps maxfee : Z)
  | EWithdrawFees (p : prog) (mnt dst : addr) (amount : Z)
  | EPostVaa (a : addr) (chain : Z) (emitter : addr) (m : option tr_msg)
  | EPost (msg emitter : addr) (n : post_payload)
  | ESetUpgradeAuthority (new : option addr)
  | EWrite (n : nat) (a : addr) (d : data)
  | EErase (n : nat) (a : addr).

Record call := Call { signers : list addr; ins : instr }.

(** Arguments within their Rust types. *)
Definition u8b z := (0 <=? z) && (z <=? u8_max).
Definition u16b z := (0 <=? z) && (z <=? u16_max).
Definition u64b z := (0 <=? z) && (z <=? u64_max).
Definition i64b z := (i64_min <=? z) && (z <=? i64_max).
Definition typed_tm (m : tr_msg) : bool :=
  u64b (ta_amount (nm_amount (tm_msg m))) && u8b (ta_decimals (nm_amount (tm_msg m))) && u16b (nm_to_chain (tm_msg m)).
Definition is_token_prog (p : prog) : bool := match p with PToken | PToken22 => true | _ => false end.
Definition is_ntt_prog (p : prog) : bool := match p with PManager | PTransceiver => true | _ => false end.
Definition typed (i : instr) : bool :=
  match i with
  | IInitialize _ _ _ chain limit _ => u16b chain && u64b limit
  | ITransferLock _ a | ITransferBurn _ a => u64b (ar_amount a) && u16b (ar_chain a)
  | ISetPeer _ _ chain _ limit dec => u16b chain && u64b limit && u8b dec
  | ISetOutboundLimit _ _ _ limit => u64b limit
  | ISetInboundLimit _ _ chain limit => u16b chain && u64b limit
  | IXSetPeer p _ _ chain _ => is_ntt_prog p && u16b chain
  | IXReceive p _ _ | IXRelease p _ _ _ _ _ | IXBroadcastId p _ _ _ => is_ntt_prog p
  | IXBroadcastPeer p _ chain _ _ => is_ntt_prog p && u16b chain
  | EClock t => i64b t
  | ETransfer p _ _ _ _ amount | EMintTo p _ _ _ amount | EBurn p _ _ _ amount | EApprove p _ _ _ amount
  | EWithdrawFees p _ _ amount => is_token_prog p && u64b amount
  | ERevoke p _ _ | ESetMintAuth p _ _ _ | ESetTokOwner p _ _ _ | ECloseTok p _ _ | EInitTok p _ _ _ | ECreateAta p _ _ => is_token_prog p
  | EInitMint p _ dec _ => is_token_prog p && u8b dec
  | ESetFee p _ bps maxfee => is_token_prog p && (0 <=? bps) && (bps <=? 10000) && u64b maxfee
  | EPostVaa a chain _ m =>
      match a with APda PWormhole _ _ _ _ => true | _ => false end && u16b chain
      && match m with Some tm => typed_tm tm | None => true end
  | EWrite _ _ d => match d with DVtm chain tm => u16b chain && typed_tm tm | _ => true end
  | _ => true
  end.

Definition set_delegate (t : tok) (d : option addr) (amount : Z) : tok := Tok (tk_prog t) (tk_mint t) (tk_owner t) (tk_amount t) d amount.

(** Effect of an instruction of well-typed arguments, [sg] being the signers. *)
Definition exec (H : hashes) (s : state) (sg : list addr) (i : instr) : result state :=
  match i with
  | IInitialize d m tp ch l md => initialize s sg d m tp ch l md
  | IInitializeLut c o a ok => initialize_lut s c o a ok
  | ITransferLock x a => transfer_lock H s sg x a
  | ITransferBurn x a => transfer_burn H s sg x a
  | IRedeem x => redeem H s x
  | IReleaseMint x r => release_inbound_mint s x r
  | IReleaseUnlock x r => release_inbound_unlock s x r
  | ITransferOwnership c o n => transfer_ownership s sg c o n
  | ITransferOwnershipOneStep c o n => transfer_ownership_one_step_unchecked s sg c o n
  | IClaimOwnership c n => claim_ownership s sg c n
  | ISetPaused c o b => set_paused s sg c o b
  | ISetPeer c o ch a l d => set_peer s sg c o ch a l d
  | IRegisterTransceiver c o t => register_transceiver s sg c o t
  | ISetOutboundLimit c o r l => set_outbound_limit s sg c o r l
  | ISetInboundLimit c o ch l => set_inbound_limit s sg c o ch l
  | IMark sn c it t => let? (s', _) := mark_outbox_item_as_released s sg sn c it t in Ok s'
  | IXSetPeer p c o ch a => x_set_peer s p sg c o ch a
  | IXReceive p c v => x_receive s p c v
  | IXRelease p c it t r ok => x_release s p c it t r ok
  | IXBroadcastId p c m ok => x_broadcast_id s p sg c m ok
  | IXBroadcastPeer p c ch m ok => x_broadcast_peer s p sg c ch m ok
  | EClock t => Ok (set_now t s)
  | ETransfer p src mnt dst auth x =>
      let? _ := require (signed sg auth) TokenErr in tok_transfer s p src mnt dst auth x true
  | EApprove p a owner del x =>
      let? t := get_tok s p a in
      let? _ := require (signed sg owner && addr_eqb (tk_owner t) owner) TokenErr in
      Ok (put_tok a (set_delegate t (Some del) x) s)
  | ERevoke p a owner =>
      let? t := get_tok s p a in
      let? _ := require (signed sg owner && addr_eqb (tk_owner t) owner) TokenErr in
      Ok (put_tok a (set_delegate t None 0) s)
  | EMintTo p mnt dst auth x =>
      let? _ := require (signed sg auth) TokenErr in tok_mint_to s p mnt dst auth x
  | EBurn p src mnt auth x =>
      let? _ := require (signed sg auth) TokenErr in tok_burn s p src mnt auth x
  | ESetMintAuth p mnt auth new =>
      let? m := get_mint s p mnt in
      let? _ := require (signed sg auth && oaddr_eqb (mt_auth m) auth) TokenErr in
      Ok (put_mint mnt (Mint (mt_prog m) (mt_decimals m) (mt_supply m) new (mt_bps m) (mt_maxfee m) (mt_withheld m)) s)
  | ESetTokOwner p a owner new =>
      let? t := get_tok s p a in
      let? _ := require (signed sg owner && addr_eqb (tk_owner t) owner) TokenErr in
      Ok (put_tok a (Tok (tk_prog t) (tk_mint t) new (tk_amount t) None 0) s)
  | ECloseTok p a owner =>
      let? t := get_tok s p a in
      let? _ := require (signed sg owner && addr_eqb (tk_owner t) owner && (tk_amount t =? 0)) TokenErr in
      Ok (set_toks (upd (st_toks s) a None) s)
  | EInitTok p a mnt owner =>
      let? _ := require (signed sg a) TokenErr in tok_init s p a mnt owner
  | ECreateAta p w mnt => tok_init s p (ata p w mnt) mnt w
  | EInitMint p a dec auth =>
      let? _ := require (signed sg a && free s a) TokenErr in
      Ok (put_mint a (Mint p dec 0 auth 0 0 0) s)
  | ESetFee p mnt bps mx =>
      let? m := get_mint s p mnt in
      Ok (put_mint mnt (Mint (mt_prog m) (mt_decimals m) (mt_supply m) (mt_auth m) bps mx (mt_withheld m)) s)
  | EWithdrawFees p mnt dst x =>
      let? m := get_mint s p mnt in
      let? t := get_tok s p dst in
      let? _ := require (addr_eqb (tk_mint t) mnt) TokenErr in
      let? w := ok_or (checked u64_max (mt_withheld m - x)) TokenErr in
      let? y := ok_or (checked u64_max (tk_amount t + x)) TokenErr in
      Ok (put_mint mnt (with_withheld m w) (put_tok dst (with_amount t y) s))
  | EPostVaa a ch e m =>
      let? _ := require (free s a) BridgeErr in Ok (put a PWormhole (DVaa ch e m) s)
  | EPost m e pl =>
      let? _ := require (signed sg m && signed sg e) BridgeErr in bridge_post s m e pl true
  | ESetUpgradeAuthority new =>
      match st_uauth s with
      | Some cur => let? _ := require (signed sg cur) LoaderErr in loader_set_authority s cur new
      | None => Err LoaderErr
      end
  | EWrite n a d =>
      let? _ := require (can_sign a) Constraint in
      match st_accts s a with
      | None => let? _ := require (free s a) Constraint in Ok (put a (PUser n) d s)
      | Some ac => let? _ := require (prog_eqb (ac_owner ac) (PUser n)) Constraint in Ok (put a (PUser n) d s)
      end
  | EErase n a =>
      match st_accts s a with
      | Some ac => let? _ := require (prog_eqb (ac_owner ac) (PUser n)) Constraint in Ok (set_accts (upd (st_accts s) a None) s)
      | None => Err Constraint
      end
  end.

(** One instruction, top-level or called by a third-party program. An error leaves the state as it was. *)
Definition step (H : hashes) (s : state) (c : call) : result state :=
  let? _ := require (forallb can_sign (signers c) && typed (ins c)) Constraint in
  exec H s (signers c) (ins c).

(** ** Histories: the successful instructions with the states before and after, newest first. *)
Record ev := Ev { e_pre : state; e_call : call; e_post : state }.

Inductive run (H : hashes) (s0 : state) : list ev -> state -> Prop :=
  | run_nil : run H s0 [] s0
  | run_step tr s c s' : run H s0 tr s -> step H s c = Ok s' -> run H s0 (Ev s c s' :: tr) s'.

(** ** States before deployment: nothing belongs to the modelled programs yet; the rest is any well-formed ledger. *)
Definition reserved (a : addr) : Prop :=
  match a with APda PManager _ _ _ _ | APda PTransceiver _ _ _ _ => True | _ => False end.

(** Token accounts: values in range; the mint exists in the same token program; an associated token account is for its
    mint and token program; nobody but the manager could have changed owner or delegate of an account of the manager's
    token authority. *)
Definition wf_tok (s : state) (a : addr) (t : tok) : Prop :=
  ~ reserved a /\ is_token_prog (tk_prog t) = true /\ is_u64 (tk_amount t) /\ is_u64 (tk_delegated t) /\
  (exists m, st_mints s (tk_mint t) = Some m /\ mt_prog m = tk_prog t) /\
  (forall p w m, is_token_prog p = true -> a = ata p w m -> tk_mint t = m /\ tk_prog t = p) /\
  (forall p m, is_token_prog p = true -> a = ata p token_authority m -> tk_owner t = token_authority) /\
  (tk_owner t = token_authority -> tk_delegate t = None).
Definition wf_mint (a : addr) (m : mint) : Prop :=
  ~ reserved a /\ is_token_prog (mt_prog m) = true /\ is_u8 (mt_decimals m) /\ is_u64 (mt_supply m) /\
  0 <= mt_bps m <= 10000 /\ is_u64 (mt_maxfee m) /\ is_u64 (mt_withheld m).
Definition wf_foreign (a : addr) (ac : acct) : Prop :=
  ~ reserved a /\ is_ntt_prog (ac_owner ac) = false /\
  match ac_data ac with
  | DVaa chain _ (Some tm) => ac_owner ac = PWormhole -> is_u16 chain /\ typed_tm tm = true
  | DVtm chain tm => is_u16 chain /\ typed_tm tm = true
  | _ => True
  end.

Record initial (s : state) : Prop := {
  ini_now : is_i64 (st_now s);
  ini_accts : forall a ac, st_accts s a = Some ac -> wf_foreign a ac;
  ini_toks : forall a t, st_toks s a = Some t -> wf_tok s a t;
  ini_mints : forall a m, st_mints s a = Some m -> wf_mint a m;
  ini_uauth : forall a, st_uauth s = Some a -> ~ reserved a;
  ini_posted : forall po, In po (st_posted s) -> ~ reserved (po_emitter po) }.

Definition reachable (H : hashes) (s : state) : Prop := exists s0 tr, initial s0 /\ run H s0 tr s.

(** ** Transactions: all instructions or none. *)
Fixpoint exec_tx (H : hashes) (s : state) (tx : list call) : result state :=
  match tx with
  | [] => Ok s
  | c :: r => let? s' := step H s c in exec_tx H s' r
  end.
Definition apply_tx (H : hashes) (s : state) (tx : list call) : state :=
  match exec_tx H s tx with Ok s' => s' | Err _ => s end.

(** * Instructions of the manager program and of the wormhole transceiver.

    Source: solana/programs/example-native-token-transfers/src/instructions/*.rs, transceivers/wormhole/instructions/*.rs,
    and programs/ntt-transceiver/src/wormhole/instructions/*.rs. Each function takes the state, the list [sg] of signers,
    the accounts that the caller chooses freely, and the arguments. Accounts that the code pins (by seeds, [address],
    [associated_token]) are not arguments: passing another one fails. Payers, rent and the system program are left out, and so
    is the order in which Anchor evaluates constraints (only which error is reported depends on it). *)
From Verif Require Export Chain.
Local Open Scope Z_scope.

(** ** initialize.rs *)

(** [init_if_needed] with [associated_token::...] (initialize.rs:69-80): create the account, or check the existing one. *)
Definition init_custody (s : state) (tp : prog) (mnt : addr) : result state :=
  let a := ata tp token_authority mnt in
  match st_toks s a with
  | None => tok_init s tp a mnt token_authority
  | Some t =>
    let? _ := require (prog_eqb (tk_prog t) tp && addr_eqb (tk_mint t) mnt && addr_eqb (tk_owner t) token_authority) Constraint in
    Ok s
  end.

(** initialize.rs:15-120. [tp] is the token program account. *)
Definition initialize (s : state) (sg : list addr) (deployer mnt : addr) (tp : prog) (chain limit : Z) (m : mode) : result state :=
  let? _ := require (signed sg deployer) Constraint in
  let? _ := require (addr_eqb deployer (match st_uauth s with Some a => a | None => ANull end)) Constraint in
  let? _ := require (free s pda_config) Constraint in
  let? _ := require (free s pda_outbox_rl) Constraint in
  let? _ := require (match tp with PToken | PToken22 => true | _ => false end) Constraint in
  let? mt := ok_or (st_mints s mnt) Constraint in
  let? _ := (match m with
             | Locking => Ok tt
             | Burning => match mt_auth mt with            (* [mint_authority.unwrap()] *)
                          | None => Err Panic
                          | Some a => require (addr_eqb a token_authority) InvalidMintAuthority end end) in
  let? s := init_custody s tp mnt in
  let c := Config 0 deployer None mnt (AProg tp) m chain 0 1 bm_new false (ata tp token_authority mnt) in
  Ok (put pda_outbox_rl PManager (DOutboxRL (rl_new limit)) (put pda_config PManager (DConfig c) s)).

(** luts.rs:38-178. The lookup table itself and its entries are in Lut.v; here [lut_address] is the derived address of the
    new table, [ok] whether the lookup table program accepts. *)
Definition initialize_lut (s : state) (cfg outbox_rl lut_address : addr) (ok : bool) : result state :=
  let? _ := get_config s cfg in
  let? _ := get_outbox_rl s outbox_rl in
  let? _ := (match st_accts s pda_lut with
             | None => require (free s pda_lut) Constraint
             | Some _ => let? d := get s PManager pda_lut in match d with DLut _ => Ok tt | _ => Err Constraint end end) in
  let? _ := require ok Constraint in
  Ok (put pda_lut PManager (DLut (Lut 0 lut_address)) s).

(** ** transfer.rs *)

(** config.rs:64-70 *)
Definition get_not_paused s a : result (config addr) :=
  let? c := get_config s a in
  let? _ := require (negb (cf_paused c)) Paused in
  Ok c.

(** Accounts the caller of a transfer chooses: transfer.rs:36-83. *)
Record transfer_accts := TransferAccts {
  xa_config : addr; xa_from : addr; xa_tp : prog; xa_outbox_item : addr; xa_outbox_rl : addr; xa_hook_ok : bool }.

Definition mode_eqb (a b : mode) : bool := match a, b with Locking, Locking | Burning, Burning => true | _, _ => false end.

(** Anchor's [InterfaceAccount<TokenAccount>]: the account exists and belongs to one of the token programs. *)
Definition any_tok (s : state) (a : addr) : result tok := ok_or (st_toks s a) Constraint.
Definition any_mint (s : state) (a : addr) : result mint := ok_or (st_mints s a) Constraint.

(** transfer.rs:365-402 *)
Definition insert_into_outbox (s : state) (x : transfer_accts) (sender : addr) (amount : Z) (t : trimmed)
    (chain : Z) (manager recipient : addr) (should_queue : bool) : result state :=
  let? orl := get_outbox_rl s (xa_outbox_rl x) in
  let? irl := get_inbox_rl s (pda_inbox_rl chain) in
  let? (orl', r) := consume_or_delay orl (st_now s) amount in
  let? (ts, irl') :=
    (match r with
     | Consumed now => let? irl' := refill irl now amount in Ok (now, irl')
     | Delayed ts => let? _ := require should_queue TransferExceedsRateLimit in Ok (ts, irl)
     end) in
  Ok (put (xa_outbox_item x) PManager (DOutboxItem (OutboxItem t sender chain manager recipient ts bm_new))
      (put (pda_inbox_rl chain) PManager (DInboxRL irl')
       (put (xa_outbox_rl x) PManager (DOutboxRL orl') s))).

(** The checks shared by both transfers: transfer.rs:36-83, 114-153 and 262-294. Returns config, mint, sender account, peer. *)
Definition transfer_checks (s : state) (sg : list addr) (x : transfer_accts) (a : targs) (md : mode)
  : result (config addr * mint * tok * peer addr) :=
  let? c := get_not_paused s (xa_config x) in
  let? _ := require (negb (bm_is_empty (cf_enabled c))) NoRegisteredTransceivers in
  let? _ := require (mode_eqb (cf_mode c) md) InvalidMode in
  let? mt := any_mint s (cf_mint c) in
  let? f := any_tok s (xa_from x) in
  let? _ := require (addr_eqb (tk_mint f) (cf_mint c)) Constraint in
  let? _ := any_tok s (cf_custody c) in
  let? _ := require (signed sg (xa_outbox_item x) && free s (xa_outbox_item x)) Constraint in
  let? _ := get_outbox_rl s (xa_outbox_rl x) in
  let? _ := get_inbox_rl s (pda_inbox_rl (ar_chain a)) in
  let? pe := get_peer s (pda_peer (ar_chain a)) in
  Ok (c, mt, f, pe).

(** transfer.rs:155-256 *)
Definition transfer_burn (H : hashes) (s : state) (sg : list addr) (x : transfer_accts) (a : targs) : result state :=
  let? (c, mt, f, pe) := transfer_checks s sg x a Burning in
  let? (amount, t) := remove_dust (ar_amount a) (mt_decimals mt) (pe_decimals pe) in
  let? before := any_tok s (cf_custody c) in
  let? s := tok_transfer s (xa_tp x) (xa_from x) (cf_mint c) (cf_custody c) (pda_session (tk_owner f) (h_args H a)) amount (xa_hook_ok x) in
  let? s := tok_burn s (xa_tp x) (cf_custody c) (cf_mint c) token_authority amount in
  let? after := any_tok s (cf_custody c) in
  let? _ := require (tk_amount after =? tk_amount before) BadAmountAfterBurn in
  insert_into_outbox s x (tk_owner f) amount t (ar_chain a) (pe_address pe) (ar_to a) (ar_queue a).

(** transfer.rs:296-363 *)
Definition transfer_lock (H : hashes) (s : state) (sg : list addr) (x : transfer_accts) (a : targs) : result state :=
  let? (c, mt, f, pe) := transfer_checks s sg x a Locking in
  let? (amount, t) := remove_dust (ar_amount a) (mt_decimals mt) (pe_decimals pe) in
  let? before := any_tok s (cf_custody c) in
  let? s := tok_transfer s (xa_tp x) (xa_from x) (cf_mint c) (cf_custody c) (pda_session (tk_owner f) (h_args H a)) amount (xa_hook_ok x) in
  let? after := any_tok s (cf_custody c) in
  let? want := plain u64_max (tk_amount before + amount) in
  let? _ := require (tk_amount after =? want) BadAmountAfterTransfer in
  insert_into_outbox s x (tk_owner f) amount t (ar_chain a) (pe_address pe) (ar_to a) (ar_queue a).

(** ** redeem.rs *)

(** queue/inbox.rs:55-61 *)
Definition release_after (i : inbox_item addr) (ts : Z) : result (inbox_item addr) :=
  match ib_status i with
  | NotApproved => Ok (InboxItem (ib_init i) (ib_bump i) (ib_amount i) (ib_recipient i) (ib_votes i) (ReleaseAfter ts))
  | _ => Err TransferCannotBeRedeemed
  end.

(** queue/inbox.rs:39-53 *)
Definition inbox_try_release (i : inbox_item addr) (now : Z) : result (inbox_item addr * bool) :=
  match ib_status i with
  | NotApproved => Ok (i, false)
  | ReleaseAfter ts =>
    if now <? ts then Ok (i, false)
    else Ok (InboxItem (ib_init i) (ib_bump i) (ib_amount i) (ib_recipient i) (ib_votes i) Released, true)
  | Released => Err TransferAlreadyRedeemed
  end.

(** The zeroed account that [init_if_needed] leaves for the handler (redeem.rs:61-72). *)
Definition inbox_default : inbox_item addr := InboxItem false 0 0 ANull 0 NotApproved.

(** redeem.rs:20-166. The caller chooses the config, message, transceiver and outbound limiter accounts. *)
Record redeem_accts := RedeemAccts { ra_config : addr; ra_message : addr; ra_transceiver : addr; ra_outbox_rl : addr }.

(** [UncheckedAccount] with [owner = transceiver.transceiver_address] and the discriminator check of messages.rs. *)
Definition get_message (s : state) (a owner : addr) : result (Z * tr_msg) :=
  match st_accts s a with
  | Some (Acct p (DVtm c m)) => if addr_eqb (AProg p) owner then Ok (c, m) else Err Constraint
  | _ => Err Constraint
  end.

Definition redeem (H : hashes) (s : state) (x : redeem_accts) : result state :=
  let? c := get_config s (ra_config x) in
  let? _ := require (0 <? cf_threshold c) ZeroThreshold in
  let? rt := get_reg s (ra_transceiver x) in
  let? (chain, tm) := get_message s (ra_message x) (rt_address rt) in
  let? pe := get_peer s (pda_peer chain) in
  let? _ := require (addr_eqb (pe_address pe) (tm_source tm)) InvalidNttManagerPeer in
  let m := tm_msg tm in
  let? _ := require (nm_to_chain m =? cf_chain c) InvalidChainId in
  let? _ := require (addr_eqb (tm_recipient tm) (AProg PManager)) InvalidRecipientNttManager in
  let? en := bm_get (cf_enabled c) (rt_id rt) in
  let? _ := require en DisabledTransceiver in
  let? mt := any_mint s (cf_mint c) in
  let ia := pda_inbox (h_msg H chain m) in
  let? item := (match st_accts s ia with
                | None => let? _ := require (free s ia) Constraint in Ok inbox_default
                | Some _ => get_inbox_item s ia end) in
  let? irl := get_inbox_rl s (pda_inbox_rl chain) in
  let? orl := get_outbox_rl s (ra_outbox_rl x) in
  let? amount := untrim (nm_amount m) (mt_decimals mt) in
  let item := if ib_init item then item else InboxItem true 0 amount (nm_to m) bm_new NotApproved in
  let? votes := bm_set (ib_votes item) (rt_id rt) true in
  let item := InboxItem (ib_init item) (ib_bump item) (ib_amount item) (ib_recipient item) votes (ib_status item) in
  let? n := bm_count_enabled_votes votes (cf_enabled c) in
  if n <? cf_threshold c then Ok (put ia PManager (DInboxItem item) s)
  else
    let? (irl', r) := consume_or_delay irl (st_now s) amount in
    let? (ts, orl') :=
      (match r with
       | Consumed now => let? orl' := refill orl now amount in Ok (now, orl')
       | Delayed ts => Ok (ts, orl)
       end) in
    let? item := release_after item ts in
    Ok (put ia PManager (DInboxItem item)
        (put (ra_outbox_rl x) PManager (DOutboxRL orl')
         (put (pda_inbox_rl chain) PManager (DInboxRL irl') s))).

(** ** release_inbound.rs *)
Record release_accts := ReleaseAccts { la_config : addr; la_item : addr; la_tp : prog; la_hook_ok : bool }.

(** The common accounts, release_inbound.rs:12-52: config, inbox item, recipient account. *)
Definition release_checks (s : state) (x : release_accts) (md : mode) : result (config addr * inbox_item addr * addr) :=
  let? c := get_not_paused s (la_config x) in
  let? _ := require (mode_eqb (cf_mode c) md) InvalidMode in
  let? i := get_inbox_item s (la_item x) in
  let? _ := any_mint s (cf_mint c) in
  let? _ := any_tok s (cf_custody c) in
  let ra := ata (la_tp x) (ib_recipient i) (cf_mint c) in
  let? rt := any_tok s ra in
  let? _ := require (prog_eqb (tk_prog rt) (la_tp x) && addr_eqb (tk_owner rt) (ib_recipient i) && addr_eqb (tk_mint rt) (cf_mint c)) Constraint in
  Ok (c, i, ra).

(** release_inbound.rs:76-142 *)
Definition release_inbound_mint (s : state) (x : release_accts) (revert_on_delay : bool) : result state :=
  let? (c, i, ra) := release_checks s x Burning in
  let? (i', released) := inbox_try_release i (st_now s) in
  if negb released then (if revert_on_delay then Err CantReleaseYet else Ok s)
  else
    let? s := tok_mint_to s (la_tp x) (cf_mint c) (cf_custody c) token_authority (ib_amount i) in
    let? s := tok_transfer s (la_tp x) (cf_custody c) (cf_mint c) ra token_authority (ib_amount i) (la_hook_ok x) in
    Ok (put (la_item x) PManager (DInboxItem i') s).

(** release_inbound.rs:161-192 *)
Definition release_inbound_unlock (s : state) (x : release_accts) (revert_on_delay : bool) : result state :=
  let? (c, i, ra) := release_checks s x Locking in
  let? (i', released) := inbox_try_release i (st_now s) in
  if negb released then (if revert_on_delay then Err CantReleaseYet else Ok s)
  else
    let? s := tok_transfer s (la_tp x) (cf_custody c) (cf_mint c) ra token_authority (ib_amount i) (la_hook_ok x) in
    Ok (put (la_item x) PManager (DInboxItem i') s).

(** ** admin.rs *)

(** [has_one = owner] with [owner: Signer], admin.rs:33-39, 165-170, 223-229, 269-274, 296-301, 328-334. *)
Definition get_owned (s : state) (sg : list addr) (cfg owner : addr) : result (config addr) :=
  let? c := get_config s cfg in
  let? _ := require (addr_eqb (cf_owner c) owner) Constraint in
  let? _ := require (signed sg owner) Constraint in
  Ok c.

Definition with_owner (c : config addr) (owner : addr) (pending : option addr) : config addr :=
  Config (cf_bump c) owner pending (cf_mint c) (cf_token_program c) (cf_mode c) (cf_chain c) (cf_next c) (cf_threshold c)
         (cf_enabled c) (cf_paused c) (cf_custody c).

(** admin.rs:62-80 *)
Definition transfer_ownership (s : state) (sg : list addr) (cfg owner new_owner : addr) : result state :=
  let? c := get_owned s sg cfg owner in
  let s := put cfg PManager (DConfig (with_owner c (cf_owner c) (Some new_owner))) s in
  loader_set_authority s owner (Some upgrade_lock).

(** admin.rs:82-102 *)
Definition transfer_ownership_one_step_unchecked (s : state) (sg : list addr) (cfg owner new_owner : addr) : result state :=
  let? c := get_owned s sg cfg owner in
  let s := put cfg PManager (DConfig (with_owner c new_owner None)) s in
  loader_set_authority s owner (Some new_owner).

(** admin.rs:106-155 *)
Definition claim_ownership (s : state) (sg : list addr) (cfg new_owner : addr) : result state :=
  let? c := get_config s cfg in
  let? _ := require (oaddr_eqb (cf_pending c) new_owner || addr_eqb (cf_owner c) new_owner) InvalidPendingOwner in
  let? _ := require (signed sg new_owner) Constraint in
  let s := put cfg PManager (DConfig (with_owner c new_owner None)) s in
  loader_set_authority s upgrade_lock (Some new_owner).

(** [init_if_needed] of a manager account of a given kind. *)
Definition init_if_needed (s : state) (a : addr) (kind : data -> bool) : result unit :=
  match st_accts s a with
  | None => require (free s a) Constraint
  | Some _ => let? d := get s PManager a in require (kind d) Constraint
  end.
Definition is_peer (d : data) : bool := match d with DPeer _ => true | _ => false end.
Definition is_inbox_rl (d : data) : bool := match d with DInboxRL _ => true | _ => false end.

(** admin.rs:159-217 *)
Definition set_peer (s : state) (sg : list addr) (cfg owner : addr) (chain : Z) (address : addr) (limit decimals : Z) : result state :=
  let? _ := get_owned s sg cfg owner in
  let? _ := init_if_needed s (pda_peer chain) is_peer in
  let? _ := init_if_needed s (pda_inbox_rl chain) is_inbox_rl in
  Ok (put (pda_inbox_rl chain) PManager (DInboxRL (rl_new limit))
      (put (pda_peer chain) PManager (DPeer (Peer 0 address decimals)) s)).

(** admin.rs:221-264; only programs are executable accounts. *)
Definition is_executable (a : addr) : bool := match a with AProg _ => true | _ => false end.
Definition register_transceiver (s : state) (sg : list addr) (cfg owner transceiver : addr) : result state :=
  let? c := get_owned s sg cfg owner in
  let? _ := require (is_executable transceiver) Constraint in
  let? _ := require (free s (pda_reg transceiver)) Constraint in
  let id := cf_next c in
  let? next := plain u8_max (cf_next c + 1) in
  let? en := bm_set (cf_enabled c) id true in
  let c' := Config (cf_bump c) (cf_owner c) (cf_pending c) (cf_mint c) (cf_token_program c) (cf_mode c) (cf_chain c) next
                   (cf_threshold c) en (cf_paused c) (cf_custody c) in
  Ok (put cfg PManager (DConfig c') (put (pda_reg transceiver) PManager (DReg (Registered 0 id transceiver)) s)).

(** admin.rs:267-291 *)
Definition set_outbound_limit (s : state) (sg : list addr) (cfg owner rl_acct : addr) (limit : Z) : result state :=
  let? _ := get_owned s sg cfg owner in
  let? r := get_outbox_rl s rl_acct in
  let? r' := set_limit r (st_now s) limit in
  Ok (put rl_acct PManager (DOutboxRL r') s).

(** admin.rs:293-323 *)
Definition set_inbound_limit (s : state) (sg : list addr) (cfg owner : addr) (chain limit : Z) : result state :=
  let? _ := get_owned s sg cfg owner in
  let? r := get_inbox_rl s (pda_inbox_rl chain) in
  let? r' := set_limit r (st_now s) limit in
  Ok (put (pda_inbox_rl chain) PManager (DInboxRL r') s).

(** admin.rs:325-340 *)
Definition set_paused (s : state) (sg : list addr) (cfg owner : addr) (paused : bool) : result state :=
  let? c := get_owned s sg cfg owner in
  Ok (put cfg PManager
       (DConfig (Config (cf_bump c) (cf_owner c) (cf_pending c) (cf_mint c) (cf_token_program c) (cf_mode c) (cf_chain c)
                        (cf_next c) (cf_threshold c) (cf_enabled c) paused (cf_custody c))) s).

(** ** mark_outbox_item_as_released.rs *)

(** queue/outbox.rs:27-41 *)
Definition outbox_try_release (o : outbox_item addr) (now id : Z) : result (outbox_item addr * bool) :=
  if now <? ob_release o then Ok (o, false)
  else
    let? sent := bm_get (ob_released o) id in
    let? _ := require (negb sent) MessageAlreadySent in
    let? r := bm_set (ob_released o) id true in
    Ok (OutboxItem (ob_amount o) (ob_sender o) (ob_chain o) (ob_manager o) (ob_recipient o) (ob_release o) r, true).

(** The accounts shared by mark_outbox_item_as_released.rs:18-30 and release_outbound.rs:18-30: config, item, transceiver. *)
Definition outbound_checks (s : state) (cfg item transceiver : addr) : result (config addr * outbox_item addr * registered addr) :=
  let? c := get_not_paused s cfg in
  let? o := get_outbox_item s item in
  let? rt := get_reg s transceiver in
  let? sent := bm_get (ob_released o) (rt_id rt) in
  let? _ := require (negb sent) MessageAlreadySent in
  let? en := bm_get (cf_enabled c) (rt_id rt) in
  let? _ := require en DisabledTransceiver in
  Ok (c, o, rt).

(** mark_outbox_item_as_released.rs:9-36. [seeds::program = transceiver.transceiver_address]. Also returns the handler's
    boolean. *)
Definition mark_outbox_item_as_released (s : state) (sg : list addr) (signer cfg item transceiver : addr) : result (state * bool) :=
  let? (c, o, rt) := outbound_checks s cfg item transceiver in
  let? _ := require (match rt_address rt with AProg p => addr_eqb signer (pda_outbox_signer p) | _ => false end) Constraint in
  let? _ := require (signed sg signer) Constraint in
  let? (o', released) := outbox_try_release o (st_now s) (rt_id rt) in
  Ok (put item PManager (DOutboxItem o') s, released).

(** ** Wormhole transceiver.

    [p] is the program: [PManager] for the built-in one, [PTransceiver] for programs/ntt-transceiver. The config account
    belongs to the manager in both cases. *)

(** admin.rs:6-47 (both) *)
Definition x_set_peer (s : state) (p : prog) (sg : list addr) (cfg owner : addr) (chain : Z) (address : addr) : result state :=
  let? _ := get_owned s sg cfg owner in
  let? _ := require (free s (pda_xpeer p chain)) Constraint in
  Ok (put (pda_xpeer p chain) p (DXPeer (XPeer 0 address)) s).

(** receive_message.rs:16-76 (both) *)
Definition x_receive (s : state) (p : prog) (cfg vaa : addr) : result state :=
  let? c := get_not_paused s cfg in
  let? d := get s PWormhole vaa in
  match d with
  | DVaa chain emitter (Some tm) =>
    let? xp := get_xpeer s p (pda_xpeer p chain) in
    let? _ := require (addr_eqb (xp_address xp) emitter) InvalidTransceiverPeer in
    let? _ := require (nm_to_chain (tm_msg tm) =? cf_chain c) InvalidChainId in
    let a := pda_vtm p chain (nm_id (tm_msg tm)) in
    let? _ := require (free s a) Constraint in
    Ok (put a p (DVtm chain tm) s)
  | _ => Err Constraint
  end.

(** release_outbound.rs:69-86: the published message. [AProg PManager] is the owner of the outbox item account. *)
Definition outbound_message (c : config addr) (item : addr) (o : outbox_item addr) : tr_msg :=
  TrMsg (AProg PManager) (ob_manager o)
        (NttMsg item (ob_sender o) (ob_amount o) (cf_mint c) (ob_chain o) (ob_recipient o)).

(** release_outbound.rs:13-103 (built-in) and programs/ntt-transceiver/src/wormhole/instructions/release_outbound.rs:17-141,
    which marks the item through the manager's instruction, signing with its own derived address. *)
Definition x_release (s : state) (p : prog) (cfg item transceiver : addr) (revert_on_delay bridge_ok : bool) : result state :=
  let? (c, o, rt) := outbound_checks s cfg item transceiver in
  let? _ := require (addr_eqb (rt_address rt) (AProg p)) Constraint in
  let? (s1, released) :=
    (match p with
     | PManager => let? (o', r) := outbox_try_release o (st_now s) (rt_id rt) in Ok (put item PManager (DOutboxItem o') s, r)
     | _ => mark_outbox_item_as_released s [pda_outbox_signer p] (pda_outbox_signer p) cfg item transceiver
     end) in
  if negb released then (if revert_on_delay then Err CantReleaseYet else Ok s)
  else
    let? o' := get_outbox_item s1 item in
    let? sent := bm_get (ob_released o') (rt_id rt) in
    let? _ := require sent Panic in
    bridge_post s1 (pda_message p item) (pda_emitter p) (PPTransfer (outbound_message c item o')) bridge_ok.

(** broadcast_id.rs:7-54 (both) *)
Definition x_broadcast_id (s : state) (p : prog) (sg : list addr) (cfg msg : addr) (bridge_ok : bool) : result state :=
  let? c := get_config s cfg in
  let? mt := any_mint s (cf_mint c) in
  let? _ := require (signed sg msg) Constraint in
  bridge_post s msg (pda_emitter p) (PPInfo (AProg PManager) (cf_mode c) (cf_mint c) (mt_decimals mt)) bridge_ok.

(** broadcast_peer.rs:9-62 (both) *)
Definition x_broadcast_peer (s : state) (p : prog) (sg : list addr) (cfg : addr) (chain : Z) (msg : addr) (bridge_ok : bool) : result state :=
  let? _ := get_config s cfg in
  let? xp := get_xpeer s p (pda_xpeer p chain) in
  let? _ := require (signed sg msg) Constraint in
  bridge_post s msg (pda_emitter p) (PPReg chain (xp_address xp)) bridge_ok.

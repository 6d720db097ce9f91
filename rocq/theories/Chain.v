(** * The platform: addresses, accounts, token programs, loader, core bridge.

    Addresses are symbolic. A program-derived address is the constructor [APda] applied to the program, a tag that
    stands for the constant seed, and the variable seeds (one integer and two 32-byte strings suffice for every
    address of the code). So derived addresses with different seeds differ and nobody holds a key for one. At byte
    level the seeds are injective, see Seeds.v and C14. Bump seeds are left out: every [bump] of the code is the canonical one. *)
From Verif Require Export AccountTypes.
Local Open Scope Z_scope.

(** ** Programs and addresses *)

(** The manager (programs/example-native-token-transfers, with its built-in wormhole transceiver), the stand-alone
    transceiver (programs/ntt-transceiver), the two SPL token programs, and any number of third-party programs. *)
Inductive prog := PToken | PToken22 | PAta | PWormhole | PManager | PTransceiver | PUser (n : nat).

(** The constant seeds; see Seeds.v for the byte strings. [TAta] is the associated token account. *)
Inductive tag :=
  | TConfig | TOutboxRL | TTokenAuthority | TInboxRL | TPeer | TSession | TInbox | TUpgradeLock | TReg | TOutboxSigner
  | TLut | TLutAuthority | TXPeer | TVtm | TMessage | TEmitter | TAta | TUser (n : nat).

(** [ANull] is [Pubkey::default()]; [AKey n] the public key of a key pair; [ARaw n] any other 32-byte string, such as an
    address of another chain; [AProg p] the id of a program. *)
Inductive addr :=
  | ANull | AKey (n : nat) | ARaw (n : nat) | AProg (p : prog)
  | APda (p : prog) (t : tag) (z : Z) (a b : addr).

Definition prog_eq_dec (p q : prog) : {p = q} + {p <> q}.
Proof. decide equality; apply Nat.eq_dec. Defined.
Definition tag_eq_dec (p q : tag) : {p = q} + {p <> q}.
Proof. decide equality; apply Nat.eq_dec. Defined.
Definition addr_eq_dec (a b : addr) : {a = b} + {a <> b}.
Proof. decide equality; auto using Nat.eq_dec, prog_eq_dec, tag_eq_dec, Z.eq_dec. Defined.
Definition prog_eqb (p q : prog) : bool := if prog_eq_dec p q then true else false.
Definition addr_eqb (a b : addr) : bool := if addr_eq_dec a b then true else false.
Definition oaddr_eqb (a : option addr) (b : addr) : bool := match a with Some x => addr_eqb x b | None => false end.

(** Derived addresses of the manager: initialize.rs:35, 52, 58; admin.rs:45, 176, 185, 243; redeem.rs:65-69;
    transfer.rs:136-140; luts.rs:45, 64. *)
Definition pda_config : addr := APda PManager TConfig 0 ANull ANull.
Definition pda_outbox_rl : addr := APda PManager TOutboxRL 0 ANull ANull.
Definition token_authority : addr := APda PManager TTokenAuthority 0 ANull ANull.
Definition upgrade_lock : addr := APda PManager TUpgradeLock 0 ANull ANull.
Definition pda_peer (chain : Z) : addr := APda PManager TPeer chain ANull ANull.
Definition pda_inbox_rl (chain : Z) : addr := APda PManager TInboxRL chain ANull ANull.
Definition pda_reg (transceiver : addr) : addr := APda PManager TReg 0 transceiver ANull.
Definition pda_inbox (digest : addr) : addr := APda PManager TInbox 0 digest ANull.
Definition pda_session (owner digest : addr) : addr := APda PManager TSession 0 owner digest.
Definition pda_lut : addr := APda PManager TLut 0 ANull ANull.
Definition lut_authority : addr := APda PManager TLutAuthority 0 ANull ANull.

(** Derived addresses of a wormhole transceiver run by program [p]: transceivers/wormhole/instructions/admin.rs:23,
    receive_message.rs:48-52, release_outbound.rs:34, 41; mark_outbox_item_as_released.rs:12. *)
Definition pda_xpeer (p : prog) (chain : Z) : addr := APda p TXPeer chain ANull ANull.
Definition pda_vtm (p : prog) (chain : Z) (id : addr) : addr := APda p TVtm chain id ANull.
Definition pda_message (p : prog) (item : addr) : addr := APda p TMessage 0 item ANull.
Definition pda_emitter (p : prog) : addr := APda p TEmitter 0 ANull ANull.
Definition pda_outbox_signer (p : prog) : addr := APda p TOutboxSigner 0 ANull ANull.

(** Associated token account of [wallet] for [mint] under token program [p]
    (spl-associated-token-account: seeds wallet, token program, mint). *)
Definition ata (p : prog) (wallet mint : addr) : addr :=
  APda PAta TAta (match p with PToken => 0 | _ => 1 end) wallet mint.

(** Who can sign a transaction or a call from outside the modelled programs: key pairs (also the ones programs are
    deployed under) and third-party programs for their own derived addresses. Signatures of the modelled programs'
    derived addresses occur only where the code signs with seeds. *)
Definition can_sign (a : addr) : bool :=
  match a with
  | AKey _ => true
  | AProg _ => true
  | APda (PUser _) _ _ _ _ => true
  | _ => false
  end.

(** ** Messages over symbolic addresses; ntt.rs:15-27, ntt_manager.rs:9-17, transceiver.rs:42-46. *)
Record ntt_msg := NttMsg {
  nm_id : addr; nm_sender : addr; nm_amount : trimmed; nm_token : addr; nm_to_chain : Z; nm_to : addr }.
Record tr_msg := TrMsg { tm_source : addr; tm_recipient : addr; tm_msg : ntt_msg }.

(** transfer.rs:85-91 *)
Record targs := TransferArgs { ar_amount : Z; ar_chain : Z; ar_to : addr; ar_queue : bool }.

(** keccak-256 as used for the address of an inbox item ([NttManagerMessage::keccak256], ntt_manager.rs:19-43) and of a
    session authority ([TransferArgs::keccak256], transfer.rs:93-108). Arbitrary functions. *)
Record hashes := Hashes { h_msg : Z -> ntt_msg -> addr; h_args : targs -> addr }.

(** ** Accounts. Owner program and typed contents; the byte level is in Accounts.v (C12, C13). *)
Inductive data :=
  | DConfig (c : config addr) | DPeer (p : peer addr) | DOutboxItem (o : outbox_item addr) | DOutboxRL (r : rl)
  | DInboxItem (i : inbox_item addr) | DInboxRL (r : rl) | DReg (r : registered addr) | DLut (l : lut addr)
  | DXPeer (x : xpeer addr) | DVtm (chain : Z) (m : tr_msg)
  (** [PostedVaa] of the core bridge; [None] when the payload does not parse as a transfer message *)
  | DVaa (chain : Z) (emitter : addr) (m : option tr_msg)
  | DPosted
  | DOther (n : nat).
Record acct := Acct { ac_owner : prog; ac_data : data }.

(** A token account and a mint (spl-token, spl-token-2022), without freeze state and without the extensions listed in
    DESIGN.md. [mt_withheld] collects the transfer fees of all accounts of the mint. *)
Record tok := Tok { tk_prog : prog; tk_mint : addr; tk_owner : addr; tk_amount : Z; tk_delegate : option addr; tk_delegated : Z }.
Record mint := Mint { mt_prog : prog; mt_decimals : Z; mt_supply : Z; mt_auth : option addr; mt_bps : Z; mt_maxfee : Z; mt_withheld : Z }.

(** A message in the core bridge's log. *)
Inductive post_payload :=
  | PPTransfer (m : tr_msg)                                          (* TransceiverMessage, transceiver.rs *)
  | PPInfo (manager : addr) (m : mode) (token : addr) (decimals : Z) (* WormholeTransceiverInfo, wormhole.rs *)
  | PPReg (chain : Z) (address : addr)                               (* WormholeTransceiverRegistration *)
  | PPOther (n : nat).
Record post := Post { po_emitter : addr; po_payload : post_payload }.

(** [st_uauth] is the upgrade authority in the manager's program data account. *)
Record state := State {
  st_now : Z; st_accts : addr -> option acct; st_toks : addr -> option tok; st_mints : addr -> option mint;
  st_uauth : option addr; st_posted : list post }.

Definition upd {A} (m : addr -> option A) (a : addr) (v : option A) : addr -> option A :=
  fun b => if addr_eqb b a then v else m b.

Definition set_accts f s := State (st_now s) f (st_toks s) (st_mints s) (st_uauth s) (st_posted s).
Definition set_toks f s := State (st_now s) (st_accts s) f (st_mints s) (st_uauth s) (st_posted s).
Definition set_mints f s := State (st_now s) (st_accts s) (st_toks s) f (st_uauth s) (st_posted s).
Definition set_uauth u s := State (st_now s) (st_accts s) (st_toks s) (st_mints s) u (st_posted s).
Definition set_posted p s := State (st_now s) (st_accts s) (st_toks s) (st_mints s) (st_uauth s) p.
Definition set_now t s := State t (st_accts s) (st_toks s) (st_mints s) (st_uauth s) (st_posted s).

Definition put (a : addr) (p : prog) (d : data) (s : state) : state := set_accts (upd (st_accts s) a (Some (Acct p d))) s.
Definition put_tok (a : addr) (t : tok) (s : state) : state := set_toks (upd (st_toks s) a (Some t)) s.
Definition put_mint (a : addr) (m : mint) (s : state) : state := set_mints (upd (st_mints s) a (Some m)) s.

(** No account at [a] yet (system-owned and empty), so one can be created there. *)
Definition free (s : state) (a : addr) : bool :=
  match a with
  | AProg _ | ANull => false
  | _ => match st_accts s a, st_toks s a, st_mints s a with None, None, None => true | _, _, _ => false end
  end.

(** Anchor's [Account<T>]: the account exists, is owned by program [p], and has the discriminator of [T]. *)
Definition get (s : state) (p : prog) (a : addr) : result data :=
  match st_accts s a with
  | Some ac => if prog_eqb (ac_owner ac) p then Ok (ac_data ac) else Err Constraint
  | None => Err Constraint
  end.
Definition get_config s a := let? d := get s PManager a in match d with DConfig c => Ok c | _ => Err Constraint end.
Definition get_peer s a := let? d := get s PManager a in match d with DPeer c => Ok c | _ => Err Constraint end.
Definition get_outbox_item s a := let? d := get s PManager a in match d with DOutboxItem c => Ok c | _ => Err Constraint end.
Definition get_outbox_rl s a := let? d := get s PManager a in match d with DOutboxRL c => Ok c | _ => Err Constraint end.
Definition get_inbox_item s a := let? d := get s PManager a in match d with DInboxItem c => Ok c | _ => Err Constraint end.
Definition get_inbox_rl s a := let? d := get s PManager a in match d with DInboxRL c => Ok c | _ => Err Constraint end.
Definition get_reg s a := let? d := get s PManager a in match d with DReg c => Ok c | _ => Err Constraint end.
Definition get_xpeer s p a := let? d := get s p a in match d with DXPeer c => Ok c | _ => Err Constraint end.
Definition get_vtm s p a := let? d := get s p a in match d with DVtm c m => Ok (c, m) | _ => Err Constraint end.

(** Anchor's [Signer]. *)
Definition signed (sg : list addr) (a : addr) : bool := existsb (addr_eqb a) sg.

(** ** Token programs. [auth] is the signing authority; that it signed is checked by the callers. [ok = false] stands for a
    refusal of the token program or of a transfer hook that the model does not otherwise describe (frozen account,
    memo required, hook failure). *)

(** spl-token-2022 [TransferFee::calculate_fee]: ceiling of amount * bps / 10000, capped. *)
Definition fee_of (m : mint) (amount : Z) : Z :=
  match mt_prog m with
  | PToken22 => Z.min ((amount * mt_bps m + 9999) / 10000) (mt_maxfee m)
  | _ => 0
  end.

Definition get_tok (s : state) (p : prog) (a : addr) : result tok :=
  match st_toks s a with Some t => if prog_eqb (tk_prog t) p then Ok t else Err TokenErr | None => Err TokenErr end.
Definition get_mint (s : state) (p : prog) (a : addr) : result mint :=
  match st_mints s a with Some m => if prog_eqb (mt_prog m) p then Ok m else Err TokenErr | None => Err TokenErr end.

(** What the authority may take: as delegate up to the delegated amount, which shrinks, or as owner. *)
Definition spend (t : tok) (auth : addr) (amount : Z) : result tok :=
  if oaddr_eqb (tk_delegate t) auth then
    let? _ := require (amount <=? tk_delegated t) TokenErr in
    let left := tk_delegated t - amount in
    Ok (Tok (tk_prog t) (tk_mint t) (tk_owner t) (tk_amount t) (if left =? 0 then None else tk_delegate t) left)
  else let? _ := require (addr_eqb (tk_owner t) auth) TokenErr in Ok t.

Definition with_amount (t : tok) (x : Z) : tok := Tok (tk_prog t) (tk_mint t) (tk_owner t) x (tk_delegate t) (tk_delegated t).
Definition with_supply (m : mint) (x : Z) : mint := Mint (mt_prog m) (mt_decimals m) x (mt_auth m) (mt_bps m) (mt_maxfee m) (mt_withheld m).
Definition with_withheld (m : mint) (x : Z) : mint := Mint (mt_prog m) (mt_decimals m) (mt_supply m) (mt_auth m) (mt_bps m) (mt_maxfee m) x.

(** [TransferChecked] (spl-token and spl-token-2022 [process_transfer]). *)
Definition tok_transfer (s : state) (p : prog) (src mnt dst auth : addr) (amount : Z) (ok : bool) : result state :=
  let? t := get_tok s p src in
  let? d := get_tok s p dst in
  let? m := get_mint s p mnt in
  let? _ := require (addr_eqb (tk_mint t) mnt && addr_eqb (tk_mint d) mnt && ok) TokenErr in
  let? _ := require (amount <=? tk_amount t) TokenErr in
  let? t' := spend t auth amount in
  if addr_eqb src dst then Ok s
  else
    let fee := fee_of m amount in
    let? x := ok_or (checked u64_max (tk_amount d + (amount - fee))) TokenErr in
    let? w := ok_or (checked u64_max (mt_withheld m + fee)) TokenErr in
    Ok (put_mint mnt (with_withheld m w)
        (put_tok dst (with_amount d x)
         (put_tok src (with_amount t' (tk_amount t - amount)) s))).

(** [MintTo] *)
Definition tok_mint_to (s : state) (p : prog) (mnt dst auth : addr) (amount : Z) : result state :=
  let? m := get_mint s p mnt in
  let? d := get_tok s p dst in
  let? _ := require (addr_eqb (tk_mint d) mnt && oaddr_eqb (mt_auth m) auth) TokenErr in
  let? x := ok_or (checked u64_max (tk_amount d + amount)) TokenErr in
  let? y := ok_or (checked u64_max (mt_supply m + amount)) TokenErr in
  Ok (put_mint mnt (with_supply m y) (put_tok dst (with_amount d x) s)).

(** [Burn] *)
Definition tok_burn (s : state) (p : prog) (src mnt auth : addr) (amount : Z) : result state :=
  let? t := get_tok s p src in
  let? m := get_mint s p mnt in
  let? _ := require (addr_eqb (tk_mint t) mnt) TokenErr in
  let? _ := require (amount <=? tk_amount t) TokenErr in
  let? t' := spend t auth amount in
  let? y := ok_or (checked u64_max (mt_supply m - amount)) TokenErr in
  Ok (put_mint mnt (with_supply m y) (put_tok src (with_amount t' (tk_amount t - amount)) s)).

(** [InitializeAccount3] on a fresh address *)
Definition tok_init (s : state) (p : prog) (a mnt owner : addr) : result state :=
  let? _ := get_mint s p mnt in
  let? _ := require (free s a) TokenErr in
  Ok (put_tok a (Tok p mnt owner 0 None 0) s).

(** ** Upgradeable loader, for the manager's program data. *)
(** [SetAuthority] / [SetAuthorityChecked]: the current authority must be [cur] (who signs). *)
Definition loader_set_authority (s : state) (cur : addr) (new : option addr) : result state :=
  let? _ := require (oaddr_eqb (st_uauth s) cur) LoaderErr in
  Ok (set_uauth new s).

(** ** Core bridge [post_message]: creates the message account and logs the payload under the emitter, which signs.
    [ok = false]: the bridge refuses (wrong bridge accounts, fee not paid). *)
Definition bridge_post (s : state) (msg emitter : addr) (pl : post_payload) (ok : bool) : result state :=
  let? _ := require (ok && free s msg) BridgeErr in
  Ok (set_posted (Post emitter pl :: st_posted s) (put msg PWormhole DPosted s)).

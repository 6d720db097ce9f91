(** * The transactions of the client library (C97). *)
From Coq Require Import String.
From Verif Require Export TxFacts.
From Verif Require Import Scenario PropsEntry.
Import ListNotations.
Local Open Scope Z_scope.
Local Open Scope list_scope.
Local Strategy 1000 [sha256].

(** ** C97 *)

(** A transfer: approval, deposit and publication. It succeeds exactly when [sendable] holds, which asks for nothing prepared before;
    what it does is [sent]. *)
Theorem C97_transfer : forall nm H s c tp sender amount chain to q item x, reachable H s -> fetched s c -> cf_paused c = false -> cf_token_program c = AProg tp ->
  can_sign sender = true -> can_sign item = true -> is_ntt_prog x = true -> is_u64 amount -> is_u16 chain -> is32 to ->
  let a := TransferArgs amount chain (nm to) q in let from := ata tp sender (cf_mint c) in
  exists i1 i2 i3, client_transfer nm H sender amount chain to q item c x = Some [i1; i2; i3] /\ forall ok0 ok ok',
    let r := submit nm H sender s [(i1, ok0); (i2, ok); (i3, ok')] in
    (succeeds r <-> exists m pe f cu orl irl rt v, sendable s c x sender from item a ok ok' m pe f cu orl irl rt v) /\
    (forall s', r = Ok s' -> exists m pe f cu orl irl rt v, sendable s c x sender from item a ok ok' m pe f cu orl irl rt v /\
       sent H s s' c x sender from item a m pe f cu orl irl rt v).
Proof. exact transfer_tx. Qed.
Print Assumptions C97_transfer.

(** A redemption: receipt, redemption and release. *)
Theorem C97_redeem : forall nm H s c tp payer vaa ch msg x, reachable H s -> fetched s c -> cf_paused c = false -> cf_token_program c = AProg tp ->
  can_sign payer = true -> is_ntt_prog x = true ->
  (forall ch' e tm, st_accts s vaa = Some (Acct PWormhole (DVaa ch' e (Some tm))) -> ch' = ch /\ tm_msg tm = msg) ->
  exists i1 i2 i3, client_redeem H payer vaa ch msg c x = Some [i1; i2; i3] /\ forall ok1 ok2 ok,
    let r := submit nm H payer s [(i1, ok1); (i2, ok2); (i3, ok)] in
    (succeeds r <-> exists e tm xp rt pe m irl orl d cu, claimable H s c x tp vaa ch msg ok e tm xp rt pe m irl orl d cu) /\
    (forall s', r = Ok s' -> exists e tm xp rt pe m irl orl d cu, claimable H s c x tp vaa ch msg ok e tm xp rt pe m irl orl d cu /\
       claimed H s s' c x tp ch msg tm rt m irl orl d cu).
Proof. exact redeem_tx. Qed.
Print Assumptions C97_redeem.

(** It fails without the recipient's associated token account, which the library does not create, and once the transceiver has received the message,
    which anybody can have it do. *)
Theorem C97_redeem_needs : forall nm H s c tp payer vaa ch msg x l oks, reachable H s -> fetched s c -> cf_token_program c = AProg tp ->
  can_sign payer = true -> is_ntt_prog x = true ->
  (forall ch' e tm, st_accts s vaa = Some (Acct PWormhole (DVaa ch' e (Some tm))) -> ch' = ch /\ tm_msg tm = msg) ->
  client_redeem H payer vaa ch msg c x = Some l -> List.length oks = 3%nat -> succeeds (submit nm H payer s (combine l oks)) ->
  (exists d, st_toks s (ata tp (nm_to msg) (cf_mint c)) = Some d) /\ st_accts s (pda_vtm x ch (nm_id msg)) = None /\ st_accts s (item_of H ch msg) = None.
Proof. exact redeem_needs. Qed.
Print Assumptions C97_redeem_needs.

(** The release of a transfer that had to wait. *)
Theorem C97_complete : forall nm H s c tp payer ch msg, reachable H s -> fetched s c -> cf_paused c = false -> cf_token_program c = AProg tp -> can_sign payer = true ->
  (forall it, inbox_at s (item_of H ch msg) it -> ib_recipient it = nm_to msg) ->
  exists i, completeInboundQueuedTransfer H payer ch msg c = Some [i] /\ forall ok,
    let r := submit nm H payer s [(i, ok)] in let x := ReleaseAccts pda_config (item_of H ch msg) tp ok in
    (succeeds r <-> exists it m d cu, releasable s x (cf_mode c) c it m d cu /\
     (early it (st_now s) \/ due it (st_now s) /\ creditable x c it m d /\
      match cf_mode c with Locking => ib_amount it <= tk_amount cu | Burning => tk_amount cu + ib_amount it <= u64_max /\ mt_supply m + ib_amount it <= u64_max end)) /\
    (forall s', r = Ok s' -> exists it m d cu, releasable s x (cf_mode c) c it m d cu /\
     (early it (st_now s) /\ s' = s \/ due it (st_now s) /\ marked s s' x it /\
      match cf_mode c with Locking => unlocked s s' x c it m d cu | Burning => issued s s' x c it m d end)).
Proof. exact complete_tx. Qed.
Print Assumptions C97_complete.

(** The owner's: a transceiver registered and announced, a peer transceiver set and announced. *)
Theorem C97_register : forall nm H s c payer owner msg x, reachable H s -> fetched s c -> cf_paused c = false ->
  can_sign payer = true -> can_sign owner = true -> can_sign msg = true -> is_ntt_prog x = true ->
  exists i1 i2, registerWormholeTransceiver payer owner msg c x = Some [i1; i2] /\ forall ok1 ok,
    let r := submit nm H payer s [(i1, ok1); (i2, ok)] in
    (succeeds r <-> owner = cf_owner c /\ st_accts s (pda_reg (AProg x)) = None /\ cf_next c < 128 /\ blank s msg /\ ok = true) /\
    (forall s', r = Ok s' -> exists c' m, fetched s' c' /\ fixed c' = fixed c /\ cf_owner c' = cf_owner c /\ cf_pending c' = cf_pending c /\ cf_paused c' = false /\
       cf_next c' = cf_next c + 1 /\ (forall i, 0 <= i -> Z.testbit (cf_enabled c') i = (i =? cf_next c) || Z.testbit (cf_enabled c) i) /\
       reg_at s' (pda_reg (AProg x)) (Registered 0 (cf_next c) (AProg x)) /\ st_mints s (cf_mint c) = Some m /\
       published_with s s' x msg (PPInfo (AProg PManager) (cf_mode c) (cf_mint c) (mt_decimals m)) [pda_reg (AProg x); pda_config]).
Proof. exact register_tx. Qed.
Print Assumptions C97_register.
Theorem C97_set_peer : forall nm H s c sender msg x ch address, reachable H s -> fetched s c ->
  can_sign sender = true -> can_sign msg = true -> is_ntt_prog x = true -> is_u16 ch -> is32 address ->
  exists i1 i2, setTransceiverPeer sender msg x ch address = Some [i1; i2] /\ forall ok1 ok,
    let r := submit nm H sender s [(i1, ok1); (i2, ok)] in
    (succeeds r <-> sender = cf_owner c /\ st_accts s (pda_xpeer x ch) = None /\ blank s msg /\ ok = true) /\
    (forall s', r = Ok s' -> xpeer_at s' x ch (XPeer 0 (nm address)) /\ published_with s s' x msg (PPReg ch (nm address)) [pda_xpeer x ch]).
Proof. exact xpeer_tx. Qed.
Print Assumptions C97_set_peer.

(** The worked deployment. A transfer without any preparation, of which dust of 5 stays approved; to an unknown chain it fails. A redemption with the
    recipient's account pays, and fails after the message was received by someone else. *)
Definition config_of (s : state) : config addr := match st_accts s pda_config with Some (Acct _ (DConfig c)) => c | _ => Config 0 ANull None ANull ANull Locking 0 0 0 0 true ANull end.
Definition with_oks (l : option (list tx_item)) : list (tx_item * bool) := match l with Some l => map (fun i => (i, true)) l | None => [(Ours None, true)] end.
Definition do_transfer (s : state) (amount chain : Z) : result state :=
  submit nm0 H0 USER s (with_oks (client_transfer nm0 H0 USER amount chain (repeat x09 32) false ITEM (config_of s) PManager)).
Definition do_redeem (s : state) : result state := submit nm0 H0 USER s (with_oks (client_redeem H0 USER VAA 2 (tm_msg in_msg) (config_of s) PManager)).
Definition with_account (k : nat) : state := apply_tx H0 (at_ Locking k) [Call [] (ECreateAta PToken RCPT MINT)].
Example C97_case :
  (match do_transfer (at_ Locking 5) 1000000005 2 with
   | Ok s => Some (option_map tk_amount (st_toks s custody), option_map tk_delegated (st_toks s user_tok), List.length (st_posted s))
   | Err _ => None end) = Some (Some 1000000000, Some 5, 1%nat) /\
  is_ok (do_transfer (at_ Locking 5) 1000000005 3) = false /\
  (match do_redeem (with_account 9) with Ok s => option_map tk_amount (st_toks s rcpt_tok) | Err _ => None end) = option_map tk_amount (st_toks (at_ Locking 13) rcpt_tok) /\
  is_ok (do_redeem (with_account 10)) = false.
Proof. repeat split; vm_compute; reflexivity. Qed.

(** * The instructions of the client library (C96). *)
From Coq Require Import String.
From Verif Require Export BuilderFacts.
From Verif Require Import Scenario PropsEntry Lut.
Import ListNotations.
Local Open Scope Z_scope.
Local Open Scope list_scope.
Local Strategy 1000 [sha256].

(** ** C96 *)

(** Setting up: what the library builds is what the programs take for the instruction of that name, with the library's arguments. *)
Theorem C96_setup : forall nm ok H s c payer owner mint tp chain limit mode x slot,
  (is_token_prog tp = true -> is_u16 chain -> is_u64 limit ->
   means nm ok H s (createInitialize payer owner mint (AProg tp) chain limit mode) (IInitialize owner mint tp chain limit mode)) /\
  (fetched s c -> is_u64 slot ->
   means nm ok H s (initializeOrUpdateLUT payer c x slot) (IInitializeLut pda_config pda_outbox_rl (lut_at lut_authority slot) ok)) /\
  means nm ok H s (createRegisterTransceiver payer owner x) (IRegisterTransceiver pda_config owner (AProg x)).
Proof. intros. split; [|split]; intros; [apply m_initialize|apply m_lut|apply m_register]; assumption. Qed.
Print Assumptions C96_setup.

(** Transfers, from the account of the one whose session authority is derived. The library refuses to lock while it has seen the manager paused. *)
Theorem C96_transfer : forall nm ok H s c tp payer from item amount chain to q f, reachable H s -> fetched s c -> cf_token_program c = AProg tp ->
  st_toks s from = Some f -> is_u64 amount -> is_u16 chain -> is32 to ->
  let accts := TransferAccts pda_config from tp item pda_outbox_rl ok in
  let args := TransferArgs amount chain (nm to) q in
  means nm ok H s (createTransferBurn nm H payer from (tk_owner f) item c amount chain to q) (ITransferBurn accts args) /\
  (if cf_paused c then createTransferLock nm H payer from (tk_owner f) item c amount chain to q = None
   else means nm ok H s (createTransferLock nm H payer from (tk_owner f) item c amount chain to q) (ITransferLock accts args)).
Proof.
  intros. cbv zeta. split; [eapply m_burn; eauto|]. destruct (cf_paused c) eqn:P; [unfold createTransferLock; rewrite P; reflexivity|eapply m_lock; eauto].
Qed.
Print Assumptions C96_transfer.

(** Releases of inbound transfers, to the recipient that the inbox item names. *)
Theorem C96_release_inbound : forall nm ok H s c tp payer recipient chain m revert, reachable H s -> fetched s c -> cf_token_program c = AProg tp ->
  (forall it, inbox_at s (pda_inbox (h_msg H chain m)) it -> ib_recipient it = recipient) ->
  let accts := ReleaseAccts pda_config (pda_inbox (h_msg H chain m)) tp ok in
  means nm ok H s (createReleaseInboundMint H payer recipient c chain m revert) (IReleaseMint accts revert) /\
  means nm ok H s (createReleaseInboundUnlock H payer recipient c chain m revert) (IReleaseUnlock accts revert).
Proof. intros. cbv zeta. split; [apply m_mint|apply m_unlock]; assumption. Qed.
Print Assumptions C96_release_inbound.

(** Messages: received from where the bridge keeps them, redeemed from where a transceiver keeps them. *)
Theorem C96_messages : forall nm ok H s c payer x vaa chain m, reachable H s -> fetched s c -> is_ntt_prog x = true ->
  ((forall ch e tm, st_accts s vaa = Some (Acct PWormhole (DVaa ch e (Some tm))) -> ch = chain /\ tm_msg tm = m) ->
   means nm ok H s (createReceive payer vaa x chain m) (IXReceive x pda_config vaa)) /\
  ((forall tm, st_accts s (pda_vtm x chain (nm_id m)) = Some (Acct x (DVtm chain tm)) -> tm_msg tm = m) ->
   means nm ok H s (createRedeem H payer c x chain m) (IRedeem (RedeemAccts pda_config (pda_vtm x chain (nm_id m)) (pda_reg (AProg x)) pda_outbox_rl))).
Proof. intros. split; intros; [apply m_receive|apply m_redeem]; assumption. Qed.
Print Assumptions C96_messages.

(** Administration of the manager. *)
Theorem C96_manager : forall nm ok H s payer owner chain address limit decimals paused, is_u16 chain -> is32 address -> is_u64 limit -> is_u8 decimals ->
  means nm ok H s (createSetPeer payer owner chain address limit decimals) (ISetPeer pda_config owner chain (nm address) limit decimals) /\
  means nm ok H s (createSetPaused owner paused) (ISetPaused pda_config owner paused) /\
  means nm ok H s (createSetOutboundLimit owner limit) (ISetOutboundLimit pda_config owner pda_outbox_rl limit) /\
  means nm ok H s (setInboundLimit owner chain limit) (ISetInboundLimit pda_config owner chain limit).
Proof. intros. repeat split; [apply m_set_peer|apply m_set_paused|apply m_outbound|apply m_inbound]; assumption. Qed.
Print Assumptions C96_manager.

(** The transceiver, whichever of the two programs it is, though the library always uses the interface of the stand-alone one. *)
Theorem C96_transceiver : forall nm ok H s c payer sender message item x chain address revert, fetched s c -> is_ntt_prog x = true -> is_u16 chain -> is32 address ->
  means nm ok H s (createSetWormholePeer sender x chain address) (IXSetPeer x pda_config sender chain (nm address)) /\
  means nm ok H s (createBroadcastWormholeId payer message c x) (IXBroadcastId x pda_config message ok) /\
  means nm ok H s (createBroadcastWormholePeer payer message x chain) (IXBroadcastPeer x pda_config chain message ok) /\
  means nm ok H s (createReleaseWormholeOutbound payer item x revert) (IXRelease x pda_config item (pda_reg (AProg x)) revert ok).
Proof. intros. repeat split; [apply m_x_set_peer|apply BuilderFacts.m_id|apply m_peer|apply m_release]; assumption. Qed.
Print Assumptions C96_transceiver.

(** The one that is never built: the call that hands over the ownership lacks the owner. *)
Theorem C96_ownership : forall new_owner, createTransferOwnership new_owner = None.
Proof. exact no_transfer_ownership. Qed.
Print Assumptions C96_ownership.

(** The signatures asked for. *)
Theorem C96_signers : forall nm H c tp payer owner mint from authority item recipient vaa message x chain slot amount to q m mode limit address decimals paused revert,
  cf_token_program c = AProg tp ->
  wants (createInitialize payer owner mint (AProg tp) chain limit mode) [payer; owner] /\
  wants (initializeOrUpdateLUT payer c x slot) [payer] /\
  (cf_paused c = false -> wants (createTransferLock nm H payer from authority item c amount chain to q) [payer; item]) /\
  wants (createTransferBurn nm H payer from authority item c amount chain to q) [payer; item] /\
  wants (createReleaseInboundMint H payer recipient c chain m revert) [payer] /\
  wants (createReleaseInboundUnlock H payer recipient c chain m revert) [payer] /\
  wants (createRedeem H payer c x chain m) [payer] /\ wants (createReceive payer vaa x chain m) [payer] /\
  wants (createSetPeer payer owner chain address limit decimals) [payer; owner] /\ wants (createSetPaused owner paused) [owner] /\
  wants (createSetOutboundLimit owner limit) [owner] /\ wants (setInboundLimit owner chain limit) [owner] /\
  wants (createRegisterTransceiver payer owner x) [payer; owner] /\ wants (createSetWormholePeer owner x chain address) [owner] /\
  wants (createBroadcastWormholeId payer message c x) [payer; message] /\ wants (createBroadcastWormholePeer payer message x chain) [payer; message] /\
  wants (createReleaseWormholeOutbound payer item x revert) [payer].
Proof. exact all_wants. Qed.
Print Assumptions C96_signers.

(** In the worked deployment: the library's transfer has the data and the accounts of C73's example, and runs, with all accounts
    writable and one more behind as well; with another token account's owner for the session, or before the peer's data are there, it fails. *)
Definition cfg_of (s : state) : option (config addr) := match st_accts s pda_config with Some (Acct _ (DConfig c)) => Some c | _ => None end.
Definition built (s : state) (authority : addr) : option ix :=
  match cfg_of s with Some c => createTransferLock nm0 H0 USER user_tok authority ITEM c 1000000005 2 (repeat x09 32) false | None => None end.
Definition runs (s : state) (b : option ix) (f : list meta -> list meta) : bool :=
  match b with Some x => is_ok (entry nm0 true H0 s (ix_program x) (f (ix_metas x)) (ix_data x)) | None => false end.
Example C96_case :
  let s := at_ Locking 6 in
  option_map (fun x => (ix_program x, ix_metas x)) (built s USER) = Some (AManager, transfer_metas) /\
  option_map ix_data (built s USER) = Some transfer_data /\
  runs s (built s USER) (fun l => l) = true /\ runs s (built s USER) (fun l => map (fun m => Meta (me_key m) (me_signer m) true) l ++ [R_ RCPT]) = true /\
  runs s (built s RCPT) (fun l => l) = false /\ runs (at_ Locking 3) (built s USER) (fun l => l) = false /\ built (at_ Locking 0) USER = None.
Proof. repeat split; vm_compute; reflexivity. Qed.

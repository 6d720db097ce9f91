(** * Proofs about the client library's instructions (C96). *)
From Coq Require Import String.
From Verif Require Export SpecBuilder IdlFacts.
From Verif Require Import ChainFacts Lut DispatchFacts Inv Kept.
Import ListNotations.
Local Open Scope Z_scope.
Local Open Scope list_scope.
Local Strategy 1000 [sha256].

Lemma handle_eqb_refl h : handle_eqb h h = true.
Proof. unfold handle_eqb. destruct (handle_eq_dec h h); congruence. Qed.

Lemma at_least_nth ms ms' n m : at_least ms ms' -> nth_error ms n = Some m ->
  exists m', nth_error ms' n = Some m' /\ me_key m' = me_key m /\ (me_signer m = true -> me_signer m' = true) /\ (me_writable m = true -> me_writable m' = true).
Proof.
  intros (l & r & -> & F). revert n. induction F as [|a b ms l (K & S & W) F IH]; intros [|n] E; cbn in *; try discriminate E.
  - injection E as <-. eauto.
  - apply IH, E.
Qed.
Lemma at_least_key ms ms' n a : at_least ms ms' -> at_key ms n = Some a -> at_key ms' n = Some a.
Proof.
  intros L K. destruct (at_key_some _ _ _ K) as (m & M & E). destruct (at_least_nth _ _ _ _ L M) as (m' & M' & E' & _).
  unfold at_key. rewrite M', E', E. reflexivity.
Qed.
Lemma at_least_tok ms ms' n p : at_least ms ms' -> at_token_program ms n = Some p -> at_token_program ms' n = Some p.
Proof.
  intros L K. unfold at_token_program in *. destruct (at_key ms n) as [a|] eqn:A; [|discriminate K]. rewrite (at_least_key _ _ _ _ L A). exact K.
Qed.
Lemma at_least_instr nm ok q g ms ms' i : at_least ms ms' -> instr_of nm ok q g ms = Some i -> instr_of nm ok q g ms' = Some i.
Proof.
  intros L I. call_cases I; unfold instr_of; cbv zeta;
    repeat match goal with
    | R : at_key ms ?n = Some _ |- _ => apply (at_least_key _ ms' _ _ L) in R; rewrite R
    | R : at_token_program ms ?n = Some _ |- _ => apply (at_least_tok _ ms' _ _ L) in R; rewrite R
    | R : addr_eqb _ _ = true |- _ => rewrite R; clear R
    end; reflexivity.
Qed.
Lemma at_least_meet ns : forall ms ms', at_least ms ms' -> meet ns ms = true -> meet ns ms' = true.
Proof.
  induction ns as [|n ns IH]; intros ms ms' L M; [reflexivity|]. destruct ms as [|m ms]; [discriminate M|]. destruct L as (l & r & -> & F).
  inversion F as [|? m' ? l' (K & S & W) F' E1 E2]; subst. cbn [meet app] in *. apply andb_prop in M. destruct M as [M1 M2].
  rewrite (IH ms (l' ++ r)); [|exists l', r; auto|exact M2]. rewrite andb_true_r. unfold meets in *. rewrite K.
  apply andb_prop in M1. destruct M1 as [M1 MW]. apply andb_prop in M1. destruct M1 as [M1 MS]. rewrite M1. cbn [andb].
  destruct (ne_signer n), (me_signer m); try discriminate MS; try rewrite (S eq_refl); cbn [implb andb];
    destruct (ne_writable n), (me_writable m); try discriminate MW; try rewrite (W eq_refl); reflexivity.
Qed.
Lemma at_least_refl ms : at_least ms ms.
Proof. exists ms, []. split; [symmetry; apply app_nil_r|]. induction ms; constructor; auto. Qed.

Lemma encoded_data g : data_of g (encoded g).
Proof. exists (firstn 8 (sha256 (str "global:" ++ str (name_of g)))), []. split; [left; reflexivity|]. rewrite app_nil_r. reflexivity. Qed.

Lemma means_intro nm ok H s p q g ms b i :
  b = Some (Ix p (encoded g) ms) -> prog_of p = Some q -> offered p g -> wf_call g -> instr_of nm ok q g ms = Some i ->
  (forall sg s', step H s (Call sg i) = Ok s' -> exists ns, layout H s i = Ok ns /\ meet ns ms = true) ->
  means nm ok H s b i.
Proof.
  intros B P O W I Y. exists (Ix p (encoded g) ms). split; [exact B|]. cbn [ix_metas ix_program ix_data]. intros ms' L s'.
  assert (D : dispatch p (encoded g) = Some g) by (apply dispatch_exact; auto using encoded_data).
  assert (I' := at_least_instr _ _ _ _ _ _ _ L I).
  assert (E : entry nm ok H s p ms' (encoded g) =
    (let? ns := layout H s i in let? _ := require (meet ns ms') Constraint in step H s (Call (signers_of ms') i))).
  { unfold entry. rewrite P. cbn [ok_or bind]. rewrite D. cbn [ok_or bind]. rewrite I'. cbn [ok_or bind]. clear -I. destruct g; try reflexivity; discriminate I. }
  rewrite E. split; intros T.
  - destruct (layout H s i) as [ns|]; cbn [bind] in T; [|discriminate T]. destruct (meet ns ms'); cbn [require bind] in T; [exact T|discriminate T].
  - destruct (Y _ _ T) as (ns & Ly & M). rewrite Ly. cbn [bind]. rewrite (at_least_meet _ _ _ L M). exact T.
Qed.

Lemma fetched_ok H s c : reachable H s -> fetched s c ->
  exists tp, is_token_prog tp = true /\ cf_token_program c = AProg tp /\ cf_custody c = ata tp token_authority (cf_mint c).
Proof.
  intros R F. destruct (reachable_inv _ _ R) as [_ _ _ C _]. destruct (co_prog _ _ (C c F)) as (tp & m & t & T & P & K & _). eauto.
Qed.

Lemma fetched_get s c : fetched s c -> get_config s pda_config = Ok c.
Proof. intros F. unfold get_config, get. rewrite F. reflexivity. Qed.
Lemma tok_at ms n tp : is_token_prog tp = true -> at_key ms n = Some (AProg tp) -> at_token_program ms n = Some tp.
Proof. intros T E. unfold at_token_program. rewrite E, T. reflexivity. Qed.

Ltac is_built := cbv beta delta [createInitialize initializeOrUpdateLUT createTransferBurn createTransferLock createReleaseInboundMint createReleaseInboundUnlock
    createSetPeer createSetPaused createSetOutboundLimit setInboundLimit createRedeem createRegisterTransceiver createReceive createSetWormholePeer
    createBroadcastWormholeId createBroadcastWormholePeer createReleaseWormholeOutbound build];
  match goal with |- match ?x with _ => _ end = _ => let ms := eval cbv - [pda_config pda_peer pda_inbox pda_inbox_rl pda_outbox_rl pda_vtm pda_xpeer pda_reg pda_session
     pda_message pda_emitter pda_outbox_signer pda_lut lut_authority lut_at token_authority system_program sysvar_rent sysvar_clock ata assoc custody_address h_args h_msg nm_id
     cf_mint cf_custody cf_token_program] in x in change x with ms; reflexivity end.
Ltac meets_all := cbv beta iota delta [meet meets ne_key ne_signer ne_writable me_key me_signer me_writable ro mu sig_ sigmu payer other system loader clock rent
    program_data free_mu wormhole_accounts app implb assoc custody_address]; rewrite ?handle_eqb_refl; reflexivity.
Ltac is_instr := cbv beta iota zeta delta [instr_of at_token_program at_key nth_error me_key];
  repeat match goal with T : is_token_prog _ = true |- _ => rewrite T end; rewrite ?addr_eqb_refl; reflexivity.
Ltac intro_means gg pp := eapply means_intro with (g := gg) (p := pp); [is_built|reflexivity|cbn; auto|cbn; auto|try is_instr|].

Section Means.
Context (nm : bytes -> addr) (ok : bool) (H : hashes) (s : state).

Lemma m_initialize py o m tp ch l md : is_token_prog tp = true -> is_u16 ch -> is_u64 l ->
  means nm ok H s (createInitialize py o m (AProg tp) ch l md) (IInitialize o m tp ch l md).
Proof.
  intros T C L. intro_means (GInitialize ch l md) AManager.
  intros sg s' _. eexists. split; [reflexivity|]. meets_all.
Qed.
Lemma m_lut py c x slot : fetched s c -> is_u64 slot ->
  means nm ok H s (initializeOrUpdateLUT py c x slot) (IInitializeLut pda_config pda_outbox_rl (lut_at lut_authority slot) ok).
Proof.
  intros F U. intro_means (GInitializeLut slot) AManager.
  intros sg s' _. cbn [layout]. rewrite (fetched_get _ _ F). cbn [bind]. eexists. split; [reflexivity|]. meets_all.
Qed.
Lemma m_lock py from au it c tp amount ch to q f : reachable H s -> fetched s c -> cf_token_program c = AProg tp -> cf_paused c = false ->
  st_toks s from = Some f -> tk_owner f = au -> is_u64 amount -> is_u16 ch -> is32 to ->
  means nm ok H s (createTransferLock nm H py from au it c amount ch to q) (ITransferLock (TransferAccts pda_config from tp it pda_outbox_rl ok) (TransferArgs amount ch (nm to) q)).
Proof.
  intros R F E0 P X O A C T. destruct (fetched_ok _ _ _ R F) as (tp' & TP & E & K). rewrite E0 in E. injection E as <-. unfold createTransferLock. rewrite P.
  unfold transfer_common, custody_address. rewrite E0. cbn [assoc].
  intro_means (GTransferLock amount ch to q) AManager.
  intros sg s' _. cbn [layout xa_config xa_from xa_tp xa_outbox_item xa_outbox_rl ar_chain]. rewrite (fetched_get _ _ F). unfold any_tok. rewrite X. cbn [ok_or bind]. rewrite O, K.
  eexists. split; [reflexivity|]. meets_all.
Qed.
Lemma m_burn py from au it c tp amount ch to q f : reachable H s -> fetched s c -> cf_token_program c = AProg tp ->
  st_toks s from = Some f -> tk_owner f = au -> is_u64 amount -> is_u16 ch -> is32 to ->
  means nm ok H s (createTransferBurn nm H py from au it c amount ch to q) (ITransferBurn (TransferAccts pda_config from tp it pda_outbox_rl ok) (TransferArgs amount ch (nm to) q)).
Proof.
  intros R F E0 X O A C T. destruct (fetched_ok _ _ _ R F) as (tp' & TP & E & K). rewrite E0 in E. injection E as <-. unfold createTransferBurn.
  unfold transfer_common, custody_address. rewrite E0. cbn [assoc].
  intro_means (GTransferBurn amount ch to q) AManager.
  intros sg s' _. cbn [layout xa_config xa_from xa_tp xa_outbox_item xa_outbox_rl ar_chain]. rewrite (fetched_get _ _ F). unfold any_tok. rewrite X. cbn [ok_or bind]. rewrite O, K.
  eexists. split; [reflexivity|]. meets_all.
Qed.

Lemma step_exec c s' : step H s c = Ok s' -> exec H s (signers c) (ins c) = Ok s'.
Proof. unfold step. intros E. binds E. exact E. Qed.
Lemma m_mint py r c tp ch m rv : reachable H s -> fetched s c -> cf_token_program c = AProg tp ->
  (forall it, inbox_at s (pda_inbox (h_msg H ch m)) it -> ib_recipient it = r) ->
  means nm ok H s (createReleaseInboundMint H py r c ch m rv) (IReleaseMint (ReleaseAccts pda_config (pda_inbox (h_msg H ch m)) tp ok) rv).
Proof.
  intros R F E0 X. destruct (fetched_ok _ _ _ R F) as (tp' & TP & E & K). rewrite E0 in E. injection E as <-. unfold createReleaseInboundMint.
  unfold release_common, custody_address. rewrite E0. cbn [assoc].
  intro_means (GReleaseMint rv) AManager.
  intros sg s' T. apply step_exec in T. cbn [exec ins signers] in T. unfold release_inbound_mint, release_checks in T. binds T.
  match goal with G : bind _ _ = Ok _ |- _ => binds G end. match goal with G : get_inbox_item _ _ = Ok _ |- _ => rename G into G0 end. clear - F K X G0. cbn [la_item] in G0.
  cbn [layout la_config la_item la_tp]. rewrite (fetched_get _ _ F), G0. cbn [bind]. apply get_inbox_item_ok in G0. rewrite (X _ G0), K.
  eexists. split; [reflexivity|]. meets_all.
Qed.
Lemma m_unlock py r c tp ch m rv : reachable H s -> fetched s c -> cf_token_program c = AProg tp ->
  (forall it, inbox_at s (pda_inbox (h_msg H ch m)) it -> ib_recipient it = r) ->
  means nm ok H s (createReleaseInboundUnlock H py r c ch m rv) (IReleaseUnlock (ReleaseAccts pda_config (pda_inbox (h_msg H ch m)) tp ok) rv).
Proof.
  intros R F E0 X. destruct (fetched_ok _ _ _ R F) as (tp' & TP & E & K). rewrite E0 in E. injection E as <-. unfold createReleaseInboundUnlock.
  unfold release_common, custody_address. rewrite E0. cbn [assoc].
  intro_means (GReleaseUnlock rv) AManager.
  intros sg s' T. apply step_exec in T. cbn [exec ins signers] in T. unfold release_inbound_unlock, release_checks in T. binds T.
  match goal with G : bind _ _ = Ok _ |- _ => binds G end. match goal with G : get_inbox_item _ _ = Ok _ |- _ => rename G into G0 end. clear - F K X G0. cbn [la_item] in G0.
  cbn [layout la_config la_item la_tp]. rewrite (fetched_get _ _ F), G0. cbn [bind]. apply get_inbox_item_ok in G0. rewrite (X _ G0), K.
  eexists. split; [reflexivity|]. meets_all.
Qed.

(** Received messages are at their place. *)
Lemma vtm_place x p ch ch' id tm : reachable H s -> is_ntt_prog x = true -> st_accts s (pda_vtm x ch id) = Some (Acct p (DVtm ch' tm)) ->
  p = x /\ ch' = ch /\ nm_id (tm_msg tm) = id.
Proof.
  intros R N E. assert (Sh := inv_shape _ (reachable_inv _ _ R) _ _ E). unfold shape in Sh. cbn [ac_owner ac_data] in Sh.
  destruct p; try (destruct Sh as [(Q & _)|(Q & _)]; [destruct x; try discriminate N; destruct (Q I)|discriminate Q]).
  all: destruct Sh as (_ & A & _); unfold pda_vtm in A; injection A as -> -> ->; auto.
Qed.
Lemma m_redeem py c x ch m : reachable H s -> fetched s c -> is_ntt_prog x = true ->
  (forall tm, st_accts s (pda_vtm x ch (nm_id m)) = Some (Acct x (DVtm ch tm)) -> tm_msg tm = m) ->
  means nm ok H s (createRedeem H py c x ch m) (IRedeem (RedeemAccts pda_config (pda_vtm x ch (nm_id m)) (pda_reg (AProg x)) pda_outbox_rl)).
Proof.
  intros R F N X. intro_means GRedeem AManager.
  intros sg s' T. apply step_exec in T. cbn [exec ins signers] in T. unfold redeem in T. binds T. cbn [ra_config ra_message ra_transceiver ra_outbox_rl] in *.
  clear - R F N X E1 E2. cbn [layout ra_config ra_message ra_transceiver ra_outbox_rl]. rewrite (fetched_get _ _ F), E1. cbn [bind]. rewrite E2. cbn [bind].
  apply get_message_ok in E2. destruct E2 as (p & _ & E2). destruct (vtm_place _ _ _ _ _ _ R N E2) as (-> & -> & _). rewrite (X _ E2).
  eexists. split; [reflexivity|]. meets_all.
Qed.

Lemma m_set_peer py o ch a l d : is_u16 ch -> is32 a -> is_u64 l -> is_u8 d -> means nm ok H s (createSetPeer py o ch a l d) (ISetPeer pda_config o ch (nm a) l d).
Proof. intros. intro_means (GSetPeer ch a l d) AManager. intros sg s' _. eexists. split; [reflexivity|]. meets_all. Qed.
Lemma m_set_paused o b : means nm ok H s (createSetPaused o b) (ISetPaused pda_config o b).
Proof. intros. intro_means (GSetPaused b) AManager. intros sg s' _. eexists. split; [reflexivity|]. meets_all. Qed.
Lemma m_outbound o l : is_u64 l -> means nm ok H s (createSetOutboundLimit o l) (ISetOutboundLimit pda_config o pda_outbox_rl l).
Proof. intros. intro_means (GSetOutboundLimit l) AManager. intros sg s' _. eexists. split; [reflexivity|]. meets_all. Qed.
Lemma m_inbound o ch l : is_u16 ch -> is_u64 l -> means nm ok H s (setInboundLimit o ch l) (ISetInboundLimit pda_config o ch l).
Proof. intros. intro_means (GSetInboundLimit l ch) AManager. intros sg s' _. eexists. split; [reflexivity|]. meets_all. Qed.
Lemma m_register py o x : means nm ok H s (createRegisterTransceiver py o x) (IRegisterTransceiver pda_config o (AProg x)).
Proof. intros. intro_means GRegisterTransceiver AManager. intros sg s' _. eexists. split; [reflexivity|]. meets_all. Qed.

Lemma m_receive py v x ch m : is_ntt_prog x = true -> (forall ch' e tm, st_accts s v = Some (Acct PWormhole (DVaa ch' e (Some tm))) -> ch' = ch /\ tm_msg tm = m) ->
  means nm ok H s (createReceive py v x ch m) (IXReceive x pda_config v).
Proof.
  intros N X. destruct x; try discriminate N; [intro_means GReceive AManager|intro_means GReceive ATransceiver].
  all: intros sg s' T; apply step_exec in T; cbn [exec ins signers] in T; unfold x_receive in T; binds T; cbn [layout]; rewrite E0; cbn [bind].
  all: destruct v1 as [ | | | | | | | | | | c e [tm|] | | ]; try discriminate T; apply get_ok in E0; destruct (X _ _ _ E0) as [-> ->]; eexists; (split; [reflexivity|]); meets_all.
Qed.
Lemma m_x_set_peer a x ch ad : is_ntt_prog x = true -> is_u16 ch -> is32 ad -> means nm ok H s (createSetWormholePeer a x ch ad) (IXSetPeer x pda_config a ch (nm ad)).
Proof.
  intros N C A. destruct x; try discriminate N; [intro_means (GSetWormholePeer ch ad) AManager|intro_means (GSetWormholePeer ch ad) ATransceiver].
  all: intros sg s' _; eexists; (split; [reflexivity|]); meets_all.
Qed.
Lemma m_id py msg c x : fetched s c -> is_ntt_prog x = true -> means nm ok H s (createBroadcastWormholeId py msg c x) (IXBroadcastId x pda_config msg ok).
Proof.
  intros F N. destruct x; try discriminate N; [intro_means GBroadcastId AManager|intro_means GBroadcastId ATransceiver].
  all: intros sg s' _; cbn [layout]; rewrite (fetched_get _ _ F); cbn [bind]; eexists; (split; [reflexivity|]); meets_all.
Qed.
Lemma m_peer py msg x ch : is_ntt_prog x = true -> is_u16 ch -> means nm ok H s (createBroadcastWormholePeer py msg x ch) (IXBroadcastPeer x pda_config ch msg ok).
Proof.
  intros N C. destruct x; try discriminate N; [intro_means (GBroadcastPeer ch) AManager|intro_means (GBroadcastPeer ch) ATransceiver].
  all: intros sg s' _; eexists; (split; [reflexivity|]); meets_all.
Qed.
Lemma m_release py it x r : is_ntt_prog x = true ->
  means nm ok H s (createReleaseWormholeOutbound py it x r) (IXRelease x pda_config it (pda_reg (AProg x)) r ok).
Proof.
  intros N. destruct x; try discriminate N; [intro_means (GReleaseOutbound r) AManager|intro_means (GReleaseOutbound r) ATransceiver].
  all: intros sg s' _; eexists; (split; [reflexivity|]); meets_all.
Qed.
End Means.

Lemma no_transfer_ownership n : createTransferOwnership n = None.
Proof. reflexivity. Qed.

(** ** Signatures *)
Lemma wants_intro p d ms b l : b = Some (Ix p d ms) -> signers_of ms = l -> wants b l.
Proof. intros B S. exists (Ix p d ms). split; [exact B|]. cbn [ix_metas]. intros a. rewrite <- signers_of_in, S. reflexivity. Qed.
Ltac wanted := eapply wants_intro; [is_built|reflexivity].
Section Wants.
Context (nm : bytes -> addr) (H : hashes).
Lemma w_initialize py o m tp ch l md : wants (createInitialize py o m (AProg tp) ch l md) [py; o]. Proof. wanted. Qed.
Lemma w_lut py c x slot : wants (initializeOrUpdateLUT py c x slot) [py]. Proof. wanted. Qed.
Lemma w_lock py from au it c tp amount ch to q : cf_token_program c = AProg tp -> cf_paused c = false -> wants (createTransferLock nm H py from au it c amount ch to q) [py; it].
Proof. intros E P. unfold createTransferLock. rewrite P. unfold transfer_common, custody_address. rewrite E. cbn [assoc]. wanted. Qed.
Lemma w_burn py from au it c tp amount ch to q : cf_token_program c = AProg tp -> wants (createTransferBurn nm H py from au it c amount ch to q) [py; it].
Proof. intros E. unfold createTransferBurn, transfer_common, custody_address. rewrite E. cbn [assoc]. wanted. Qed.
Lemma w_mint py r c tp ch m rv : cf_token_program c = AProg tp -> wants (createReleaseInboundMint H py r c ch m rv) [py].
Proof. intros E. unfold createReleaseInboundMint, release_common, custody_address. rewrite E. cbn [assoc]. wanted. Qed.
Lemma w_unlock py r c tp ch m rv : cf_token_program c = AProg tp -> wants (createReleaseInboundUnlock H py r c ch m rv) [py].
Proof. intros E. unfold createReleaseInboundUnlock, release_common, custody_address. rewrite E. cbn [assoc]. wanted. Qed.
Lemma w_redeem py c x ch m : wants (createRedeem H py c x ch m) [py]. Proof. wanted. Qed.
Lemma w_set_peer py o ch a l d : wants (createSetPeer py o ch a l d) [py; o]. Proof. wanted. Qed.
Lemma w_set_paused o b : wants (createSetPaused o b) [o]. Proof. wanted. Qed.
Lemma w_outbound o l : wants (createSetOutboundLimit o l) [o]. Proof. wanted. Qed.
Lemma w_inbound o ch l : wants (setInboundLimit o ch l) [o]. Proof. wanted. Qed.
Lemma w_register py o x : wants (createRegisterTransceiver py o x) [o; py]. Proof. wanted. Qed.
Lemma w_receive py v x ch m : wants (createReceive py v x ch m) [py]. Proof. wanted. Qed.
Lemma w_x_set_peer a x ch ad : wants (createSetWormholePeer a x ch ad) [a; a]. Proof. wanted. Qed.
Lemma w_id py msg c x : wants (createBroadcastWormholeId py msg c x) [py; msg]. Proof. wanted. Qed.
Lemma w_peer py msg x ch : wants (createBroadcastWormholePeer py msg x ch) [py; msg]. Proof. wanted. Qed.
Lemma w_release py it x r : wants (createReleaseWormholeOutbound py it x r) [py]. Proof. wanted. Qed.
End Wants.
Lemma wants_same b l l' : (forall a, In a l <-> In a l') -> wants b l -> wants b l'.
Proof. intros E (x & B & W). exists x. split; [exact B|]. intros a. rewrite W. apply E. Qed.
Lemma all_wants nm H c tp payer owner mint from authority item recipient vaa message x chain slot amount to q m mode limit address decimals paused revert :
  cf_token_program c = AProg tp ->
  wants (createInitialize payer owner mint (AProg tp) chain limit mode) [payer; owner] /\
  wants (initializeOrUpdateLUT payer c x slot) [payer] /\
  (cf_paused c = false -> wants (createTransferLock nm H payer from authority item c amount chain to q) [payer; item]) /\
  wants (createTransferBurn nm H payer from authority item c amount chain to q) [payer; item] /\
  wants (createReleaseInboundMint H payer recipient c chain m revert) [payer] /\
  wants (createReleaseInboundUnlock H payer recipient c chain m revert) [payer] /\
  wants (createRedeem H payer c x chain m) [payer] /\ wants (createReceive payer vaa x chain m) [payer] /\
  wants (createSetPeer payer owner chain address limit decimals) [payer; owner] /\ wants (createSetPaused owner paused) [owner] /\
  wants (createSetOutboundLimit owner limit) [owner] /\ wants (setInboundLimit owner chain limit) [owner] /\
  wants (createRegisterTransceiver payer owner x) [payer; owner] /\ wants (createSetWormholePeer owner x chain address) [owner] /\
  wants (createBroadcastWormholeId payer message c x) [payer; message] /\ wants (createBroadcastWormholePeer payer message x chain) [payer; message] /\
  wants (createReleaseWormholeOutbound payer item x revert) [payer].
Proof.
  intros E. repeat match goal with |- _ /\ _ => split end.
  - apply w_initialize. - apply w_lut. - intros P. eapply w_lock; eauto. - eapply w_burn; eauto. - eapply w_mint; eauto. - eapply w_unlock; eauto.
  - apply w_redeem. - apply w_receive. - apply w_set_peer. - apply w_set_paused. - apply w_outbound. - apply w_inbound.
  - eapply wants_same; [|apply w_register]. cbn [In]. tauto.
  - eapply wants_same; [|apply w_x_set_peer]. cbn [In]. tauto.
  - apply w_id. - apply w_peer. - apply w_release.
Qed.

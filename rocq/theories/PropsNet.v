(** * Value across chains (C48). *)
From Verif Require Export NetFacts PropsIn.
Local Open Scope Z_scope.

(** Whatever the modes of the deployments: what was paid out and what is in flight was deposited, counted in common units. *)
Theorem C48_value : forall H ids n0 h n K dec, net_initial ids n0 -> net_run H ids n0 h n ->
  (forall k c m, In k ids -> config_at (n k) pda_config c -> st_mints (n k) (cf_mint c) = Some m -> mt_decimals m = dec k /\ dec k <= K) ->
  paid_value K dec h + in_flight H ids K dec n h <= deposited_value K dec h.
Proof. exact value_backed. Qed.
Print Assumptions C48_value.

(** One locking deployment on [l], burning ones on [bs], each from its own beginning: the custody gained at least what the
    supplies grew by together, and everything in flight. *)
Theorem C48_custody : forall H l bs n0 h n K cf dec b, NoDup (l :: bs) -> net_initial (l :: bs) n0 -> net_run H (l :: bs) n0 h n ->
  (forall k, In k (l :: bs) -> managed (n k) (cf k) (dec k) /\ dec k <= K /\ began (on k h) (b k)) ->
  cf_mode (cf l) = Locking -> (forall k, In k bs -> cf_mode (cf k) = Burning) ->
  sum_of (fun k => worth K (dec k) (supply_of (n k) (cf_mint (cf k)) - supply_of (b k) (cf_mint (cf k)))) bs + in_flight H (l :: bs) K dec n h
  <= worth K (dec l) (balance (n l) (cf_custody (cf l)) - balance (b l) (cf_custody (cf l))).
Proof. exact net_custody. Qed.
Print Assumptions C48_custody.

(** Every payout anywhere is that of a deposit on a chain of the network which names the chain and item it is paid on, and is
    worth at least as much; two payouts never share a deposit. *)
Definition paid_for (H : hashes) (n : net) (k : Z) (e : ev) (j : Z) (e' : ev) : Prop :=
  exists md x ar o c, transfer_of (ins (e_call e')) = Some (md, x, ar) /\ outbox_at (n j) (xa_outbox_item x) o /\ config_at (n j) pda_config c /\
    ob_chain o = k /\ payout e = Some (item_of H j (NttMsg (xa_outbox_item x) (ob_sender o) (ob_amount o) (cf_mint c) (ob_chain o) (ob_recipient o))).
Theorem C48_backed : forall H ids n0 h n K dec k e, net_initial ids n0 -> net_run H ids n0 h n ->
  (forall k c m, In k ids -> config_at (n k) pda_config c -> st_mints (n k) (cf_mint c) = Some m -> mt_decimals m = dec k /\ dec k <= K) ->
  In (k, e) h -> payout e <> None ->
  exists j e', In (j, e') h /\ paid_for H n k e j e' /\ worth K (dec k) (paid_out e) <= worth K (dec j) (deposited e').
Proof.
  intros H ids n0 h n K dec k e Hini R Hd Hin Hp. destruct (payout e) as [a|] eqn:Ep; [|congruence].
  destruct (payout_backed _ _ _ _ _ _ _ _ _ _ Hini R Hd Hin Ep) as (j & e' & nm & _ & Hin' & (md & x & ar & Et & o & c & Ho & Hc & En) & Ea & Ec & Le).
  exists j, e'. split; [exact Hin'|]. split; [|exact Le]. exists md, x, ar, o, c. subst nm. rewrite Ea. repeat (split; [assumption|]). exact Ep.
Qed.
Print Assumptions C48_backed.
Theorem C48_not_shared : forall H n k e k' e' j d,
  paid_for H n k e j d -> paid_for H n k' e' j d -> k = k' /\ payout e = payout e'.
Proof.
  intros H n k e k' e' j d (md & x & ar & o & c & Et & Ho & Hc & Ek & P) (md' & x' & ar' & o' & c' & Et' & Ho' & Hc' & Ek' & P').
  rewrite Et in Et'. inversion Et'; subst. unfold outbox_at, config_at in *. assert (o = o') by congruence. assert (c = c') by congruence. subst. split; congruence.
Qed.
Print Assumptions C48_not_shared.
(** ... and the same item is never paid twice on a chain. *)
Theorem C48_paid_once : forall H ids n0 h2 k e h1 k' e' n, net_initial ids n0 -> net_run H ids n0 (h2 ++ (k, e) :: h1) n -> In (k', e') h1 ->
  payout e <> None -> (k', payout e') <> (k, payout e).
Proof.
  intros H ids n0 h2 k e h1 k' e' n Hini R Hin Hp C. pose proof (pay_keys _ _ _ _ _ Hini R) as ND.
  rewrite filter_app, map_app in ND. apply NoDup_right in ND. cbn [filter] in ND. unfold is_payout at 1 in ND. cbn [snd] in ND.
  destruct (payout e) as [a|] eqn:Ep; [|congruence]. cbn [map] in ND. apply NoDup_cons_iff in ND. destruct ND as (N & _). apply N.
  apply in_map_iff. exists (k', e'). split; [unfold pay_key; cbn [fst snd]; congruence|]. apply filter_In. split; [exact Hin|]. unfold is_payout. cbn [snd].
  inversion C as [[E1 E2]]. now rewrite E2.
Qed.
Print Assumptions C48_paid_once.

(** What counts as in flight: a transfer has arrived exactly when some event of the history paid out its item on the chain it
    names. A transfer to a chain outside the network, or one not yet paid out, is in flight. *)
Theorem C48_in_flight : forall H ids n0 h n j e, net_initial ids n0 -> net_run H ids n0 h n -> In (j, e) h ->
  (arrived H ids n j e = true <-> exists k e', In (k, e') h /\ paid_for H n k e' j e).
Proof.
  intros H ids n0 h n j e Hini R Hin. split.
  - unfold arrived. destruct (transfer_of _) as [[[md x] ar]|] eqn:Et; [|discriminate].
    destruct (st_accts (n j) (xa_outbox_item x)) as [[p d]|] eqn:Eo; [|discriminate]. destruct p; try discriminate. destruct d; try discriminate.
    destruct (st_accts (n j) pda_config) as [[p d]|] eqn:Ec; [|discriminate]. destruct p; try discriminate. destruct d; try discriminate.
    destruct (in_dec _ _ _) as [Hk|]; [|discriminate]. intros Q.
    destruct (released_by _ _ _ _ _ (ni_nodes _ _ Hini _ Hk) (net_node _ _ _ _ _ R _) Q) as (e' & He & P).
    exists (ob_chain o), e'. split; [now apply on_In|]. exists md, x, ar, o, c. auto.
  - intros (k & e' & He & (md & x & ar & o & c & Et & Ho & Hc & Ek & P)). unfold outbox_at, config_at in *. unfold arrived. rewrite Et, Ho, Hc.
    destruct (in_dec _ _ _) as [Hk|N]; [|exfalso; apply N; subst; eapply net_ids; eassumption].
    subst k. eapply net_released; eassumption.
Qed.
Print Assumptions C48_in_flight.

(** ** A network of two chains: 1 locks a token of 9 decimals, 2 issues one of 6. The user sends 1.000000005, the recipient
    sends 0.4 back. *)
Definition s_issue : state := State 0 no_accts (fun _ => None) (upd (fun _ => None) MINT (Some (Mint PToken 6 0 (Some token_authority) 0 0 0))) (Some DEPLOYER) [].
Definition n_start : net := fun k => if k =? 1 then s_start Locking else s_issue.
Definition BACK := AKey 51.
Definition EM := pda_emitter PManager.
Definition setup (k other : Z) (md : mode) (d : Z) : list (Z * call) := map (pair k)
  [ Call [] (EClock 1000);
    Call [DEPLOYER] (IInitialize DEPLOYER MINT PToken k 3000000000 md);
    Call [DEPLOYER] (IRegisterTransceiver pda_config DEPLOYER (AProg PManager));
    Call [DEPLOYER] (ISetPeer pda_config DEPLOYER other (AProg PManager) 3000000000 d);
    Call [DEPLOYER] (IXSetPeer PManager pda_config DEPLOYER other EM) ].
Definition msg12 : tr_msg := TrMsg (AProg PManager) (AProg PManager) (NttMsg ITEM USER (Trim 1000000 6) MINT 2 RCPT).
Definition msg21 : tr_msg := TrMsg (AProg PManager) (AProg PManager) (NttMsg BACK RCPT (Trim 400000 6) MINT 1 USER).
Definition args12 := TransferArgs 1000000005 2 RCPT false.
Definition args21 := TransferArgs 400000 1 USER false.
Definition carry (from to : Z) (m : tr_msg) (md : mode) : list (Z * call) := map (pair to)
  [ Call [] (EPostVaa VAA from EM (Some m));
    Call [] (IXReceive PManager pda_config VAA);
    Call [] (IRedeem (RedeemAccts pda_config (pda_vtm PManager from (nm_id (tm_msg m))) (pda_reg (AProg PManager)) pda_outbox_rl)) ] ++
  (if to =? 2 then [(2, Call [] (ECreateAta PToken RCPT MINT))] else []) ++
  [ (to, let x := ReleaseAccts pda_config (item_of H0 from (tm_msg m)) PToken true in
         Call [] (match md with Locking => IReleaseUnlock x true | Burning => IReleaseMint x true end)) ].
Definition send12 : list (Z * call) := map (pair 1)
  [ Call [USER] (EApprove PToken user_tok USER (pda_session USER (h_args H0 args12)) 1000000005);
    Call [ITEM] (ITransferLock (TransferAccts pda_config user_tok PToken ITEM pda_outbox_rl true) args12);
    Call [] (IXRelease PManager pda_config ITEM (pda_reg (AProg PManager)) true true) ].
Definition send21 : list (Z * call) := map (pair 2)
  [ Call [RCPT] (EApprove PToken rcpt_tok RCPT (pda_session RCPT (h_args H0 args21)) 400000);
    Call [BACK] (ITransferBurn (TransferAccts pda_config rcpt_tok PToken BACK pda_outbox_rl true) args21);
    Call [] (IXRelease PManager pda_config BACK (pda_reg (AProg PManager)) true true) ].

Fixpoint net_exec (H : hashes) (h : history) (n : net) (cs : list (Z * call)) : history * net :=
  match cs with
  | [] => (h, n)
  | (k, c) :: r => match step H (n k) c with Ok s' => net_exec H ((k, Ev (n k) c s') :: h) (net_upd n k s') r | Err _ => (h, n) end
  end.
Fixpoint net_fine (H : hashes) (ids : list Z) (n : net) (cs : list (Z * call)) : Prop :=
  match cs with
  | [] => True
  | (k, c) :: r => In k ids /\ attestation ids n c /\ proper ids k c /\
      match step H (n k) c with Ok s' => net_fine H ids (net_upd n k s') r | Err _ => False end
  end.
Lemma net_exec_run H ids n0 cs : forall h n, net_run H ids n0 h n -> net_fine H ids n cs -> net_run H ids n0 (fst (net_exec H h n cs)) (snd (net_exec H h n cs)).
Proof.
  induction cs as [|(k, c) r IH]; intros h n R F; [exact R|]. cbn in *. destruct F as (Hk & Ha & Hp & F). destruct (step H (n k) c) as [s'|] eqn:E; [|contradiction].
  apply IH; [|exact F]. apply net_step; assumption.
Qed.

Definition two : list Z := [1; 2].
Definition phase1 := setup 1 2 Locking 6 ++ setup 2 1 Burning 9 ++ send12.
Definition phase2 := phase1 ++ carry 1 2 msg12 Burning.
Definition phase3 := phase2 ++ send21.
Definition phase4 := phase3 ++ carry 2 1 msg21 Locking.
Definition result_of (cs : list (Z * call)) := net_exec H0 [] n_start cs.

Lemma n_start_initial : net_initial two n_start.
Proof.
  constructor.
  - intros k [<-|[<-|[]]]; [apply s_start_initial|]. constructor; cbn.
    + ilia.
    + discriminate.
    + discriminate.
    + intros a m. rewrite upd_eq. destruct (addr_eq_dec a MINT) as [->|]; [|discriminate]. intros E. apply Some_inj in E. subst.
      unfold wf_mint. cbn. split; [intros []|]. split; [reflexivity|]. ilia.
    + intros a E. apply Some_inj in E. subst. intros [].
    + contradiction.
  - intros k a j e tm [<-|[<-|[]]] _ C; discriminate.
Qed.
Lemma phase_fine : net_fine H0 two n_start phase4.
Proof. vm_compute. repeat split; auto 10. Qed.

Definition measures (cs : list (Z * call)) : list Z :=
  let (h, n) := result_of cs in
  [balance (n 1) custody; supply_of (n 2) MINT; paid_value 9 (fun k => if k =? 1 then 9 else 6) h;
   deposited_value 9 (fun k => if k =? 1 then 9 else 6) h; in_flight H0 two 9 (fun k => if k =? 1 then 9 else 6) n h].
(** Custody in units of 9 decimals, supply in units of 6, total paid out, total deposited, in flight. *)
Example C48_case : net_run H0 two n_start (fst (result_of phase4)) (snd (result_of phase4)) /\ map measures [phase1; phase2; phase3; phase4] =
  [[1000000000; 0; 0; 1000000000; 1000000000]; [1000000000; 1000000; 1000000000; 1000000000; 0];
   [1000000000; 600000; 1000000000; 1400000000; 400000000]; [600000000; 600000; 1400000000; 1400000000; 0]].
Proof. split; [apply net_exec_run; [constructor|exact phase_fine]|vm_compute; reflexivity]. Qed.
(** Delivering a message again, delivering it to the other chain, or a message of a chain outside the network pays nothing. *)
Definition refused (n : net) (cs : list (Z * call)) : bool := Nat.ltb (length (fst (net_exec H0 [] n cs))) (length cs).
Definition VAA9 := APda PWormhole (TUser 9) 0 ANull ANull.
Example C48_attacks : map (refused (snd (result_of phase4)))
   [[(2, Call [] (EPostVaa VAA9 1 EM (Some msg12))); (2, Call [] (IXReceive PManager pda_config VAA9))];
    [(2, Call [] (IRedeem (RedeemAccts pda_config (pda_vtm PManager 1 ITEM) (pda_reg (AProg PManager)) pda_outbox_rl)))];
    [(2, Call [] (IReleaseMint (ReleaseAccts pda_config (item_of H0 1 (tm_msg msg12)) PToken true) true))];
    [(1, Call [] (EPostVaa VAA9 1 EM (Some msg12))); (1, Call [] (IXReceive PManager pda_config VAA9))];
    [(1, Call [] (EPostVaa VAA9 7 EM (Some msg21))); (1, Call [] (IXReceive PManager pda_config VAA9))]] = [true; true; true; true; true].
Proof. vm_compute. reflexivity. Qed.

(** The premises of [C48_custody] hold in the worked network while 0.4 is in flight; the bound is tight there. *)
Lemma net_exec_app H a : forall h n b ids, net_fine H ids n a -> net_exec H h n (a ++ b) = net_exec H (fst (net_exec H h n a)) (snd (net_exec H h n a)) b.
Proof.
  induction a as [|(k, c) r IH]; intros h n b ids F; [reflexivity|]. cbn in *. destruct F as (_ & _ & _ & F).
  destruct (step H (n k) c) as [s'|]; [|contradiction]. eapply IH, F.
Qed.
Lemma net_exec_old H cs : forall h n x, In x h -> In x (fst (net_exec H h n cs)).
Proof. induction cs as [|(k, c) r IH]; intros h n x Hin; [exact Hin|]. cbn. destruct (step H (n k) c); [apply IH; now right|exact Hin]. Qed.
Definition init_at (k : Z) : list (Z * call) := if k =? 1 then firstn 2 phase3 else firstn 7 phase3.
Definition begin_of (k : Z) : state := snd (result_of (init_at k)) k.
Definition config_of (k : Z) : config addr := match st_accts (snd (result_of phase3) k) pda_config with Some (Acct _ (DConfig c)) => c | _ => new_config DEPLOYER MINT PToken 0 Locking end.
Example C48_custody_case : forall k, In k two ->
  managed (snd (result_of phase3) k) (config_of k) (if k =? 1 then 9 else 6) /\ began (on k (fst (result_of phase3))) (begin_of k) /\
  cf_mode (config_of k) = (if k =? 1 then Locking else Burning) /\
  worth 9 6 (supply_of (snd (result_of phase3) 2) MINT - supply_of (begin_of 2) MINT) + 400000000 =
  worth 9 9 (balance (snd (result_of phase3) 1) custody - balance (begin_of 1) custody).
Proof.
  intros k Hk. split; [|split; [|split; [destruct Hk as [<-|[<-|[]]]; vm_compute; reflexivity|vm_compute; reflexivity]]].
  - destruct Hk as [<-|[<-|[]]]; (split; [vm_compute; reflexivity|eexists; split; [vm_compute; reflexivity|reflexivity]]).
  - assert (Q : exists e, In (k, e) (fst (result_of (init_at k))) /\ e_post e = begin_of k /\ exists d m tp ch l md, ins (e_call e) = IInitialize d m tp ch l md).
    { destruct Hk as [<-|[<-|[]]]; (eexists; split; [left; reflexivity|split; [reflexivity|do 6 eexists; reflexivity]]). }
    destruct Q as (e & Hin & Q). exists e. split; [|exact Q]. apply on_In.
    assert (F : net_fine H0 two n_start (init_at k)) by (destruct Hk as [<-|[<-|[]]]; vm_compute; repeat split; auto 10).
    unfold result_of in *. rewrite <- (firstn_skipn (if k =? 1 then 2 else 7) phase3).
    assert (Ei : init_at k = firstn (if k =? 1 then 2 else 7) phase3) by (unfold init_at; destruct (k =? 1); reflexivity).
    rewrite <- Ei, (net_exec_app _ _ _ _ _ _ F). apply net_exec_old, Hin.
Qed.

(** The same with the stand-alone transceiver on the second chain: there the transfer is delivered by it, and sent back through it. *)
Definition setup_with (p q : prog) (k other : Z) (md : mode) (d : Z) : list (Z * call) := map (pair k)
  [ Call [] (EClock 1000);
    Call [DEPLOYER] (IInitialize DEPLOYER MINT PToken k 3000000000 md);
    Call [DEPLOYER] (IRegisterTransceiver pda_config DEPLOYER (AProg p));
    Call [DEPLOYER] (ISetPeer pda_config DEPLOYER other (AProg PManager) 3000000000 d);
    Call [DEPLOYER] (IXSetPeer p pda_config DEPLOYER other (pda_emitter q)) ].
Definition carry_with (p q : prog) (from to : Z) (m : tr_msg) (md : mode) : list (Z * call) := map (pair to)
  [ Call [] (EPostVaa VAA from (pda_emitter q) (Some m));
    Call [] (IXReceive p pda_config VAA);
    Call [] (IRedeem (RedeemAccts pda_config (pda_vtm p from (nm_id (tm_msg m))) (pda_reg (AProg p)) pda_outbox_rl)) ] ++
  (if to =? 2 then [(2, Call [] (ECreateAta PToken RCPT MINT))] else []) ++
  [ (to, let x := ReleaseAccts pda_config (item_of H0 from (tm_msg m)) PToken true in
         Call [] (match md with Locking => IReleaseUnlock x true | Burning => IReleaseMint x true end)) ].
Definition back_with (p : prog) : list (Z * call) := map (pair 2)
  [ Call [RCPT] (EApprove PToken rcpt_tok RCPT (pda_session RCPT (h_args H0 args21)) 400000);
    Call [BACK] (ITransferBurn (TransferAccts pda_config rcpt_tok PToken BACK pda_outbox_rl true) args21);
    Call [] (IXRelease p pda_config BACK (pda_reg (AProg p)) true true) ].
Definition mixed : list (Z * call) :=
  setup_with PManager PTransceiver 1 2 Locking 6 ++ setup_with PTransceiver PManager 2 1 Burning 9 ++ send12 ++
  carry_with PTransceiver PManager 1 2 msg12 Burning ++ back_with PTransceiver ++ carry_with PManager PTransceiver 2 1 msg21 Locking.
Lemma mixed_fine : net_fine H0 two n_start mixed.
Proof. vm_compute. repeat split; auto 10. Qed.
Example C48_mixed : net_run H0 two n_start (fst (result_of mixed)) (snd (result_of mixed)) /\
  measures mixed = [600000000; 600000; 1400000000; 1400000000; 0].
Proof. split; [apply net_exec_run; [constructor|exact mixed_fine]|vm_compute; reflexivity]. Qed.
(** A transfer to a chain that is not part of the network stays in flight. *)
Definition args13 := TransferArgs 500000000 3 RCPT false.
Definition outside : list (Z * call) := setup 1 2 Locking 6 ++ map (pair 1)
  [ Call [DEPLOYER] (ISetPeer pda_config DEPLOYER 3 (AProg PManager) 3000000000 6);
    Call [USER] (EApprove PToken user_tok USER (pda_session USER (h_args H0 args13)) 500000000);
    Call [ITEM] (ITransferLock (TransferAccts pda_config user_tok PToken ITEM pda_outbox_rl true) args13) ].
Example C48_outside : net_run H0 two n_start (fst (result_of outside)) (snd (result_of outside)) /\
  measures outside = [500000000; 0; 0; 500000000; 500000000].
Proof. split; [apply net_exec_run; [constructor|vm_compute; repeat split; auto 10]|vm_compute; reflexivity]. Qed.

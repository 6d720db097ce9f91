(** * Proofs about the reported errors. *)
From Verif Require Export SpecErrors.
From Verif Require Import WorldFacts MoveFacts SupplyFacts BitmapFacts TrimmedFacts Kept Flow LogFacts AuthorityFacts QuoterFacts BytesFacts.
Import ListNotations.
Local Open Scope Z_scope.

(** Every registered transceiver is enabled. *)
Lemma all_enabled H s : reachable H s -> forall c, config_at s pda_config c -> forall i, 0 <= i < cf_next c -> Z.testbit (cf_enabled c) i = true.
Proof.
  intros Hr. pattern s. revert s Hr. apply (reach_ind H).
  - intros s [_ Ha _ _ _ _] c E. apply Ha in E. destruct E as (_ & C & _). discriminate.
  - intros s cl s' Hr IH Hs c' Hc'. pose proof (reachable_inv _ _ Hr) as Hi. unfold config_at in Hc'.
    destruct (step_change _ _ _ _ Hs pda_config) as [Q|Q]; [rewrite Q in Hc'; exact (IH _ Hc')|]. rewrite Hc' in Q. clear Hs Hc'. destruct cl as [sg ins]. cbn [signers Exec.ins] in Q.
    remember (st_accts s pda_config) as old eqn:Eo. clear Eo. remember (Some (Acct PManager (DConfig c'))) as new eqn:En. remember pda_config as a eqn:Ea.
    inversion Q; subst; try discriminate;
      match goal with K : Some (Acct PManager (DConfig _)) = Some (Acct PManager (DConfig c')) |- _ => injection K as <- end; cbn; try (intros; lia);
      match goal with K : has s ?b PManager (DConfig ?d) |- _ => pose proof (IH d K) as J; pose proof (co_next _ _ (inv_config _ Hi _ K)) as Nx end; try exact J.
    match goal with K : bm_set _ _ _ = Ok _ |- _ => unfold bm_set in K; destruct (BITS <=? cf_next c); [discriminate K|]; apply Ok_inj in K; subst en end.
    intros i Ri. rewrite Z.setbit_eqb by lia. destruct (cf_next c =? i) eqn:Z0; [reflexivity|]. cbn. apply J. lia.
Qed.

(** Every error a computation can report satisfies [P]. *)
Definition tells {A} (P : error -> Prop) (r : result A) : Prop := forall e, r = Err e -> P e.
Lemma tells_bind {A B} P (m : result A) (f : A -> result B) : tells P m -> (forall a, m = Ok a -> tells P (f a)) -> tells P (bind m f).
Proof. unfold tells. destruct m as [a|e0]; cbn; intros M F e E; [exact (F _ eq_refl _ E)|apply M; congruence]. Qed.
Lemma tells_ok {A} P (a : A) : tells P (Ok a). Proof. intros e E. discriminate E. Qed.
Lemma tells_err {A} (P : error -> Prop) e : P e -> @tells A P (Err e). Proof. intros K e' E. congruence. Qed.
Lemma tells_require (P : error -> Prop) b e : (b = false -> P e) -> tells P (require b e).
Proof. unfold tells, require. destruct b; intros K e' E; [discriminate E|]. injection E as <-. apply K. reflexivity. Qed.
Lemma tells_ok_or {A} (P : error -> Prop) (o : option A) e : (o = None -> P e) -> tells P (ok_or o e).
Proof. unfold tells, ok_or. destruct o; intros K e' E; [discriminate E|]. injection E as <-. apply K. reflexivity. Qed.
(** Refusals without a number of their own. *)
Definition quiet (P : error -> Prop) : Prop := P Constraint /\ P TokenErr /\ P LoaderErr /\ P BridgeErr /\ P Panic.
Ltac tell := repeat match goal with
  | |- tells _ (bind _ _) => apply tells_bind; [|intros ? ?]
  | |- tells _ (Ok _) => apply tells_ok
  | |- tells _ (Err Constraint) => apply tells_err; tauto | |- tells _ (Err TokenErr) => apply tells_err; tauto | |- tells _ (Err Panic) => apply tells_err; tauto
  | |- tells _ (Err LoaderErr) => apply tells_err; tauto | |- tells _ (Err BridgeErr) => apply tells_err; tauto
  | |- tells _ (require _ Constraint) => apply tells_require; tauto | |- tells _ (require _ TokenErr) => apply tells_require; tauto
  | |- tells _ (require _ LoaderErr) => apply tells_require; tauto | |- tells _ (require _ BridgeErr) => apply tells_require; tauto | |- tells _ (require _ Panic) => apply tells_require; tauto
  | |- tells _ (ok_or _ Constraint) => apply tells_ok_or; tauto | |- tells _ (ok_or _ TokenErr) => apply tells_ok_or; tauto | |- tells _ (ok_or _ Panic) => apply tells_ok_or; tauto
  | |- tells _ (get_config _ _) => unfold get_config | |- tells _ (get_peer _ _) => unfold get_peer
  | |- tells _ (get_outbox_item _ _) => unfold get_outbox_item | |- tells _ (get_outbox_rl _ _) => unfold get_outbox_rl
  | |- tells _ (get_inbox_item _ _) => unfold get_inbox_item | |- tells _ (get_inbox_rl _ _) => unfold get_inbox_rl
  | |- tells _ (get_reg _ _) => unfold get_reg | |- tells _ (get_xpeer _ _ _) => unfold get_xpeer
  | |- tells _ (get_owned _ _ _ _) => unfold get_owned
  | |- tells _ (get_message _ _ _) => unfold get_message
  | |- tells _ (get _ _ _) => unfold get | |- tells _ (get_tok _ _ _) => unfold get_tok | |- tells _ (get_mint _ _ _) => unfold get_mint
  | |- tells _ (any_tok _ _) => unfold any_tok | |- tells _ (any_mint _ _) => unfold any_mint
  | |- tells _ (tok_transfer _ _ _ _ _ _ _ _) => unfold tok_transfer | |- tells _ (tok_mint_to _ _ _ _ _ _) => unfold tok_mint_to
  | |- tells _ (tok_burn _ _ _ _ _ _) => unfold tok_burn | |- tells _ (tok_init _ _ _ _ _) => unfold tok_init
  | |- tells _ (spend _ _ _) => unfold spend | |- tells _ (init_custody _ _ _) => unfold init_custody
  | |- tells _ (loader_set_authority _ _ _) => unfold loader_set_authority | |- tells _ (bridge_post _ _ _ _ _) => unfold bridge_post
  | |- tells _ (init_if_needed _ _ _) => unfold init_if_needed
  | |- tells _ (plain _ _) => unfold plain | |- tells _ (plain_i64 _) => unfold plain_i64
  | |- tells _ (match ?x with _ => _ end) => destruct x eqn:?
  | |- tells _ (let '(_, _) := ?x in _) => destruct x eqn:?
  end.

Lemma tells_capacity P r now : quiet P -> tells P (capacity_at r now).
Proof. intros (? & ? & ? & ? & ?). unfold capacity_at. tell. Qed.
Lemma tells_set_limit P r now v : quiet P -> tells P (set_limit r now v).
Proof. intros Q. unfold set_limit. apply tells_bind; [apply tells_capacity, Q|intros ? ?]. destruct Q as (? & ? & ? & ? & ?). tell. Qed.
Lemma tells_consume P r now v : quiet P -> tells P (consume_or_delay r now v).
Proof. intros Q. unfold consume_or_delay. apply tells_bind; [apply tells_capacity, Q|intros ? ?]. destruct Q as (? & ? & ? & ? & ?). tell. Qed.
Lemma tells_refill P r now v : quiet P -> tells P (refill r now v).
Proof. intros Q. unfold refill. apply tells_bind; [apply tells_capacity, Q|intros ? ?]. destruct Q as (? & ? & ? & ? & ?). tell. Qed.

Section Manager.
Context (H : hashes) (s : state) (Hr : reachable H s).
Let Hi : inv s := reachable_inv _ _ Hr.

Lemma cause_quiet i : quiet (cause H s i).
Proof. unfold quiet, cause. auto. Qed.

Lemma tells_not_paused (P : error -> Prop) a : quiet P -> (paused_at s a -> P Paused) -> tells P (get_not_paused s a).
Proof.
  intros (? & ? & ? & ? & ?) K. unfold get_not_paused. apply tells_bind; [tell|]. intros c E. apply get_config_ok in E. tell. apply tells_require. intros Q.
  apply K. exists c. split; [exact E|]. destruct (cf_paused c); [reflexivity|discriminate Q].
Qed.
Lemma config_here a c : config_at s a c -> config_at s pda_config c /\ config_ok s c.
Proof. intros E. destruct (config_ok_at _ _ _ Hi E) as (-> & K). auto. Qed.

Lemma mode_neq a b : mode_eqb a b = false -> a <> b.
Proof. intros E ->. destruct b; discriminate E. Qed.

Lemma tells_checks (P : error -> Prop) sg x a md : quiet P -> (paused_at s (xa_config x) -> P Paused) -> (mode_is_not s (xa_config x) md -> P InvalidMode) ->
  (unregistered s -> P NoRegisteredTransceivers) -> tells P (transfer_checks s sg x a md).
Proof.
  intros Q P1 P2 P3. unfold transfer_checks. apply tells_bind; [apply tells_not_paused; auto|]. intros c Ec. apply get_not_paused_ok in Ec. destruct Ec as (Ec & _).
  destruct Q as (? & ? & ? & ? & ?). apply tells_bind; [|intros ? ?; apply tells_bind; [|intros ? ?; tell]].
  - apply tells_require. intros B. apply P3. intros t r Rt. apply negb_false_iff in B. unfold bm_is_empty in B. apply Z.eqb_eq in B.
    destruct (config_here _ _ Ec) as (Ec' & _). destruct (reg_addr _ _ _ Hi Rt) as (p & -> & _). destruct (inv_reg _ Hi _ _ Rt) as (c0 & E0 & R0).
    assert (c0 = c) by (unfold has, config_at in *; congruence). subst c0. pose proof (all_enabled _ _ Hr _ Ec' _ R0) as T. rewrite B, Z.testbit_0_l in T. discriminate T.
  - apply tells_require. intros B. apply P2. exists c. split; [exact Ec|]. apply mode_neq, B.
Qed.

Lemma tells_dust (P : error -> Prop) v f t : is_u64 v -> is_u8 f -> is_u8 t -> (far f (shared f t) -> P OverflowExponent) -> tells P (remove_dust v f t).
Proof.
  intros Hv Hf Ht K. rewrite remove_dust_exact by assumption. cbv zeta. destruct (_ <? 20) eqn:B; [apply tells_ok|]. apply tells_err, K. unfold far, shared. ilia.
Qed.

Lemma tells_insert (P : error -> Prop) s1 x sender v t ch mg rc q : same_prog s s1 -> is_u64 v -> quiet P ->
  (q = false -> (exists r, out_limiter s r /\ capacity r (st_now s) < v) -> P TransferExceedsRateLimit) ->
  tells P (insert_into_outbox s1 x sender v t ch mg rc q).
Proof.
  intros (Ea & En & _) Hv Q K. unfold insert_into_outbox. pose proof Q as (? & ? & ? & ? & ?). apply tells_bind; [tell|]. intros orl Eo. apply get_outbox_rl_ok in Eo. unfold has in Eo. rewrite Ea in Eo.
  apply tells_bind; [tell|]. intros irl Ei. apply tells_bind; [apply tells_consume, Q|]. intros (o', r) Er. rewrite En in *.
  destruct (orl_addr _ _ _ Hi Eo) as (Ad & Wf). rewrite Ad in Eo.
  apply tells_bind; [|intros (? & ?) _; apply tells_ok]. destruct r as [t0|t0].
  - apply tells_bind; [apply tells_refill, Q|intros ? ?; apply tells_ok].
  - apply tells_bind; [|intros ? ?; apply tells_ok]. apply tells_require. intros ->. apply K; [reflexivity|]. exists orl. split; [exact Eo|].
    rewrite consume_metered in Er by (try assumption; exact (inv_now _ Hi)). destruct (rl_last orl <=? st_now s); [|discriminate Er].
    destruct (v <=? capacity orl (st_now s)) eqn:L; [discriminate Er|]. lia.
Qed.

Lemma deposit_here x a c m pe v t : config_at s (xa_config x) c -> st_mints s (cf_mint c) = Some m -> peer_at s (ar_chain a) pe -> is_u64 (ar_amount a) ->
  remove_dust (ar_amount a) (mt_decimals m) (pe_decimals pe) = Ok (v, t) -> deposit_value s x a = v.
Proof.
  intros Ec Em Ep Ha Ed. unfold deposit_value, config_at, peer_at in *. rewrite Ec, Ep, Em. rewrite remove_dust_exact in Ed by first [assumption|exact (mint_dec _ _ _ Hi Em)|exact (peer_dec _ _ _ Hi Ep)].
  cbv zeta in Ed. destruct (_ <? 20); [|discriminate Ed]. unfold dust_free, shared. congruence.
Qed.

Lemma not_custody x c t v auth t' : config_at s (xa_config x) c -> st_toks s (xa_from x) = Some t -> spend t auth v = Ok t' -> auth <> token_authority -> xa_from x <> cf_custody c.
Proof.
  intros Ec Ef Sp Na Q. destruct (config_here _ _ Ec) as (_ & Ok). destruct (co_prog _ _ Ok) as (tp & m & cu & Tp & _ & Cu & _).
  destruct (proj1 (inv_ledger _ Hi) _ _ Ef) as (_ & _ & _ & _ & _ & _ & Own & _). rewrite Q in Own. specialize (Own _ _ Tp Cu).
  eapply no_spend; [exact (inv_ledger _ Hi)|exact Ef|exact Own|exact Na|exact Sp].
Qed.
Lemma token_mint a m : st_mints s a = Some m -> is_token_prog (mt_prog m) = true.
Proof. intros E. apply (proj2 (inv_ledger _ Hi) _ _ E). Qed.

Lemma fee_charged x a c m pe v t : config_at s (xa_config x) c -> st_mints s (cf_mint c) = Some m -> peer_at s (ar_chain a) pe -> is_u64 (ar_amount a) ->
  remove_dust (ar_amount a) (mt_decimals m) (pe_decimals pe) = Ok (v, t) -> fee_of m v <> 0 -> charges_fee s x a.
Proof.
  intros Ec Em Ep Ha Ed F. pose proof (deposit_here _ _ _ _ _ _ _ Ec Em Ep Ha Ed) as Dv. exists m, (fee_of m v). split; [exists c; auto|]. pose proof (token_mint _ _ Em) as Tp.
  pose proof (dust_range _ _ _ _ _ Ha (mint_dec _ _ _ Hi Em) (peer_dec _ _ _ Hi Ep) Ed) as (Rv & _). pose proof (proj2 (inv_ledger _ Hi) _ _ Em) as Lg.
  split. { unfold fee_of in F. destruct (mt_prog m); try discriminate Tp; [congruence|reflexivity]. }
  rewrite Dv. split; [apply fee_iff; auto|]. destruct (fee_range _ _ v Lg); [ilia|]. lia.
Qed.

Lemma tells_burn sg x a : is_u64 (ar_amount a) -> tells (cause H s (ITransferBurn x a)) (exec H s sg (ITransferBurn x a)).
Proof.
  intros Ha. pose proof (cause_quiet (ITransferBurn x a)) as Q. pose proof Q as (? & ? & ? & ? & ?). cbn [exec]. unfold transfer_burn.
  apply tells_bind; [apply tells_checks; auto|]. intros (((c, m), f), pe) Ec. apply transfer_checks_ok in Ec. destruct Ec as (Cf & _ & _ & _ & Mt & Fr & _ & _ & _ & Pe).
  apply tells_bind; [apply tells_dust; try assumption; [exact (mint_dec _ _ _ Hi Mt)|exact (peer_dec _ _ _ Hi Pe)|intros F; exists m, pe; split; [exists c; auto|auto]]|]. intros (v, t) Ed.
  apply tells_bind; [tell|]. intros b Eb. apply any_tok_ok in Eb. apply tells_bind; [tell|]. intros s1 E1. apply tells_bind; [tell|]. intros s2 E2.
  apply tells_bind; [tell|]. intros af Ef. apply any_tok_ok in Ef. apply tells_bind.
  - apply tells_require. intros N. apply Z.eqb_neq in N. eapply fee_charged; try eassumption. intros F. apply N.
    destruct (tok_transfer_ok _ _ _ _ _ _ _ _ _ E1) as (t1 & d & m1 & t1' & F1 & F2 & F3 & _ & _ & _ & _ & _ & _ & Sp & _ & _ & [(C & _)|(Nq & _ & _ & _ & Tk)]).
    { exfalso. eapply not_custody; try eassumption. discriminate. }
    assert (m1 = m) by congruence. subst m1. assert (d = b) by congruence. subst d.
    destruct (tok_burn_ok _ _ _ _ _ _ _ E2) as (t2 & m2 & t2' & G1 & _ & _ & _ & _ & _ & Sp2 & _ & _ & Tk2 & _).
    rewrite Tk, upd_same in G1. apply Some_inj in G1. subst t2. rewrite Tk2, upd_same in Ef. apply Some_inj in Ef. subst af. cbn. lia.
  - intros _ _. pose proof (deposit_here _ _ _ _ _ _ _ Cf Mt Pe Ha Ed) as Dv. apply tells_insert; try assumption.
    + eapply same_prog_trans; [eapply tok_accts_transfer, E1|eapply tok_accts_burn, E2].
    + apply (dust_range _ _ _ _ _ Ha (mint_dec _ _ _ Hi Mt) (peer_dec _ _ _ Hi Pe) Ed).
    + intros Qf L. cbn. split; [exact Qf|]. rewrite Dv. exact L.
Qed.

Lemma tells_lock sg x a : is_u64 (ar_amount a) -> tells (cause H s (ITransferLock x a)) (exec H s sg (ITransferLock x a)).
Proof.
  intros Ha. pose proof (cause_quiet (ITransferLock x a)) as Q. pose proof Q as (? & ? & ? & ? & ?). cbn [exec]. unfold transfer_lock.
  apply tells_bind; [apply tells_checks; auto|]. intros (((c, m), f), pe) Ec. apply transfer_checks_ok in Ec. destruct Ec as (Cf & _ & _ & _ & Mt & Fr & _ & _ & _ & Pe).
  apply tells_bind; [apply tells_dust; try assumption; [exact (mint_dec _ _ _ Hi Mt)|exact (peer_dec _ _ _ Hi Pe)|intros F; exists m, pe; split; [exists c; auto|auto]]|]. intros (v, t) Ed.
  apply tells_bind; [tell|]. intros b Eb. apply any_tok_ok in Eb. apply tells_bind; [tell|]. intros s1 E1.
  apply tells_bind; [tell|]. intros af Ef. apply any_tok_ok in Ef. apply tells_bind; [tell|]. intros w Ew. apply tells_bind.
  - apply tells_require. intros N. apply Z.eqb_neq in N. eapply fee_charged; try eassumption. intros F. apply N.
    assert (w = tk_amount b + v). { unfold plain in Ew. destruct (checked _ _) eqn:K in Ew; [|discriminate Ew]. apply checked_ok in K. apply Ok_inj in Ew. lia. } subst w.
    destruct (tok_transfer_ok _ _ _ _ _ _ _ _ _ E1) as (t1 & d & m1 & t1' & F1 & F2 & F3 & _ & _ & _ & _ & _ & _ & Sp & _ & _ & [(C & _)|(Nq & _ & _ & _ & Tk)]).
    { exfalso. eapply not_custody; try eassumption. discriminate. }
    assert (m1 = m) by congruence. subst m1. assert (d = b) by congruence. subst d.
    rewrite Tk, upd_same in Ef. apply Some_inj in Ef. subst af. cbn. lia.
  - intros _ _. pose proof (deposit_here _ _ _ _ _ _ _ Cf Mt Pe Ha Ed) as Dv. apply tells_insert; try assumption.
    + eapply tok_accts_transfer, E1.
    + apply (dust_range _ _ _ _ _ Ha (mint_dec _ _ _ Hi Mt) (peer_dec _ _ _ Hi Pe) Ed).
    + intros Qf L. cbn. split; [exact Qf|]. rewrite Dv. exact L.
Qed.

Lemma get_bit m i : 0 <= i < 128 -> bm_get m i = Ok (Z.testbit m i).
Proof. apply bm_get_ok. Qed.

Lemma tells_redeem sg x : tells (cause H s (IRedeem x)) (exec H s sg (IRedeem x)).
Proof.
  pose proof (cause_quiet (IRedeem x)) as Q. pose proof Q as (? & ? & ? & ? & ?). cbn [exec]. unfold redeem.
  apply tells_bind; [tell|]. intros c Ec. apply get_config_ok in Ec. destruct (config_here _ _ Ec) as (Ec' & Ok0).
  apply tells_bind; [apply tells_require; pose proof (co_threshold _ _ Ok0); intros; lia|]. intros _ _.
  apply tells_bind; [tell|]. intros rt Er. apply get_reg_ok in Er. pose proof (reg_id _ _ _ Hi Er) as Ri.
  apply tells_bind; [tell|]. intros (ch, tm) Em. apply get_message_ok in Em. destruct Em as (p & _ & Em). assert (Ma : message_at s (ra_message x) ch tm) by (exists p; exact Em).
  apply tells_bind; [tell|]. intros pe Ep. apply get_peer_ok in Ep.
  apply tells_bind. { apply tells_require. intros N. cbn. exists ch, tm, pe. split; [exact Ma|]. split; [exact Ep|]. intros C. rewrite C, addr_eqb_refl in N. discriminate N. } intros _ _.
  apply tells_bind. { apply tells_require. intros N. cbn. exists c, ch, tm. split; [exact Ec|]. split; [exact Ma|]. lia. } intros _ _.
  apply tells_bind. { apply tells_require. intros N. cbn. exists ch, tm. split; [exact Ma|]. intros C. rewrite C, addr_eqb_refl in N. discriminate N. } intros _ _.
  rewrite get_bit by exact Ri. cbn [bind].
  apply tells_bind. { apply tells_require. intros N. exfalso. destruct (reg_addr _ _ _ Hi Er) as (p' & E' & _). rewrite E' in Er. destruct (inv_reg _ Hi _ _ Er) as (c0 & E0 & R0).
    assert (c0 = c) by (unfold has, config_at in *; congruence). subst c0. rewrite (all_enabled _ _ Hr _ Ec' _ R0) in N. discriminate N. } intros _ _.
  apply tells_bind; [tell|]. intros m Mt. apply any_mint_ok in Mt. apply tells_bind; [tell|]. intros item Eit. apply tells_bind; [tell|]. intros irl _. apply tells_bind; [tell|]. intros orl _.
  pose proof (vtm_typed _ _ _ _ _ Hi Em) as (_ & Ty). destruct (typed_tm_ranges _ Ty) as (Ra & Rd & _). pose proof (mint_dec _ _ _ Hi Mt) as Rm.
  apply tells_bind.
  { destruct (nm_amount (tm_msg tm)) as [am d] eqn:Ea. cbn [ta_amount ta_decimals] in *. rewrite untrim_exact by assumption.
    assert (Y : mint_at s (ra_config x) m) by (exists c; auto).
    destruct (mt_decimals m <=? d) eqn:L1.
    - destruct (_ <? 20) eqn:L2; [apply tells_ok|]. apply tells_err. cbn. exists m, ch, tm. rewrite Ea. cbn. unfold far. split; [exact Y|]. split; [exact Ma|]. lia.
    - destruct (20 <=? _) eqn:L2; [|destruct (_ <=? u64_max) eqn:L3; [apply tells_ok|]]; apply tells_err; cbn; exists m, ch, tm; rewrite Ea; cbn [ta_amount ta_decimals]; (split; [exact Y|]); (split; [exact Ma|]).
      + unfold far. lia.
      + unfold convert. rewrite L1. lia. }
  intros v Ev. apply tells_bind; [unfold bm_set; destruct (BITS <=? rt_id rt) eqn:B; [unfold BITS in B; lia|apply tells_ok]|]. intros votes _.
  apply tells_bind; [|intros n _].
  { unfold bm_count_enabled_votes. tell. }
  destruct (n <? cf_threshold c); [apply tells_ok|].
  apply tells_bind; [apply tells_consume, Q|]. intros (irl', r) _. apply tells_bind; [destruct r; [apply tells_bind; [apply tells_refill, Q|intros; apply tells_ok]|apply tells_ok]|].
  intros (ts, orl') _. apply tells_bind; [|intros; apply tells_ok]. unfold release_after. cbn [ib_status].
  destruct (ib_status (if ib_init item then item else _)) eqn:Es; [apply tells_ok| |]; apply tells_err; cbn; exists ch, tm;
    (destruct (ib_init item) eqn:In; [|discriminate Es]); exists (ib_status item); (split; [exact Ma|]); unfold status_at;
    (destruct (st_accts s (pda_inbox (h_msg H ch (tm_msg tm)))) as [ac|] eqn:Ea; [apply get_inbox_item_ok in Eit; unfold has in Eit; rewrite Ea in Eit; injection Eit as ->|binds Eit; apply Ok_inj in Eit; subst item; discriminate In]);
    (split; [reflexivity|congruence]).
Qed.

Lemma tells_release_checks (P : error -> Prop) x md : quiet P -> (paused_at s (la_config x) -> P Paused) -> (mode_is_not s (la_config x) md -> P InvalidMode) -> tells P (release_checks s x md).
Proof.
  intros Q P1 P2. unfold release_checks. apply tells_bind; [apply tells_not_paused; auto|]. intros c Ec. apply get_not_paused_ok in Ec. destruct Ec as (Ec & _). destruct Q as (? & ? & ? & ? & ?).
  apply tells_bind; [|intros ? ?; tell]. apply tells_require. intros B. apply P2. exists c. split; [exact Ec|]. apply mode_neq, B.
Qed.
Lemma tells_try (P : error -> Prop) a it : inbox_at s a it -> (status_at s a = Some Released -> P TransferAlreadyRedeemed) -> tells P (inbox_try_release it (st_now s)).
Proof.
  intros E K. unfold inbox_try_release. destruct (ib_status it) eqn:St; [apply tells_ok|destruct (_ <? _); apply tells_ok|]. apply tells_err, K. unfold status_at, inbox_at in *. rewrite E, St. reflexivity.
Qed.
Lemma not_released a it i' b : inbox_at s a it -> inbox_try_release it (st_now s) = Ok (i', b) -> b = false -> not_due s a.
Proof.
  intros E T ->. exists it. split; [exact E|]. unfold inbox_try_release in T. destruct (ib_status it) eqn:St; [auto| |discriminate T]. right. exists t. split; [reflexivity|].
  destruct (st_now s <? t) eqn:L; [lia|discriminate T].
Qed.

Lemma tells_unlock sg x r : tells (cause H s (IReleaseUnlock x r)) (exec H s sg (IReleaseUnlock x r)).
Proof.
  pose proof (cause_quiet (IReleaseUnlock x r)) as Q. pose proof Q as (? & ? & ? & ? & ?). cbn [exec]. unfold release_inbound_unlock.
  apply tells_bind; [apply tells_release_checks; auto|]. intros ((c, it), ra) Ec. apply release_checks_ok in Ec. destruct Ec as (_ & mt & rt & F). destruct F.
  assert (It : inbox_at s (la_item x) it) by assumption.
  apply tells_bind; [apply (tells_try _ (la_item x)); [exact It|auto]|]. intros (i', b) T. destruct b; cbn [negb]; [tell|].
  destruct r; [|apply tells_ok]. apply tells_err. cbn. eapply not_released; eauto.
Qed.
Lemma tells_mint sg x r : tells (cause H s (IReleaseMint x r)) (exec H s sg (IReleaseMint x r)).
Proof.
  pose proof (cause_quiet (IReleaseMint x r)) as Q. pose proof Q as (? & ? & ? & ? & ?). cbn [exec]. unfold release_inbound_mint.
  apply tells_bind; [apply tells_release_checks; auto|]. intros ((c, it), ra) Ec. apply release_checks_ok in Ec. destruct Ec as (_ & mt & rt & F). destruct F.
  assert (It : inbox_at s (la_item x) it) by assumption.
  apply tells_bind; [apply (tells_try _ (la_item x)); [exact It|auto]|]. intros (i', b) T. destruct b; cbn [negb]; [tell|].
  destruct r; [|apply tells_ok]. apply tells_err. cbn. eapply not_released; eauto.
Qed.

Lemma tells_outbound (P : error -> Prop) cfg it tr : quiet P -> (paused_at s cfg -> P Paused) -> (already_sent s it tr -> P MessageAlreadySent) -> tells P (outbound_checks s cfg it tr).
Proof.
  intros Q P1 P2. unfold outbound_checks. apply tells_bind; [apply tells_not_paused; auto|]. intros c Ec. apply get_not_paused_ok in Ec. destruct Ec as (Ec & _). destruct Q as (? & ? & ? & ? & ?).
  apply tells_bind; [tell|]. intros o Eo. apply get_outbox_item_ok in Eo. apply tells_bind; [tell|]. intros rt Er. apply get_reg_ok in Er. pose proof (reg_id _ _ _ Hi Er) as Ri.
  rewrite !get_bit by exact Ri. cbn [bind]. destruct (config_here _ _ Ec) as (Ec' & _).
  apply tells_bind. { apply tells_require. intros N. apply P2. exists rt. split; [exact Er|]. unfold flag. unfold has in Eo. rewrite Eo. destruct (Z.testbit _ _); [reflexivity|discriminate N]. }
  intros _ _. apply tells_bind; [|intros; apply tells_ok]. apply tells_require. intros N. exfalso. destruct (reg_addr _ _ _ Hi Er) as (p' & E' & _). rewrite E' in Er. destruct (inv_reg _ Hi _ _ Er) as (c0 & E0 & R0).
  assert (c0 = c) by (unfold has, config_at in *; congruence). subst c0. rewrite (all_enabled _ _ Hr _ Ec' _ R0) in N. discriminate N.
Qed.
Lemma tells_try_out (P : error -> Prop) a tr o rt : outbox_at s a o -> reg_at s tr rt -> (already_sent s a tr -> P MessageAlreadySent) -> tells P (outbox_try_release o (st_now s) (rt_id rt)).
Proof.
  intros Eo Er K. unfold outbox_try_release. destruct (_ <? _); [apply tells_ok|]. pose proof (reg_id _ _ _ Hi Er) as Ri. rewrite get_bit by exact Ri. cbn [bind].
  apply tells_bind. { apply tells_require. intros N. apply K. exists rt. split; [exact Er|]. unfold flag, outbox_at in *. rewrite Eo. destruct (Z.testbit _ _); [reflexivity|discriminate N]. }
  intros _ _. apply tells_bind; [|intros; apply tells_ok]. unfold bm_set. destruct (BITS <=? rt_id rt) eqn:B; [unfold BITS in B; lia|apply tells_ok].
Qed.
Lemma tells_mark (P : error -> Prop) sg sn cfg a tr : quiet P -> (paused_at s cfg -> P Paused) -> (already_sent s a tr -> P MessageAlreadySent) ->
  tells P (mark_outbox_item_as_released s sg sn cfg a tr).
Proof.
  intros Q P1 P2. unfold mark_outbox_item_as_released. apply tells_bind; [apply tells_outbound; auto|]. intros ((c, o), rt) Ec. apply outbound_checks_ok in Ec. destruct Ec.
  destruct Q as (? & ? & ? & ? & ?). apply tells_bind; [tell|]. intros _ _. apply tells_bind; [tell|]. intros _ _.
  apply tells_bind; [eapply tells_try_out; eauto|]. intros (o', r) _. apply tells_ok.
Qed.
Lemma try_out_not o now id o' : outbox_try_release o now id = Ok (o', false) -> now < ob_release o.
Proof.
  unfold outbox_try_release. destruct (now <? ob_release o) eqn:L; [lia|]. intros E. binds E. congruence.
Qed.

Lemma tells_xrelease sg p cfg a tr r ok : tells (cause H s (IXRelease p cfg a tr r ok)) (exec H s sg (IXRelease p cfg a tr r ok)).
Proof.
  pose proof (cause_quiet (IXRelease p cfg a tr r ok)) as Q. pose proof Q as (? & ? & ? & ? & ?). cbn [exec]. try (apply tells_bind; [tell|intros _ _]). unfold x_release.
  apply tells_bind; [apply tells_outbound; auto|]. intros ((c, o), rt) Ec. apply outbound_checks_ok in Ec. destruct Ec.
  apply tells_bind; [tell|]. intros _ _.
  apply tells_bind. { destruct p; try (apply tells_mark; auto). apply tells_bind; [eapply tells_try_out; eauto|intros (? & ?) _; apply tells_ok]. }
  intros (s1, b) Es. destruct b; cbn [negb].
  - apply tells_bind; [tell|]. intros o' Eo'. assert (Rg : reg_at s tr rt) by assumption. pose proof (reg_id _ _ _ Hi Rg) as Ri. rewrite get_bit by exact Ri. cbn [bind]. tell.
  - destruct r; [|apply tells_ok]. apply tells_err. cbn. exists o. split; [assumption|].
    assert (Y : forall sg sn, mark_outbox_item_as_released s sg sn cfg a tr = Ok (s1, false) -> st_now s < ob_release o).
    { intros sg0 sn E. unfold mark_outbox_item_as_released in E. binds E. apply outbound_checks_ok in E0. destruct E0. assert (o0 = o) by (unfold has in *; congruence). subst o0.
      match goal with K : outbox_try_release _ _ _ = Ok (_, ?b) |- _ => assert (b = false) by congruence; subst b; apply try_out_not in K; exact K end. }
    destruct p; try (eapply Y; exact Es). binds Es. match goal with K : outbox_try_release _ _ _ = Ok (_, ?b) |- _ => assert (b = false) by congruence; subst b; apply try_out_not in K; exact K end.
Qed.

Lemma reported sg i : typed i = true -> tells (cause H s i) (exec H s sg i).
Proof.
  intros Ty. pose proof (cause_quiet i) as Q. pose proof Q as (? & ? & ? & ? & ?).
  destruct i; try (cbn [exec]; tell; fail).
  - cbn [exec]. unfold initialize. do 5 (apply tells_bind; [tell|intros _ _]). apply tells_bind; [tell|]. intros mt Mt. apply ok_or_ok in Mt. apply tells_bind.
    { destruct m; [apply tells_ok|]. destruct (mt_auth mt) as [b|] eqn:A; [|tell]. apply tells_require. intros N. cbn. exists mt, b. split; [exact Mt|]. split; [exact A|]. intros C. rewrite C, addr_eqb_refl in N. discriminate N. }
    intros _ _. tell.
  - cbn [exec]. unfold initialize_lut. tell.
  - apply tells_lock. unfold typed, u64b in Ty. apply andb_true_iff in Ty. destruct Ty as (Ty & _). apply andb_true_iff in Ty. ilia.
  - apply tells_burn. unfold typed, u64b in Ty. apply andb_true_iff in Ty. destruct Ty as (Ty & _). apply andb_true_iff in Ty. ilia.
  - apply tells_redeem.
  - apply tells_mint.
  - apply tells_unlock.
  - cbn [exec]. unfold transfer_ownership. tell.
  - cbn [exec]. unfold transfer_ownership_one_step_unchecked. tell.
  - cbn [exec]. unfold claim_ownership. apply tells_bind; [tell|]. intros c Ec. apply get_config_ok in Ec. apply tells_bind; [|intros; tell]. apply tells_require. intros N. cbn. exists c. split; [exact Ec|].
    apply orb_false_iff in N. destruct N as (N1 & N2). split; intros C; rewrite C in *; [rewrite addr_eqb_refl in N2; discriminate N2|]. cbn in N1. rewrite addr_eqb_refl in N1. discriminate N1.
  - cbn [exec]. unfold set_paused. tell.
  - cbn [exec]. unfold set_peer. tell.
  - cbn [exec]. unfold register_transceiver. apply tells_bind; [tell|]. intros c Ec. apply get_owned_ok in Ec. destruct Ec as (Ec & _). do 2 (apply tells_bind; [tell|intros _ _]). apply tells_bind; [tell|]. intros n _.
    apply tells_bind; [|intros; tell]. unfold bm_set. destruct (BITS <=? cf_next c) eqn:B; [|apply tells_ok]. apply tells_err. cbn. exists c. split; [exact Ec|]. destruct (config_here _ _ Ec) as (_ & Ok0).
    pose proof (co_next _ _ Ok0). unfold BITS in B. lia.
  - cbn [exec]. unfold set_outbound_limit. apply tells_bind; [tell|intros ? ?]. apply tells_bind; [tell|intros ? ?]. apply tells_bind; [apply tells_set_limit, Q|intros; tell].
  - cbn [exec]. unfold set_inbound_limit. apply tells_bind; [tell|intros ? ?]. apply tells_bind; [tell|intros ? ?]. apply tells_bind; [apply tells_set_limit, Q|intros; tell].
  - cbn [exec]. apply tells_bind; [apply tells_mark; auto|intros (? & ?) _; apply tells_ok].
  - cbn [exec]. unfold x_set_peer. tell.
  - cbn [exec]. unfold x_receive. try (apply tells_bind; [tell|intros _ _]). apply tells_bind; [apply tells_not_paused; auto|]. intros c Ec. apply get_not_paused_ok in Ec. destruct Ec as (Ec & _).
    apply tells_bind; [tell|]. intros d Ed. apply get_ok in Ed. destruct d; try (tell; fail). destruct m as [tm|]; [|tell].
    apply tells_bind; [tell|]. intros xp Ex. apply get_xpeer_ok in Ex. apply tells_bind.
    { apply tells_require. intros N. cbn. do 3 eexists. exists xp. split; [exact Ed|]. split; [exact Ex|]. intros C. rewrite C, addr_eqb_refl in N. discriminate N. }
    intros _ _. apply tells_bind; [|intros; tell]. apply tells_require. intros N. cbn. exists c. do 3 eexists. split; [exact Ec|]. split; [exact Ed|]. lia.
  - apply tells_xrelease.
  - cbn [exec]. unfold x_broadcast_id. tell.
  - cbn [exec]. unfold x_broadcast_peer. tell.
Qed.
End Manager.

(** ** The quoter *)
Section Quoter.
Context (E : qenv) (q : qstate) (Hr : q_reachable E q).
Let Hi : q_inv E q := q_reachable_inv _ _ Hr.

Ltac qtell := repeat first [progress tell | match goal with
  | |- tells _ (q_instance _ _) => unfold q_instance | |- tells _ (q_chain _ _) => unfold q_chain | |- tells _ (q_ntt _ _) => unfold q_ntt | |- tells _ (q_request _ _) => unfold q_request
  | |- tells _ (lamport_transfer _ _ _ _) => unfold lamport_transfer | |- tells _ (q_init _ _ _ _ _ _) => unfold q_init | |- tells _ (q_close _ _ _) => unfold q_close
  | |- tells _ (owned _ _ _ _) => unfold owned | |- tells _ (outbox_view _ _) => unfold outbox_view end].

Lemma instance_here a t : q_instance q a = Ok t -> instance_at q t.
Proof.
  intros K. unfold instance_at. qgets. match goal with J : q_accts q a = _ |- _ => pose proof (qv_accts _ _ Hi _ _ J) as (-> & _); exact J end.
Qed.
Lemma tells_staff (P : error -> Prop) sg a w : P Constraint -> ((exists t, instance_at q t /\ in_owner t <> QExt w /\ in_assistant t <> QExt w) -> P NotAuthorized) -> tells P (authorized q sg a w).
Proof.
  intros C K. unfold authorized. apply tells_bind; [qtell|]. intros t Et. apply instance_here in Et. apply tells_bind; [qtell|]. intros _ _. apply tells_bind; [|intros; qtell].
  apply tells_require. intros N. apply K. exists t. split; [exact Et|]. unfold is_authorized in N. apply orb_false_iff in N. destruct N as (N1 & N2).
  apply qaddr_eqb_neq in N1. apply qaddr_eqb_neq in N2. split; assumption.
Qed.
Lemma tells_mul_div (P : error -> Prop) a b c : is_u64 a -> is_u64 b -> 0 < c -> P Panic -> (2 ^ 64 <= a * b / c -> P ScalingOverflow) -> tells P (mul_div a b c).
Proof.
  intros Ha Hb Hc Pp K. unfold mul_div. replace (c =? 0) with false by (symmetry; lia). destruct (_ || _); [apply tells_ok|]. unfold plain. destruct (checked u128_max (a * b)) eqn:F; cbn [bind ok_or]; [|apply tells_err, Pp].
  apply checked_ok in F. destruct F as (-> & F). apply tells_ok_or. intros N. apply K. unfold checked in N. assert (0 <= a * b / c) by (apply Z.div_pos; lia).
  destruct ((0 <=? a * b / c) && (a * b / c <=? u64_max)) eqn:B; [discriminate N|]. apply andb_false_iff in B. change (2 ^ 64) with 18446744073709551616. ilia.
Qed.
Lemma tells_fee (P : error -> Prop) i c n d : is_u64 (in_sol_price i) -> in_sol_price i <> 0 -> is_u64 (rc_native_price c) -> is_u64 (rc_gas_price c) -> is_u64 (rc_base_price c) -> is_u32 (rn_gas_cost n) -> is_u64 d ->
  P Panic -> (let gas := gas_gwei (rc_gas_price c) (rn_gas_cost n) in
          2 ^ 64 <= gas \/ 2 ^ 64 <= cost_usd (rc_native_price c) (d + gas) \/
          2 ^ 64 <= fee_formula (in_sol_price i) (rc_native_price c) (rc_gas_price c) (rc_base_price c) (rn_gas_cost n) d -> P ScalingOverflow) -> tells P (relay_fee i c n d).
Proof.
  intros R1 Z1 R2 R3 R4 R5 R6 Pp K. cbv zeta in K. unfold relay_fee. assert (R5' : is_u64 (rn_gas_cost n)) by ilia.
  apply tells_bind. { apply tells_mul_div; [assumption|assumption|reflexivity|assumption|]. intros O. apply K. left. exact O. }
  intros g Eg. apply mul_div_ok in Eg; [|assumption|assumption|unfold GWEI; lia]. destruct Eg as (_ & _ & Eg). change (rc_gas_price c * rn_gas_cost n / GWEI) with (gas_gwei (rc_gas_price c) (rn_gas_cost n)) in Eg. subst g.
  apply tells_bind. { unfold plain. apply tells_ok_or. intros _. exact Pp. }
  intros w Ew. apply plain_iff in Ew. destruct Ew as (Rw & ->).
  apply tells_bind. { apply tells_mul_div; [assumption|exact Rw|reflexivity|assumption|]. intros O. apply K. right. left. exact O. }
  intros u Eu. apply mul_div_ok in Eu; [|assumption|exact Rw|unfold GWEI; lia]. destruct Eu as (_ & _ & Eu).
  apply tells_bind. { unfold plain. apply tells_ok_or. intros _. exact Pp. }
  intros x Ex. apply plain_iff in Ex. destruct Ex as (Rx & ->). apply tells_mul_div; [exact Rx|unfold LAMPORTS_PER_SOL; ilia|ilia|assumption|]. subst u. intros O. apply K. right. right. exact O.
Qed.

Lemma q_reported sg i : q_typed i = true -> tells (q_cause E q i) (q_exec E q sg i).
Proof.
  intros Ty. assert (St : forall P a w, (P Constraint : Prop) -> ((exists t, instance_at q t /\ in_owner t <> QExt w /\ in_assistant t <> QExt w) -> P NotAuthorized) -> tells P (authorized q sg a w)) by (intros; apply tells_staff; assumption).
  assert (C : q_cause E q i Constraint) by (destruct i; exact I). assert (Pc : q_cause E q i Panic) by (destruct i; exact I). assert (L : q_cause E q i LoaderErr) by (destruct i; exact I).
  destruct i; cbn [q_exec].
  - unfold qi_initialize. apply tells_bind; [qtell|]. intros _ _. apply tells_bind; [|intros; qtell].
    apply tells_require. intros N. cbn. apply negb_false_iff in N. unfold is_default in N. apply qaddr_eqb_eq in N. exact N.
  - unfold qi_set_fee_recipient. apply tells_bind; [qtell|]. intros t _. apply tells_bind; [|intros; qtell].
    apply tells_require. intros N. cbn. apply negb_false_iff in N. unfold is_default in N. apply qaddr_eqb_eq in N. exact N.
  - unfold qi_set_assistant. qtell.
  - unfold qi_register_chain. apply tells_bind; [apply St; cbn; auto|]. intros; qtell.
  - unfold qi_register_ntt. apply tells_bind; [apply St; cbn; auto|]. intros; qtell.
  - unfold qi_deregister_ntt. apply tells_bind; [apply St; cbn; auto|]. intros; qtell.
  - unfold qi_update_sol_price. apply tells_bind; [apply St; cbn; auto|]. intros. apply tells_bind; [|intros; qtell]. apply tells_require. intros N. cbn. apply negb_false_iff in N. lia.
  - unfold qi_update_chain_prices. apply tells_bind; [apply St; cbn; auto|]. intros; qtell.
  - unfold qi_update_chain_params. apply tells_bind; [apply St; cbn; auto|]. intros; qtell.
  - unfold qi_request_relay. apply tells_bind; [qtell|]. intros _ _. apply tells_bind; [qtell|]. intros t Et. apply instance_here in Et.
    pose proof (qv_accts _ _ Hi _ _ Et) as (_ & _ & Rt & _).
    apply tells_bind. { apply tells_require. intros N. apply negb_false_iff in N. exists t. split; [exact Et|lia]. }
    intros u0 Zt. apply require_ok in Zt. clear u0. apply tells_bind; [qtell|]. intros [p o] Eo. cbn [fst snd]. unfold outbox_view in Eo. destruct (st_accts (q_world q) item) as [[p0 [] ]|] eqn:Ei; try discriminate Eo.
    apply Ok_inj in Eo. injection Eo as -> ->. apply tells_bind; [qtell|]. intros n En. qgets. match goal with J : q_accts q (QNtt _) = Some _ |- _ => rename J into En end.
    pose proof (qv_accts _ _ Hi _ _ En) as (_ & Rn & Rg). assert (Wn : wanted q item o n) by (exists p; split; [exact Ei|exact En]).
    apply tells_bind. { unfold bm_get. destruct (BITS <=? rn_index n) eqn:Bx; [|apply tells_ok]. apply tells_err. exists o, n. split; [exact Wn|]. unfold BITS in Bx. lia. }
    intros b Eb. apply tells_bind. { apply tells_require. intros ->. exists o, n. split; [exact Wn|]. unfold bm_get in Eb. destruct (BITS <=? rn_index n); [discriminate Eb|]. apply Ok_inj in Eb. exact Eb. }
    intros _ _. apply tells_bind; [qtell|]. intros c Ec. qgets. match goal with J : q_accts q (QChain _) = Some _ |- _ => rename J into Ec end.
    pose proof (qv_accts _ _ Hi _ _ Ec) as (_ & Rc1 & Rc2 & Rc3 & Rc4). assert (Pr : priced q item t n c) by (exists o; repeat split; assumption).
    apply tells_bind. { apply tells_require. intros N. apply negb_false_iff in N. exists t, n, c. split; [exact Pr|]. apply Z.eqb_eq. exact N. }
    intros _ _. apply tells_bind; [qtell|]. intros q1 _.
    apply tells_bind. { apply tells_require. intros N. apply Z.leb_gt in N. exists t, n, c. split; [exact Pr|exact N]. }
    intros _ _. cbn [q_typed] in Ty. apply andb_true_iff in Ty. destruct Ty as (Ty & Tm). apply fits_iff in Ty. apply fits_iff in Tm.
    assert (Nz : in_sol_price t <> 0) by lia.
    apply tells_bind. { apply tells_fee; try assumption. intros g0 O. exists t, n, c. split; [exact Pr|exact O]. }
    intros f Ef. apply relay_fee_ok in Ef; try assumption. destruct Ef as (_ & _ & Ef). cbv zeta.
    apply tells_bind; [unfold plain; apply tells_ok_or; intros; exact I|]. intros m Em. apply plain_iff in Em. destruct Em as (Rm & Em).
    apply tells_bind; [|intros; qtell]. apply tells_require. intros N. apply Z.leb_gt in N. exists t, n, c. split; [exact Pr|]. rewrite <- Ef. subst m. unfold request_rent. change size_request with 16 in *. unfold sat_sub in N. lia.
  - unfold qi_close_relay. apply tells_bind; [apply St; cbn; auto|]. intros t Et. unfold authorized in Et. binds Et. match goal with J : q_instance q inst = Ok _ |- _ => apply instance_here in J end.
    apply Ok_inj in Et. subst. apply tells_bind; [|intros; qtell]. apply tells_require. intros N. apply qaddr_eqb_neq in N. cbn. exists t. split; [assumption|congruence].
  - apply tells_bind; [|intros; apply tells_ok]. unfold step. cbn [Exec.ins signers]. apply tells_bind; [apply tells_require; intros; exact I|]. intros u0 G. bools. apply reported; [exact (qv_world _ _ Hi)|assumption].
  - qtell.
  - qtell.
Qed.
End Quoter.

(** ** The governance program *)
Lemma g_reported {W} (E : genv W) n : forall st ctx data, tells (g_cause E st) (g_exec E n st ctx data).
Proof.
  induction n as [|n IH]; intros st ctx data; cbn [g_exec]; [apply tells_err; right; exact I|].
  destruct ctx as [|payer [|gov [|va [|prog [|rep [|sys rest] ] ] ] ] ]; try (apply tells_err; right; exact I). cbv zeta.
  assert (C : g_cause E st Constraint) by (right; exact I).
  apply tells_bind; [apply tells_require; intros; exact C|]. intros _ _. apply tells_bind; [apply tells_require; intros; exact C|]. intros _ _.
  apply tells_bind; [apply tells_require; intros; exact C|]. intros _ _. apply tells_bind; [apply tells_ok_or; intros; exact C|]. intros v Ev. apply ok_or_ok in Ev.
  apply tells_bind; [apply tells_ok_or; intros; exact C|]. intros [m r] Em. apply ok_or_ok in Em. cbn [fst].
  apply tells_bind. { apply tells_require. intros N. right. exists (ac_key va), v. split; [exact Ev|]. apply Z.eqb_neq. exact N. }
  intros _ _. apply tells_bind. { apply tells_require. intros N. right. exists (ac_key va), v. split; [exact Ev|]. intros Q. rewrite Q in N. rewrite (proj2 (bytes_eqb_eq _ _) eq_refl) in N. discriminate N. }
  intros _ _. apply tells_bind. { apply tells_require. intros N. right. exists (ac_key va), v, m, r. split; [exact Ev|]. split; [exact Em|]. intros Q. rewrite Q in N. rewrite (proj2 (bytes_eqb_eq _ _) eq_refl) in N. discriminate N. }
  intros u0 Gv. apply tells_bind; [apply tells_require; intros; exact C|]. intros _ _. apply tells_bind; [apply tells_require; intros; exact C|]. intros _ _.
  apply tells_bind; [apply tells_require; intros; exact C|]. intros _ _. apply tells_bind. { apply require_ok in Gv. rewrite Gv. apply tells_ok. }
  intros _ _. apply tells_bind; [apply tells_require; intros; exact C|]. intros _ _.
  destruct (bytes_eqb (ix_program _) GOV_ID). { intros e Ee. exact (IH _ _ _ _ Ee). }
  apply tells_bind; [|intros; apply tells_ok]. intros e Ee. left. eexists. exact Ee.
Qed.

(** * Proofs about panics. *)
From Verif Require Export SpecPanic.
From Verif Require Import MoveFacts SupplyFacts QuoterFacts BitmapFacts TrimmedFacts Kept Flow.
Import ListNotations.
Local Open Scope Z_scope.

Definition calm {A} (r : result A) : Prop := r <> Err Panic.
Lemma calm_bind {A B} (m : result A) (f : A -> result B) : calm m -> (forall a, m = Ok a -> calm (f a)) -> calm (bind m f).
Proof. unfold calm. destruct m as [a|e]; cbn; intros M F; [apply F; reflexivity|congruence]. Qed.
Lemma calm_require b e : e <> Panic -> calm (require b e).
Proof. unfold calm, require. destruct b; congruence. Qed.
Lemma calm_ok_or {A} (o : option A) e : e <> Panic -> calm (ok_or o e).
Proof. unfold calm, ok_or. destruct o; congruence. Qed.
Ltac calms := repeat match goal with
  | |- calm (bind _ _) => apply calm_bind; [|intros ? ?]
  | |- calm (Ok _) => discriminate
  | |- calm (Err _) => discriminate
  | |- calm (require _ _) => apply calm_require; discriminate
  | |- calm (ok_or _ _) => apply calm_ok_or; discriminate
  | |- calm (get_config _ _) => unfold get_config | |- calm (get_peer _ _) => unfold get_peer
  | |- calm (get_outbox_item _ _) => unfold get_outbox_item | |- calm (get_outbox_rl _ _) => unfold get_outbox_rl
  | |- calm (get_inbox_item _ _) => unfold get_inbox_item | |- calm (get_inbox_rl _ _) => unfold get_inbox_rl
  | |- calm (get_reg _ _) => unfold get_reg | |- calm (get_xpeer _ _ _) => unfold get_xpeer
  | |- calm (get_not_paused _ _) => unfold get_not_paused | |- calm (get_owned _ _ _ _) => unfold get_owned
  | |- calm (get_message _ _ _) => unfold get_message
  | |- calm (get _ _ _) => unfold get | |- calm (get_tok _ _ _) => unfold get_tok | |- calm (get_mint _ _ _) => unfold get_mint
  | |- calm (any_tok _ _) => unfold any_tok | |- calm (any_mint _ _) => unfold any_mint
  | |- calm (tok_transfer _ _ _ _ _ _ _ _) => unfold tok_transfer | |- calm (tok_mint_to _ _ _ _ _ _) => unfold tok_mint_to
  | |- calm (tok_burn _ _ _ _ _ _) => unfold tok_burn | |- calm (tok_init _ _ _ _ _) => unfold tok_init
  | |- calm (spend _ _ _) => unfold spend | |- calm (init_custody _ _ _) => unfold init_custody
  | |- calm (loader_set_authority _ _ _) => unfold loader_set_authority | |- calm (bridge_post _ _ _ _ _) => unfold bridge_post
  | |- calm (init_if_needed _ _ _) => unfold init_if_needed | |- calm (transfer_checks _ _ _ _ _) => unfold transfer_checks
  | |- calm (release_checks _ _ _) => unfold release_checks | |- calm (inbox_try_release _ _) => unfold inbox_try_release
  | |- calm (outbound_checks _ _ _ _) => unfold outbound_checks | |- calm (outbox_try_release _ _ _) => unfold outbox_try_release
  | |- calm (mark_outbox_item_as_released _ _ _ _ _ _) => unfold mark_outbox_item_as_released
  | |- calm (bm_get _ _) => unfold bm_get | |- calm (bm_set _ _ _) => unfold bm_set | |- calm (release_after _ _) => unfold release_after
  | |- calm (remove_dust _ _ _) => unfold remove_dust | |- calm (trim _ _ _) => unfold trim | |- calm (untrim _ _) => unfold untrim | |- calm (scale _ _ _) => unfold scale
  | |- calm (match ?x with _ => _ end) => destruct x eqn:?
  | |- calm (let '(_, _) := ?x in _) => destruct x eqn:?
  end.

Lemma calm_consume r now v : wf_rl r -> is_i64 now -> is_u64 v -> rl_last r <= now -> now + day <= i64_max -> calm (consume_or_delay r now v).
Proof.
  intros W Hn Hv L D. rewrite consume_metered by assumption. replace (rl_last r <=? now) with true by (symmetry; lia). replace (now + day <=? i64_max) with true by (symmetry; lia). calms.
Qed.
Lemma calm_refill r now v : wf_rl r -> is_i64 now -> is_u64 v -> rl_last r <= now -> calm (refill r now v).
Proof. intros W Hn Hv L. rewrite refill_metered by assumption. replace (rl_last r <=? now) with true by (symmetry; lia). calms. Qed.
Lemma calm_set_limit r now v : wf_rl r -> is_i64 now -> rl_last r <= now -> calm (set_limit r now v).
Proof.
  intros W Hn L. unfold set_limit. rewrite RateLimitFacts.capacity_exact by (try assumption; ilia). cbn [bind]. calms.
Qed.

Lemma in_time_or s i : out_of_time s i \/ (forall a r, In a (metered_by s i) -> limiter_at s a r -> rl_last r <= st_now s /\ st_now s + day <= i64_max).
Proof.
  unfold out_of_time. induction (metered_by s i) as [|b l IH]; [right; intros a r []|].
  destruct IH as [(a & r & K & L)|IH]; [left; exists a, r; split; [right; exact K|exact L]|].
  assert (D : (exists r, limiter_at s b r /\ (st_now s < rl_last r \/ i64_max < st_now s + day)) \/ (forall r, limiter_at s b r -> rl_last r <= st_now s /\ st_now s + day <= i64_max)).
  { assert (U : (exists r, limiter_at s b r) \/ forall r, ~ limiter_at s b r).
    { unfold limiter_at, has. destruct (st_accts s b) as [[o d]|]; [|right; intros r [E|E]; discriminate E].
      destruct o, d; try (right; intros r0 [E|E]; discriminate E); left; eexists; first [left; reflexivity|right; reflexivity]. }
    destruct U as [(r & L)|N]; [|right; intros r L; destruct (N r L)].
    assert (Q : forall r', limiter_at s b r' -> r' = r). { intros r' L'. unfold limiter_at, has in *. destruct L, L'; congruence. }
    destruct (Z_lt_dec (st_now s) (rl_last r)); [left; exists r; auto|]. destruct (Z_lt_dec i64_max (st_now s + day)); [left; exists r; auto|].
    right. intros r' L'. rewrite (Q _ L'). lia. }
  destruct D as [(r & L & X)|D]; [left; exists b, r; split; [left; reflexivity|auto]|]. right. intros a r [<-|K] L; [apply D, L|exact (IH _ _ K L)].
Qed.


Ltac strip := repeat match goal with
  | E : get_config _ _ = Ok _ |- _ => apply get_config_ok in E
  | E : get_peer _ _ = Ok _ |- _ => apply get_peer_ok in E
  | E : get_outbox_rl _ _ = Ok _ |- _ => apply get_outbox_rl_ok in E
  | E : get_inbox_rl _ _ = Ok _ |- _ => apply get_inbox_rl_ok in E
  | E : get_owned _ _ _ _ = Ok _ |- _ => apply get_owned_ok in E; destruct E as (E & ? & ?)
  | E : any_mint _ _ = Ok _ |- _ => apply any_mint_ok in E
  | E : any_tok _ _ = Ok _ |- _ => apply any_tok_ok in E
  end.

Section Manager.
Context (H : hashes) (s : state) (Hr : reachable H s).
Let Hi : inv s := reachable_inv _ _ Hr.

Lemma limiter_wf a r : limiter_at s a r -> wf_rl r.
Proof. intros [L|L]; [apply (orl_addr _ _ _ Hi L)|exact (irl_wf _ _ _ Hi L)]. Qed.

Lemma calm_insert s1 x sender v t ch mg rc q : same_prog s s1 -> is_u64 v ->
  (forall a r, In a [xa_outbox_rl x; pda_inbox_rl ch] -> limiter_at s a r -> rl_last r <= st_now s /\ st_now s + day <= i64_max) ->
  calm (insert_into_outbox s1 x sender v t ch mg rc q).
Proof.
  intros (Ea & En & _) Hv T. unfold insert_into_outbox. apply calm_bind; [calms|]. intros orl Eo. apply get_outbox_rl_ok in Eo. unfold has in Eo. rewrite Ea in Eo.
  apply calm_bind; [calms|]. intros irl Ei. apply get_inbox_rl_ok in Ei. unfold has in Ei. rewrite Ea in Ei. rewrite En.
  assert (Lo : limiter_at s (xa_outbox_rl x) orl) by (left; exact Eo). assert (Li : limiter_at s (pda_inbox_rl ch) irl) by (right; exact Ei).
  destruct (T _ _ (or_introl eq_refl) Lo) as (T1 & T2). destruct (T _ _ (or_intror (or_introl eq_refl)) Li) as (T3 & _).
  pose proof (inv_now _ Hi) as Hn. apply calm_bind; [apply calm_consume; try assumption; exact (limiter_wf _ _ Lo)|].
  intros (o', r) Er. apply calm_bind; [|intros (ts, i') _; discriminate]. destruct r as [t0|t0]; [|calms].
  apply calm_bind; [|intros ? ?; discriminate].
  assert (t0 = st_now s). { rewrite consume_metered in Er by (try assumption; exact (limiter_wf _ _ Lo)). destruct (rl_last orl <=? st_now s); [|discriminate Er].
    destruct (v <=? capacity orl (st_now s)); [congruence|]. destruct (st_now s + day <=? i64_max); discriminate Er. }
  subst t0. apply calm_refill; try assumption. exact (limiter_wf _ _ Li).
Qed.

Lemma calm_burn sg x a : is_u64 (ar_amount a) -> 
  (forall b r, In b [xa_outbox_rl x; pda_inbox_rl (ar_chain a)] -> limiter_at s b r -> rl_last r <= st_now s /\ st_now s + day <= i64_max) ->
  calm (transfer_burn H s sg x a).
Proof.
  intros Ha T. unfold transfer_burn. apply calm_bind; [calms|]. intros (((c, mt), f), pe) Ec. apply transfer_checks_ok in Ec. destruct Ec as (_ & _ & _ & _ & Mt & _ & _ & _ & _ & Pe).
  apply calm_bind; [calms|]. intros (v, t) Ed. destruct (dust_range _ _ _ _ _ Ha (mint_dec _ _ _ Hi Mt) (peer_dec _ _ _ Hi Pe) Ed) as (Hv & _).
  apply calm_bind; [calms|]. intros b _. apply calm_bind; [calms|]. intros s1 E1. apply calm_bind; [calms|]. intros s2 E2.
  apply calm_bind; [calms|]. intros af _. apply calm_bind; [calms|]. intros _ _. apply calm_insert; try assumption.
  eapply same_prog_trans; [eapply tok_accts_transfer, E1|eapply tok_accts_burn, E2].
Qed.

Lemma calm_lock sg x a : accounted s -> is_u64 (ar_amount a) -> 
  (forall b r, In b [xa_outbox_rl x; pda_inbox_rl (ar_chain a)] -> limiter_at s b r -> rl_last r <= st_now s /\ st_now s + day <= i64_max) ->
  calm (transfer_lock H s sg x a).
Proof.
  intros A Ha T. unfold transfer_lock. apply calm_bind; [calms|]. intros (((c, mt), f), pe) Ec. apply transfer_checks_ok in Ec. destruct Ec as (Cf & _ & _ & _ & Mt & _ & _ & _ & _ & Pe).
  apply calm_bind; [calms|]. intros (v, t) Ed. destruct (dust_range _ _ _ _ _ Ha (mint_dec _ _ _ Hi Mt) (peer_dec _ _ _ Hi Pe) Ed) as (Hv & _).
  apply calm_bind; [calms|]. intros b Eb. apply any_tok_ok in Eb. apply calm_bind; [calms|]. intros s1 E1. 
  apply calm_bind; [calms|]. intros af _.
  assert (R : is_u64 (tk_amount b + v)).
  { pose proof (config_addr _ _ _ Hi Cf) as Ea. rewrite Ea in Cf. destruct (inv_config _ Hi _ Cf) as [(tp & m & cu & Tp & _ & Cu & Em & _ & _ & Et) _ _ _ _ _ _].
    destruct (tok_transfer_ok _ _ _ _ _ _ _ _ _ E1) as (t1 & d & m1 & t' & F1 & F2 & F3 & _ & _ & _ & M1 & M2 & Le & Sp & _).
    destruct (proj1 (inv_ledger _ Hi) _ _ F2) as (_ & _ & _ & _ & _ & _ & Own & _).
    destruct (addr_eq_dec (xa_from x) (cf_custody c)) as [Q|Q].
    { exfalso. rewrite Q in F1. assert (t1 = d) by congruence. subst t1. specialize (Own _ _ Tp Cu).
      eapply no_spend; [exact (inv_ledger _ Hi)|exact F1|exact Own| |exact Sp]. discriminate. }
    assert (ND : NoDup [xa_from x; cf_custody c]) by (constructor; [intros [K|[]]; congruence|constructor; [intros []|constructor]]).
    pose proof (shares _ _ _ _ _ Hr A F3 ND) as Sh. unfold sum_of, holding in Sh; cbn [fold_right] in Sh. rewrite F1, F2 in Sh.
    destruct (addr_eq_dec (tk_mint t1) (cf_mint c)); [|congruence]. destruct (addr_eq_dec (tk_mint d) (cf_mint c)); [|congruence].
    destruct (proj2 (inv_ledger _ Hi) _ _ F3) as (_ & _ & _ & Su & _ & _ & Wi). destruct (proj1 (inv_ledger _ Hi) _ _ F2) as (_ & _ & Am & _).
    assert (d = b) by congruence. subst d. ilia. }
  apply calm_bind; [|intros w _; apply calm_bind; [calms|]; intros _ _; apply calm_insert; try assumption; eapply tok_accts_transfer, E1].
  unfold plain, checked. replace ((0 <=? tk_amount b + v) && (tk_amount b + v <=? u64_max)) with true; [discriminate|]. symmetry. apply andb_true_intro. split; ilia.
Qed.
End Manager.

Lemma calm_initialize s sg d m tp ch l md : calm (initialize s sg d m tp ch l md) \/ (initialize s sg d m tp ch l md = Err Panic /\ md = Burning /\
  exists mt, st_mints s m = Some mt /\ mt_auth mt = None /\ In d sg /\ d = match st_uauth s with Some a => a | None => ANull end /\ is_token_prog tp = true /\
    free s pda_config = true /\ free s pda_outbox_rl = true).
Proof.
  destruct md; [left; unfold initialize; calms|].
  unfold initialize. destruct (signed sg d) eqn:Sd; cbn [require bind]; [|left; discriminate].
  destruct (addr_eqb d _) eqn:Ed; cbn [require bind]; [|left; discriminate]. destruct (free s pda_config) eqn:Fc; cbn [require bind]; [|left; discriminate].
  destruct (free s pda_outbox_rl) eqn:Fo; cbn [require bind]; [|left; discriminate].
  assert (Tp : (exists p, tp = p /\ is_token_prog p = true) \/ is_token_prog tp = false) by (destruct tp; eauto).
  destruct Tp as [(p & -> & Tp)|Tp]; [|destruct tp; try discriminate Tp; left; discriminate].
  replace (match p with PToken | PToken22 => true | _ => false end) with true by (destruct p; try discriminate Tp; reflexivity). cbn [require bind].
  destruct (st_mints s m) as [mt|] eqn:Em; cbn [ok_or bind]; [|left; discriminate]. destruct (mt_auth mt) as [au|] eqn:Au; [left; calms|].
  right. split; [reflexivity|]. split; [reflexivity|]. exists mt. apply addr_eqb_eq in Ed. repeat split; auto. apply signed_In. exact Sd.
Qed.

Lemma calm_redeem H s x : reachable H s -> 
  (forall b r, In b (metered_by s (IRedeem x)) -> limiter_at s b r -> rl_last r <= st_now s /\ st_now s + day <= i64_max) -> calm (redeem H s x).
Proof.
  intros Hr T. pose proof (reachable_inv _ _ Hr) as Hi. unfold redeem.
  apply calm_bind; [calms|]. intros c Ec. apply get_config_ok in Ec. pose proof (config_addr _ _ _ Hi Ec) as Ea. rewrite Ea in Ec. pose proof (inv_config _ Hi _ Ec) as Ok.
  apply calm_bind; [calms|]. intros _ _. apply calm_bind; [calms|]. intros rt Ert. apply get_reg_ok in Ert. apply calm_bind; [calms|]. intros (ch, tm) Em. apply get_message_ok in Em. destruct Em as (p & _ & Em).
  apply calm_bind; [calms|]. intros pe Ep. apply calm_bind; [calms|]. intros _ _. apply calm_bind; [calms|]. intros _ _. apply calm_bind; [calms|]. intros _ _.
  apply calm_bind; [calms|]. intros en _. apply calm_bind; [calms|]. intros _ _. apply calm_bind; [calms|]. intros mt Mt. apply any_mint_ok in Mt.
  apply calm_bind; [calms|]. intros it Ei. apply calm_bind; [calms|]. intros irl Eirl. apply get_inbox_rl_ok in Eirl. apply calm_bind; [calms|]. intros orl Eorl. apply get_outbox_rl_ok in Eorl.
  apply calm_bind; [calms|]. intros v Ev.
  set (it' := if ib_init it then it else _).
  assert (W' : is_u128 (ib_votes it')).
  { subst it'. destruct (ib_init it) eqn:I; [|cbn; unfold bm_new; ilia]. destruct (st_accts s _) as [ac|] eqn:Eac.
    - apply get_inbox_item_ok in Ei. apply (item_addr _ _ _ Hi Ei).
    - apply bind_ok in Ei as (u & _ & Ei). apply Ok_inj in Ei. subst it. discriminate I. }
  apply calm_bind; [calms|]. intros vo Evo.
  assert (Wv : is_u128 vo) by (eapply BitmapFacts.bm_set_u128; [exact W'| |exact Evo]; pose proof (reg_id _ _ _ Hi Ert); ilia).
  rewrite BitmapFacts.count_votes_exact by (try assumption; apply (co_enabled _ _ Ok)). cbn [bind].
  destruct (_ <? cf_threshold c); [discriminate|].
  destruct (vtm_typed _ _ _ _ _ Hi Em) as [_ Hty]. destruct (typed_tm_ranges _ Hty) as (Ha & Hd & _). pose proof (untrim_range _ _ _ Ha Hd (mint_dec _ _ _ Hi Mt) Ev) as Hv.
  cbn [metered_by] in T. unfold has in Em. rewrite Em in T.
  assert (Lo : limiter_at s (ra_outbox_rl x) orl) by (left; exact Eorl). assert (Li : limiter_at s (pda_inbox_rl ch) irl) by (right; exact Eirl).
  destruct (T _ _ (or_introl eq_refl) Lo) as (T1 & _). destruct (T _ _ (or_intror (or_introl eq_refl)) Li) as (T2 & T3).
  pose proof (inv_now _ Hi) as Hn. pose proof (irl_wf _ _ _ Hi Eirl) as Wi. destruct (orl_addr _ _ _ Hi Eorl) as (_ & Wo).
  apply calm_bind; [apply calm_consume; assumption|]. intros (i', r) Er. apply calm_bind; [|intros (ts, o') _; calms]. destruct r as [t0|t0]; [|calms].
  apply calm_bind; [|intros ? ?; discriminate].
  assert (t0 = st_now s). { rewrite consume_metered in Er by assumption. destruct (rl_last irl <=? st_now s); [|discriminate Er].
    destruct (v <=? capacity irl (st_now s)); [congruence|]. destruct (st_now s + day <=? i64_max); discriminate Er. }
  subst t0. apply calm_refill; assumption.
Qed.

Lemma try_release_bit o now id o' : outbox_try_release o now id = Ok (o', true) -> 0 <= id -> bm_get (ob_released o') id = Ok true.
Proof.
  unfold outbox_try_release. intros E P. destruct (now <? ob_release o); [discriminate|]. apply bind_ok in E as (b & E1 & E). apply bind_ok in E as (u & _ & E). apply bind_ok in E as (r & E2 & E).
  apply Ok_inj in E. inversion E. cbn [ob_released]. unfold bm_set in E2. unfold bm_get. destruct (BITS <=? id); [discriminate|]. apply Ok_inj in E2. rewrite <- E2. rewrite Z.setbit_eqb by assumption. rewrite Z.eqb_refl. reflexivity.
Qed.
Lemma calm_release H s p cfg it tr rv ok : reachable H s -> calm (x_release s p cfg it tr rv ok).
Proof.
  intros Hr. pose proof (reachable_inv _ _ Hr) as Hi. unfold x_release. apply calm_bind; [calms|]. intros ((c, o), rt) Ec. apply calm_bind; [calms|]. intros _ _.
  apply calm_bind; [calms|]. intros (s1, rl) E1. destruct rl; cbn [negb]; [|calms]. apply calm_bind; [calms|]. intros o' Eo. apply get_outbox_item_ok in Eo.
  assert (K : bm_get (ob_released o') (rt_id rt) = Ok true).
  { assert (Id : 0 <= rt_id rt).
    { unfold outbound_checks in Ec. binds Ec. gets. apply Ok_inj in Ec. inversion Ec; subst. match goal with R : has s tr PManager (DReg rt) |- _ => pose proof (reg_id _ _ _ Hi R) end. lia. }
    assert (G : forall x, put it PManager (DOutboxItem x) s = s1 -> o' = x). { intros x <-. unfold has, put in Eo. cbn in Eo. rewrite upd_same in Eo. congruence. }
    destruct p; try (apply bind_ok in E1 as ((o1, b) & E1 & E2); apply Ok_inj in E2; assert (b = true) by congruence; subst b; rewrite (G o1) by congruence; exact (try_release_bit _ _ _ _ E1 Id));
    (unfold mark_outbox_item_as_released in E1; rewrite Ec in E1; cbn [bind] in E1; apply bind_ok in E1 as (u & _ & E1); apply bind_ok in E1 as (u' & _ & E1);
     apply bind_ok in E1 as ((o1, b) & E1 & E2); apply Ok_inj in E2; assert (b = true) by congruence; subst b; rewrite (G o1) by congruence; exact (try_release_bit _ _ _ _ E1 Id)). }
  rewrite K. cbn [bind require]. calms.
Qed.

Lemma manager_panics H s c : reachable H s -> accounted s -> step H s c = Err Panic -> no_mint_authority s c \/ out_of_time s (ins c).
Proof.
  intros Hr A E. pose proof (reachable_inv _ _ Hr) as Hi. destruct (in_time_or s (ins c)) as [L|T]; [right; exact L|]. left. revert E. unfold step.
  destruct (forallb can_sign (signers c) && typed (ins c)) eqn:Ty; cbn [require bind]; [|discriminate]. apply andb_prop in Ty as (_ & Ty).
  unfold no_mint_authority. destruct c as [sg i]. cbn [ins signers] in *.
  assert (K : (exists d m tp ch l md, i = IInitialize d m tp ch l md) \/ calm (exec H s sg i)).
  { destruct i; try (left; repeat eexists; fail); right; cbn [exec].
    all: cbn [metered_by] in T; cbn [typed] in Ty; bools; widths.
    all: try (apply calm_lock; assumption).
    all: try (apply calm_burn; assumption).
    all: try (apply calm_redeem; assumption).
    all: try (eapply calm_release; eassumption).
    all: try (calms; fail).
    - unfold initialize_lut. calms.
    - unfold release_inbound_mint. calms.
    - unfold release_inbound_unlock. calms.
    - unfold transfer_ownership. calms.
    - unfold transfer_ownership_one_step_unchecked. calms.
    - unfold claim_ownership. calms.
    - unfold set_paused. calms.
    - unfold set_peer. calms.
    - unfold register_transceiver. apply calm_bind; [calms|]. intros c Ec. apply get_owned_ok in Ec as (Ec & _). pose proof (config_addr _ _ _ Hi Ec) as Ea. subst.
      pose proof (co_next _ _ (inv_config _ Hi _ Ec)) as Nx. calms. unfold plain, checked. replace ((0 <=? cf_next c + 1) && (cf_next c + 1 <=? u8_max)) with true; [discriminate|].
      symmetry. apply andb_true_intro. split; ilia.
    - unfold set_outbound_limit. apply calm_bind; [calms|]. intros c Ec. apply calm_bind; [calms|]. intros r Er. apply get_outbox_rl_ok in Er.
      assert (Lr : limiter_at s rl_acct r) by (left; exact Er). destruct (T _ _ (or_introl eq_refl) Lr) as (T1 & _).
      apply calm_bind; [apply calm_set_limit; try assumption; [eapply limiter_wf; eassumption|exact (inv_now _ Hi)]|intros; calms].
    - unfold set_inbound_limit. apply calm_bind; [calms|]. intros c Ec. apply calm_bind; [calms|]. intros r Er. apply get_inbox_rl_ok in Er.
      assert (Lr : limiter_at s (pda_inbox_rl chain) r) by (right; exact Er). destruct (T _ _ (or_introl eq_refl) Lr) as (T1 & _).
      apply calm_bind; [apply calm_set_limit; try assumption; [eapply limiter_wf; eassumption|exact (inv_now _ Hi)]|intros; calms].
    - unfold x_set_peer. calms.
    - unfold x_receive. calms.
    - unfold x_broadcast_id. calms.
    - unfold x_broadcast_peer. calms. }
  destruct K as [(d & m & tp & ch & l & md & ->)|K]; [|intros E; destruct (K E)]. cbn [exec]. intros E.
  destruct (calm_initialize s sg d m tp ch l md) as [K|(_ & -> & mt & K)]; [destruct (K E)|]. exists d, m, tp, ch, l, mt. tauto.
Qed.

Lemma authority_panics H s c : forallb can_sign (signers c) = true -> typed (ins c) = true -> no_mint_authority s c -> step H s c = Err Panic.
Proof.
  intros Cs Ty (d & m & tp & ch & l & mt & Ei & Em & Au & Sd & Ed & Tp & Fc & Fo). unfold step. rewrite Cs, Ty. cbn [andb require bind]. rewrite Ei. cbn [exec]. unfold initialize.
  replace (signed (signers c) d) with true by (symmetry; apply signed_In; exact Sd). cbn [require bind]. rewrite <- Ed. replace (addr_eqb d d) with true by (symmetry; apply addr_eqb_eq; reflexivity).
  cbn [require bind]. rewrite Fc, Fo. cbn [require bind]. destruct tp; try discriminate Tp; cbn [require bind]; rewrite Em; cbn [ok_or bind]; rewrite Au; reflexivity.
Qed.

(** ** A clock that goes forward *)
Lemma consume_last r now v r' x : consume_or_delay r now v = Ok (r', x) -> (rl_last r' = now \/ r' = r) /\ (forall t, x = Consumed t -> t = now).
Proof.
  unfold consume_or_delay. intros E. apply bind_ok in E as (cp & _ & E). destruct (v <=? cp); [apply Ok_inj in E; inversion E; subst; split; [left; reflexivity|congruence]|].
  apply bind_ok in E as (t & _ & E). apply Ok_inj in E. inversion E; subst. split; [right; reflexivity|congruence].
Qed.
Lemma refill_last r now v r' : refill r now v = Ok r' -> rl_last r' = now.
Proof. unfold refill. intros E. apply bind_ok in E as (cp & _ & E). apply Ok_inj in E. subst. reflexivity. Qed.
Lemma set_last r now v r' : set_limit r now v = Ok r' -> rl_last r' = now.
Proof. unfold set_limit. intros E. apply bind_ok in E as (cp & _ & E). apply Ok_inj in E. subst. reflexivity. Qed.

Lemma limiter_step H s c s' a r : step H s c = Ok s' -> limiter_at s' a r -> limiter_at s a r \/ rl_last r = 0 \/ rl_last r = st_now s \/ (exists r0, limiter_at s a r0 /\ rl_last r0 = rl_last r).
Proof.
  intros Hs L. unfold limiter_at, has in *. destruct (step_change _ _ _ _ Hs a) as [Q|Q]; [rewrite Q in L; left; exact L|right].
  assert (Lim : forall n v q o i o' i' t, out_limits n v q o i o' i' t -> (rl_last o' = n \/ o' = o) /\ (rl_last i' = n \/ i' = i)).
  { intros n v q o i o' i' t [(E1 & E2)|(E1 & _ & ->)]; apply consume_last in E1 as (K & T); (split; [exact K|]); [left; rewrite <- (T t eq_refl); eapply refill_last; exact E2|right; reflexivity]. }
  assert (Lin : forall n v o i o' i' t, in_limits n v i o i' o' t -> (rl_last o' = n \/ o' = o) /\ (rl_last i' = n \/ i' = i)).
  { intros n v o i o' i' t [(E1 & E2)|(E1 & ->)]; apply consume_last in E1 as (K & T); (split; [|exact K]); [left; rewrite <- (T t eq_refl); eapply refill_last; exact E2|right; reflexivity]. }
  remember (st_accts s a) as old eqn:Eo. remember (st_accts s' a) as new eqn:En. remember (ins c) as i eqn:Ei. clear Eo En Ei Hs.
  destruct Q; destruct L as [L|L]; try discriminate L; inversion L; subst; try (left; reflexivity);
    try (right; left; eapply set_last; eassumption);
    try match goal with T : transfer_facts _ _ _ _ _ _ _ _ _ _ _ _ _ _ _ _ |- _ => destruct (Lim _ _ _ _ _ _ _ _ (tf_limits _ _ _ _ _ _ _ _ _ _ _ _ _ _ _ _ T)) as (K1 & K2) end;
    try match goal with T : in_limits _ _ _ _ _ _ _ |- _ => destruct (Lin _ _ _ _ _ _ _ T) as (K1 & K2) end;
    try (destruct K1 as [K1|K1]; [right; left; exact K1|subst; right; right; eauto; fail]);
    try (destruct K2 as [K2|K2]; [right; left; exact K2|subst; right; right; eauto; fail]).
Qed.

Lemma lasts H s0 tr s : initial s0 -> run H s0 tr s -> 0 <= st_now s0 -> forward tr -> 0 <= st_now s /\ forall a r, limiter_at s a r -> rl_last r <= st_now s.
Proof.
  intros I Hr P. induction Hr as [|tr s c s' Hr IH Hs]; intros F.
  - split; [exact P|]. intros a r [L|L]; apply (ini_accts _ I) in L as (_ & L & _); discriminate L.
  - cbn [forward e_pre e_post] in F. destruct F as (F1 & F2). destruct (IH F2) as (N & L). split; [lia|]. intros a r La.
    destruct (limiter_step _ _ _ _ _ _ Hs La) as [K|[K|[K|(r0 & K & K2)]]]; [apply L in K| | |apply L in K]; lia.
Qed.

Lemma forward_panics H s0 tr s c : initial s0 -> accounted s0 -> run H s0 tr s -> 0 <= st_now s0 -> forward tr -> st_now s + day <= i64_max ->
  step H s c = Err Panic -> no_mint_authority s c.
Proof.
  intros I A Hr P F B E. destruct (lasts _ _ _ _ I Hr P F) as (_ & L). destruct (manager_panics H s c) as [K|(a & r & _ & K1 & K2)]; [exists s0, tr; auto|eapply acc_run; [apply initial_reachable, I|exact Hr|exact A]|exact E|exact K|].
  apply L in K1. lia.
Qed.

(** ** The quoter *)
Lemma calm_plain max z : 0 <= z <= max -> calm (plain max z).
Proof. intros R. unfold plain, checked. replace ((0 <=? z) && (z <=? max)) with true by (symmetry; apply andb_true_intro; split; lia). discriminate. Qed.
Lemma calm_mul_div a b d : is_u64 a -> is_u64 b -> calm (mul_div a b d).
Proof.
  intros A B. unfold mul_div. calms. apply calm_plain. split; [apply Z.mul_nonneg_nonneg; ilia|].
  apply Z.le_trans with (u64_max * u64_max); [apply Z.mul_le_mono_nonneg; ilia|vm_compute; discriminate].
Qed.
Lemma fee_u64 i c n d f : relay_fee i c n d = Ok f -> is_u64 f.
Proof.
  unfold relay_fee. intros E. binds E. unfold mul_div in E. destruct (in_sol_price i =? 0); [discriminate|]. destruct ((v2 =? 0) || _); [apply Ok_inj in E; subst; ilia|].
  binds E. apply ok_or_ok in E. unfold checked in E. destruct ((0 <=? v3 / in_sol_price i) && _) eqn:B; [|discriminate]. inversion E. subst. apply andb_prop in B. ilia.
Qed.
Lemma calm_fee i c n d : is_u64 (in_sol_price i) -> is_u64 (rc_native_price c) -> is_u64 (rc_gas_price c) -> is_u64 (rc_base_price c) -> is_u32 (rn_gas_cost n) -> is_u64 d ->
  calm (relay_fee i c n d) \/ let gwei := d + gas_gwei (rc_gas_price c) (rn_gas_cost n) in 2 ^ 64 <= gwei \/ 2 ^ 64 <= cost_usd (rc_native_price c) gwei + rc_base_price c.
Proof.
  intros H1 H2 H3 H4 H5 H6. assert (H5' : is_u64 (rn_gas_cost n)) by ilia. cbv zeta.
  destruct (Z_lt_ge_dec (d + gas_gwei (rc_gas_price c) (rn_gas_cost n)) (2 ^ 64)) as [K1|K1]; [|right; left; lia].
  destruct (Z_lt_ge_dec (cost_usd (rc_native_price c) (d + gas_gwei (rc_gas_price c) (rn_gas_cost n)) + rc_base_price c) (2 ^ 64)) as [K2|K2]; [|right; right; lia].
  left. unfold relay_fee. apply calm_bind; [apply calm_mul_div; assumption|]. intros g Eg. apply mul_div_ok in Eg; [|assumption|assumption|change GWEI with 1000000000; lia]. destruct Eg as (_ & B0 & Eg).
  change (g = gas_gwei (rc_gas_price c) (rn_gas_cost n)) in Eg. rewrite <- Eg in K1, K2. assert (G0 : 0 <= g) by (subst g; apply Z.div_pos; [apply Z.mul_nonneg_nonneg; ilia|lia]).
  change (2 ^ 64) with 18446744073709551616 in *. assert (U : is_u64 (d + g)) by (clear Eg; ilia). apply calm_bind; [apply calm_plain; exact U|]. intros gw Egw. apply plain_iff in Egw as (_ & ->).
  apply calm_bind; [apply calm_mul_div; assumption|]. intros us Eus. apply mul_div_ok in Eus; [|assumption|assumption|change GWEI with 1000000000; lia]. destruct Eus as (_ & B1 & Eus).
  change (us = cost_usd (rc_native_price c) (d + g)) in Eus. rewrite <- Eus in K2. assert (N0 : 0 <= us) by (subst us; apply Z.div_pos; [apply Z.mul_nonneg_nonneg; clear Eg; ilia|lia]).
  assert (U2 : is_u64 (us + rc_base_price c)) by (clear Eg Eus; ilia). apply calm_bind; [apply calm_plain; exact U2|]. intros z Ez. apply plain_iff in Ez as (_ & ->).
  apply calm_mul_div; [assumption|]. change LAMPORTS_PER_SOL with 1000000000. ilia.
Qed.

Ltac qcalms := repeat first [progress calms | match goal with
  | |- calm (authorized _ _ _ _) => unfold authorized | |- calm (q_instance _ _) => unfold q_instance | |- calm (owned _ _ _ _) => unfold owned | |- calm (q_chain _ _) => unfold q_chain
  | |- calm (q_ntt _ _) => unfold q_ntt | |- calm (q_request _ _) => unfold q_request | |- calm (q_init _ _ _ _ _ _) => unfold q_init
  | |- calm (lamport_transfer _ _ _ _) => unfold lamport_transfer | |- calm (outbox_view _ _) => unfold outbox_view
  end].

Lemma quoter_panics E q c : q_reachable E q -> q_step E q c = Err Panic ->
  sum_overflows q c \/ too_rich q c \/ exists i, q_ins c = QWorld i /\ step (qe_hashes E) (q_world q) (Call (q_signers c) i) = Err Panic.
Proof.
  intros Hr. pose proof (q_reachable_inv _ _ Hr) as Hi. unfold q_step. destruct (forallb can_sign (q_signers c) && q_typed (q_ins c)) eqn:Ty; cbn [require bind]; [|discriminate].
  apply andb_prop in Ty as (_ & Ty). destruct c as [sg i]. cbn [q_signers q_ins] in *. unfold sum_overflows, too_rich. cbn [q_ins].
  destruct i; cbn [q_exec q_typed] in *.
  all: try (match goal with |- ?r = _ -> _ => assert (K : calm r) by (unfold qi_initialize, qi_set_fee_recipient, qi_set_assistant, qi_register_chain, qi_register_ntt, qi_deregister_ntt, qi_update_sol_price, qi_update_chain_prices, qi_update_chain_params; unfold owned; qcalms; fail); intros Q; destruct (K Q) end).
  - unfold qi_deregister_ntt, q_close. intros Q. right. left. exists (QNtt program), (QExt auth).
    destruct (Z_lt_ge_dec (q_lamports q (QExt auth) + q_lamports q (QNtt program)) (2 ^ 64)) as [L|L]; [|split; [lia|right; exists inst, auth, program; auto]]. exfalso. revert Q.
    match goal with |- ?r = _ -> _ => change (calm r) end. qcalms. apply calm_plain. pose proof (qv_lamports _ _ Hi (QExt auth)). pose proof (qv_lamports _ _ Hi (QNtt program)).
    change (2 ^ 64) with 18446744073709551616 in L. ilia.
  - bools. repeat match goal with K : fits _ _ = true |- _ => apply fits_iff in K end. unfold qi_request_relay. intros Q. left. exists payer, inst, item, dropoff, max_fee.
    assert (X : forall A B (m : result A) (f : A -> result B), bind m f = Err Panic -> calm m -> exists a, m = Ok a /\ f a = Err Panic).
    { intros A B m f. destruct m as [a|e]; cbn; intros X1 X2; [eauto|]. exfalso. apply X2. congruence. }
    apply X in Q as (u1 & _ & Q); [|qcalms]. apply X in Q as (i & Ei & Q); [|qcalms]. apply X in Q as (u2 & _ & Q); [|qcalms]. apply X in Q as ((p, o) & Eo & Q); [|qcalms].
    apply X in Q as (n & En & Q); [|qcalms]. apply X in Q as (u3 & _ & Q); [|qcalms]. apply X in Q as (u4 & _ & Q); [|qcalms]. apply X in Q as (c & Ec & Q); [|qcalms].
    apply X in Q as (u5 & _ & Q); [|qcalms]. apply X in Q as (q1 & _ & Q); [|qcalms]. apply X in Q as (u6 & _ & Q); [|qcalms]. cbn [fst snd] in *.
    qgets. match goal with K : q_accts q inst = Some _ |- _ => rename K into Ei end. match goal with K : q_accts q (QChain _) = Some _ |- _ => rename K into Ec end. match goal with K : q_accts q (QNtt _) = Some _ |- _ => rename K into En end.
    pose proof (qv_accts _ _ Hi _ _ Ei) as (-> & _ & Us & _). pose proof (qv_accts _ _ Hi _ _ Ec) as (_ & _ & U1 & U2 & U3). pose proof (qv_accts _ _ Hi _ _ En) as (_ & U4 & U5).
    exists i, p, o, n, c. split; [reflexivity|]. split; [exact Ei|]. split; [unfold outbox_view in Eo; destruct (st_accts (q_world q) item) as [[p' [ ]]|]; try discriminate Eo; apply Ok_inj in Eo; congruence|].
    split; [exact En|]. split; [exact Ec|]. destruct (calm_fee i c n dropoff) as [Cf|Cf]; try assumption; try (exact Cf). exfalso. apply X in Q as (fee & Ef & Q); [|exact Cf].
    apply fee_u64 in Ef. revert Q. match goal with |- ?r = _ -> _ => change (calm r) end. pose proof (qv_rent _ _ Hi size_request) as Rn.
    unfold sat_sub. apply calm_bind; [apply calm_plain; ilia|]. intros tt' _. apply calm_bind; [qcalms|]. intros _ _. qcalms.
  - unfold qi_close_relay, q_close. intros Q. right. left. exists request, recipient.
    destruct (Z_lt_ge_dec (q_lamports q recipient + q_lamports q request) (2 ^ 64)) as [L|L]; [|split; [lia|left; exists inst, auth; auto]]. exfalso. revert Q.
    match goal with |- ?r = _ -> _ => change (calm r) end. qcalms. apply calm_plain. pose proof (qv_lamports _ _ Hi recipient). pose proof (qv_lamports _ _ Hi request).
    change (2 ^ 64) with 18446744073709551616 in L. ilia.
  - intros Q. right. right. exists c. split; [reflexivity|]. destruct (step _ _ _) as [w|e]; cbn [bind] in Q; [discriminate Q|congruence].
Qed.

(** ** Governance and the dummy hook *)
From Verif Require Import Governance Hook HookFacts.
Lemma governance_panics {W} (E : genv W) : forall n st ctx data, g_exec E n st ctx data = Err Panic ->
  exists w ix, ge_call E w ix = Err Panic /\ ix_program ix <> GOV_ID.
Proof.
  induction n as [|n IH]; intros st ctx data Q; [discriminate Q|]. cbn [g_exec] in Q. do 6 (destruct ctx as [|? ctx]; [discriminate Q|]).
  cbv zeta in Q.
  repeat match type of Q with bind (require ?b ?e) _ = _ => destruct b eqn:?; cbn [require bind] in Q; [|first [discriminate Q|congruence]]
    | bind (ok_or ?b ?e) _ = _ => destruct b as [?|] eqn:?; cbn [ok_or bind] in Q; [|discriminate Q] end.
  match type of Q with (if ?b then _ else _) = _ => destruct b eqn:B; [eapply IH; exact Q|] end.
  match type of Q with bind ?m _ = _ => destruct m eqn:M; cbn [bind] in Q; [discriminate Q|] end.
  do 2 eexists. split; [rewrite M; congruence|]. intros K. rewrite K in B. discriminate B.
Qed.

Lemma dummy_panics s w src mnt dst : dummy_transfer_hook s w src mnt dst = Err Panic -> exists n, du_count w = Some n /\ (n + 1 < 0 \/ u64_max < n + 1).
Proof.
  unfold dummy_transfer_hook. intros Q. repeat match type of Q with bind (require ?b ?e) _ = _ => destruct b eqn:?; cbn [require bind] in Q; [|discriminate Q]
    | bind (ok_or ?b ?e) _ = _ => destruct b as [?|] eqn:?; cbn [ok_or bind] in Q; [|discriminate Q] end.
  eexists. split; [reflexivity|]. match goal with K : du_count w = Some ?n |- _ => destruct (Z_lt_ge_dec (n + 1) 0), (Z_lt_ge_dec u64_max (n + 1)) end; try lia.
  exfalso. revert Q. match goal with |- ?r = _ -> _ => change (calm r) end. apply calm_bind; [apply calm_plain; lia|]. intros. discriminate.
Qed.

Lemma dummy_never H mints s0 k s w src mnt dst : reachable H s0 -> d_run H mints s0 k s w -> dummy_transfer_hook s w src mnt dst = Err Panic -> 2 ^ 64 <= Z.of_nat (length k) + 1.
Proof.
  intros Hr R Q. apply dummy_panics in Q as (n & C & B). destruct (d_run_count _ _ _ _ _ _ Hr R) as [(K & _)|(m & K & _)]; [congruence|].
  rewrite C in K. apply Some_inj in K. subst n. change (2 ^ 64) with (u64_max + 1). lia.
Qed.

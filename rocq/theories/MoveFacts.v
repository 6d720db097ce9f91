(** * Exact effects of the instructions that move value (C67). *)
From Verif Require Export SpecMove LiveFacts EffectFacts.
From Verif Require RateLimitFacts BitmapFacts TrimmedFacts.
Local Open Scope Z_scope.

(** ** Limiters *)
Lemma consume_metered r now v : wf_rl r -> is_i64 now -> is_u64 v ->
  consume_or_delay r now v =
    if rl_last r <=? now then
      if v <=? capacity r now then Ok (charged r now v, Consumed now)
      else if now + day <=? i64_max then Ok (r, Delayed (now + day)) else Err Panic
    else Err Panic.
Proof.
  intros W Hn Hv. destruct (rl_last r <=? now) eqn:L.
  - unfold consume_or_delay. rewrite RateLimitFacts.capacity_exact by (try assumption; ilia). fold (capacity r now). cbn [bind].
    destruct (v <=? capacity r now); [reflexivity|]. unfold RATE_LIMIT_DURATION. change (60 * 60 * 24) with day.
    unfold plain_i64. replace ((i64_min <=? now + day) && (now + day <=? i64_max)) with (now + day <=? i64_max); [destruct (_ <=? i64_max); reflexivity|].
    replace (i64_min <=? now + day) with true; [reflexivity|]. symmetry. apply Z.leb_le. unfold day. ilia.
  - apply RateLimitFacts.limiter_backwards. lia.
Qed.
Lemma refill_metered r now v : wf_rl r -> is_i64 now -> is_u64 v ->
  refill r now v = if rl_last r <=? now then Ok (credited r now v) else Err Panic.
Proof.
  intros W Hn Hv. destruct (rl_last r <=? now) eqn:L.
  - apply RateLimitFacts.refill_exact; try assumption. apply RateLimitFacts.capacity_exact; [assumption|ilia].
  - apply (RateLimitFacts.limiter_backwards r now v). lia.
Qed.

Lemma in_limits_iff now v a b a' b' t : wf_rl a -> wf_rl b -> is_i64 now -> is_u64 v ->
  in_limits now v a b a' b' t <-> meterable now v a b /\ (a', b', t) = metered now v a b.
Proof.
  intros Wa Wb Hn Hv. unfold in_limits, meterable, metered. rewrite consume_metered by assumption.
  destruct (rl_last a <=? now) eqn:La; [|split; [intros [(C & _)|(C & _)]; discriminate|lia]].
  destruct (v <=? capacity a now) eqn:Lv.
  - split.
    + intros [(E & F)|(E & _)]; [|discriminate]. apply Ok_inj in E. inversion E; subst. rewrite refill_metered in F by assumption.
      destruct (rl_last b <=? t) eqn:Lb; [|discriminate]. apply Ok_inj in F. subst. repeat split; lia.
    + intros ((_ & B & _) & E). inversion E; subst. left. split; [reflexivity|]. rewrite refill_metered by assumption.
      destruct (rl_last b <=? now) eqn:Lb; [reflexivity|lia].
  - split.
    + intros [(E & _)|(E & ->)]; destruct (now + day <=? i64_max) eqn:Ld; try discriminate. apply Ok_inj in E. inversion E; subst. repeat split; lia.
    + intros ((_ & _ & B) & E). inversion E; subst. right. destruct (now + day <=? i64_max) eqn:Ld; [auto|lia].
Qed.
Lemma out_limits_iff now v q a b a' b' t : wf_rl a -> wf_rl b -> is_i64 now -> is_u64 v ->
  out_limits now v q a b a' b' t <-> meterable now v a b /\ (capacity a now < v -> q = true) /\ (a', b', t) = metered now v a b.
Proof.
  intros Wa Wb Hn Hv.
  assert (K : out_limits now v q a b a' b' t <-> in_limits now v a b a' b' t /\ (capacity a now < v -> q = true)).
  { unfold out_limits, in_limits. rewrite consume_metered by assumption. destruct (rl_last a <=? now); [|split; [intros [(C & _)|(C & _)]; discriminate|intros ([(C & _)|(C & _)] & _); discriminate]].
    destruct (v <=? capacity a now) eqn:Lv; [|destruct (now + day <=? i64_max)]; split.
    - intros [(E & F)|(E & _)]; [|discriminate]. split; [left; auto|lia].
    - intros ([(E & F)|(E & _)] & _); [left; auto|discriminate].
    - intros [(E & _)|(E & -> & ->)]; [discriminate|]. split; [right; auto|auto].
    - intros ([(E & _)|(E & ->)] & Q); [discriminate|]. right. split; [assumption|]. split; [apply Q; lia|reflexivity].
    - intros [(E & _)|(E & _)]; discriminate.
    - intros ([(E & _)|(E & _)] & _); discriminate. }
  rewrite K, in_limits_iff by assumption. tauto.
Qed.

(** ** Conversions *)
Lemma untrim_iff x f t r : is_u64 x -> is_u8 f -> is_u8 t -> untrim (Trim x f) t = Ok r <-> representable x f t /\ r = convert x f t.
Proof.
  intros Hx Hf Ht. rewrite TrimmedFacts.untrim_exact by assumption. unfold representable, convert. destruct (t <=? f) eqn:L.
  - destruct (f - t <? 20) eqn:L2; split; [intros E; apply Ok_inj in E; subst; repeat split; lia|intros (_ & ->); reflexivity|discriminate|lia].
  - destruct (20 <=? t - f) eqn:L2; [split; [discriminate|lia]|]. destruct (_ <=? u64_max) eqn:L3; split; [|intros (_ & ->); reflexivity|discriminate|lia].
    intros E. apply Ok_inj in E. subst. repeat split; lia.
Qed.

Lemma dust_iff x f t v w : is_u64 x -> is_u8 f -> is_u8 t ->
  remove_dust x f t = Ok (v, w) <-> f - shared f t < 20 /\ v = dust_free x f t /\ w = Trim (x / 10 ^ (f - shared f t)) (shared f t).
Proof.
  intros Hx Hf Ht. rewrite TrimmedFacts.remove_dust_exact by assumption. cbv zeta. fold (shared f t). unfold dust_free.
  destruct (_ <? 20) eqn:L; split.
  - intros E. apply Ok_inj in E. inversion E; subst. split; [lia|auto].
  - intros (_ & -> & ->). reflexivity.
  - discriminate.
  - lia.
Qed.

Lemma free_iff s a : can_sign a = true -> (forall p, a <> AProg p) -> st_accts s a = None -> st_toks s a = None -> st_mints s a = None -> free s a = true.
Proof. intros C N A B D. unfold free. rewrite A, B, D. destruct a; try reflexivity; try discriminate. exfalso. eapply N. reflexivity. Qed.
Lemma free_not_prog s a : free s a = true -> forall p, a <> AProg p.
Proof. intros E p ->. discriminate. Qed.

(** ** Redeem *)
(** Since one vote is enough, an item is scheduled as soon as it exists. *)
Lemma both_single e id : 0 <= id < 128 -> Z.testbit e id = true -> both (Z.setbit 0 id) e = [id].
Proof.
  intros Hid He. assert (K : forall i, In i (both (Z.setbit 0 id) e) <-> i = id).
  { intros i. rewrite both_iff. split.
    - intros (Hin & Hb & _). apply in_map_iff in Hin. destruct Hin as (n & <- & _). rewrite Z.setbit_eqb, Z.bits_0 in Hb by lia. rewrite orb_false_r in Hb. lia.
    - intros ->. split; [apply in_map_iff; exists (Z.to_nat id); split; [lia|apply in_seq; lia]|]. split; [rewrite Z.setbit_eqb by lia; rewrite Z.eqb_refl; reflexivity|exact He]. }
  pose proof (both_NoDup (Z.setbit 0 id) e) as N. destruct (both (Z.setbit 0 id) e) as [|i [|j l]].
  - exfalso. apply (proj2 (K id) eq_refl).
  - f_equal. apply K. now left.
  - exfalso. assert (i = id) by (apply K; now left). assert (j = id) by (apply K; right; now left). subst. inversion N; subst. apply H1. now left.
Qed.

Lemma scheduled_at_once H s : reachable H s -> forall a it, inbox_at s a it -> ib_status it <> NotApproved.
Proof.
  revert s. apply (reach_ind H (fun s => forall a it, inbox_at s a it -> ib_status it <> NotApproved)).
  - intros s Hini a it Hd. exfalso. destruct (ini_accts _ Hini _ _ Hd) as (_ & C & _). discriminate.
  - intros s cl s' Hr IH E a it Hd. pose proof (reachable_inv _ _ Hr) as Hi. assert (Hr' : reachable H s') by (eapply step_reachable; eassumption).
    destruct (inbox_dec s a Hi (proj1 (item_addr _ _ _ (reachable_inv _ _ Hr') Hd))) as [N|(it0 & E0)].
    + destruct (inbox_made _ _ _ _ _ _ Hr E N Hd) as (x & p & ch & tm & c & rt & pe & m & Ei & Ea & Rd).
      pose proof (rd_delivers _ _ _ _ _ _ _ _ _ _ _ _ _ Rd) as D.
      destruct (rd_status _ _ _ _ _ _ _ _ _ _ _ _ _ Rd) as [(Hlt & _)|(_ & _ & irl & orl & irl' & orl' & t & Et & _)]; [exfalso|congruence].
      rewrite (threshold_one _ _ _ _ Hr (dl_config _ _ _ _ _ _ _ _ D)), (rd_votes _ _ _ _ _ _ _ _ _ _ _ _ _ Rd) in Hlt.
      rewrite both_single in Hlt; [cbn in Hlt; lia|apply (reg_id _ _ _ Hi (dl_reg _ _ _ _ _ _ _ _ D))|apply D].
    + specialize (IH _ _ E0). destruct (status_step _ _ _ _ _ _ Hr E E0) as (it1 & E1 & _ & _ & L & _). unfold inbox_at in *. assert (it1 = it) by congruence. subst it1.
      intros C. rewrite C in L. inversion L; congruence.
Qed.

Lemma untouched3 a p d b q e c r f s : untouched [a; b; c] s (put a p d (put b q e (put c r f s))).
Proof.
  split; [|repeat split]. intros x N. cbn [put set_accts st_accts]. rewrite !upd_other; [reflexivity| | |]; intros ->; apply N; cbn; auto.
Qed.
Lemma setbit_pow id : 0 <= id -> Z.setbit 0 id = 2 ^ id.
Proof. intros Hid. rewrite Z.setbit_spec'. now rewrite Z.lor_0_l. Qed.

Lemma redeem_effect H s sg x : reachable H s -> forallb can_sign sg = true ->
  (succeeds (step H s (Call sg (IRedeem x))) <-> exists p ch tm c rt pe m irl orl, redeemable H s x p ch tm c rt pe m irl orl) /\
  (forall s', step H s (Call sg (IRedeem x)) = Ok s' -> exists p ch tm c rt pe m irl orl, redeemable H s x p ch tm c rt pe m irl orl /\
     let it := item_of H ch (tm_msg tm) in let v := local_amount m (tm_msg tm) in
     let '(irl', orl', t) := metered (st_now s) v irl orl in
     inbox_at s' it (InboxItem true 0 v (nm_to (tm_msg tm)) (2 ^ rt_id rt) (ReleaseAfter t)) /\
     in_limiter s' ch irl' /\ out_limiter s' orl' /\ untouched [it; pda_outbox_rl; pda_inbox_rl ch] s s' /\ st_uauth s' = st_uauth s).
Proof.
  intros Hr Hsg. pose proof (reachable_inv _ _ Hr) as Hi. pose proof (inv_now _ Hi) as Hnow.
  assert (Fwd : forall s', step H s (Call sg (IRedeem x)) = Ok s' -> exists p ch tm c rt pe m irl orl, redeemable H s x p ch tm c rt pe m irl orl /\
     let it := item_of H ch (tm_msg tm) in let v := local_amount m (tm_msg tm) in
     let '(irl', orl', t) := metered (st_now s) v irl orl in
     inbox_at s' it (InboxItem true 0 v (nm_to (tm_msg tm)) (2 ^ rt_id rt) (ReleaseAfter t)) /\
     in_limiter s' ch irl' /\ out_limiter s' orl' /\ untouched [it; pda_outbox_rl; pda_inbox_rl ch] s s' /\ st_uauth s' = st_uauth s).
  { intros s' Hs. pose proof Hs as Hs0. apply step_inv in Hs. destruct Hs as (_ & _ & He). cbn [exec ins signers] in He.
    apply redeem_ok in He. destruct He as (c & rt & p & ch & tm & pe & mt & old & new & irl & orl & am & n & F & Q).
    destruct (redeem_ranges _ _ _ _ _ _ _ _ _ _ _ _ _ _ _ _ Hi F) as (Ram & Wn & Rch & Wi & Wo & Eo & Ec). pose proof F as []. destruct (vtm_typed _ _ _ _ _ Hi rf_msg) as [_ Htm].
    destruct (typed_tm_ranges _ Htm) as (Ra & Rd & _). pose proof (reg_id _ _ _ Hi rf_reg) as Hid.
    destruct (reg_addr _ _ _ Hi rf_reg) as (p' & Ereg & Eaddr). assert (p' = p) by congruence. subst p'.
    assert (Hen : Z.testbit (cf_enabled c) (rt_id rt) = true) by (rewrite BitmapFacts.bm_get_ok in rf_enabled by assumption; now apply Ok_inj in rf_enabled).
    assert (Hit : st_accts s (item_of H ch (tm_msg tm)) = None /\ old = inbox_default).
    { destruct rf_item as [Q0|Q0]; [exact Q0|exfalso]. eapply redeem_again; [exact Hr|exact rf_msg|exact Q0| |exists s'; exact Hs0]. eapply scheduled_at_once; [exact Hr|exact Q0]. }
    destruct Hit as (Hno & ->). cbn [inbox_default ib_init] in rf_new. cbv zeta in rf_new. destruct rf_new as (votes & Hv & ->).
    rewrite BitmapFacts.bm_set_ok in Hv by assumption. apply Ok_inj in Hv. cbn [ib_votes] in Hv. unfold bm_new in Hv. subst votes. cbn [ib_init ib_bump ib_amount ib_recipient ib_votes ib_status set_status] in *.
    destruct (config_ok_at _ _ _ Hi rf_config) as (_ & Hok).
    pose proof (count_both _ _ _ (proj1 (proj2 (proj2 Wn))) (proj1 (co_enabled _ _ Hok)) rf_count) as En. cbn [ib_votes] in En. rewrite both_single in En by assumption.
    rewrite (threshold_one _ _ _ _ Hr rf_config) in Q. change (Z.of_nat (length [rt_id rt])) with 1 in En.
    destruct Q as [(C & _)|(_ & _ & irl' & orl' & ts & HL & ->)]; [lia|].
    destruct (nm_amount (tm_msg tm)) as [xa xd] eqn:Exa. cbn in Ra, Rd. pose proof rf_amount as Hun. rewrite (untrim_iff _ _ _ _ Ra Rd (mint_dec _ _ _ Hi rf_mint)) in Hun. destruct Hun as (Hrep & Eam).
    assert (Eam' : am = local_amount mt (tm_msg tm)) by (unfold local_amount; rewrite Exa; exact Eam).
    apply in_limits_iff in HL; try assumption. destruct HL as (Hm & Emt).
    exists p, ch, tm, c, rt, pe, mt, irl, orl. split.
    { constructor; try assumption.
      - constructor; try assumption. unfold reg_at. rewrite <- Ereg. exact rf_reg.
      - rewrite Exa. exact Hrep.
      - split; [exact Eo|]. rewrite Eo in rf_orl. exact rf_orl.
      - rewrite <- Eam'. exact Hm. }
    cbv zeta. rewrite <- Eam', <- Emt. rewrite Eo. fold (item_of H ch (tm_msg tm)).
    split; [unfold inbox_at; rewrite get_put_same; rewrite setbit_pow by lia; reflexivity|].
    split; [unfold in_limiter; rewrite !get_put_other by discriminate; apply get_put_same|].
    split; [unfold out_limiter; rewrite get_put_other by discriminate; apply get_put_same|]. split; [apply untouched3|reflexivity]. }
  split; [|exact Fwd]. split.
  - intros (s' & Hs). destruct (Fwd _ Hs) as (p & ch & tm & c & rt & pe & m & irl & orl & R & _). eauto 12.
  - intros (p & ch & tm & c & rt & pe & m & irl & orl & []). destruct rb_delivers. destruct rb_orl as (Eo & Horl).
    pose proof (reg_id _ _ _ Hi dl_reg) as Hid. destruct (vtm_typed _ _ _ _ _ Hi dl_message) as [_ Htm]. destruct (typed_tm_ranges _ Htm) as (Ra & Rd & _).
    destruct (config_ok_at _ _ _ Hi dl_config) as (_ & Hok). destruct (orl_addr _ _ _ Hi Horl) as (_ & Wo). pose proof (irl_wf _ _ _ Hi rb_irl) as Wi.
    assert (Hun : untrim (nm_amount (tm_msg tm)) (mt_decimals m) = Ok (local_amount m (tm_msg tm))).
    { unfold local_amount. destruct (nm_amount (tm_msg tm)) as [xa xd]. apply untrim_iff; try assumption; [exact (mint_dec _ _ _ Hi rb_mint)|auto]. }
    assert (Hau : is_u64 (local_amount m (tm_msg tm))).
    { unfold local_amount, convert. destruct rb_amount as (_ & Rp). destruct (mt_decimals m <=? _) eqn:L.
      - assert (0 < 10 ^ (ta_decimals (nm_amount (tm_msg tm)) - mt_decimals m)) by (apply Z.pow_pos_nonneg; lia).
        split; [apply Z.div_pos; ilia|]. etransitivity; [apply Z.div_le_upper_bound with (q := ta_amount (nm_amount (tm_msg tm))); [lia|ints; nia]|ilia].
      - split; [|apply Rp; lia]. apply Z.mul_nonneg_nonneg; [ilia|]. apply Z.pow_nonneg. lia. }
    unfold succeeds.
    assert (Hcnt : bm_count_enabled_votes (Z.setbit 0 (rt_id rt)) (cf_enabled c) = Ok 1).
    { assert (Hu : is_u128 (Z.setbit 0 (rt_id rt))).
      { eapply (BitmapFacts.bm_set_u128 0 (rt_id rt) true); [ilia|ilia|]. rewrite BitmapFacts.bm_set_ok by assumption. reflexivity. }
      pose proof (BitmapFacts.count_votes_exact _ _ Hu (proj1 (co_enabled _ _ Hok))) as K. pose proof (count_both _ _ _ Hu (proj1 (co_enabled _ _ Hok)) K) as K'.
      rewrite both_single in K' by assumption. rewrite K, K'. reflexivity. }
    destruct (metered (st_now s) (local_amount m (tm_msg tm)) irl orl) as [[irl' orl'] t] eqn:Em.
    destruct (proj2 (in_limits_iff (st_now s) (local_amount m (tm_msg tm)) irl orl irl' orl' t Wi Wo Hnow Hau) (conj rb_limits (eq_sym Em))) as [(Hc & Hf)|(Hc & Hf)].
    all: eexists; apply step_ok; [exact Hsg|reflexivity|]; cbn [exec]; unfold redeem.
    all: rewrite (get_config_at _ _ _ dl_config); cbn [bind]; rewrite (threshold_one _ _ _ _ Hr dl_config); cbn [Z.ltb Z.compare require bind].
    all: rewrite dl_used, (get_reg_at _ _ _ dl_reg); cbn [bind]; unfold get_message; rewrite dl_message, dl_addr, addr_eqb_refl; cbn [bind].
    all: rewrite (proj2 (get_peer_ok _ _ _) dl_peer); cbn [bind]; rewrite dl_source, addr_eqb_refl; cbn [require bind].
    all: rewrite dl_chain, Z.eqb_refl; cbn [require bind]; rewrite dl_recipient, addr_eqb_refl; cbn [require bind].
    all: rewrite BitmapFacts.bm_get_ok by assumption; cbn [bind]; rewrite dl_enabled; cbn [require bind]; unfold any_mint; rewrite rb_mint; cbn [ok_or bind].
    all: fold (item_of H ch (tm_msg tm)); rewrite rb_new, (pda_free _ _ Hi) by (try exact I; exact rb_new); cbn [require bind].
    all: rewrite (proj2 (get_inbox_rl_ok _ _ _) rb_irl); cbn [bind]; rewrite Eo, (proj2 (get_outbox_rl_ok _ _ _) Horl); cbn [bind]; rewrite Hun; cbn [bind inbox_default ib_init ib_votes ib_status ib_amount ib_bump ib_recipient].
    all: unfold bm_new; rewrite BitmapFacts.bm_set_ok by assumption; cbn [bind]; rewrite Hcnt; cbn [bind Z.ltb Z.compare Pos.compare Pos.compare_cont].
    all: rewrite Hc; cbn [bind]; try rewrite Hf; cbn [bind release_after ib_status]; reflexivity.
Qed.

(** ** Outbound transfers *)
(** The session of a token account's owner taking [v] from it into the custody account. *)
Lemma session_transfer s tp src mnt dst h f cu m v hk s1 : inv s -> 0 <= v ->
  st_toks s src = Some f -> st_toks s dst = Some cu -> st_mints s mnt = Some m -> tk_mint f = mnt -> tk_mint cu = mnt -> tk_owner cu = token_authority ->
  tok_transfer s tp src mnt dst (pda_session (tk_owner f) h) v hk = Ok s1 <->
  tp = mt_prog m /\ hk = true /\ v <= tk_amount f /\ tk_delegate f = Some (pda_session (tk_owner f) h) /\ v <= tk_delegated f /\
  is_u64 (tk_amount cu + (v - fee_of m v)) /\ is_u64 (mt_withheld m + fee_of m v) /\ src <> dst /\
  s1 = put_mint mnt (with_withheld m (mt_withheld m + fee_of m v)) (put_tok dst (with_amount cu (tk_amount cu + (v - fee_of m v))) (put_tok src (debited f v) s)).
Proof.
  intros Hi Hv Ef Ec Em Mf Mc Oc.
  destruct (proj1 (inv_ledger _ Hi) _ _ Ef) as (_&_&_&_&(m1 & Em1 & Pf)&_). destruct (proj1 (inv_ledger _ Hi) _ _ Ec) as (_&_&_&_&(m2 & Em2 & Pc)&_&_&Nd).
  assert (m1 = m) by congruence. assert (m2 = m) by congruence. subst m1 m2.
  assert (Hne : tk_delegate f = Some (pda_session (tk_owner f) h) -> src <> dst).
  { intros D C. subst dst. assert (f = cu) by congruence. subst cu. rewrite (Nd Oc) in D. discriminate. }
  set (R := put_mint _ _ _).
  assert (B : tp = mt_prog m -> hk = true -> v <= tk_amount f -> tk_delegate f = Some (pda_session (tk_owner f) h) -> v <= tk_delegated f ->
    is_u64 (tk_amount cu + (v - fee_of m v)) -> is_u64 (mt_withheld m + fee_of m v) -> src <> dst -> tok_transfer s tp src mnt dst (pda_session (tk_owner f) h) v hk = Ok R).
  { intros -> -> Le D Dl U1 U2 N. unfold tok_transfer, R.
    assert (G1 : get_tok s (mt_prog m) src = Ok f) by (rewrite Pf; now apply get_tok_at). assert (G2 : get_tok s (mt_prog m) dst = Ok cu) by (rewrite Pc; now apply get_tok_at).
    rewrite G1. cbn [bind]. rewrite G2. cbn [bind]. rewrite (get_mint_at _ _ _ Em). cbn [bind]. rewrite Mf, Mc, addr_eqb_refl. cbn [andb require bind].
    destruct (v <=? tk_amount f) eqn:L; [|lia]. cbn [require bind]. unfold spend. rewrite D. cbn [oaddr_eqb]. rewrite addr_eqb_refl.
    destruct (v <=? tk_delegated f) eqn:L2; [|lia]. cbn [require bind]. destruct (addr_eqb src dst) eqn:A; [apply addr_eqb_eq in A; contradiction|].
    rewrite !LiveFacts.checked_ok by ilia. cbn [bind]. f_equal. f_equal. f_equal. f_equal. unfold with_amount, debited. cbn [tk_prog tk_mint tk_owner tk_delegate tk_delegated]. rewrite D. f_equal.
    destruct (tk_delegated f - v =? 0) eqn:L3; destruct (v =? tk_delegated f) eqn:L4; reflexivity || lia. }
  split; [|intros (C1 & C2 & C3 & C4 & C5 & C6 & C7 & C8 & ->); now apply B].
  intros E. pose proof (tok_transfer_ok _ _ _ _ _ _ _ _ _ E) as (t & d & m' & t' & E1 & E2 & E3 & P1 & P2 & P3 & _ & _ & Le & Sp & _ & Hk & Q).
  assert (t = f) by congruence. assert (d = cu) by congruence. assert (m' = m) by congruence. subst t d m'.
  apply spend_ok in Sp. destruct Sp as (_ & _ & _ & _ & [(D & Dl & _)|(_ & C & _)]); [|exfalso; eapply owner_neq_session; exact C].
  specialize (Hne D). destruct Q as [(Q & _)|(_ & U1 & U2 & _)]; [contradiction|]. repeat (split; [congruence || assumption|]).
  apply Ok_inj. rewrite <- E. apply B; try assumption. congruence.
Qed.

(** The checks, and the entry in the outbox. *)
Lemma checks_transferable H s sg x a md c m pe f cu orl irl v : forallb can_sign sg = true -> transferable H s sg x a md c m pe f cu orl irl v ->
  transfer_checks s sg x a md = Ok (c, m, f, pe).
Proof.
  intros Hsg []. destruct ta_fresh as (N & F1 & F2 & F3). destruct ta_orl as (Eo & Horl).
  assert (Hs : signed sg (xa_outbox_item x) = true) by now apply signed_In.
  unfold transfer_checks, get_not_paused. rewrite (get_config_at _ _ _ ta_config). cbn [bind]. rewrite ta_paused. cbn [negb require bind].
  replace (bm_is_empty (cf_enabled c)) with false by (unfold bm_is_empty; symmetry; now apply Z.eqb_neq). cbn [negb require bind].
  replace (mode_eqb (cf_mode c) md) with true by (subst md; destruct (cf_mode c); reflexivity). cbn [require bind].
  unfold any_mint, any_tok. rewrite ta_mint, ta_from, ta_custody. cbn [ok_or bind]. rewrite ta_from_mint, addr_eqb_refl. cbn [require bind].
  rewrite Hs, (free_iff _ _ (signed_can _ _ Hsg Hs) N F1 F2 F3). cbn [andb require bind].
  rewrite Eo, (proj2 (get_outbox_rl_ok _ _ _) Horl). cbn [bind]. rewrite (proj2 (get_inbox_rl_ok _ _ _) ta_irl). cbn [bind].
  rewrite (proj2 (get_peer_ok _ _ _) ta_peer). reflexivity.
Qed.

Lemma dust_free_u64 x f t : is_u64 x -> is_u8 f -> is_u8 t -> f - shared f t < 20 -> is_u64 (dust_free x f t).
Proof.
  intros Hx Hf Ht Hd. eapply dust_range; [exact Hx|exact Hf|exact Ht|]. apply dust_iff; [assumption..|]. auto.
Qed.

Lemma insert_transferable H s s1 sg x a md c m pe f cu orl irl v t : inv s -> is_u64 (ar_amount a) ->
  same_prog s s1 -> transferable H s sg x a md c m pe f cu orl irl v ->
  exists orl' irl' ts, metered (st_now s) v orl irl = (orl', irl', ts) /\
  insert_into_outbox s1 x (tk_owner f) v t (ar_chain a) (pe_address pe) (ar_to a) (ar_queue a) = Ok (out_puts s1 x a f pe t orl' irl' ts).
Proof.
  intros Hi Ha (Sa & Sn & _) []. destruct ta_orl as (Eo & Horl). destruct (metered (st_now s) v orl irl) as [[orl' irl'] ts] eqn:Em. exists orl', irl', ts. split; [reflexivity|].
  destruct (orl_addr _ _ _ Hi Horl) as (_ & Wo). pose proof (irl_wf _ _ _ Hi ta_irl) as Wi.
  assert (Hv : is_u64 v) by (subst v; apply dust_free_u64; [assumption|exact (mint_dec _ _ _ Hi ta_mint)|exact (peer_dec _ _ _ Hi ta_peer)|assumption]).
  pose proof (proj2 (out_limits_iff (st_now s) v (ar_queue a) orl irl orl' irl' ts Wo Wi (inv_now _ Hi) Hv) (conj ta_limits (conj ta_queue (eq_sym Em)))) as L.
  unfold out_limiter, in_limiter in *. rewrite <- Sa in Horl, ta_irl. rewrite <- Sn in L.
  unfold insert_into_outbox. rewrite Eo, (proj2 (get_outbox_rl_ok _ _ _) Horl). cbn [bind]. rewrite (proj2 (get_inbox_rl_ok _ _ _) ta_irl). cbn [bind].
  destruct L as [(L1 & L2)|(L1 & L2 & L3)]; rewrite L1; cbn [bind]; rewrite L2; cbn [require bind]; [|subst irl']; unfold out_puts; rewrite Eo; reflexivity.
Qed.

Lemma puts_recorded H s s1 sg x a md c m pe f cu orl irl orl' irl' ts v t : same_prog s s1 -> inv s ->
  transferable H s sg x a md c m pe f cu orl irl v -> metered (st_now s) v orl irl = (orl', irl', ts) ->
  t = Trim (ar_amount a / 10 ^ (mt_decimals m - shared (mt_decimals m) (pe_decimals pe))) (shared (mt_decimals m) (pe_decimals pe)) ->
  recorded s (out_puts s1 x a f pe t orl' irl' ts) x a m pe f orl irl v.
Proof.
  intros (Sa & Sn & Su & Sp) Hi T Em ->. destruct T. destruct ta_fresh as (N & F & _). destruct ta_orl as (Eo & Horl).
  assert (N1 : pda_outbox_rl <> xa_outbox_item x) by (intros C; rewrite <- C in F; unfold out_limiter in Horl; congruence).
  assert (N2 : pda_inbox_rl (ar_chain a) <> xa_outbox_item x) by (intros C; rewrite <- C in F; unfold in_limiter in ta_irl; congruence).
  unfold recorded. rewrite Em. cbv zeta. unfold out_puts. rewrite Eo.
  split; [unfold outbox_at; now rewrite get_put_same|].
  split; [unfold out_limiter; rewrite !get_put_other by (assumption || discriminate); apply get_put_same|].
  split; [unfold in_limiter; rewrite get_put_other by assumption; apply get_put_same|].
  split; [intros b B1 B2 B3; rewrite !get_put_other by assumption; now rewrite Sa|].
  cbn. auto.
Qed.

Lemma facts_transferable H s sg x a md c m f pe v t orl irl orl' irl' ts cu : inv s -> is_u64 (ar_amount a) ->
  transfer_facts s sg x a md c m f pe v t orl irl orl' irl' ts -> st_toks s (cf_custody c) = Some cu ->
  xa_tp x = mt_prog m -> xa_hook_ok x = true -> v <= tk_amount f -> tk_delegate f = Some (pda_session (tk_owner f) (h_args H a)) -> v <= tk_delegated f ->
  tk_amount cu + v <= u64_max -> fee_of m v = 0 ->
  transferable H s sg x a md c m pe f cu orl irl v /\ metered (st_now s) v orl irl = (orl', irl', ts) /\
  t = Trim (ar_amount a / 10 ^ (mt_decimals m - shared (mt_decimals m) (pe_decimals pe))) (shared (mt_decimals m) (pe_decimals pe)).
Proof.
  intros Hi Ha F Ecu Etp Ehk Lf Df Ld Lc Fe. destruct F.
  pose proof (mint_dec _ _ _ Hi tf_mint) as Hd. pose proof (peer_dec _ _ _ Hi tf_peer) as Hp.
  pose proof tf_dust as D. apply dust_iff in D; try assumption. destruct D as (Dg & Dv & Dw).
  assert (Hv : is_u64 v) by (subst v; now apply dust_free_u64).
  destruct (orl_addr _ _ _ Hi tf_orl) as (Eo & Wo). pose proof (irl_wf _ _ _ Hi tf_irl) as Wi.
  pose proof (free_not_prog _ _ tf_free) as N. apply out_limits_iff in tf_limits; try assumption; [|apply Hi]. destruct tf_limits as (L1 & L2 & L3). frees.
  split; [|auto]. constructor; try assumption; auto.
  - now apply signed_In.
  - split; [exact Eo|]. unfold out_limiter. rewrite <- Eo. exact tf_orl.
Qed.

Lemma lock_effect H s sg x a : reachable H s -> forallb can_sign sg = true -> is_u64 (ar_amount a) -> is_u16 (ar_chain a) ->
  (succeeds (step H s (Call sg (ITransferLock x a))) <-> exists c m pe f cu orl irl v, transferable H s sg x a Locking c m pe f cu orl irl v) /\
  (forall s', step H s (Call sg (ITransferLock x a)) = Ok s' -> exists c m pe f cu orl irl v, transferable H s sg x a Locking c m pe f cu orl irl v /\
     recorded s s' x a m pe f orl irl v /\ xa_from x <> cf_custody c /\
     st_toks s' (xa_from x) = Some (debited f v) /\ st_toks s' (cf_custody c) = Some (given cu v) /\
     (forall b, b <> xa_from x -> b <> cf_custody c -> st_toks s' b = st_toks s b) /\ (forall b, st_mints s' b = st_mints s b)).
Proof.
  intros Hr Hsg Ha Hch. pose proof (reachable_inv _ _ Hr) as Hi.
  assert (Fwd : forall s', step H s (Call sg (ITransferLock x a)) = Ok s' -> exists c m pe f cu orl irl v, transferable H s sg x a Locking c m pe f cu orl irl v /\
     recorded s s' x a m pe f orl irl v /\ xa_from x <> cf_custody c /\
     st_toks s' (xa_from x) = Some (debited f v) /\ st_toks s' (cf_custody c) = Some (given cu v) /\
     (forall b, b <> xa_from x -> b <> cf_custody c -> st_toks s' b = st_toks s b) /\ (forall b, st_mints s' b = st_mints s b)).
  { intros s' Hs. apply step_inv in Hs. destruct Hs as (_ & _ & He). cbn [exec ins signers] in He. apply transfer_lock_ok in He.
    destruct He as (c & m & f & pe & v & t & orl & irl & orl' & irl' & ts & s1 & cu & cu' & F & HT & Hcu & Hcu' & Hacu & ->).
    destruct (config_ok_at _ _ _ Hi (tf_config _ _ _ _ _ _ _ _ _ _ _ _ _ _ _ _ F)) as (_ & Hok).
    destruct (custody_tok _ _ Hi Hok) as (ct & Ect & Hco & Hcm). assert (ct = cu) by congruence. subst ct.
    destruct (transfer_ranges _ _ _ _ _ _ _ _ _ _ _ _ _ _ _ _ Hi Ha F) as (Hv & _).
    pose proof (tf_from _ _ _ _ _ _ _ _ _ _ _ _ _ _ _ _ F) as Ef. pose proof (tf_from_mint _ _ _ _ _ _ _ _ _ _ _ _ _ _ _ _ F) as Mf. pose proof (tf_mint _ _ _ _ _ _ _ _ _ _ _ _ _ _ _ _ F) as Em.
    destruct (proj1 (inv_ledger _ Hi) _ _ Hcu) as (_ & _ & Ucu & _).
    apply (session_transfer s _ _ _ _ _ f cu m v) in HT; try assumption; [|ilia]. destruct HT as (Tp & Hk & Lf & Df & Dl & U1 & U2 & Hne & ->).
    cbn [put_mint put_tok st_toks set_toks set_mints] in Hcu'. rewrite upd_same in Hcu'. apply Some_inj in Hcu'. subst cu'. cbn [tk_amount with_amount] in Hacu.
    assert (Fe : fee_of m v = 0) by lia. rewrite Fe in *.
    destruct (facts_transferable H _ _ _ _ _ _ _ _ _ _ _ _ _ _ _ _ cu Hi Ha F Hcu Tp Hk Lf Df Dl) as (T & Mt & Et); [ilia|assumption|].
    exists c, m, pe, f, cu, orl, irl, v. split; [exact T|]. split; [eapply puts_recorded; try eassumption; repeat split|]. split; [exact Hne|].
    unfold out_puts. cbn [put set_accts put_mint put_tok set_toks set_mints st_toks st_mints].
    split; [rewrite upd_other by assumption; apply upd_same|]. split; [rewrite upd_same; unfold with_amount, given; do 2 f_equal; lia|].
    split; [intros b B1 B2; now rewrite !upd_other by assumption|].
    intros b. rewrite upd_eq. destruct (addr_eq_dec b (cf_mint c)) as [->|]; [|reflexivity]. rewrite Em. f_equal. apply mint_eta. lia. }
  split; [|exact Fwd]. split.
  - intros (s' & Hs). destruct (Fwd _ Hs) as (c & m & pe & f & cu & orl & irl & v & T & _). eauto 12.
  - intros (c & m & pe & f & cu & orl & irl & v & T). pose proof T as T0. destruct T.
    destruct (config_ok_at _ _ _ Hi ta_config) as (_ & Hok). destruct (custody_tok _ _ Hi Hok) as (ct & Ect & Hco & Hcm). assert (ct = cu) by congruence. subst ct.
    pose proof (mint_dec _ _ _ Hi ta_mint) as Hd. pose proof (peer_dec _ _ _ Hi ta_peer) as Hp. destruct (proj1 (inv_ledger _ Hi) _ _ ta_custody) as (_ & _ & Ucu & _).
    destruct (proj2 (inv_ledger _ Hi) _ _ ta_mint) as (_&_&_&_&_&_&Uw).
    assert (Hv : is_u64 v) by (subst v; now apply dust_free_u64).
    assert (HT : exists s1, tok_transfer s (xa_tp x) (xa_from x) (cf_mint c) (cf_custody c) (pda_session (tk_owner f) (h_args H a)) v (xa_hook_ok x) = Ok s1 /\ same_prog s s1 /\
       st_toks s1 (cf_custody c) = Some (with_amount cu (tk_amount cu + (v - fee_of m v)))).
    { eexists. split; [|split]; [apply (session_transfer s _ _ _ _ _ f cu m v); try assumption; [ilia|]| |].
      - repeat (split; [assumption|]). rewrite ta_no_fee. split; [ilia|]. split; [ilia|]. split; [|reflexivity].
        intros C. rewrite C in ta_from. assert (f = cu) by congruence. subst f. destruct (proj1 (inv_ledger _ Hi) _ _ ta_custody) as (_&_&_&_&_&_&_&Nd). rewrite (Nd Hco) in ta_session. discriminate.
      - repeat split.
      - rewrite ?ta_no_fee. apply upd_same. }
    destruct HT as (s1 & HT & Sp & Hc1). rewrite ta_no_fee, Z.sub_0_r in Hc1.
    destruct (insert_transferable H s s1 sg x a Locking c m pe f cu orl irl v (Trim (ar_amount a / 10 ^ (mt_decimals m - shared (mt_decimals m) (pe_decimals pe))) (shared (mt_decimals m) (pe_decimals pe))) Hi Ha Sp T0) as (orl' & irl' & ts & _ & HI).
    eexists. apply step_ok; [exact Hsg| |]; [cbn [typed]; rewrite EffectFacts.u64b_ok, EffectFacts.u16b_ok by assumption; reflexivity|]. cbn [exec]. unfold transfer_lock.
    rewrite (checks_transferable _ _ _ _ _ _ _ _ _ _ _ _ _ _ Hsg T0). cbn [bind].
    rewrite (proj2 (dust_iff _ _ _ v _ Ha Hd Hp) (conj ta_decimals_gap (conj ta_value eq_refl))). cbn [bind]. unfold any_tok. rewrite ta_custody. cbn [ok_or bind].
    rewrite HT. cbn [bind]. rewrite Hc1. cbn [ok_or bind]. rewrite RateLimitFacts.plain_ok by ilia. cbn [bind tk_amount with_amount]. rewrite Z.eqb_refl. cbn [require bind]. exact HI.
Qed.

(** The owner of a token account without delegate burning from it. *)
Lemma owner_burn s src mnt auth x t m : st_toks s src = Some t -> st_mints s mnt = Some m -> tk_prog t = mt_prog m -> tk_mint t = mnt -> tk_owner t = auth -> tk_delegate t = None ->
  x <= tk_amount t -> is_u64 (mt_supply m - x) ->
  tok_burn s (mt_prog m) src mnt auth x = Ok (put_mint mnt (with_supply m (mt_supply m - x)) (put_tok src (with_amount t (tk_amount t - x)) s)).
Proof.
  intros Et Em Pt Mt Ho Hd Hx Hs. unfold tok_burn. assert (G : get_tok s (mt_prog m) src = Ok t) by (rewrite <- Pt; now apply get_tok_at).
  rewrite G. cbn [bind]. rewrite (get_mint_at _ _ _ Em). cbn [bind]. rewrite Mt, addr_eqb_refl. cbn [require bind]. destruct (x <=? tk_amount t) eqn:L; [|lia]. cbn [require bind].
  unfold spend. rewrite Hd. cbn [oaddr_eqb]. rewrite Ho, addr_eqb_refl. cbn [require bind]. rewrite LiveFacts.checked_ok by ilia. reflexivity.
Qed.

Lemma burn_effect H s sg x a : reachable H s -> forallb can_sign sg = true -> is_u64 (ar_amount a) -> is_u16 (ar_chain a) ->
  (succeeds (step H s (Call sg (ITransferBurn x a))) <-> exists c m pe f cu orl irl v, transferable H s sg x a Burning c m pe f cu orl irl v /\ v <= mt_supply m) /\
  (forall s', step H s (Call sg (ITransferBurn x a)) = Ok s' -> exists c m pe f cu orl irl v, transferable H s sg x a Burning c m pe f cu orl irl v /\
     recorded s s' x a m pe f orl irl v /\ xa_from x <> cf_custody c /\
     st_toks s' (xa_from x) = Some (debited f v) /\ (forall b, b <> xa_from x -> st_toks s' b = st_toks s b) /\
     st_mints s' (cf_mint c) = Some (minted m (- v) 0) /\ (forall b, b <> cf_mint c -> st_mints s' b = st_mints s b)).
Proof.
  intros Hr Hsg Ha Hch. pose proof (reachable_inv _ _ Hr) as Hi.
  assert (Fwd : forall s', step H s (Call sg (ITransferBurn x a)) = Ok s' -> exists c m pe f cu orl irl v, (transferable H s sg x a Burning c m pe f cu orl irl v /\ v <= mt_supply m) /\
     recorded s s' x a m pe f orl irl v /\ xa_from x <> cf_custody c /\
     st_toks s' (xa_from x) = Some (debited f v) /\ (forall b, b <> xa_from x -> st_toks s' b = st_toks s b) /\
     st_mints s' (cf_mint c) = Some (minted m (- v) 0) /\ (forall b, b <> cf_mint c -> st_mints s' b = st_mints s b)).
  { intros s' Hs. apply step_inv in Hs. destruct Hs as (_ & _ & He). cbn [exec ins signers] in He. apply transfer_burn_ok in He.
    destruct He as (c & m & f & pe & v & t & orl & irl & orl' & irl' & ts & s1 & s2 & cu & cu' & F & HT & HB & Hcu & Hcu' & Hacu & ->).
    destruct (config_ok_at _ _ _ Hi (tf_config _ _ _ _ _ _ _ _ _ _ _ _ _ _ _ _ F)) as (_ & Hok).
    destruct (custody_tok _ _ Hi Hok) as (ct & Ect & Hco & Hcm). assert (ct = cu) by congruence. subst ct.
    destruct (transfer_ranges _ _ _ _ _ _ _ _ _ _ _ _ _ _ _ _ Hi Ha F) as (Hv & _).
    pose proof (tf_from _ _ _ _ _ _ _ _ _ _ _ _ _ _ _ _ F) as Ef. pose proof (tf_from_mint _ _ _ _ _ _ _ _ _ _ _ _ _ _ _ _ F) as Mf. pose proof (tf_mint _ _ _ _ _ _ _ _ _ _ _ _ _ _ _ _ F) as Em.
    destruct (proj1 (inv_ledger _ Hi) _ _ Hcu) as (_ & _ & Ucu & _ & _ & _ & _ & Nd). specialize (Nd Hco).
    apply (session_transfer s _ _ _ _ _ f cu m v) in HT; try assumption; [|ilia]. destruct HT as (Tp & Hk & Lf & Df & Dl & U1 & U2 & Hne & ->).
    pose proof (tok_burn_ok _ _ _ _ _ _ _ HB) as (tb & mb & tb' & B1 & B2 & _ & _ & _ & Hble & Hbs & Bu & (Sa & Sn & Su & So) & Bt & Bm).
    cbn [put_mint put_tok st_toks st_mints set_toks set_mints] in B1, B2, Bt, Bm.
    rewrite upd_same in B1. rewrite upd_same in B2. apply Some_inj in B1. apply Some_inj in B2. subst tb mb.
    apply spend_ok in Hbs. destruct Hbs as (_ & _ & _ & _ & [(C & _)|(_ & _ & ->)]); [cbn [tk_delegate with_amount] in C; congruence|].
    rewrite Bt, upd_same in Hcu'. apply Some_inj in Hcu'. subst cu'. cbn [tk_amount with_amount mt_supply with_withheld] in Hacu, Bu, Bm, Bt.
    assert (Fe : fee_of m v = 0) by lia. rewrite Fe in *.
    destruct (facts_transferable H _ _ _ _ _ _ _ _ _ _ _ _ _ _ _ _ cu Hi Ha F Hcu Tp Hk Lf Df Dl) as (T & Mt & Et); [ilia|assumption|].
    exists c, m, pe, f, cu, orl, irl, v. split; [split; [exact T|ilia]|]. split; [eapply puts_recorded; try eassumption; repeat split; assumption|]. split; [exact Hne|].
    unfold out_puts. cbn [put set_accts st_toks st_mints]. rewrite Bt, Bm.
    split; [rewrite !(upd_other _ (cf_custody c)) by assumption; apply upd_same|].
    split; [|split].
    - intros b D1. rewrite upd_eq. destruct (addr_eq_dec b (cf_custody c)) as [->|D2]; [|rewrite !upd_other by assumption; reflexivity].
      rewrite Ect. f_equal. destruct cu; unfold with_amount; cbn. f_equal. lia.
    - rewrite upd_same. f_equal.
    - intros b D1. rewrite !upd_other by assumption. reflexivity. }
  split.
  - split.
    + intros (s' & Hs). destruct (Fwd _ Hs) as (c & m & pe & f & cu & orl & irl & v & T & _). eauto 12.
    + intros (c & m & pe & f & cu & orl & irl & v & T & Hsu). pose proof T as T0. destruct T.
      destruct (config_ok_at _ _ _ Hi ta_config) as (_ & Hok). destruct (custody_tok _ _ Hi Hok) as (ct & Ect & Hco & Hcm). assert (ct = cu) by congruence. subst ct.
      pose proof (mint_dec _ _ _ Hi ta_mint) as Hd. pose proof (peer_dec _ _ _ Hi ta_peer) as Hp. destruct (proj1 (inv_ledger _ Hi) _ _ ta_custody) as (_ & _ & Ucu & _ & (m0 & Em0 & Pc) & _ & _ & Nd).
      specialize (Nd Hco). rewrite Hcm in Em0. assert (m0 = m) by congruence. subst m0.
      destruct (proj2 (inv_ledger _ Hi) _ _ ta_mint) as (_&_&_&Us&_&_&Uw).
      assert (Hv : is_u64 v) by (subst v; now apply dust_free_u64).
      set (s1 := put_mint (cf_mint c) (with_withheld m (mt_withheld m + fee_of m v)) (put_tok (cf_custody c) (with_amount cu (tk_amount cu + (v - fee_of m v))) (put_tok (xa_from x) (debited f v) s))).
      assert (HT : tok_transfer s (xa_tp x) (xa_from x) (cf_mint c) (cf_custody c) (pda_session (tk_owner f) (h_args H a)) v (xa_hook_ok x) = Ok s1).
      { apply (session_transfer s _ _ _ _ _ f cu m v); try assumption; [ilia|]. repeat (split; [assumption|]). rewrite ta_no_fee at 1 2. split; [ilia|]. split; [rewrite ?ta_no_fee; ilia|]. split; [|reflexivity].
        intros C. rewrite C in ta_from. assert (f = cu) by congruence. subst f. congruence. }
      pose proof (owner_burn s1 (cf_custody c) (cf_mint c) token_authority v (with_amount cu (tk_amount cu + (v - fee_of m v))) (with_withheld m (mt_withheld m + fee_of m v))
        ltac:(apply upd_same) ltac:(apply upd_same) ltac:(symmetry; exact Pc) Hcm Hco Nd ltac:(cbn; ilia) ltac:(cbn; ilia)) as HB.
      cbn [mt_prog with_withheld tk_amount with_amount mt_supply] in HB.
      match type of HB with _ = Ok ?x => set (s2 := x) in HB end.
      assert (Sp : same_prog s s2) by (repeat split).
      destruct (insert_transferable H s s2 sg x a Burning c m pe f cu orl irl v (Trim (ar_amount a / 10 ^ (mt_decimals m - shared (mt_decimals m) (pe_decimals pe))) (shared (mt_decimals m) (pe_decimals pe))) Hi Ha Sp T0) as (orl' & irl' & ts & _ & HI).
      eexists. apply step_ok; [exact Hsg| |]; [cbn [typed]; rewrite EffectFacts.u64b_ok, EffectFacts.u16b_ok by assumption; reflexivity|]. cbn [exec]. unfold transfer_burn.
      rewrite (checks_transferable _ _ _ _ _ _ _ _ _ _ _ _ _ _ Hsg T0). cbn [bind].
      rewrite (proj2 (dust_iff _ _ _ v _ Ha Hd Hp) (conj ta_decimals_gap (conj ta_value eq_refl))). cbn [bind]. unfold any_tok. rewrite ta_custody. cbn [ok_or bind].
      rewrite HT. cbn [bind]. rewrite ta_prog, HB. cbn [bind]. unfold s2 at 1. cbn [put_mint put_tok set_mints set_toks st_toks]. rewrite upd_same. cbn [ok_or bind tk_amount with_amount].
      replace (_ =? _) with true by (symmetry; apply Z.eqb_eq; lia). cbn [require bind]. exact HI.
  - intros s' Hs. destruct (Fwd _ Hs) as (c & m & pe & f & cu & orl & irl & v & (T & _) & Q). exists c, m, pe, f, cu, orl, irl, v. split; [exact T|exact Q].
Qed.

(** ** Inbound releases *)
Lemma owner_transfer_iff s tp src mnt dst auth t d m v hk s1 : st_toks s src = Some t -> st_toks s dst = Some d -> st_mints s mnt = Some m ->
  tk_prog t = mt_prog m -> tk_prog d = mt_prog m -> tk_mint t = mnt -> tk_mint d = mnt -> tk_owner t = auth -> tk_delegate t = None ->
  tok_transfer s tp src mnt dst auth v hk = Ok s1 <->
  tp = mt_prog m /\ hk = true /\ v <= tk_amount t /\
  ((src = dst /\ s1 = s) \/
   (src <> dst /\ is_u64 (tk_amount d + (v - fee_of m v)) /\ is_u64 (mt_withheld m + fee_of m v) /\
    s1 = put_mint mnt (with_withheld m (mt_withheld m + fee_of m v)) (put_tok dst (with_amount d (tk_amount d + (v - fee_of m v))) (put_tok src (with_amount t (tk_amount t - v)) s)))).
Proof.
  intros Et Ed Em Pt Pd Mt Md Ho Hd.
  set (R := put_mint _ _ _).
  assert (G1 : get_tok s (mt_prog m) src = Ok t) by (rewrite <- Pt; now apply get_tok_at). assert (G2 : get_tok s (mt_prog m) dst = Ok d) by (rewrite <- Pd; now apply get_tok_at).
  assert (B : tp = mt_prog m -> hk = true -> v <= tk_amount t -> (src <> dst -> is_u64 (tk_amount d + (v - fee_of m v)) /\ is_u64 (mt_withheld m + fee_of m v)) ->
    tok_transfer s tp src mnt dst auth v hk = Ok (if addr_eqb src dst then s else R)).
  { intros -> -> Le U. unfold tok_transfer, R. rewrite G1. cbn [bind]. rewrite G2. cbn [bind]. rewrite (get_mint_at _ _ _ Em). cbn [bind]. rewrite Mt, Md, addr_eqb_refl. cbn [andb require bind].
    destruct (v <=? tk_amount t) eqn:L; [|lia]. cbn [require bind]. unfold spend. rewrite Hd. cbn [oaddr_eqb]. rewrite Ho, addr_eqb_refl. cbn [require bind].
    destruct (addr_eqb src dst) eqn:A; [reflexivity|]. destruct U as (U1 & U2); [intros ->; rewrite addr_eqb_refl in A; discriminate|].
    rewrite !LiveFacts.checked_ok by ilia. reflexivity. }
  split.
  - intros E. pose proof (tok_transfer_ok _ _ _ _ _ _ _ _ _ E) as (t0 & d0 & m' & t' & E1 & E2 & E3 & P1 & P2 & P3 & _ & _ & Le & _ & _ & Hk & Q).
    assert (t0 = t) by congruence. assert (d0 = d) by congruence. assert (m' = m) by congruence. subst t0 d0 m'.
    split; [congruence|]. split; [assumption|]. split; [assumption|]. destruct Q as [Q|(N & U1 & U2 & _)]; [left; exact Q|right].
    split; [exact N|]. split; [exact U1|]. split; [exact U2|]. rewrite B in E by (auto; congruence). apply Ok_inj in E.
    destruct (addr_eqb src dst) eqn:A; [apply addr_eqb_eq in A; contradiction|congruence].
  - intros (-> & -> & Le & [(-> & ->)|(N & U1 & U2 & ->)]); rewrite B by (auto; try contradiction).
    + now rewrite addr_eqb_refl.
    + destruct (addr_eqb src dst) eqn:A; [apply addr_eqb_eq in A; contradiction|reflexivity].
Qed.

Lemma releasable_toks H s x md c it m d cu : reachable H s -> releasable s x md c it m d cu ->
  tk_prog d = mt_prog m /\ tk_mint d = cf_mint c /\ is_u64 (tk_amount d) /\ tk_prog cu = mt_prog m /\ tk_mint cu = cf_mint c /\ is_u64 (tk_amount cu) /\
  tk_owner cu = token_authority /\ tk_delegate cu = None /\ 0 <= fee_of m (ib_amount it) <= ib_amount it /\ is_u64 (mt_withheld m) /\ is_u64 (ib_amount it) /\
  (cf_mode c = Burning -> mt_auth m = Some token_authority) /\ is_u64 (mt_supply m).
Proof.
  intros Hr []. pose proof (reachable_inv _ _ Hr) as Hi. pose proof (config_at_pda _ _ _ _ Hr re_config) as Hc'.
  destruct (co_prog _ _ (inv_config _ Hi _ Hc')) as (tp & m0 & t0 & Htk & _ & Ecu & Em0 & Hpr & Hau & _). assert (m0 = m) by congruence. subst m0.
  destruct (proj2 (inv_ledger _ Hi) _ _ re_mint) as (_ & _ & _ & Hsu & Hb & Hmx & Hwh).
  destruct (proj1 (inv_ledger _ Hi) _ _ re_dest) as (_&_&U1&_&_&Q1&_&_). destruct (proj1 (inv_ledger _ Hi) _ _ re_custody) as (_&_&U2&_&_&Q2&Q3&Q4).
  assert (Hk : is_token_prog (la_tp x) = true) by congruence. destruct (Q1 _ _ _ Hk eq_refl) as (K1 & K2). destruct (Q2 _ _ _ Htk Ecu) as (K3 & K4).
  pose proof (Q3 _ _ Htk Ecu) as K5. destruct (item_addr _ _ _ Hi re_item) as (a & Ea & Wa). assert (Hu : is_u64 (ib_amount it)) by apply Wa.
  repeat (split; [congruence || assumption || (now apply Q4)|]). split; [apply fee_le; ilia|]. repeat (split; [assumption|]). assumption.
Qed.
Lemma facts_releasable H s x md c it m d : reachable H s -> release_facts s x md c it m d -> exists cu, releasable s x md c it m d cu.
Proof.
  intros Hr []. pose proof (reachable_inv _ _ Hr) as Hi. pose proof (config_at_pda _ _ _ _ Hr lf_config) as Hc'.
  destruct (custody_tok _ _ Hi (inv_config _ Hi _ Hc')) as (cu & Ecu & _ & _). exists cu.
  destruct (proj1 (inv_ledger _ Hi) _ _ lf_rcpt) as (_&_&_&_&(m1 & Em1 & Pm)&_). rewrite lf_rmint in Em1. assert (m1 = m) by congruence. subst m1.
  constructor; try assumption. congruence.
Qed.
Lemma status_cases H s a it now : reachable H s -> inbox_at s a it -> (ib_status it = NotApproved \/ exists ts, ib_status it = ReleaseAfter ts /\ now < ts) -> early it now.
Proof. intros Hr Hit [C|Q]; [exfalso; eapply scheduled_at_once; eassumption|exact Q]. Qed.

Lemma unlock_effect H s sg x r : reachable H s -> forallb can_sign sg = true ->
  (succeeds (step H s (Call sg (IReleaseUnlock x r))) <-> exists c it m d cu, releasable s x Locking c it m d cu /\
     (early it (st_now s) /\ r = false \/ due it (st_now s) /\ creditable x c it m d /\ ib_amount it <= tk_amount cu)) /\
  (forall s', step H s (Call sg (IReleaseUnlock x r)) = Ok s' -> exists c it m d cu, releasable s x Locking c it m d cu /\
     (early it (st_now s) /\ s' = s \/ due it (st_now s) /\ marked s s' x it /\ unlocked s s' x c it m d cu)).
Proof.
  intros Hr Hsg.
  assert (Fwd : forall s', step H s (Call sg (IReleaseUnlock x r)) = Ok s' -> exists c it m d cu, releasable s x Locking c it m d cu /\
     (early it (st_now s) /\ r = false /\ s' = s \/ (due it (st_now s) /\ creditable x c it m d /\ ib_amount it <= tk_amount cu) /\ marked s s' x it /\ unlocked s s' x c it m d cu)).
  { intros s' Hs. apply step_inv in Hs. destruct Hs as (_ & _ & He). cbn [exec ins signers] in He. apply release_unlock_ok in He.
    destruct He as (c & it & m & d & F & Q). destruct (facts_releasable _ _ _ _ _ _ _ _ Hr F) as (cu & R). exists c, it, m, d, cu. split; [exact R|].
    pose proof (releasable_toks _ _ _ _ _ _ _ _ _ Hr R) as (P1 & M1 & U1 & P2 & M2 & U2 & O2 & D2 & Fe & Wh & Ua & _ & _).
    destruct Q as [(-> & -> & Q)|(ts & s1 & Est & Lts & HT & ->)]; [left; split; [eapply status_cases; [exact Hr|apply R|exact Q]|auto]|right].
    fold (destination x c it) in HT. pose proof R as R0. destruct R.
    apply (owner_transfer_iff s _ _ _ _ _ cu d m) in HT; try assumption. destruct HT as (_ & Hk & Le & Q).
    split.
    { split; [exists ts; auto|]. split; [|exact Le]. split; [exact Hk|]. intros N. destruct Q as [(C & _)|(_ & V1 & V2 & _)]; [congruence|]. split; ilia. }
    assert (Ea : st_accts s1 = st_accts s /\ st_now s1 = st_now s /\ st_posted s1 = st_posted s /\ st_uauth s1 = st_uauth s) by (destruct Q as [(_ & ->)|(_ & _ & _ & ->)]; repeat split). destruct Ea as (Ea & En & Ep & Eu).
    split.
    { split; [unfold inbox_at; apply get_put_same|]. split; [intros b B; rewrite get_put_other by assumption; now rewrite Ea|]. cbn. auto. }
    unfold unlocked. cbv zeta. cbn [put set_accts st_toks st_mints]. destruct (addr_eq_dec (destination x c it) (cf_custody c)) as [A|A].
    - destruct Q as [(_ & ->)|(C & _)]; [|congruence]. split; [contradiction|]. split; [reflexivity|]. split; [reflexivity|]. split; [|reflexivity].
      rewrite re_mint. unfold minted. rewrite !Z.add_0_r. now destruct m.
    - destruct Q as [(C & _)|(_ & V1 & V2 & ->)]; [congruence|]. cbn [put_mint put_tok set_toks set_mints st_toks st_mints].
      split; [intros _; split; [rewrite upd_same; reflexivity|rewrite upd_other, upd_same by auto; reflexivity]|]. split; [contradiction|].
      split; [intros b B1 B2; now rewrite !upd_other by assumption|]. split; [rewrite upd_same; unfold minted, with_withheld; now rewrite Z.add_0_r|]. intros b B; now rewrite !upd_other by assumption. }
  split.
  - split.
    + intros (s' & Hs). destruct (Fwd _ Hs) as (c & it & m & d & cu & R & [(A & B & _)|(A & _)]); exists c, it, m, d, cu; auto.
    + intros (c & it & m & d & cu & R & Q). pose proof (releasable_toks _ _ _ _ _ _ _ _ _ Hr R) as (P1 & M1 & U1 & P2 & M2 & U2 & O2 & D2 & Fe & Wh & Ua & _ & _). destruct R.
      assert (Hck : release_checks s x Locking = Ok (c, it, destination x c it)) by (eapply LiveFacts.release_checks_ok; eassumption).
      destruct Q as [((ts & Est & Lts) & ->)|((ts & Est & Lts) & (Hk & Cr) & Le)].
      * exists s. apply step_ok; [exact Hsg|reflexivity|]. cbn [exec]. unfold release_inbound_unlock. rewrite Hck. cbn [bind]. unfold inbox_try_release. rewrite Est.
        destruct (st_now s <? ts) eqn:L; [reflexivity|lia].
      * assert (HT : exists s1, tok_transfer s (la_tp x) (cf_custody c) (cf_mint c) (destination x c it) token_authority (ib_amount it) (la_hook_ok x) = Ok s1).
        { destruct (addr_eq_dec (destination x c it) (cf_custody c)) as [A|A].
          - exists s. apply (owner_transfer_iff s _ _ _ _ _ cu d m); try assumption. repeat (split; [assumption|]). left. auto.
          - destruct (Cr A) as (V1 & V2). eexists. apply (owner_transfer_iff s _ _ _ _ _ cu d m); try assumption. repeat (split; [assumption|]). right. split; [auto|]. split; [ilia|]. split; [ilia|reflexivity]. }
        destruct HT as (s1 & HT). eexists. apply step_ok; [exact Hsg|reflexivity|]. cbn [exec]. unfold release_inbound_unlock. rewrite Hck. cbn [bind]. rewrite (try_release_due _ _ _ Est Lts). cbn [bind negb]. rewrite HT. reflexivity.
  - intros s' Hs. destruct (Fwd _ Hs) as (c & it & m & d & cu & R & [(A & _ & B)|((A & _) & B)]); exists c, it, m, d, cu; auto.
Qed.

Lemma authority_mint s tp mnt dst auth v d m s1 : st_toks s dst = Some d -> st_mints s mnt = Some m -> tk_prog d = mt_prog m -> tk_mint d = mnt -> mt_auth m = Some auth ->
  tok_mint_to s tp mnt dst auth v = Ok s1 <-> tp = mt_prog m /\ is_u64 (tk_amount d + v) /\ is_u64 (mt_supply m + v) /\
    s1 = put_mint mnt (with_supply m (mt_supply m + v)) (put_tok dst (with_amount d (tk_amount d + v)) s).
Proof.
  intros Ed Em Pd Md Au.
  assert (B : tp = mt_prog m -> is_u64 (tk_amount d + v) -> is_u64 (mt_supply m + v) ->
    tok_mint_to s tp mnt dst auth v = Ok (put_mint mnt (with_supply m (mt_supply m + v)) (put_tok dst (with_amount d (tk_amount d + v)) s))).
  { intros -> U1 U2. unfold tok_mint_to. rewrite (get_mint_at _ _ _ Em). cbn [bind]. replace (get_tok s (mt_prog m) dst) with (Ok d) by (rewrite <- Pd; symmetry; now apply get_tok_at). cbn [bind].
    rewrite Md, Au. cbn [oaddr_eqb]. rewrite !addr_eqb_refl. cbn [andb require bind]. rewrite !LiveFacts.checked_ok by ilia. reflexivity. }
  split; [|intros (C1 & C2 & C3 & ->); now apply B].
  intros E. pose proof (tok_mint_to_ok _ _ _ _ _ _ _ E) as (d0 & m0 & E1 & E2 & P1 & P2 & _ & _ & U1 & U2 & _).
  assert (d0 = d) by congruence. assert (m0 = m) by congruence. subst d0 m0. split; [congruence|]. split; [assumption|]. split; [assumption|].
  apply Ok_inj. rewrite <- E. apply B; try assumption. congruence.
Qed.

Lemma mint_release_effect H s sg x r : reachable H s -> forallb can_sign sg = true ->
  (succeeds (step H s (Call sg (IReleaseMint x r))) <-> exists c it m d cu, releasable s x Burning c it m d cu /\
     (early it (st_now s) /\ r = false \/
      due it (st_now s) /\ creditable x c it m d /\ tk_amount cu + ib_amount it <= u64_max /\ mt_supply m + ib_amount it <= u64_max)) /\
  (forall s', step H s (Call sg (IReleaseMint x r)) = Ok s' -> exists c it m d cu, releasable s x Burning c it m d cu /\
     (early it (st_now s) /\ s' = s \/ due it (st_now s) /\ marked s s' x it /\ issued s s' x c it m d)).
Proof.
  intros Hr Hsg.
  assert (Fwd : forall s', step H s (Call sg (IReleaseMint x r)) = Ok s' -> exists c it m d cu, releasable s x Burning c it m d cu /\
     (early it (st_now s) /\ r = false /\ s' = s \/
      (due it (st_now s) /\ creditable x c it m d /\ tk_amount cu + ib_amount it <= u64_max /\ mt_supply m + ib_amount it <= u64_max) /\ marked s s' x it /\ issued s s' x c it m d)).
  { intros s' Hs. apply step_inv in Hs. destruct Hs as (_ & _ & He). cbn [exec ins signers] in He. apply release_mint_ok in He.
    destruct He as (c & it & m & d & F & Q). destruct (facts_releasable _ _ _ _ _ _ _ _ Hr F) as (cu & R). exists c, it, m, d, cu. split; [exact R|].
    pose proof (releasable_toks _ _ _ _ _ _ _ _ _ Hr R) as (P1 & M1 & U1 & P2 & M2 & U2 & O2 & D2 & Fe & Wh & Ua & Hau & _). specialize (Hau (re_mode _ _ _ _ _ _ _ _ R)).
    destruct Q as [(-> & -> & Q)|(ts & s1 & s2 & Est & Lts & HM & HT & ->)]; [left; split; [eapply status_cases; [exact Hr|apply R|exact Q]|auto]|right].
    fold (destination x c it) in HT. pose proof R as R0. destruct R.
    apply (authority_mint s _ _ _ _ _ cu m) in HM; try assumption. destruct HM as (_ & V1 & V2 & ->).
    set (s1 := put_mint _ _ _) in HT. set (d1 := if addr_eq_dec (destination x c it) (cf_custody c) then with_amount cu (tk_amount cu + ib_amount it) else d).
    assert (Ed1 : st_toks s1 (destination x c it) = Some d1).
    { unfold s1, d1. cbn [put_mint put_tok set_toks set_mints st_toks]. rewrite upd_eq. destruct (addr_eq_dec _ _); [reflexivity|exact re_dest]. }
    apply (owner_transfer_iff s1 _ _ _ _ _ (with_amount cu (tk_amount cu + ib_amount it)) d1 (with_supply m (mt_supply m + ib_amount it))) in HT; try assumption;
      try (apply upd_same); try (unfold d1; destruct (addr_eq_dec _ _); assumption).
    destruct HT as (_ & Hk & _ & Q). cbn [tk_amount with_amount mt_withheld with_supply] in Q. change (fee_of (with_supply m (mt_supply m + ib_amount it)) (ib_amount it)) with (fee_of m (ib_amount it)) in Q.
    split.
    { split; [exists ts; auto|]. split; [|split; ilia]. split; [exact Hk|]. intros N. destruct Q as [(C & _)|(_ & W1 & W2 & _)]; [congruence|]. unfold d1 in W1. destruct (addr_eq_dec _ _); [contradiction|]. split; ilia. }
    assert (Ea : st_accts s2 = st_accts s /\ st_now s2 = st_now s /\ st_posted s2 = st_posted s /\ st_uauth s2 = st_uauth s) by (destruct Q as [(_ & ->)|(_ & _ & _ & ->)]; repeat split). destruct Ea as (Ea & En & Ep & Eu).
    split.
    { split; [unfold inbox_at; apply get_put_same|]. split; [intros b B; rewrite get_put_other by assumption; now rewrite Ea|]. cbn. auto. }
    unfold issued. cbv zeta. cbn [put set_accts st_toks st_mints]. unfold d1 in *. clear d1. destruct (addr_eq_dec (destination x c it) (cf_custody c)) as [A|A].
    - destruct Q as [(_ & ->)|(C & _)]; [|congruence]. unfold s1 in *. cbn [put_mint put_tok set_toks set_mints st_toks st_mints] in *.
      rewrite A in re_dest. assert (d = cu) by congruence. subst d. rewrite A, !upd_same.
      split; [unfold given, with_amount; now rewrite Z.sub_0_r|]. split; [intros b B; now rewrite upd_other|]. split; [unfold minted, with_supply; now rewrite Z.add_0_r|]. intros b B; now rewrite upd_other.
    - destruct Q as [(C & _)|(_ & W1 & W2 & ->)]; [congruence|]. unfold s1 in *. cbn [put_mint put_tok set_toks set_mints st_toks st_mints] in *. rewrite !upd_same.
      split; [reflexivity|]. split.
      { intros b B. rewrite upd_other by assumption. rewrite upd_eq. destruct (addr_eq_dec b (cf_custody c)) as [->|B2]; [|now rewrite upd_other].
        rewrite re_custody. f_equal. destruct cu; unfold with_amount; cbn. f_equal. lia. }
      split; [reflexivity|]. intros b B. now rewrite !upd_other. }
  split.
  - split.
    + intros (s' & Hs). destruct (Fwd _ Hs) as (c & it & m & d & cu & R & [(A & B & _)|(A & _)]); exists c, it, m, d, cu; auto.
    + intros (c & it & m & d & cu & R & Q). pose proof (releasable_toks _ _ _ _ _ _ _ _ _ Hr R) as (P1 & M1 & U1 & P2 & M2 & U2 & O2 & D2 & Fe & Wh & Ua & Hau & Us). specialize (Hau (re_mode _ _ _ _ _ _ _ _ R)). destruct R.
      assert (Hck : release_checks s x Burning = Ok (c, it, destination x c it)) by (eapply LiveFacts.release_checks_ok; eassumption).
      destruct Q as [((ts & Est & Lts) & ->)|((ts & Est & Lts) & (Hk & Cr) & Lc & Ls)].
      * exists s. apply step_ok; [exact Hsg|reflexivity|]. cbn [exec]. unfold release_inbound_mint. rewrite Hck. cbn [bind]. unfold inbox_try_release. rewrite Est.
        destruct (st_now s <? ts) eqn:L; [reflexivity|lia].
      * assert (HM : exists s1, tok_mint_to s (la_tp x) (cf_mint c) (cf_custody c) token_authority (ib_amount it) = Ok s1 /\
           s1 = put_mint (cf_mint c) (with_supply m (mt_supply m + ib_amount it)) (put_tok (cf_custody c) (with_amount cu (tk_amount cu + ib_amount it)) s)).
        { eexists. split; [|reflexivity]. apply (authority_mint s _ _ _ _ _ cu m); try assumption. split; [assumption|]. split; [ilia|]. split; [ilia|reflexivity]. }
        destruct HM as (s1 & HM & E1).
        set (d1 := if addr_eq_dec (destination x c it) (cf_custody c) then with_amount cu (tk_amount cu + ib_amount it) else d).
        assert (Ed1 : st_toks s1 (destination x c it) = Some d1).
        { subst s1. unfold d1. cbn [put_mint put_tok set_toks set_mints st_toks]. rewrite upd_eq. destruct (addr_eq_dec _ _); [reflexivity|exact re_dest]. }
        assert (HT : exists s2, tok_transfer s1 (la_tp x) (cf_custody c) (cf_mint c) (destination x c it) token_authority (ib_amount it) (la_hook_ok x) = Ok s2).
        { set (t1 := with_amount cu (tk_amount cu + ib_amount it)) in *. set (m1 := with_supply m (mt_supply m + ib_amount it)) in *.
          assert (K : forall s2, tok_transfer s1 (la_tp x) (cf_custody c) (cf_mint c) (destination x c it) token_authority (ib_amount it) (la_hook_ok x) = Ok s2 <-> _) by
            (intros s2; apply (owner_transfer_iff s1 (la_tp x) (cf_custody c) (cf_mint c) (destination x c it) token_authority t1 d1 m1); try assumption;
             try (subst s1; apply upd_same); unfold d1; destruct (addr_eq_dec _ _); assumption).
          destruct (addr_eq_dec (destination x c it) (cf_custody c)) as [A|A].
          - exists s1. apply K. split; [assumption|]. split; [assumption|]. split; [cbn [t1 tk_amount with_amount]; ilia|]. left. auto.
          - destruct (Cr A) as (W1 & W2). eexists. apply K. split; [assumption|]. split; [assumption|]. split; [cbn [t1 tk_amount with_amount]; ilia|]. right. split; [auto|].
            change (fee_of m1 (ib_amount it)) with (fee_of m (ib_amount it)). change (mt_withheld m1) with (mt_withheld m).
            split; [|split; [ilia|reflexivity]]. unfold d1. ilia. }
        destruct HT as (s2 & HT). eexists. apply step_ok; [exact Hsg|reflexivity|]. cbn [exec]. unfold release_inbound_mint. rewrite Hck. cbn [bind]. rewrite (try_release_due _ _ _ Est Lts). cbn [bind negb]. rewrite HM. cbn [bind]. rewrite HT. reflexivity.
  - intros s' Hs. destruct (Fwd _ Hs) as (c & it & m & d & cu & R & [(A & _ & B)|((A & _) & B)]); exists c, it, m, d, cu; auto.
Qed.

(** ** Publication *)
Lemma facts_publishable H s cfg a tr p c o rt : reachable H s -> outbound_facts s cfg a tr c o rt -> rt_address rt = AProg p -> publishable s cfg a tr p c o rt.
Proof.
  intros Hr [] Hra. pose proof (reachable_inv _ _ Hr) as Hi. destruct (reg_addr _ _ _ Hi of_reg) as (q & Eq & Hq). rewrite Hra in Hq. inversion Hq; subst q.
  pose proof (reg_id _ _ _ Hi of_reg) as Hid. rewrite BitmapFacts.bm_get_ok in of_sent, of_enabled by exact Hid. apply Ok_inj in of_sent, of_enabled.
  constructor; try assumption. unfold reg_at. now rewrite <- Eq.
Qed.
Lemma checks_publishable H s cfg a tr p c o rt : reachable H s -> publishable s cfg a tr p c o rt -> outbound_checks s cfg a tr = Ok (c, o, rt) /\ rt_address rt = AProg p /\ 0 <= rt_id rt < 128.
Proof.
  intros Hr []. pose proof (reachable_inv _ _ Hr) as Hi. pose proof (reg_id _ _ _ Hi pu_reg) as Hid. destruct (reg_addr _ _ _ Hi pu_reg) as (q & Eq & Hq). inversion Eq; subst q.
  split; [|auto]. unfold outbound_checks, get_not_paused. rewrite (get_config_at _ _ _ pu_config). cbn [bind]. rewrite pu_paused. cbn [negb require bind].
  rewrite (get_outbox_at _ _ _ pu_item). cbn [bind]. rewrite pu_used, (get_reg_at _ _ _ pu_reg). cbn [bind].
  rewrite !BitmapFacts.bm_get_ok by exact Hid. cbn [bind]. rewrite pu_unsent, pu_enabled. reflexivity.
Qed.
Lemma try_publish s cfg a tr p c o rt : publishable s cfg a tr p c o rt -> 0 <= rt_id rt < 128 ->
  outbox_try_release o (st_now s) (rt_id rt) = if st_now s <? ob_release o then Ok (o, false) else Ok (sent_by o (rt_id rt), true).
Proof.
  intros [] Hid. unfold outbox_try_release. destruct (st_now s <? ob_release o); [reflexivity|]. rewrite BitmapFacts.bm_get_ok by exact Hid. cbn [bind]. rewrite pu_unsent. cbn [negb require bind].
  rewrite BitmapFacts.bm_set_ok by exact Hid. reflexivity.
Qed.

Lemma publish_effect H s sg p cfg a tr r ok : reachable H s -> forallb can_sign sg = true -> is_ntt_prog p = true ->
  (succeeds (step H s (Call sg (IXRelease p cfg a tr r ok))) <-> exists c o rt, publishable s cfg a tr p c o rt /\
     (st_now s < ob_release o /\ r = false \/ ob_release o <= st_now s /\ ok = true)) /\
  (forall s', step H s (Call sg (IXRelease p cfg a tr r ok)) = Ok s' -> exists c o rt, publishable s cfg a tr p c o rt /\
     (st_now s < ob_release o /\ s' = s \/
      ob_release o <= st_now s /\ outbox_at s' a (sent_by o (rt_id rt)) /\ announced s s' p (pda_message p a) (PPTransfer (announcement c a o)) [a])).
Proof.
  intros Hr Hsg Hp. pose proof (reachable_inv _ _ Hr) as Hi.
  assert (Fwd : forall s', step H s (Call sg (IXRelease p cfg a tr r ok)) = Ok s' -> exists c o rt, publishable s cfg a tr p c o rt /\
     (st_now s < ob_release o /\ r = false /\ s' = s \/
      ob_release o <= st_now s /\ ok = true /\ outbox_at s' a (sent_by o (rt_id rt)) /\ announced s s' p (pda_message p a) (PPTransfer (announcement c a o)) [a])).
  { intros s' Hs. apply step_inv in Hs. destruct Hs as (_ & _ & He). cbn [exec ins signers] in He. apply x_release_ok in He; [|exact Hp].
    destruct He as (c & o & rt & F & Hra & Q). exists c, o, rt. split; [eapply facts_publishable; eassumption|].
    destruct Q as [(-> & -> & L)|(L & -> & r' & Hb & Hno & Hne & ->)]; [left; auto|right]. split; [exact L|]. split; [reflexivity|].
    rewrite BitmapFacts.bm_set_ok in Hb by (eapply reg_id; [exact Hi|apply F]). apply Ok_inj in Hb. subst r'.
    split; [unfold outbox_at; cbn [set_posted st_accts]; rewrite get_put_other by auto; apply get_put_same|].
    split; [cbn [set_posted st_accts]; apply get_put_same|]. split; [reflexivity|]. split; [|repeat split].
    intros b B1 B2. cbn [set_posted st_accts]. rewrite !get_put_other; [reflexivity| |exact B1]. intros ->. apply B2. now left. }
  split.
  - split.
    + intros (s' & Hs). destruct (Fwd _ Hs) as (c & o & rt & P & [(A & B & _)|(A & B & _)]); exists c, o, rt; auto.
    + intros (c & o & rt & P & Q). destruct (checks_publishable _ _ _ _ _ _ _ _ _ Hr P) as (Hck & Hra & Hid). pose proof (try_publish _ _ _ _ _ _ _ _ P Hid) as Htr.
      assert (Hmk : (match p with
         | PManager => let? (o', r) := outbox_try_release o (st_now s) (rt_id rt) in Ok (put a PManager (DOutboxItem o') s, r)
         | _ => mark_outbox_item_as_released s [pda_outbox_signer p] (pda_outbox_signer p) cfg a tr
         end) = let? (o', r) := outbox_try_release o (st_now s) (rt_id rt) in Ok (put a PManager (DOutboxItem o') s, r)).
      { destruct p; try discriminate; [reflexivity|]. unfold mark_outbox_item_as_released. rewrite Hck. cbn [bind]. rewrite Hra, addr_eqb_refl. cbn [require bind].
        cbn [signed existsb]. rewrite addr_eqb_refl. cbn [orb require bind]. reflexivity. }
      destruct Q as [(L & ->)|(L & ->)].
      * exists s. apply step_ok; [exact Hsg|exact Hp|]. cbn [exec]. unfold x_release. rewrite Hck. cbn [bind]. rewrite Hra, addr_eqb_refl. cbn [require bind]. rewrite Hmk, Htr.
        destruct (st_now s <? ob_release o) eqn:L1; [reflexivity|lia].
      * assert (Hno : st_accts s (pda_message p a) = None).
        { destruct (st_accts s (pda_message p a)) eqn:E; [|reflexivity]. destruct (message_flag _ _ Hr _ _ _ Hp E) as (rt' & R & F). destruct P.
          unfold reg_at in *. assert (rt' = rt) by congruence. subst rt'. unfold flag, outbox_at in *. rewrite pu_item in F. congruence. }
        assert (Hna : pda_message p a <> a) by (intros C; rewrite C in Hno; destruct P; unfold outbox_at in *; congruence).
        assert (Hfree : free (put a PManager (DOutboxItem (sent_by o (rt_id rt))) s) (pda_message p a) = true).
        { assert (Hres : reserved (pda_message p a)) by (destruct p; try discriminate; exact I).
          unfold free, pda_message. fold (pda_message p a). cbn [st_toks st_mints put set_accts st_accts]. rewrite upd_other by exact Hna. rewrite Hno.
          destruct (st_toks s (pda_message p a)) eqn:Et; [exfalso; exact (proj1 (proj1 (inv_ledger _ Hi) _ _ Et) Hres)|].
          destruct (st_mints s (pda_message p a)) eqn:Em; [exfalso; exact (proj1 (proj2 (inv_ledger _ Hi) _ _ Em) Hres)|]. reflexivity. }
        eexists. apply step_ok; [exact Hsg|exact Hp|]. cbn [exec]. unfold x_release. rewrite Hck. cbn [bind]. rewrite Hra, addr_eqb_refl. cbn [require bind].
        rewrite Hmk, Htr. destruct (st_now s <? ob_release o) eqn:L1; [lia|]. cbn [bind negb]. rewrite (get_outbox_at _ a (sent_by o (rt_id rt))) by apply get_put_same. cbn [bind]. rewrite BitmapFacts.bm_get_ok by exact Hid. cbn [bind].
        unfold sent_by at 1. cbn [ob_released]. rewrite Z.setbit_eqb by lia. rewrite Z.eqb_refl. cbn [orb require bind]. unfold bridge_post. rewrite Hfree. reflexivity.
  - intros s' Hs. destruct (Fwd _ Hs) as (c & o & rt & P & [(A & _ & B)|(A & _ & B)]); exists c, o, rt; auto.
Qed.

(** Another program marking an item through its derived address. *)
Lemma mark_effect H s sg sn cfg a tr : reachable H s -> forallb can_sign sg = true ->
  (succeeds (step H s (Call sg (IMark sn cfg a tr))) <-> exists p c o rt, publishable s cfg a tr p c o rt /\ sn = pda_outbox_signer p /\ In sn sg) /\
  (forall s', step H s (Call sg (IMark sn cfg a tr)) = Ok s' -> exists p c o rt, publishable s cfg a tr p c o rt /\ sn = pda_outbox_signer p /\
     outbox_at s' a (if st_now s <? ob_release o then o else sent_by o (rt_id rt)) /\ untouched [a] s s' /\ st_uauth s' = st_uauth s).
Proof.
  intros Hr Hsg. pose proof (reachable_inv _ _ Hr) as Hi.
  assert (Fwd : forall s', step H s (Call sg (IMark sn cfg a tr)) = Ok s' -> exists p c o rt, (publishable s cfg a tr p c o rt /\ sn = pda_outbox_signer p /\ In sn sg) /\
     outbox_at s' a (if st_now s <? ob_release o then o else sent_by o (rt_id rt)) /\ untouched [a] s s' /\ st_uauth s' = st_uauth s).
  { intros s' Hs. apply step_inv in Hs. destruct Hs as (_ & _ & He). cbn [exec ins signers] in He. binds He. bools. subst. apply mark_ok in E.
    destruct E as (c & o & rt & p & F & Hra & -> & Hin & Q). exists p, c, o, rt. split; [split; [eapply facts_publishable; eassumption|]; split; [reflexivity|now apply signed_In]|].
    destruct Q as [(-> & L & ->)|(-> & L & r' & Hb & ->)].
    - destruct (st_now s <? ob_release o) eqn:L1; [|lia]. split; [unfold outbox_at; apply get_put_same|]. split; [apply put_untouched|reflexivity].
    - destruct (st_now s <? ob_release o) eqn:L1; [lia|]. rewrite BitmapFacts.bm_set_ok in Hb by (eapply reg_id; [exact Hi|apply F]). apply Ok_inj in Hb. subst r'.
      split; [unfold outbox_at; apply get_put_same|]. split; [apply put_untouched|reflexivity]. }
  split.
  - split.
    + intros (s' & Hs). destruct (Fwd _ Hs) as (p & c & o & rt & P & _). exists p, c, o, rt. exact P.
    + intros (p & c & o & rt & P & -> & Hin). destruct (checks_publishable _ _ _ _ _ _ _ _ _ Hr P) as (Hck & Hra & Hid). pose proof (try_publish _ _ _ _ _ _ _ _ P Hid) as Htr.
      apply signed_In in Hin.
      assert (E : exists s' b, mark_outbox_item_as_released s sg (pda_outbox_signer p) cfg a tr = Ok (s', b)).
      { unfold mark_outbox_item_as_released. rewrite Hck. cbn [bind]. rewrite Hra, addr_eqb_refl. cbn [require bind]. rewrite Hin. cbn [require bind]. rewrite Htr. destruct (_ <? _); cbn [bind]; eauto. }
      destruct E as (s' & b & E). exists s'. apply step_ok; [exact Hsg|reflexivity|]. cbn [exec]. rewrite E. reflexivity.
  - intros s' Hs. destruct (Fwd _ Hs) as (p & c & o & rt & (P & -> & _) & Q). exists p, c, o, rt. auto.
Qed.

(** ** Broadcasts *)
Lemma post_fresh s sg msg e pl ok : forallb can_sign sg = true -> fresh_signer s sg msg -> ok = true ->
  bridge_post s msg e pl ok = Ok (set_posted (Post e pl :: st_posted s) (put msg PWormhole DPosted s)).
Proof.
  intros Hsg (I & N & F1 & F2 & F3) ->. unfold bridge_post. apply signed_In in I. rewrite (free_iff _ _ (signed_can _ _ Hsg I) N F1 F2 F3). reflexivity.
Qed.
Lemma post_announced s s' sg msg p pl ok : signed sg msg = true -> bridge_post s msg (pda_emitter p) pl ok = Ok s' -> ok = true /\ fresh_signer s sg msg /\ announced s s' p msg pl [].
Proof.
  intros I. unfold bridge_post. destruct (ok && free s msg) eqn:E; [|discriminate]. cbn [require bind]. intros Q. apply Ok_inj in Q. subst s'. apply andb_true_iff in E. destruct E as (-> & F).
  split; [reflexivity|]. split.
  - split; [now apply signed_In|]. split; [eapply free_not_prog; exact F|]. frees. auto.
  - split; [cbn [set_posted st_accts]; apply get_put_same|]. split; [reflexivity|]. split; [|repeat split]. intros b B _. cbn [set_posted st_accts]. now rewrite get_put_other.
Qed.

Lemma info_effect H s sg p cfg msg ok : reachable H s -> forallb can_sign sg = true -> is_ntt_prog p = true ->
  (succeeds (step H s (Call sg (IXBroadcastId p cfg msg ok))) <-> (exists c, config_at s cfg c) /\ fresh_signer s sg msg /\ ok = true) /\
  (forall s', step H s (Call sg (IXBroadcastId p cfg msg ok)) = Ok s' -> exists c m, config_at s cfg c /\ st_mints s (cf_mint c) = Some m /\
     announced s s' p msg (PPInfo (AProg PManager) (cf_mode c) (cf_mint c) (mt_decimals m)) []).
Proof.
  intros Hr Hsg Hp. pose proof (reachable_inv _ _ Hr) as Hi.
  assert (Fwd : forall s', step H s (Call sg (IXBroadcastId p cfg msg ok)) = Ok s' -> exists c m, config_at s cfg c /\ st_mints s (cf_mint c) = Some m /\ ok = true /\ fresh_signer s sg msg /\
     announced s s' p msg (PPInfo (AProg PManager) (cf_mode c) (cf_mint c) (mt_decimals m)) []).
  { intros s' Hs. apply step_inv in Hs. destruct Hs as (_ & _ & He). cbn [exec ins signers] in He. unfold x_broadcast_id in He. binds He. bools. gets.
    exists v, v0. split; [assumption|]. split; [assumption|]. eapply post_announced; eassumption. }
  split.
  - split.
    + intros (s' & Hs). destruct (Fwd _ Hs) as (c & m & A & _ & B & C & _). eauto.
    + intros ((c & Hc) & F & K). destruct (config_ok_at _ _ _ Hi Hc) as (_ & Hok). destruct (co_prog _ _ Hok) as (tp & m & t & _ & _ & _ & Em & _).
      eexists. apply step_ok; [exact Hsg|exact Hp|]. cbn [exec]. unfold x_broadcast_id. rewrite (get_config_at _ _ _ Hc). cbn [bind]. unfold any_mint. rewrite Em. cbn [ok_or bind].
      rewrite (proj2 (signed_In _ _) (proj1 F)). cbn [require bind]. now rewrite (post_fresh _ _ _ _ _ _ Hsg F K).
  - intros s' Hs. destruct (Fwd _ Hs) as (c & m & A & B & _ & _ & C). eauto.
Qed.

Lemma peer_broadcast_effect H s sg p cfg ch msg ok : reachable H s -> forallb can_sign sg = true -> is_ntt_prog p = true -> is_u16 ch ->
  (succeeds (step H s (Call sg (IXBroadcastPeer p cfg ch msg ok))) <->
     (exists c, config_at s cfg c) /\ (exists xp, xpeer_at s p ch xp) /\ fresh_signer s sg msg /\ ok = true) /\
  (forall s', step H s (Call sg (IXBroadcastPeer p cfg ch msg ok)) = Ok s' -> exists xp, xpeer_at s p ch xp /\ announced s s' p msg (PPReg ch (xp_address xp)) []).
Proof.
  intros Hr Hsg Hp Hch. pose proof (reachable_inv _ _ Hr) as Hi.
  assert (Fwd : forall s', step H s (Call sg (IXBroadcastPeer p cfg ch msg ok)) = Ok s' -> exists c xp, config_at s cfg c /\ xpeer_at s p ch xp /\ ok = true /\ fresh_signer s sg msg /\
     announced s s' p msg (PPReg ch (xp_address xp)) []).
  { intros s' Hs. apply step_inv in Hs. destruct Hs as (_ & _ & He). cbn [exec ins signers] in He. unfold x_broadcast_peer in He. binds He. bools. gets.
    exists v, v0. split; [assumption|]. split; [assumption|]. eapply post_announced; eassumption. }
  split.
  - split.
    + intros (s' & Hs). destruct (Fwd _ Hs) as (c & xp & A & B & C & D & _). eauto 6.
    + intros ((c & Hc) & (xp & Hx) & F & K).
      eexists. apply step_ok; [exact Hsg|cbn [typed]; rewrite Hp, EffectFacts.u16b_ok by assumption; reflexivity|]. cbn [exec]. unfold x_broadcast_peer. rewrite (get_config_at _ _ _ Hc). cbn [bind].
      rewrite (proj2 (get_xpeer_ok _ _ _ _) Hx). cbn [bind].
      rewrite (proj2 (signed_In _ _) (proj1 F)). cbn [require bind]. now rewrite (post_fresh _ _ _ _ _ _ Hsg F K).
  - intros s' Hs. destruct (Fwd _ Hs) as (c & xp & _ & A & _ & _ & C). eauto.
Qed.

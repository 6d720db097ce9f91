(** * Inbound transfers: redemption, votes, status (C35-C39, C41, C55). *)
From Verif Require Export LogFacts.
Local Open Scope Z_scope.

Lemma untrim_local m nm x : is_u64 (ta_amount (nm_amount nm)) -> is_u8 (ta_decimals (nm_amount nm)) -> is_u8 (mt_decimals m) ->
  untrim (nm_amount nm) (mt_decimals m) = Ok x -> x = local_amount m nm.
Proof.
  unfold local_amount, convert. destruct (nm_amount nm) as [a d]. cbn. intros Ha Hd Ht. rewrite TrimmedFacts.untrim_exact by assumption.
  destruct (_ <=? d).
  - destruct (_ <? 20); [|discriminate]. intros E. apply Ok_inj in E. congruence.
  - destruct (20 <=? _); [discriminate|]. destruct (_ <=? u64_max); [|discriminate]. intros E. apply Ok_inj in E. congruence.
Qed.

Lemma count_both v e n : is_u128 v -> is_u128 e -> bm_count_enabled_votes v e = Ok n -> n = Z.of_nat (length (both v e)).
Proof.
  intros Hv He. rewrite BitmapFacts.count_votes_exact by assumption. intros E. apply Ok_inj in E. subst n. apply BitmapFacts.count_upto_filter.
Qed.

Lemma redeem_exact H s sg x s' : reachable H s -> step H s (Call sg (IRedeem x)) = Ok s' ->
  exists p ch tm c rt pe m before after, redeemed H s x s' p ch tm c rt pe m before after.
Proof.
  intros Hr Hs. pose proof (reachable_inv _ _ Hr) as Hi. apply step_inv in Hs. destruct Hs as (Hsg & Hty & He). cbn [exec ins signers typed] in *.
  apply redeem_ok in He. destruct He as (c & rt & p & ch & tm & pe & mt & old & new & irl & orl & am & n & F & Q).
  destruct (redeem_ranges _ _ _ _ _ _ _ _ _ _ _ _ _ _ _ _ Hi F) as (Ram & Wn & Rch & Wi & Wo & Eo & Ec).
  pose proof (inv_now _ Hi) as Hnow. pose proof F as [] . destruct (vtm_typed _ _ _ _ _ Hi rf_msg) as [_ Htm].
  destruct (typed_tm_ranges _ Htm) as (Ra & Rd & _).
  pose proof (untrim_local _ _ _ Ra Rd (mint_dec _ _ _ Hi rf_mint) rf_amount) as Eam.
  pose proof (reg_id _ _ _ Hi rf_reg) as Hid. destruct (reg_addr _ _ _ Hi rf_reg) as (p' & Ereg & Eaddr). assert (p' = p) by congruence. subst p'.
  destruct (config_ok_at _ _ _ Hi rf_config) as (_ & Hok).
  pose proof (count_both _ _ _ (proj1 (proj2 (proj2 Wn))) (proj1 (co_enabled _ _ Hok)) rf_count) as En.
  cbv zeta in rf_new. destruct rf_new as (votes & Hv & Enew). unfold bm_set, BITS in Hv. destruct (128 <=? rt_id rt) eqn:Q0; [lia|]. apply Ok_inj in Hv.
  assert (Hdl : delivers s x p ch tm c rt pe).
  { unfold bm_get, BITS in rf_enabled. rewrite Q0 in rf_enabled. apply Ok_inj in rf_enabled. constructor; try assumption. unfold reg_at. rewrite <- Ereg. exact rf_reg. }
  set (before := match st_accts s (item_of H ch (tm_msg tm)) with Some _ => Some old | None => None end).
  assert (Hb : match before with Some it => inbox_at s (item_of H ch (tm_msg tm)) it | None => st_accts s (item_of H ch (tm_msg tm)) = None end).
  { unfold before. destruct rf_item as [[E ->]|E]; unfold item_of, inbox_at; [rewrite E; reflexivity|]. unfold has in E. rewrite E. reflexivity. }
  assert (Hini : ib_init old = match before with Some _ => true | None => false end).
  { unfold before. destruct rf_item as [[E ->]|E]; unfold item_of; [rewrite E; reflexivity|]. unfold has in E. rewrite E. apply (item_addr _ _ _ Hi E). }
  assert (Hbo : forall it, before = Some it -> it = old) by (unfold before; destruct (st_accts s _); congruence).
  assert (Hnew : ib_amount new = match before with Some it => ib_amount it | None => local_amount mt (tm_msg tm) end /\
                 ib_recipient new = match before with Some it => ib_recipient it | None => nm_to (tm_msg tm) end /\
                 ib_votes new = Z.setbit (match before with Some it => ib_votes it | None => 0 end) (rt_id rt) /\
                 ib_status new = match before with Some it => ib_status it | None => NotApproved end).
  { subst new votes. rewrite Hini. destruct before as [it|]; cbn; [rewrite (Hbo _ eq_refl); auto|]. auto. }
  destruct Hnew as (N1 & N2 & N3 & N4).
  destruct Q as [(Hlt & ->)|(Hge & Hst & irl' & orl' & ts & HL & ->)].
  - exists p, ch, tm, c, rt, pe, mt, before, new. constructor; try assumption.
    + apply get_put_same.
    + cbv zeta. left. split; [lia|]. split; [exact N4|]. intros b B. apply get_put_other. exact B.
    + cbn. auto.
  - exists p, ch, tm, c, rt, pe, mt, before, (set_status new (ReleaseAfter ts)). constructor; try assumption.
    + apply get_put_same.
    + cbv zeta. right. cbn [set_status ib_votes ib_status]. split; [lia|]. split; [congruence|].
      exists irl, orl, irl', orl', ts. rewrite Eo in *. unfold in_limiter, out_limiter. fold (item_of H ch (tm_msg tm)).
      split; [reflexivity|]. split; [exact rf_irl|]. split; [exact rf_orl|].
      split; [rewrite !get_put_other by discriminate; apply get_put_same|]. split; [rewrite get_put_other by discriminate; apply get_put_same|].
      rewrite <- Eam.
      destruct HL as [(Hc & Hf)|(Hc & ->)].
      * apply RateLimitFacts.consume_consumed_inv in Hc. destruct Hc as (cap & Hcap & Hle & -> & ->).
        pose proof (capacity_spec _ _ _ Wi Hnow Hcap). subst cap. split; [|split; [lia|intros b B1 B2 B3; rewrite !get_put_other by assumption; reflexivity]].
        intros _. split; [reflexivity|]. split; [reflexivity|].
        destruct (RateLimitFacts.refill_inv _ _ _ _ Hf) as (ic & Hic & _). rewrite (RateLimitFacts.refill_exact _ _ _ _ Wo Hnow Ram Hic) in Hf.
        apply Ok_inj in Hf. subst orl'. now rewrite (capacity_spec _ _ _ Wo Hnow Hic).
      * apply RateLimitFacts.consume_delayed_inv in Hc. destruct Hc as (cap & Hcap & Hlt & -> & ->).
        pose proof (capacity_spec _ _ _ Wi Hnow Hcap). subst cap. split; [lia|]. split; [auto|].
        intros b B1 B2 B3. rewrite !get_put_other by assumption. reflexivity.
    + cbn. auto.
Qed.

(** ** Items over time *)
Definition is_redeem (i : instr) : Prop := exists x, i = IRedeem x.

(** One step of an inbox item: untouched, redeemed, or released. *)
Lemma inbox_step H s cl s' a it : reachable H s -> step H s cl = Ok s' -> inbox_at s a it ->
  inbox_at s' a it \/
  (exists x p ch tm c rt pe m after, ins cl = IRedeem x /\ a = item_of H ch (tm_msg tm) /\ redeemed H s x s' p ch tm c rt pe m (Some it) after) \/
  (exists md x r c m t, ins cl = (match md with Locking => IReleaseUnlock x r | Burning => IReleaseMint x r end) /\ la_item x = a /\
     pays s x md s' c it m /\ ib_status it = ReleaseAfter t /\ t <= st_now s /\ inbox_at s' a (set_status it Released)).
Proof.
  intros Hr Hs Hd. pose proof (reachable_inv _ _ Hr) as Hi. unfold inbox_at in Hd. destruct (step_change _ _ _ _ Hs a) as [Q|Q]; [left; unfold inbox_at; congruence|].
  rewrite Hd in Q. remember (st_accts s' a) as new eqn:En. destruct cl as [sg i]. cbn [signers ins] in *.
  assert (Hred : forall x, i = IRedeem x -> a = a -> inbox_at s' a it \/
     (exists x p ch tm c rt pe m after, i = IRedeem x /\ a = item_of H ch (tm_msg tm) /\ redeemed H s x s' p ch tm c rt pe m (Some it) after) \/ False).
  { intros x -> _. destruct (redeem_exact _ _ _ _ _ Hr Hs) as (p & ch & tm & c & rt & pe & m & before & after & R).
    destruct (addr_eq_dec a (item_of H ch (tm_msg tm))) as [E|N].
    - right. left. exists x, p, ch, tm, c, rt, pe, m, after. split; [reflexivity|]. split; [exact E|].
      assert (before = Some it) by (pose proof (rd_before _ _ _ _ _ _ _ _ _ _ _ _ _ R) as B; rewrite <- E in B; destruct before; unfold inbox_at in B; congruence). subst. exact R.
    - left. unfold inbox_at. destruct (item_addr _ _ _ Hi Hd) as ((d & Ea) & _).
      destruct (rd_status _ _ _ _ _ _ _ _ _ _ _ _ _ R) as [(_ & _ & K)|(_ & _ & ? & ? & ? & ? & ? & _ & _ & _ & _ & _ & _ & _ & K)];
        rewrite K; try assumption; subst a; discriminate. }
  clear En. inversion Q; subst; try congruence; olds.
  - destruct (Hred _ eq_refl eq_refl) as [?|[?|[]]]; auto.
  - destruct (Hred _ eq_refl eq_refl) as [?|[?|[]]]; auto.
  - clear Hred. right. right.
    match goal with Q : is_release _ _ _ |- _ => destruct Q as (r & Er) end.
    match goal with Q : release_facts _ _ _ ?c _ ?m _ |- _ => rename Q into F; pose proof (lf_item _ _ _ _ _ _ _ F) as Fi end.
    destruct md; subst i.
    + destruct (unlock_exact _ _ _ _ _ _ Hr Hs) as [(-> & _ & it' & E' & D)|(c' & it' & m' & P & _)].
      * exfalso. unfold inbox_at in E'. assert (it' = it) by congruence. subst. destruct D as [D|(t & D & D')]; [congruence|]. rewrite H3 in D. inversion D; subst. lia.
      * pose proof (py_item _ _ _ _ _ _ _ P) as E'. unfold inbox_at in E'. assert (it' = it) by congruence. subst.
        exists Locking, x, r, c', m', ts. repeat (split; [first [assumption|reflexivity]|]). exact (py_done _ _ _ _ _ _ _ P).
    + destruct (mint_exact _ _ _ _ _ _ Hr Hs) as [(-> & _ & it' & E' & D)|(c' & it' & m' & P & _)].
      * exfalso. unfold inbox_at in E'. assert (it' = it) by congruence. subst. destruct D as [D|(t & D & D')]; [congruence|]. rewrite H3 in D. inversion D; subst. lia.
      * pose proof (py_item _ _ _ _ _ _ _ P) as E'. unfold inbox_at in E'. assert (it' = it) by congruence. subst.
        exists Burning, x, r, c', m', ts. repeat (split; [first [assumption|reflexivity]|]). exact (py_done _ _ _ _ _ _ _ P).
Qed.

Lemma inbox_made H s cl s' a it : reachable H s -> step H s cl = Ok s' -> st_accts s a = None -> inbox_at s' a it ->
  exists x p ch tm c rt pe m, ins cl = IRedeem x /\ a = item_of H ch (tm_msg tm) /\ redeemed H s x s' p ch tm c rt pe m None it.
Proof.
  intros Hr Hs Hn Hd. unfold inbox_at in Hd. destruct (step_change _ _ _ _ Hs a) as [Q|Q]; [congruence|].
  rewrite Hn, Hd in Q. destruct cl as [sg i]. cbn [signers ins] in *.
  assert (Hred : forall x, i = IRedeem x -> exists x p ch tm c rt pe m, i = IRedeem x /\ a = item_of H ch (tm_msg tm) /\ redeemed H s x s' p ch tm c rt pe m None it).
  { intros x ->. destruct (redeem_exact _ _ _ _ _ Hr Hs) as (p & ch & tm & c & rt & pe & m & before & after & R).
    destruct (addr_eq_dec a (item_of H ch (tm_msg tm))) as [E|N].
    - exists x, p, ch, tm, c, rt, pe, m. split; [reflexivity|]. split; [exact E|]. subst a.
      assert (before = None) by (pose proof (rd_before _ _ _ _ _ _ _ _ _ _ _ _ _ R) as B; destruct before; [unfold inbox_at in B; congruence|reflexivity]). subst.
      pose proof (rd_after _ _ _ _ _ _ _ _ _ _ _ _ _ R) as A. unfold inbox_at in A. assert (after = it) by congruence. subst. exact R.
    - exfalso. destruct (rd_status _ _ _ _ _ _ _ _ _ _ _ _ _ R) as [(_ & _ & K)|(_ & _ & irl & orl & irl' & orl' & t & _ & _ & _ & K1 & K2 & _ & _ & K)].
      + rewrite (K _ N) in Hd. congruence.
      + destruct (addr_eq_dec a (pda_inbox_rl ch)) as [->|]; [unfold in_limiter in *; congruence|].
        destruct (addr_eq_dec a pda_outbox_rl) as [->|]; [unfold out_limiter in *; congruence|]. rewrite (K _ N) in Hd by assumption. congruence. }
  inversion Q; subst; eauto.
Qed.

Lemma inbox_dec s a : inv s -> (exists d, a = pda_inbox d) -> st_accts s a = None \/ exists it, inbox_at s a it.
Proof.
  intros Hi (d & ->). destruct (st_accts s (pda_inbox d)) as [ac|] eqn:E; [right|auto]. destruct (kind_at _ _ _ _ _ _ Hi E) as (it & ->). exists it. exact E.
Qed.

Lemma later_trans a b c : later a b -> later b c -> later a c.
Proof. intros [] Q; inversion Q; subst; constructor. Qed.

Lemma status_step H s cl s' a it : reachable H s -> step H s cl = Ok s' -> inbox_at s a it ->
  exists it', inbox_at s' a it' /\ ib_amount it' = ib_amount it /\ ib_recipient it' = ib_recipient it /\ later (ib_status it) (ib_status it') /\
    (forall i, Z.testbit (ib_votes it) i = true -> Z.testbit (ib_votes it') i = true).
Proof.
  intros Hr Hs Hd. destruct (inbox_step _ _ _ _ _ _ Hr Hs Hd) as [Q|[(x & p & ch & tm & c & rt & pe & m & af & _ & -> & R)|(md & x & r & c & m & t & _ & _ & _ & Hst & _ & E)]].
  - exists it. repeat (split; [first [assumption|reflexivity]|]). split; [constructor|auto].
  - exists af. split; [apply R|]. split; [apply R|]. split; [apply R|]. split.
    + destruct (rd_status _ _ _ _ _ _ _ _ _ _ _ _ _ R) as [(_ & K & _)|(_ & K & ? & ? & ? & ? & t & Kt & _)]; [rewrite K; constructor|rewrite K, Kt; constructor].
    + intros i Hb. rewrite (rd_votes _ _ _ _ _ _ _ _ _ _ _ _ _ R). assert (0 <= i) by (destruct i; [lia|lia|discriminate]).
      rewrite Z.setbit_eqb by (apply (reg_id _ _ _ (reachable_inv _ _ Hr) (dl_reg _ _ _ _ _ _ _ _ (rd_delivers _ _ _ _ _ _ _ _ _ _ _ _ _ R)))). rewrite Hb. apply orb_true_r.
  - exists (set_status it Released). cbn. repeat (split; [first [assumption|reflexivity]|]). split; [rewrite Hst; constructor|auto].
Qed.

Lemma reg_run H s tr s' a r : run H s tr s' -> reg_at s a r -> reg_at s' a r.
Proof. intros R E. induction R; [exact E|]. eapply reg_kept; eassumption. Qed.

Lemma redeem_regs H s x s' p ch tm c rt pe m b it q r : redeemed H s x s' p ch tm c rt pe m b it -> reg_at s' (pda_reg q) r -> reg_at s (pda_reg q) r.
Proof.
  intros R E. unfold reg_at in *. destruct (rd_status _ _ _ _ _ _ _ _ _ _ _ _ _ R) as [(_ & _ & K)|(_ & _ & ? & ? & ? & ? & ? & _ & _ & _ & _ & _ & _ & _ & K)];
  rewrite K in E; try assumption; discriminate.
Qed.

(** Every vote of an item was cast by a delivery of the registered program. *)
Lemma votes_origin H s0 tr s a it i : initial s0 -> run H s0 tr s -> inbox_at s a it -> Z.testbit (ib_votes it) i = true ->
  exists e p ch nm rt, In e tr /\ delivery e p ch nm /\ item_of H ch nm = a /\ reg_at s (pda_reg (AProg p)) rt /\ rt_id rt = i.
Proof.
  intros Hini R. revert it. induction R as [|tr s cl s' R IH E]; intros it Hd Hb.
  - exfalso. destruct (ini_accts _ Hini _ _ Hd) as (_ & C & _). discriminate.
  - assert (Hr : reachable H s) by (exists s0, tr; auto). pose proof (reachable_inv _ _ Hr) as Hi.
    assert (Hr' : reachable H s') by (eapply step_reachable; eassumption).
    assert (Hold : forall it0, inbox_at s a it0 -> Z.testbit (ib_votes it0) i = true ->
       exists e p ch nm rt, In e (Ev s cl s' :: tr) /\ delivery e p ch nm /\ item_of H ch nm = a /\ reg_at s' (pda_reg (AProg p)) rt /\ rt_id rt = i).
    { intros it0 E0 B0. destruct (IH _ E0 B0) as (e & p & ch & nm & rt & In0 & D & Eit & Hreg & Hid). exists e, p, ch, nm, rt.
      split; [right; exact In0|]. repeat (split; [assumption|]). split; [|assumption]. eapply reg_kept; eassumption. }
    assert (Hnew : forall x p ch tm c rt pe m b, ins cl = IRedeem x -> a = item_of H ch (tm_msg tm) -> redeemed H s x s' p ch tm c rt pe m b it ->
       rt_id rt = i -> exists e p ch nm rt, In e (Ev s cl s' :: tr) /\ delivery e p ch nm /\ item_of H ch nm = a /\ reg_at s' (pda_reg (AProg p)) rt /\ rt_id rt = i).
    { intros x p ch tm c rt pe m b Ei Ea Rd Hid. exists (Ev s cl s'), p, ch, (tm_msg tm), rt. split; [left; reflexivity|].
      pose proof (rd_delivers _ _ _ _ _ _ _ _ _ _ _ _ _ Rd) as D.
      split; [exists x, tm, c, rt, pe; auto|]. split; [auto|]. split; [|exact Hid]. eapply reg_kept; [exact E|]. exact (dl_reg _ _ _ _ _ _ _ _ D). }
    assert (Hset : forall x p ch tm c rt pe m b, redeemed H s x s' p ch tm c rt pe m b it ->
       rt_id rt = i \/ Z.testbit (match b with Some it => ib_votes it | None => 0 end) i = true).
    { intros x p ch tm c rt pe m b Rd. rewrite (rd_votes _ _ _ _ _ _ _ _ _ _ _ _ _ Rd) in Hb. assert (0 <= i) by (destruct i; [lia|lia|discriminate]).
      rewrite Z.setbit_eqb in Hb by (apply (reg_id _ _ _ Hi (dl_reg _ _ _ _ _ _ _ _ (rd_delivers _ _ _ _ _ _ _ _ _ _ _ _ _ Rd)))). apply orb_true_iff in Hb. destruct Hb as [Hb|Hb]; [left; lia|auto]. }
    destruct (inbox_dec s a Hi (proj1 (item_addr _ _ _ (reachable_inv _ _ Hr') Hd))) as [N|(it0 & E0)].
    + destruct (inbox_made _ _ _ _ _ _ Hr E N Hd) as (x & p & ch & tm & c & rt & pe & m & Ei & Ea & Rd).
      destruct (Hset _ _ _ _ _ _ _ _ _ Rd) as [Q|Q]; [eauto|]. rewrite Z.testbit_0_l in Q. discriminate.
    + destruct (inbox_step _ _ _ _ _ _ Hr E E0) as [Q|[(x & p & ch & tm & c & rt & pe & m & af & Ei & Ea & Rd)|(md & x & r & c & m & t & _ & _ & _ & _ & _ & E1)]].
      * unfold inbox_at in *. assert (it = it0) by congruence. subst. eauto.
      * pose proof (rd_after _ _ _ _ _ _ _ _ _ _ _ _ _ Rd) as A. rewrite <- Ea in A. unfold inbox_at in A, Hd. assert (af = it) by congruence. subst af.
        destruct (Hset _ _ _ _ _ _ _ _ _ Rd) as [Q|Q]; [eauto|]. eauto.
      * unfold inbox_at in *. assert (it = set_status it0 Released) by congruence. subst. cbn in Hb. eauto.
Qed.

(** Amount and recipient are those of the first delivery. *)
Lemma content_origin H s0 tr s a it : initial s0 -> run H s0 tr s -> inbox_at s a it ->
  exists e p ch nm c m, In e tr /\ delivery e p ch nm /\ item_of H ch nm = a /\ config_at (e_pre e) pda_config c /\ st_mints (e_pre e) (cf_mint c) = Some m /\
    ib_recipient it = nm_to nm /\ ib_amount it = local_amount m nm.
Proof.
  intros Hini R. revert it. induction R as [|tr s cl s' R IH E]; intros it Hd.
  - exfalso. destruct (ini_accts _ Hini _ _ Hd) as (_ & C & _). discriminate.
  - assert (Hr : reachable H s) by (exists s0, tr; auto). pose proof (reachable_inv _ _ Hr) as Hi.
    assert (Hr' : reachable H s') by (eapply step_reachable; eassumption).
    destruct (inbox_dec s a Hi (proj1 (item_addr _ _ _ (reachable_inv _ _ Hr') Hd))) as [N|(it0 & E0)].
    + destruct (inbox_made _ _ _ _ _ _ Hr E N Hd) as (x & p & ch & tm & c & rt & pe & m & Ei & Ea & Rd).
      pose proof (rd_delivers _ _ _ _ _ _ _ _ _ _ _ _ _ Rd) as D. pose proof (dl_config _ _ _ _ _ _ _ _ D) as Hc.
      assert (ra_config x = pda_config) by (eapply config_addr; eassumption).
      exists (Ev s cl s'), p, ch, (tm_msg tm), c, m. split; [left; reflexivity|]. split; [exists x, tm, c, rt, pe; auto|]. split; [auto|].
      split; [cbn; congruence|]. split; [apply Rd|]. split; [apply (rd_recipient _ _ _ _ _ _ _ _ _ _ _ _ _ Rd)|apply (rd_amount _ _ _ _ _ _ _ _ _ _ _ _ _ Rd)].
    + destruct (status_step _ _ _ _ _ _ Hr E E0) as (it1 & E1 & A1 & A2 & _). unfold inbox_at in *. assert (it1 = it) by congruence. subst it1.
      destruct (IH _ E0) as (e & p & ch & nm & c & m & In0 & D & Q1 & Q2 & Q3 & Q4 & Q5). exists e, p, ch, nm, c, m.
      split; [right; exact In0|]. repeat (split; [assumption|]). split; congruence.
Qed.

(** Every approved item was approved by one redemption. *)
Lemma status_inbox s a it : inbox_at s a it -> status_at s a = Some (ib_status it).
Proof. unfold inbox_at, status_at. intros ->. reflexivity. Qed.

Lemma approved_by H s0 tr s a it : initial s0 -> run H s0 tr s -> inbox_at s a it -> ib_status it <> NotApproved ->
  exists tr2 e tr1 p ch tm c m it1 t, tr = tr2 ++ e :: tr1 /\ approves H e a p ch tm c m it1 t /\ (ib_status it = ReleaseAfter t \/ ib_status it = Released).
Proof.
  intros Hini R. revert it. induction R as [|tr s cl s' R IH E]; intros it Hd Hst.
  - exfalso. destruct (ini_accts _ Hini _ _ Hd) as (_ & C & _). discriminate.
  - assert (Hr : reachable H s) by (exists s0, tr; auto). pose proof (reachable_inv _ _ Hr) as Hi.
    assert (Hr' : reachable H s') by (eapply step_reachable; eassumption).
    assert (Hold : forall it0, inbox_at s a it0 -> ib_status it0 <> NotApproved -> (forall t, ib_status it0 = ReleaseAfter t -> ib_status it = ReleaseAfter t \/ ib_status it = Released) ->
       (ib_status it0 = Released -> ib_status it = Released) ->
       exists tr2 e tr1 p ch tm c m it1 t, Ev s cl s' :: tr = tr2 ++ e :: tr1 /\ approves H e a p ch tm c m it1 t /\ (ib_status it = ReleaseAfter t \/ ib_status it = Released)).
    { intros it0 E0 Q Q1 Q2. destruct (IH _ E0 Q) as (tr2 & e & tr1 & p & ch & tm & c & m & it1 & t & -> & A & D).
      exists (Ev s cl s' :: tr2), e, tr1, p, ch, tm, c, m, it1, t. split; [reflexivity|]. split; [exact A|]. destruct D as [D|D]; [apply Q1, D|right; apply Q2, D]. }
    assert (Hnew : forall x p ch tm c rt pe m b, ins cl = IRedeem x -> a = item_of H ch (tm_msg tm) -> redeemed H s x s' p ch tm c rt pe m b it ->
       match b with Some it0 => ib_status it0 | None => NotApproved end = NotApproved ->
       exists tr2 e tr1 p ch tm c m it1 t, Ev s cl s' :: tr = tr2 ++ e :: tr1 /\ approves H e a p ch tm c m it1 t /\ (ib_status it = ReleaseAfter t \/ ib_status it = Released)).
    { intros x p ch tm c rt pe m b Ei Ea Rd Hb. pose proof (rd_status _ _ _ _ _ _ _ _ _ _ _ _ _ Rd) as Q. cbv zeta in Q. rewrite Hb in Q.
      destruct Q as [(_ & C & _)|(Hge & _ & irl & orl & irl' & orl' & t & Et & _)]; [contradiction|].
      assert (Hs : status_at s a = None \/ status_at s a = Some NotApproved).
      { pose proof (rd_before _ _ _ _ _ _ _ _ _ _ _ _ _ Rd) as B. rewrite <- Ea in B. destruct b as [it0|]; [right; rewrite (status_inbox _ _ _ B); congruence|].
        left. unfold status_at. now rewrite B. }
      exists [], (Ev s cl s'), tr, p, ch, tm, c, m, it, t. split; [reflexivity|]. split; [|auto].
      exists x, rt, pe, b. split; [exact Ei|]. split; [auto|]. split; [exact Rd|]. cbn. destruct Hs as [->| ->]; repeat split; try discriminate; assumption. }
    destruct (inbox_dec s a Hi (proj1 (item_addr _ _ _ (reachable_inv _ _ Hr') Hd))) as [N|(it0 & E0)].
    + destruct (inbox_made _ _ _ _ _ _ Hr E N Hd) as (x & p & ch & tm & c & rt & pe & m & Ei & Ea & Rd). eauto.
    + destruct (inbox_step _ _ _ _ _ _ Hr E E0) as [Q|[(x & p & ch & tm & c & rt & pe & m & af & Ei & Ea & Rd)|(md & x & r & c & m & t & _ & _ & _ & Hs & _ & E1)]].
      * unfold inbox_at in *. assert (it = it0) by congruence. subst. eauto.
      * pose proof (rd_after _ _ _ _ _ _ _ _ _ _ _ _ _ Rd) as A. rewrite <- Ea in A. unfold inbox_at in A, Hd. assert (af = it) by congruence. subst af.
        destruct (ib_status it0) eqn:Es; [eapply Hnew; eauto| |]; apply (Hold _ E0); try congruence;
          destruct (rd_status _ _ _ _ _ _ _ _ _ _ _ _ _ Rd) as [(_ & K & _)|(_ & K & _)]; cbv zeta in K; rewrite Es in *; try congruence; intros; left; congruence.
      * unfold inbox_at in *. assert (it = set_status it0 Released) by congruence. subst. apply (Hold _ E0); [congruence|right; reflexivity|reflexivity].
Qed.

(** ** Distinct programs *)
Lemma choose_progs (P : Z -> prog -> Prop) l : NoDup l -> (forall i, In i l -> exists p, P i p) -> (forall i j p, P i p -> P j p -> i = j) ->
  exists ps, NoDup ps /\ length ps = length l /\ forall p, In p ps -> exists i, In i l /\ P i p.
Proof.
  intros Hn Hex Hf. induction l as [|i l IH].
  - exists []. repeat split; [constructor|intros p []].
  - inversion Hn; subst. destruct IH as (ps & N & L & Hp); [assumption|intros j Hj; apply Hex; right; exact Hj|].
    destruct (Hex i (or_introl eq_refl)) as (p & Pp). exists (p :: ps). split; [|split].
    + constructor; [|exact N]. intros C. destruct (Hp _ C) as (j & Hj & Pj). rewrite (Hf _ _ _ Pp Pj) in *. contradiction.
    + cbn. congruence.
    + intros q [<-|Hq]; [exists i; split; [left; reflexivity|exact Pp]|]. destruct (Hp _ Hq) as (j & Hj & Pj). exists j. split; [right; exact Hj|exact Pj].
Qed.

Lemma both_iff v e i : In i (both v e) <-> In i (map Z.of_nat (seq 0 128)) /\ Z.testbit v i = true /\ Z.testbit e i = true.
Proof. unfold both. generalize (map Z.of_nat (seq 0 128)). intros l. rewrite filter_In, andb_true_iff. reflexivity. Qed.
Lemma both_In v e i : In i (both v e) -> Z.testbit v i = true /\ Z.testbit e i = true.
Proof. rewrite both_iff. tauto. Qed.
Lemma both_NoDup v e : NoDup (both v e).
Proof. apply NoDup_filter. exact (BitmapFacts.indices_NoDup 128). Qed.

(** C35 *)
Lemma approval_votes H s0 tr s a it : initial s0 -> run H s0 tr s -> inbox_at s a it -> ib_status it <> NotApproved ->
  exists tr2 e tr1 c ps, tr = tr2 ++ e :: tr1 /\ config_at (e_pre e) pda_config c /\ NoDup ps /\ cf_threshold c <= Z.of_nat (length ps) /\
    status_at (e_pre e) a <> Some Released /\ (forall t, status_at (e_pre e) a <> Some (ReleaseAfter t)) /\ (exists t, status_at (e_post e) a = Some (ReleaseAfter t)) /\
    forall p, In p ps -> exists rt e' ch nm, reg_at (e_pre e) (pda_reg (AProg p)) rt /\ Z.testbit (cf_enabled c) (rt_id rt) = true /\
      In e' (e :: tr1) /\ delivery e' p ch nm /\ item_of H ch nm = a.
Proof.
  intros Hini R Hd Hst. destruct (approved_by _ _ _ _ _ _ Hini R Hd Hst) as (tr2 & e & tr1 & p & ch & tm & c & m & it1 & t & -> & A & _).
  destruct A as (x & rt & pe & b & Ei & Ea & Rd & S1 & S2 & S3). pose proof (rd_delivers _ _ _ _ _ _ _ _ _ _ _ _ _ Rd) as D.
  apply run_split in R. destruct R as (R1 & Es & _).
  assert (Hr1 : reachable H (e_pre e)) by (exists s0, tr1; auto). pose proof (reachable_inv _ _ Hr1) as Hi1.
  assert (R2 : run H s0 (e :: tr1) (e_post e)) by (destruct e; apply run_step; assumption).
  assert (Hge : cf_threshold c <= Z.of_nat (length (both (ib_votes it1) (cf_enabled c)))).
  { destruct (rd_status _ _ _ _ _ _ _ _ _ _ _ _ _ Rd) as [(_ & K & _)|(K & _)]; [|exact K]. exfalso. cbv zeta in K.
    pose proof (rd_before _ _ _ _ _ _ _ _ _ _ _ _ _ Rd) as B. rewrite Ea in B. destruct b as [it0|]; [|congruence]. rewrite (status_inbox _ _ _ B) in S2. apply (S2 t). congruence. }
  pose proof (rd_after _ _ _ _ _ _ _ _ _ _ _ _ _ Rd) as Haf. rewrite Ea in Haf.
  destruct (choose_progs (fun i p => exists rt e' ch nm, rt_id rt = i /\ reg_at (e_pre e) (pda_reg (AProg p)) rt /\ Z.testbit (cf_enabled c) (rt_id rt) = true /\
      In e' (e :: tr1) /\ delivery e' p ch nm /\ item_of H ch nm = a) (both (ib_votes it1) (cf_enabled c))) as (ps & N & L & Hp).
  - apply both_NoDup.
  - intros i Hin. apply both_In in Hin. destruct Hin as (B1 & B2).
    destruct (votes_origin _ _ _ _ _ _ _ Hini R2 Haf B1) as (e' & q & ch' & nm & rt' & In0 & D' & Eit & Hreg & Hid).
    exists q, rt', e', ch', nm. split; [exact Hid|]. split; [exact (redeem_regs _ _ _ _ _ _ _ _ _ _ _ _ _ _ _ Rd Hreg)|]. split; [congruence|auto].
  - intros i j q (r1 & _ & _ & _ & E1 & G1 & _) (r2 & _ & _ & _ & E2 & G2 & _). unfold reg_at in *. assert (r1 = r2) by congruence. congruence.
  - exists tr2, e, tr1, c, ps. split; [reflexivity|]. split.
    { pose proof (dl_config _ _ _ _ _ _ _ _ D) as Hc. assert (ra_config x = pda_config) by (eapply config_addr; eassumption). congruence. }
    split; [exact N|]. split; [lia|]. split; [exact S1|]. split; [exact S2|]. split; [exists t; rewrite (status_inbox _ _ _ Haf); congruence|].
    intros q Hq. destruct (Hp _ Hq) as (i & _ & r1 & e' & ch' & nm & _ & Q). eauto 10.
Qed.

(** ** C36, C55 *)
Lemma run_mint H s tr s' a m : reachable H s -> run H s tr s' -> st_mints s a = Some m -> exists m', st_mints s' a = Some m' /\ mt_decimals m' = mt_decimals m.
Proof.
  intros Hr R E. eapply (run_ind_from H s (fun t => exists m', st_mints t a = Some m' /\ mt_decimals m' = mt_decimals m)); [exact Hr|exact R|eauto|].
  intros t c t' Hrt (m' & E' & D) Hst. destruct (step_ledger _ _ _ _ (reachable_inv _ _ Hrt) Hst) as (_ & Hm & _).
  destruct (Hm _ _ E') as (m2 & E2 & _ & D2 & _). exists m2. split; [exact E2|congruence].
Qed.

Lemma In_split_run H s0 tr s e : run H s0 tr s -> In e tr -> exists tr2 tr1, tr = tr2 ++ e :: tr1 /\ run H s0 tr1 (e_pre e) /\ step H (e_pre e) (e_call e) = Ok (e_post e) /\ run H (e_post e) tr2 s.
Proof. intros R Hin. apply in_split in Hin. destruct Hin as (tr2 & tr1 & ->). exists tr2, tr1. split; [reflexivity|]. now apply run_split in R. Qed.

Lemma inbox_inj a b : pda_inbox a = pda_inbox b -> a = b.
Proof. intros Q. inversion Q. reflexivity. Qed.

(** The message behind an item. *)
Lemma item_message H s0 tr s a it c m : initial s0 -> run H s0 tr s -> inbox_at s a it -> config_at s pda_config c -> st_mints s (cf_mint c) = Some m ->
  exists e p ch nm, In e tr /\ delivery e p ch nm /\ item_of H ch nm = a /\ ib_recipient it = nm_to nm /\ ib_amount it = local_amount m nm /\
    (no_collision H tr -> forall e' p' ch' nm', In e' tr -> delivery e' p' ch' nm' -> item_of H ch' nm' = a -> ch' = ch /\ nm' = nm).
Proof.
  intros Hini R Hd Hc Hm. destruct (content_origin _ _ _ _ _ _ Hini R Hd) as (e & p & ch & nm & c0 & m0 & In0 & D & Ea & Ec0 & Em0 & E1 & E2).
  exists e, p, ch, nm. split; [exact In0|]. split; [exact D|]. split; [exact Ea|]. split; [exact E1|].
  destruct (In_split_run _ _ _ _ _ R In0) as (tr2 & tr1 & -> & R1 & Es & R2).
  assert (Hr1 : reachable H (e_pre e)) by (exists s0, tr1; auto).
  assert (R3 : run H (e_pre e) (tr2 ++ [e]) s).
  { eapply run_app; [|exact R2]. destruct e. apply run_step; [constructor|exact Es]. }
  split.
  - pose proof (run_config _ _ _ _ _ _ _ _ Hr1 R3 Ec0 Hc) as Hid. assert (cf_mint c = cf_mint c0) as Hmt by (unfold identity in Hid; inversion Hid; congruence).
    destruct (run_mint _ _ _ _ _ _ Hr1 R3 Em0) as (m' & E' & Dm). rewrite Hmt in Hm. assert (m' = m) by congruence. subst m'. rewrite E2. unfold local_amount. now rewrite Dm.
  - intros Hn e' p' ch' nm' In' D' Ea'. apply (Hn e' e p' p ch' nm' ch nm In' In0 D' D). apply inbox_inj. unfold item_of in *. congruence.
Qed.

Lemma delivery_envelope e p ch nm : delivery e p ch nm -> exists tm c pe, tm_msg tm = nm /\ peer_at (e_pre e) ch pe /\ pe_address pe = tm_source tm /\
  tm_recipient tm = AProg PManager /\ (exists x, ins (e_call e) = IRedeem x /\ config_at (e_pre e) (ra_config x) c /\ st_accts (e_pre e) (ra_message x) = Some (Acct p (DVtm ch tm))) /\ nm_to_chain nm = cf_chain c.
Proof. intros (x & tm & c & rt & pe & Ei & [] & <-). exists tm, c, pe. repeat (split; [assumption || reflexivity|]). split; [eauto|assumption]. Qed.

(** ** C38 *)
Lemma status_run H s tr s' a it : reachable H s -> run H s tr s' -> inbox_at s a it ->
  exists it', inbox_at s' a it' /\ ib_amount it' = ib_amount it /\ ib_recipient it' = ib_recipient it /\ later (ib_status it) (ib_status it').
Proof.
  intros Hr R E. eapply (run_ind_from H s (fun t => exists it', inbox_at t a it' /\ ib_amount it' = ib_amount it /\ ib_recipient it' = ib_recipient it /\ later (ib_status it) (ib_status it')));
  [exact Hr|exact R|exists it; repeat (split; [assumption || reflexivity|]); constructor|].
  intros t c t' Hrt (i1 & E1 & A1 & B1 & L1) Hst. destruct (status_step _ _ _ _ _ _ Hrt Hst E1) as (i2 & E2 & A2 & B2 & L2 & _).
  exists i2. split; [exact E2|]. split; [congruence|]. split; [congruence|]. eapply later_trans; eassumption.
Qed.

(** A scheduled item stays scheduled at the same time until it is released. *)
Lemma later_scheduled t st : later (ReleaseAfter t) st -> st = ReleaseAfter t \/ st = Released.
Proof. intros Q. inversion Q; auto. Qed.
Lemma later_released st : later Released st -> st = Released.
Proof. intros Q. inversion Q; auto. Qed.

(** ** C37: payouts *)
Lemma payout_pays H s0 tr s e a : reachable H s0 -> run H s0 tr s -> In e tr -> payout e = Some a ->
  exists md x r c it m, ins (e_call e) = (match md with Locking => IReleaseUnlock x r | Burning => IReleaseMint x r end) /\ la_item x = a /\
    pays (e_pre e) x md (e_post e) c it m.
Proof.
  intros Hr R Hin Hp. destruct (In_split_run _ _ _ _ _ R Hin) as (tr2 & tr1 & -> & R1 & Es & _).
  assert (Hr1 : reachable H (e_pre e)) by (eapply run_reachable; eassumption).
  destruct e as [s1 [sg i] s2]. cbn [e_pre e_call e_post ins] in *. unfold payout in Hp. cbn [e_pre e_call e_post ins] in Hp.
  assert (Hsame : forall b, negb (released s1 b) && released s1 b = true -> False) by (intros b Q; destruct (released s1 b); discriminate).
  destruct i; try discriminate; cbn [release_of] in Hp; (destruct (_ && _) eqn:Q in Hp; [|discriminate]); apply Some_inj in Hp.
  - destruct (mint_exact _ _ _ _ _ _ Hr1 Es) as [(-> & _)|(c & it & m & P & _)]; [exfalso; eauto|]. exists Burning, x, revert_on_delay, c, it, m. auto.
  - destruct (unlock_exact _ _ _ _ _ _ Hr1 Es) as [(-> & _)|(c & it & m & P & _)]; [exfalso; eauto|]. exists Locking, x, revert_on_delay, c, it, m. auto.
Qed.

Lemma pays_payout s sg i x md s' c it m : pays s x md s' c it m -> release_of i = Some x ->
  payout (Ev s (Call sg i) s') = Some (la_item x) /\ paid_out (Ev s (Call sg i) s') = ib_amount it.
Proof.
  intros P Ei. assert (Q : payout (Ev s (Call sg i) s') = Some (la_item x)).
  { unfold payout. cbn [e_pre e_call e_post ins]. rewrite Ei. unfold released. rewrite (status_inbox _ _ _ (py_item _ _ _ _ _ _ _ P)), (status_inbox _ _ _ (py_done _ _ _ _ _ _ _ P)).
    cbn. destruct (py_due _ _ _ _ _ _ _ P) as (t & -> & _). reflexivity. }
  split; [exact Q|]. unfold paid_out. rewrite Q. cbn [e_pre]. unfold amount_of. rewrite (py_item _ _ _ _ _ _ _ P). reflexivity.
Qed.

Definition pays_item (a : addr) (e : ev) : bool := match payout e with Some b => if addr_eq_dec b a then true else false | None => false end.
Lemma released_kept H s tr s' a : reachable H s -> run H s tr s' -> released s a = true -> released s' a = true.
Proof.
  intros Hr R Q. unfold released, status_at in Q. destruct (st_accts s a) as [[p d]|] eqn:E; [|discriminate]. destruct p; try discriminate. destruct d; try discriminate.
  destruct (status_run _ _ _ _ _ _ Hr R E) as (it' & E' & _ & _ & L). destruct (ib_status i); try discriminate. apply later_released in L.
  unfold released. rewrite (status_inbox _ _ _ E'), L. reflexivity.
Qed.
Lemma payout_once H s0 tr s a : reachable H s0 -> run H s0 tr s ->
  (length (filter (pays_item a) tr) <= 1)%nat /\ (released s0 a = true -> filter (pays_item a) tr = []) /\ (filter (pays_item a) tr <> [] -> released s a = true).
Proof.
  intros Hr R. induction R as [|tr s cl s' R IH E].
  - cbn. repeat split; [lia|congruence].
  - destruct IH as (L & Z0 & K). assert (Hrs : reachable H s) by (eapply run_reachable; eassumption). cbn [filter].
    destruct (pays_item a (Ev s cl s')) eqn:Q.
    + assert (Qp : released s a = false /\ released s' a = true).
      { unfold pays_item, payout in Q. cbn in Q. destruct (release_of (ins cl)) as [x|]; [|discriminate]. destruct (_ && _) eqn:B in Q; [|discriminate].
        destruct (addr_eq_dec _ _) as [<-|]; [|discriminate]. apply andb_true_iff in B. destruct B as [B1 B2]. apply negb_true_iff in B1. auto. }
      destruct Qp as (Q1 & Q2). destruct (filter (pays_item a) tr) as [|e l] eqn:F.
      * cbn. repeat split; [lia| |auto]. intros C. rewrite (released_kept _ _ _ _ _ Hr R C) in Q1. discriminate.
      * rewrite K in Q1 by discriminate. discriminate.
    + split; [exact L|]. split; [exact Z0|]. intros C. eapply released_kept; [exact Hrs| |exact (K C)]. eapply run_step; [constructor|exact E].
Qed.

(** ** C39: no payout before the scheduled time *)
Lemma payout_time H s0 tr s e a : initial s0 -> run H s0 tr s -> In e tr -> payout e = Some a ->
  exists e1 p ch tm c m it t, In e1 tr /\ approves H e1 a p ch tm c m it t /\ t <= st_now (e_pre e).
Proof.
  intros Hini R Hin Hp. assert (Hr0 : reachable H s0) by (exists s0, []; split; [exact Hini|constructor]).
  destruct (payout_pays _ _ _ _ _ _ Hr0 R Hin Hp) as (md & x & r & c & it & m & Ei & Ea & P).
  destruct (In_split_run _ _ _ _ _ R Hin) as (tr2 & tr1 & -> & R1 & Es & _).
  pose proof (py_item _ _ _ _ _ _ _ P) as Hd. rewrite Ea in Hd. destruct (py_due _ _ _ _ _ _ _ P) as (t & Et & Hle).
  destruct (approved_by _ _ _ _ _ _ Hini R1 Hd) as (tr3 & e1 & tr4 & p & ch & tm & c1 & m1 & it1 & t1 & -> & A & D); [congruence|].
  exists e1, p, ch, tm, c1, m1, it1, t1. split; [apply in_or_app; right; right; apply in_or_app; right; left; reflexivity|]. split; [exact A|].
  destruct D as [D|D]; rewrite Et in D; inversion D; subst; exact Hle.
Qed.

(** ** C41 *)
Lemma enabled_grows H s cl s' c : reachable H s -> step H s cl = Ok s' -> config_at s pda_config c ->
  exists c', config_at s' pda_config c' /\ cf_threshold c' = cf_threshold c /\ forall i, Z.testbit (cf_enabled c) i = true -> Z.testbit (cf_enabled c') i = true.
Proof.
  intros Hr Hs Hc. pose proof (reachable_inv _ _ Hr) as Hi. destruct (config_step _ _ _ _ _ Hi Hs Hc) as (c' & Hc' & [->|K]); [exists c; auto|].
  exists c'. split; [exact Hc'|]. pose proof (cfg_change_same _ _ _ _ _ K) as Sm. split; [apply Sm|].
  destruct (cfg_change_next _ _ _ _ _ K) as [(_ & ->)|(o & p & en & _ & -> & Hb & _)]; [auto|]. cbn. intros i Hi0.
  pose proof (co_next _ _ (inv_config _ Hi _ Hc)). unfold bm_set in Hb. destruct (BITS <=? cf_next c); [discriminate|]. apply Ok_inj in Hb. subst en.
  assert (0 <= i) by (destruct i; [lia|lia|discriminate]). rewrite Z.setbit_eqb by lia. rewrite Hi0. apply orb_true_r.
Qed.

Lemma both_grows v e v' e' : (forall i, Z.testbit v i = true -> Z.testbit v' i = true) -> (forall i, Z.testbit e i = true -> Z.testbit e' i = true) ->
  (length (both v e) <= length (both v' e'))%nat.
Proof.
  intros Hv He. apply NoDup_incl_length; [apply both_NoDup|]. intros i Hin. rewrite both_iff in *. destruct Hin as (A & B & C). auto.
Qed.

Lemma approved_enough H s : reachable H s -> forall a it, inbox_at s a it -> exists c, config_at s pda_config c /\
  (ib_status it <> NotApproved -> cf_threshold c <= Z.of_nat (length (both (ib_votes it) (cf_enabled c)))).
Proof.
  revert s. apply (reach_ind H (fun s => forall a it, inbox_at s a it -> exists c, config_at s pda_config c /\ (ib_status it <> NotApproved -> cf_threshold c <= Z.of_nat (length (both (ib_votes it) (cf_enabled c)))))).
  - intros s Hini a it Hd. exfalso. destruct (ini_accts _ Hini _ _ Hd) as (_ & C & _). discriminate.
  - intros s cl s' Hr IH E a it Hd. pose proof (reachable_inv _ _ Hr) as Hi. assert (Hr' : reachable H s') by (eapply step_reachable; eassumption).
    assert (Hred : forall x p ch tm c rt pe m b, redeemed H s x s' p ch tm c rt pe m b it -> (forall it0, b = Some it0 -> inbox_at s a it0) ->
      exists c, config_at s' pda_config c /\ (ib_status it <> NotApproved -> cf_threshold c <= Z.of_nat (length (both (ib_votes it) (cf_enabled c))))).
    { intros x p ch tm c rt pe m b Rd Hb. pose proof (rd_delivers _ _ _ _ _ _ _ _ _ _ _ _ _ Rd) as D. pose proof (dl_config _ _ _ _ _ _ _ _ D) as Hc.
      rewrite (config_addr _ _ _ Hi Hc) in Hc. destruct (enabled_grows _ _ _ _ _ Hr E Hc) as (c' & Hc' & Ht & He). exists c'. split; [exact Hc'|]. intros Hst. rewrite Ht.
      destruct (rd_status _ _ _ _ _ _ _ _ _ _ _ _ _ Rd) as [(Hlt & K & _)|(Hge & _)]; cbv zeta in *.
      - exfalso. destruct b as [it0|]; [|congruence]. destruct (IH _ _ (Hb _ eq_refl)) as (c0 & Hc0 & Q). unfold config_at in *. assert (c0 = c) by congruence. subst c0.
        specialize (Q ltac:(congruence)). pose proof (both_grows (ib_votes it0) (cf_enabled c) (ib_votes it) (cf_enabled c)) as G.
        rewrite (rd_votes _ _ _ _ _ _ _ _ _ _ _ _ _ Rd) in *. assert (0 <= rt_id rt) by (apply (reg_id _ _ _ Hi (dl_reg _ _ _ _ _ _ _ _ D))).
        enough (length (both (ib_votes it0) (cf_enabled c)) <= length (both (Z.setbit (ib_votes it0) (rt_id rt)) (cf_enabled c)))%nat by lia. apply G; [|auto].
        intros i Hi0. assert (0 <= i) by (destruct i; [lia|lia|discriminate]). rewrite Z.setbit_eqb by lia. rewrite Hi0. apply orb_true_r.
      - pose proof (both_grows (ib_votes it) (cf_enabled c) (ib_votes it) (cf_enabled c') (fun _ q => q) He). lia. }
    assert (Hold : forall it0, inbox_at s a it0 -> ib_votes it = ib_votes it0 -> (ib_status it <> NotApproved -> ib_status it0 <> NotApproved) ->
      exists c, config_at s' pda_config c /\ (ib_status it <> NotApproved -> cf_threshold c <= Z.of_nat (length (both (ib_votes it) (cf_enabled c))))).
    { intros it0 E0 Ev0 Es0. destruct (IH _ _ E0) as (c & Hc & Q). destruct (enabled_grows _ _ _ _ _ Hr E Hc) as (c' & Hc' & Ht & He). exists c'. split; [exact Hc'|].
      intros Hst. specialize (Q (Es0 Hst)). rewrite Ht, Ev0. pose proof (both_grows (ib_votes it0) (cf_enabled c) (ib_votes it0) (cf_enabled c') (fun _ q => q) He). lia. }
    destruct (inbox_dec s a Hi (proj1 (item_addr _ _ _ (reachable_inv _ _ Hr') Hd))) as [N|(it0 & E0)].
    + destruct (inbox_made _ _ _ _ _ _ Hr E N Hd) as (x & p & ch & tm & c & rt & pe & m & Ei & Ea & Rd). eapply Hred; [exact Rd|discriminate].
    + destruct (inbox_step _ _ _ _ _ _ Hr E E0) as [Q|[(x & p & ch & tm & c & rt & pe & m & af & Ei & Ea & Rd)|(md & x & r & c & m & t & _ & _ & _ & Hs & _ & E1)]].
      * unfold inbox_at in *. assert (it = it0) by congruence. subst. eauto.
      * pose proof (rd_after _ _ _ _ _ _ _ _ _ _ _ _ _ Rd) as A. rewrite <- Ea in A. unfold inbox_at in A, Hd. assert (af = it) by congruence. subst af.
        eapply Hred; [exact Rd|]. intros it1 Q. apply Some_inj in Q. subst. exact E0.
      * unfold inbox_at in *. assert (it = set_status it0 Released) by congruence. subst. apply (Hold _ E0); [reflexivity|congruence].
Qed.

Lemma redeem_again H s sg x p ch tm it : reachable H s -> st_accts s (ra_message x) = Some (Acct p (DVtm ch tm)) -> inbox_at s (item_of H ch (tm_msg tm)) it ->
  ib_status it <> NotApproved -> ~ succeeds (step H s (Call sg (IRedeem x))).
Proof.
  intros Hr Hm Hd Hst (s' & Hs). pose proof (reachable_inv _ _ Hr) as Hi.
  destruct (redeem_exact _ _ _ _ _ Hr Hs) as (p' & ch' & tm' & c & rt & pe & m & b & af & Rd).
  pose proof (rd_delivers _ _ _ _ _ _ _ _ _ _ _ _ _ Rd) as D. pose proof (dl_message _ _ _ _ _ _ _ _ D) as Hm'. rewrite Hm in Hm'. inversion Hm'; subst p' ch' tm'.
  pose proof (rd_before _ _ _ _ _ _ _ _ _ _ _ _ _ Rd) as B. destruct b as [it0|]; [|unfold inbox_at in Hd; congruence]. unfold inbox_at in B, Hd. assert (it0 = it) by congruence. subst it0.
  destruct (rd_status _ _ _ _ _ _ _ _ _ _ _ _ _ Rd) as [(Hlt & K & _)|(_ & K & _)]; cbv zeta in *; [|congruence].
  destruct (approved_enough _ _ Hr _ _ Hd) as (c0 & Hc0 & Q). specialize (Q Hst). pose proof (dl_config _ _ _ _ _ _ _ _ D) as Hc.
  destruct (config_one _ _ _ _ _ _ Hr Hc Hc0) as (_ & <-).
  pose proof (both_grows (ib_votes it) (cf_enabled c) (ib_votes af) (cf_enabled c)) as G.
  rewrite (rd_votes _ _ _ _ _ _ _ _ _ _ _ _ _ Rd) in *. assert (0 <= rt_id rt) by (apply (reg_id _ _ _ Hi (dl_reg _ _ _ _ _ _ _ _ D))).
  enough (length (both (ib_votes it) (cf_enabled c)) <= length (both (Z.setbit (ib_votes it) (rt_id rt)) (cf_enabled c)))%nat by lia. apply G; [|auto].
  intros i Hi0. assert (0 <= i) by (destruct i; [lia|lia|discriminate]). rewrite Z.setbit_eqb by lia. rewrite Hi0. apply orb_true_r.
Qed.

(** The threshold is one in every deployment: nothing sets it after initialization. *)
Lemma threshold_one H s a c : reachable H s -> config_at s a c -> cf_threshold c = 1.
Proof.
  revert s a c. enough (forall s, reachable H s -> forall a c, config_at s a c -> cf_threshold c = 1) by eauto.
  apply (reach_ind H (fun s => forall a c, config_at s a c -> cf_threshold c = 1)).
  - intros s Hini a c Hd. exfalso. destruct (ini_accts _ Hini _ _ Hd) as (_ & C & _). discriminate.
  - intros s cl s' Hr IH E a c Hd. pose proof (reachable_inv _ _ Hr) as Hi. assert (Hr' : reachable H s') by (eapply step_reachable; eassumption).
    pose proof (config_addr _ _ _ (reachable_inv _ _ Hr') Hd). subst a. destruct (config_dec _ Hi) as [N|(c0 & E0)].
    + destruct (config_new _ _ _ _ _ E N Hd) as (d & mnt & tp & ch & l & md & mt & _ & -> & _). reflexivity.
    + destruct (enabled_grows _ _ _ _ _ Hr E E0) as (c' & Hc' & Ht & _). unfold config_at in *. assert (c' = c) by congruence. subst. rewrite Ht. eauto.
Qed.

(** ** The delay of a payout *)
Lemma payout_delay H s0 tr s e a : initial s0 -> run H s0 tr s -> In e tr -> payout e = Some a ->
  exists tr3 tr2 tr1 e1 p ch tm c m it t irl, tr = tr3 ++ e :: tr2 ++ e1 :: tr1 /\ approves H e1 a p ch tm c m it t /\ t <= st_now (e_pre e) /\
    in_limiter (e_pre e1) ch irl /\
    (local_amount m (tm_msg tm) <= capacity irl (st_now (e_pre e1)) /\ t = st_now (e_pre e1) \/
     capacity irl (st_now (e_pre e1)) < local_amount m (tm_msg tm) /\ t = st_now (e_pre e1) + day).
Proof.
  intros Hini R Hin Hp. assert (Hr0 : reachable H s0) by (exists s0, []; split; [exact Hini|constructor]).
  destruct (payout_pays _ _ _ _ _ _ Hr0 R Hin Hp) as (md & x & r & c & it & m & Ei & Ea & P).
  destruct (In_split_run _ _ _ _ _ R Hin) as (tr2 & tr1 & -> & R1 & Es & _).
  pose proof (py_item _ _ _ _ _ _ _ P) as Hd. rewrite Ea in Hd. destruct (py_due _ _ _ _ _ _ _ P) as (t & Et & Hle).
  destruct (approved_by _ _ _ _ _ _ Hini R1 Hd) as (tr3 & e1 & tr4 & p & ch & tm & c1 & m1 & it1 & t1 & -> & A & D); [congruence|].
  pose proof A as (y & rt & pe & b & _ & Eit & Rd & _ & Ns & Est).
  assert (t1 = t) by (destruct D as [D|D]; rewrite Et in D; now inversion D). subst t1.
  destruct (rd_status _ _ _ _ _ _ _ _ _ _ _ _ _ Rd) as [(_ & K & _)|(_ & _ & irl & orl & irl' & orl' & t' & E1 & I1 & _ & _ & _ & K1 & K2 & _)].
  { exfalso. cbv zeta in K. rewrite Est in K. pose proof (rd_before _ _ _ _ _ _ _ _ _ _ _ _ _ Rd) as B. destruct b as [i0|]; [|discriminate].
    rewrite Eit in B. apply (Ns t). now rewrite (status_inbox _ _ _ B), <- K. }
  assert (t' = t) by congruence. subst t'. exists tr2, tr3, tr4, e1, p, ch, tm, c1, m1, it1, t, irl. split; [reflexivity|]. split; [exact A|]. split; [exact Hle|]. split; [exact I1|].
  destruct (Z_le_gt_dec (local_amount m1 (tm_msg tm)) (capacity irl (st_now (e_pre e1)))) as [L|L]; [left|right; apply Z.gt_lt in L]; (split; [exact L|]); [apply K1 in L|apply K2 in L]; tauto.
Qed.

(** ** C40: the message behind a payout *)
Lemma payout_message H s0 tr s e a : initial s0 -> run H s0 tr s -> In e tr -> payout e = Some a ->
  exists md x r c it m e1 p ch nm, ins (e_call e) = (match md with Locking => IReleaseUnlock x r | Burning => IReleaseMint x r end) /\ la_item x = a /\
    pays (e_pre e) x md (e_post e) c it m /\ In e1 tr /\ delivery e1 p ch nm /\ item_of H ch nm = a /\
    ib_recipient it = nm_to nm /\ ib_amount it = local_amount m nm /\
    (no_collision H tr -> forall e' p' ch' nm', In e' tr -> delivery e' p' ch' nm' -> item_of H ch' nm' = a -> ch' = ch /\ nm' = nm).
Proof.
  intros Hini R Hin Hp. assert (Hr0 : reachable H s0) by (exists s0, []; split; [exact Hini|constructor]).
  destruct (payout_pays _ _ _ _ _ _ Hr0 R Hin Hp) as (md & x & r & c & it & m & Ei & Ea & P).
  destruct (In_split_run _ _ _ _ _ R Hin) as (tr2 & tr1 & -> & R1 & Es & _).
  assert (Hr1 : reachable H (e_pre e)) by (exists s0, tr1; auto).
  pose proof (py_item _ _ _ _ _ _ _ P) as Hd. rewrite Ea in Hd. pose proof (py_config _ _ _ _ _ _ _ P) as Hc.
  pose proof (config_addr _ _ _ (reachable_inv _ _ Hr1) Hc) as Eca. rewrite Eca in Hc.
  destruct (item_message _ _ _ _ _ _ _ _ Hini R1 Hd Hc (py_mint _ _ _ _ _ _ _ P)) as (e1 & p & ch & nm & Hin1 & D1 & Eit & E1 & E2 & _).
  exists md, x, r, c, it, m, e1, p, ch, nm. split; [exact Ei|]. split; [exact Ea|]. split; [exact P|].
  assert (Hin1' : In e1 (tr2 ++ e :: tr1)) by (apply in_or_app; right; right; exact Hin1).
  repeat (split; [assumption|]). intros NC e' p' ch' nm' Hin' D' Eit'. rewrite <- Eit in Eit'. unfold item_of in Eit'. apply inbox_inj in Eit'.
  exact (NC _ _ _ _ _ _ _ _ Hin' Hin1' D' D1 Eit').
Qed.

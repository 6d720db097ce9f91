(** * Proofs about the rate limiter. *)
From Verif Require Import Base RateLimit SpecRate.
Local Open Scope Z_scope.

Lemma plain_ok max z : 0 <= z <= max -> plain max z = Ok z.
Proof.
  intros H. unfold plain, checked. destruct (0 <=? z) eqn:E1, (z <=? max) eqn:E2; cbn; try reflexivity; lia.
Qed.

Lemma plain_inv max z x : plain max z = Ok x -> x = z /\ 0 <= z <= max.
Proof.
  unfold plain, checked. destruct (0 <=? z) eqn:E1, (z <=? max) eqn:E2; cbn; intros H; try discriminate.
  injection H as <-. lia.
Qed.

Lemma plain_i64_ok z : is_i64 z -> plain_i64 z = Ok z.
Proof.
  intros H. unfold plain_i64, is_i64 in *.
  destruct (i64_min <=? z) eqn:E1, (z <=? i64_max) eqn:E2; cbn; try reflexivity; lia.
Qed.

Lemma plain_i64_inv z x : plain_i64 z = Ok x -> x = z /\ is_i64 z.
Proof.
  unfold plain_i64, is_i64. destruct (i64_min <=? z) eqn:E1, (z <=? i64_max) eqn:E2; cbn; intros H; try discriminate.
  injection H as <-. lia.
Qed.

(** The capacity formula, for every representable clock. *)
Lemma capacity_exact r now :
  wf_rl r -> rl_last r <= now <= i64_max ->
  capacity_at r now = Ok (Z.min (rl_cap r + (now - rl_last r) * rl_limit r / day) (rl_limit r)).
Proof.
  intros (Hl & Hc & Ht) Hn. unfold capacity_at.
  unfold require. destruct (rl_last r <=? now) eqn:E; [|lia]. cbn [bind].
  rewrite plain_i64_ok by ilia. cbn [bind].
  assert (Hp : 0 <= (now - rl_last r) * rl_limit r <= 9223372036854775807 * 18446744073709551615).
  { ints. split; [nia|]. apply Z.mul_le_mono_nonneg; lia. }
  rewrite plain_ok by (unfold u128_max; lia). cbn [bind].
  unfold RATE_LIMIT_DURATION. change (60 * 60 * 24) with day.
  assert (Hq : 0 <= (now - rl_last r) * rl_limit r / day <= 9223372036854775807 * 18446744073709551615).
  { unfold day. split; [apply Z.div_pos; lia|]. apply Z.div_le_upper_bound; lia. }
  rewrite plain_ok by (unfold u128_max; ints; lia). reflexivity.
Qed.

Lemma capacity_backwards r now : now < rl_last r -> capacity_at r now = Err Panic.
Proof. intros H. unfold capacity_at, require. destruct (rl_last r <=? now) eqn:E; [lia|reflexivity]. Qed.

Lemma capacity_range r now c :
  wf_rl r -> is_i64 now -> capacity_at r now = Ok c -> 0 <= c <= rl_limit r /\ rl_cap r <= c /\ rl_last r <= now.
Proof.
  intros Hwf Hn H.
  assert (Hle : rl_last r <= now).
  { destruct (Z_le_gt_dec (rl_last r) now); [assumption|]. rewrite capacity_backwards in H by lia. discriminate. }
  rewrite capacity_exact in H by (try assumption; ilia). injection H as <-.
  destruct Hwf as (Hl & Hc & Ht).
  assert (0 <= (now - rl_last r) * rl_limit r / day) by (unfold day; apply Z.div_pos; ints; nia).
  ilia.
Qed.

Lemma capacity_mono r t1 t2 c1 :
  wf_rl r -> t1 <= t2 <= i64_max -> is_i64 t1 -> capacity_at r t1 = Ok c1 ->
  exists c2, capacity_at r t2 = Ok c2 /\ c1 <= c2.
Proof.
  intros Hwf Ht Hi H. destruct (capacity_range _ _ _ Hwf Hi H) as (_ & _ & Hle).
  rewrite capacity_exact in H by (try assumption; ilia). injection H as <-.
  exists (Z.min (rl_cap r + (t2 - rl_last r) * rl_limit r / day) (rl_limit r)).
  split; [apply capacity_exact; [assumption|lia]|].
  assert ((t1 - rl_last r) * rl_limit r / day <= (t2 - rl_last r) * rl_limit r / day); [|lia].
  unfold day. destruct Hwf as (Hl & _). apply Z.div_le_mono; ints; nia.
Qed.

Lemma capacity_full r now :
  wf_rl r -> rl_last r + day <= now <= i64_max -> capacity_at r now = Ok (rl_limit r).
Proof.
  intros Hwf H. rewrite capacity_exact by (try assumption; unfold day in *; lia). f_equal.
  destruct Hwf as (Hl & Hc & Ht).
  assert (rl_limit r <= (now - rl_last r) * rl_limit r / day); [|lia].
  unfold day in *. apply Z.div_le_lower_bound; ints; nia.
Qed.

(** ** Single operations *)
Lemma consume_exact r now amount c :
  wf_rl r -> is_i64 now -> now <= i64_max - day -> is_u64 amount -> capacity_at r now = Ok c ->
  consume_or_delay r now amount =
    Ok (if amount <=? c then (RL (rl_limit r) (c - amount) now, Consumed now) else (r, Delayed (now + day))).
Proof.
  intros Hwf Hn Hd Ha Hc. unfold consume_or_delay. rewrite Hc. cbn [bind].
  destruct (amount <=? c); [reflexivity|].
  unfold RATE_LIMIT_DURATION. change (60 * 60 * 24) with day.
  rewrite plain_i64_ok by (unfold day in *; ilia). reflexivity.
Qed.

Lemma consume_consumed_inv r now amount r' t :
  consume_or_delay r now amount = Ok (r', Consumed t) ->
  exists c, capacity_at r now = Ok c /\ amount <= c /\ t = now /\ r' = RL (rl_limit r) (c - amount) now.
Proof.
  unfold consume_or_delay. destruct (capacity_at r now) as [c|]; cbn [bind]; [|discriminate].
  destruct (amount <=? c) eqn:E.
  - intros H. injection H as <- <-. exists c. repeat split; lia.
  - destruct (plain_i64 _); cbn; intros H; [|discriminate]. congruence.
Qed.

Lemma consume_delayed_inv r now amount r' t :
  consume_or_delay r now amount = Ok (r', Delayed t) ->
  exists c, capacity_at r now = Ok c /\ c < amount /\ t = now + day /\ r' = r.
Proof.
  unfold consume_or_delay. destruct (capacity_at r now) as [c|]; cbn [bind]; [|discriminate].
  destruct (amount <=? c) eqn:E; [congruence|].
  destruct (plain_i64 (now + RATE_LIMIT_DURATION)) as [x|] eqn:E2; cbn; intros H; [|discriminate].
  injection H as <- <-. apply plain_i64_inv in E2 as [-> _]. exists c. repeat split; lia.
Qed.

Lemma refill_exact r now amount c :
  wf_rl r -> is_i64 now -> is_u64 amount -> capacity_at r now = Ok c ->
  refill r now amount = Ok (RL (rl_limit r) (Z.min (c + amount) (rl_limit r)) now).
Proof.
  intros Hwf Hn Ha Hc. pose proof (capacity_range _ _ _ Hwf Hn Hc) as (Hr & _).
  unfold refill. rewrite Hc. cbn [bind]. unfold sat_add. do 2 f_equal.
  destruct Hwf as (Hl & _). ilia.
Qed.

Lemma refill_inv r now amount r' :
  refill r now amount = Ok r' -> exists c, capacity_at r now = Ok c /\
  r' = RL (rl_limit r) (Z.min (sat_add u64_max c amount) (rl_limit r)) now.
Proof.
  unfold refill. destruct (capacity_at r now) as [c|]; cbn; intros H; [|discriminate].
  injection H as <-. eauto.
Qed.

Lemma set_limit_exact r now l c :
  wf_rl r -> is_i64 now -> is_u64 l -> capacity_at r now = Ok c ->
  set_limit r now l = Ok (RL l (Z.max 0 (c + (l - rl_limit r))) now).
Proof.
  intros Hwf Hn Hl Hc. pose proof (capacity_range _ _ _ Hwf Hn Hc) as (Hr & _).
  unfold set_limit. rewrite Hc. cbn [bind]. unfold sat_add, sat_sub. do 2 f_equal.
  destruct Hwf as (Hl' & _). destruct (l <? rl_limit r) eqn:E; ilia.
Qed.

Lemma set_limit_inv r now l r' :
  set_limit r now l = Ok r' -> exists c, capacity_at r now = Ok c /\ rl_limit r' = l /\ rl_last r' = now.
Proof.
  unfold set_limit. destruct (capacity_at r now) as [c|]; cbn; intros H; [|discriminate].
  injection H as <-. eauto.
Qed.

Lemma capacity_at_ok_le r now c : capacity_at r now = Ok c -> rl_last r <= now.
Proof.
  intros H. destruct (Z_le_gt_dec (rl_last r) now); [assumption|].
  rewrite capacity_backwards in H by lia. discriminate.
Qed.

(** ** Well-formedness is kept by every operation. *)
Lemma rl_new_wf limit : is_u64 limit -> wf_rl (rl_new limit).
Proof. intros H. unfold wf_rl, rl_new; cbn. ilia. Qed.

Lemma consume_wf r now amount r' o :
  wf_rl r -> is_i64 now -> is_u64 amount -> consume_or_delay r now amount = Ok (r', o) -> wf_rl r'.
Proof.
  intros Hwf Hn Ha H. destruct o as [t|t].
  - apply consume_consumed_inv in H as (c & Hc & Hle & -> & ->).
    pose proof (capacity_range _ _ _ Hwf Hn Hc). destruct Hwf as (Hl & ? & ?).
    unfold wf_rl; cbn. ilia.
  - apply consume_delayed_inv in H as (c & _ & _ & _ & ->). assumption.
Qed.

Lemma refill_wf r now amount r' :
  wf_rl r -> is_i64 now -> is_u64 amount -> refill r now amount = Ok r' -> wf_rl r'.
Proof.
  intros Hwf Hn Ha H. apply refill_inv in H as (c & Hc & ->).
  pose proof (capacity_range _ _ _ Hwf Hn Hc). destruct Hwf as (Hl & ? & ?).
  unfold wf_rl, sat_add; cbn. ilia.
Qed.

Lemma set_limit_wf r now l r' :
  wf_rl r -> is_i64 now -> is_u64 l -> set_limit r now l = Ok r' -> wf_rl r'.
Proof.
  intros Hwf Hn Hl H. destruct (set_limit_inv _ _ _ _ H) as (c & Hc & _).
  rewrite (set_limit_exact _ _ _ _ Hwf Hn Hl Hc) in H. injection H as <-.
  pose proof (capacity_range _ _ _ Hwf Hn Hc). destruct Hwf as (? & ? & ?).
  unfold wf_rl; cbn. ilia.
Qed.

Lemma rl_after_wf r o : wf_rl r -> op_wf o -> wf_rl (rl_after r o).
Proof.
  intros Hwf Ho. destruct o as [t a|t a|t l]; cbn in *; destruct Ho as [Ht Ha].
  - destruct (consume_or_delay r t a) as [[r' o]|] eqn:E; [|assumption]. eapply consume_wf; eassumption.
  - destruct (refill r t a) as [r'|] eqn:E; [|assumption]. eapply refill_wf; eassumption.
  - destruct (set_limit r t l) as [r'|] eqn:E; [|assumption]. eapply set_limit_wf; eassumption.
Qed.

Lemma rl_run_wf os : forall r, wf_rl r -> Forall op_wf os -> wf_rl (rl_run r os).
Proof.
  induction os as [|o os IH]; intros r Hwf Ho; [exact Hwf|].
  inversion Ho as [|? ? H1 H2]; subst. cbn. apply IH; [|assumption]. now apply rl_after_wf.
Qed.

(** ** Throughput: potential argument, rounding-free. *)
Definition level (r : rl) (now : Z) : Z := Z.min (rl_cap r * day + (now - rl_last r) * rl_limit r) (rl_limit r * day).

Lemma capacity_le_level r now c :
  wf_rl r -> is_i64 now -> capacity_at r now = Ok c -> c * day <= level r now /\ level r now < (c + 1) * day.
Proof.
  intros Hwf Hn Hc. pose proof (capacity_at_ok_le _ _ _ Hc) as Hle.
  rewrite capacity_exact in Hc by (try assumption; ilia). injection Hc as <-.
  unfold level. set (x := (now - rl_last r) * rl_limit r).
  assert (Hx : day * (x / day) <= x < day * (x / day) + day).
  { pose proof (Z.mul_div_le x day). pose proof (Z.mul_succ_div_gt x day). unfold day in *. lia. }
  unfold day in *. lia.
Qed.

Lemma level_grow r t1 t2 L :
  t1 <= t2 -> 0 <= rl_limit r <= L -> level r t2 <= level r t1 + (t2 - t1) * L.
Proof. intros Ht Hl. unfold level. nia. Qed.

Lemma throughput L t0 t1 os : forall r,
  wf_rl r -> Forall op_wf os -> Forall (fun o => t0 <= op_time o <= t1) os -> t0 <= t1 ->
  limits_below L r os ->
  let start := Z.max t0 (rl_last r) in
  start <= t1 ->
  total taken r os * day <=
    level r start + (t1 - start) * L + (total put_back r os + total raised r os) * day.
Proof.
  induction os as [|o os IH]; intros r Hwf Hos Htm Ht HL start Hstart; cbv zeta in *.
  - cbn [total]. cbn in HL. destruct HL as [HL _].
    assert (0 <= level r start).
    { unfold level. destruct Hwf as (Hl & Hc & Hlast). unfold day. subst start. ints. nia. }
    destruct Hwf as (Hl & _). ints. nia.
  - inversion Hos as [|? ? Ho Hos']; subst. inversion Htm as [|? ? Hto Htm']; subst.
    cbn [limits_below] in HL. destruct HL as [HL0 HL].
    cbn [total].
    assert (Hwf' := rl_after_wf _ _ Hwf Ho).
    (* either nothing changed, or the operation succeeded at its time *)
    assert (Hcase : (rl_after r o = r /\ taken r o = 0 /\ 0 <= put_back r o) \/
                    (rl_last (rl_after r o) = op_time o /\ start <= op_time o /\
                     level (rl_after r o) (op_time o) + taken r o * day
                       <= level r (op_time o) + (put_back r o + raised r o) * day)).
    { destruct Hwf as (Hwl & Hwc & Hwt). pose proof (conj Hwl (conj Hwc Hwt)) as Hwf.
      destruct o as [t a|t a|t l]; cbn [op_time op_wf] in *; destruct Ho as [Hti Hai].
      - destruct (consume_or_delay r t a) as [[r' [t'|t']]|] eqn:E.
        + right. pose proof (consume_consumed_inv _ _ _ _ _ E) as (c & Hc & Hac & -> & ->).
          cbn [rl_after taken put_back]. unfold raised. cbn [rl_after]. rewrite E. cbn [rl_last].
          pose proof (capacity_le_level _ _ _ Hwf Hti Hc) as [Hlv _].
          pose proof (capacity_at_ok_le _ _ _ Hc).
          split; [reflexivity|]. split; [lia|].
          unfold level at 1; cbn [rl_cap rl_last rl_limit]. rewrite Z.sub_diag.
          unfold day in *. lia.
        + left. pose proof (consume_delayed_inv _ _ _ _ _ E) as (c & Hc & Hac & _ & ->).
          cbn [rl_after taken put_back]. rewrite E. split; [reflexivity|]. split; [reflexivity|lia].
        + left. cbn [rl_after taken put_back]. rewrite E. split; [reflexivity|]. split; [reflexivity|lia].
      - destruct (refill r t a) as [r'|] eqn:E.
        + right. pose proof (refill_inv _ _ _ _ E) as (c & Hc & ->).
          cbn [rl_after taken put_back]. unfold raised. cbn [rl_after]. rewrite E. cbn [rl_last].
          pose proof (capacity_le_level _ _ _ Hwf Hti Hc) as [Hlv _].
          pose proof (capacity_at_ok_le _ _ _ Hc).
          split; [reflexivity|]. split; [lia|].
          unfold level at 1; cbn [rl_cap rl_last rl_limit]. rewrite Z.sub_diag.
          unfold sat_add, day in *. lia.
        + left. cbn [rl_after taken put_back]. rewrite E. split; [reflexivity|]. split; [reflexivity|lia].
      - destruct (set_limit r t l) as [r'|] eqn:E.
        + right. pose proof (set_limit_inv _ _ _ _ E) as (c & Hc & _).
          rewrite (set_limit_exact _ _ _ _ Hwf Hti Hai Hc) in E. injection E as <-.
          cbn [rl_after taken put_back]. unfold raised. cbn [rl_after].
          rewrite (set_limit_exact _ _ _ _ Hwf Hti Hai Hc). cbn [rl_last rl_limit].
          pose proof (capacity_le_level _ _ _ Hwf Hti Hc) as [Hlv _].
          pose proof (capacity_at_ok_le _ _ _ Hc).
          pose proof (capacity_range _ _ _ Hwf Hti Hc).
          split; [reflexivity|]. split; [lia|].
          unfold level at 1; cbn [rl_cap rl_last rl_limit]. rewrite Z.sub_diag.
          unfold day in *. lia.
        + left. cbn [rl_after taken put_back]. rewrite E. split; [reflexivity|]. split; [reflexivity|lia]. }
    destruct Hcase as [(He & Hk & Hp)|(Hlast & Hge & Hlev)].
    + assert (IHr := IH _ Hwf' Hos' Htm' Ht HL). cbv zeta in IHr. rewrite He in *.
      specialize (IHr Hstart). unfold raised at 1. rewrite He, Hk, Z.sub_diag.
      unfold day in *. fold start in IHr. lia.
    + assert (IHr := IH _ Hwf' Hos' Htm' Ht HL). cbv zeta in IHr. rewrite Hlast in IHr.
      assert (Hmx : Z.max t0 (op_time o) = op_time o) by lia. rewrite Hmx in IHr.
      specialize (IHr ltac:(lia)).
      assert (Hg := level_grow r start (op_time o) L Hge). destruct Hwf as (Hwl & _).
      specialize (Hg ltac:(ilia)).
      unfold day in *. nia.
Qed.

Lemma total_nonneg_raised os : forall r, 0 <= total raised r os.
Proof. induction os as [|o os IH]; intros r; cbn [total]; [lia|]. specialize (IH (rl_after r o)). pose proof (Z.le_max_l 0 (rl_limit (rl_after r o) - rl_limit r)). unfold raised at 1. lia. Qed.

(** Consumption only: the limit never moves and nothing is put back. *)
Lemma consume_only_limit r o : is_consume o = true -> rl_limit (rl_after r o) = rl_limit r.
Proof.
  destruct o as [t a| |]; try discriminate. intros _. cbn.
  destruct (consume_or_delay r t a) as [[r' [x|x]]|] eqn:E; [| |reflexivity].
  - apply consume_consumed_inv in E as (c & _ & _ & _ & ->). reflexivity.
  - apply consume_delayed_inv in E as (c & _ & _ & _ & ->). reflexivity.
Qed.

Lemma consume_only_totals os : forall r, forallb is_consume os = true ->
  total put_back r os = 0 /\ total raised r os = 0 /\ limits_below (rl_limit r) r os.
Proof.
  induction os as [|o os IH]; intros r H; cbn.
  - repeat split; lia.
  - cbn in H. apply andb_true_iff in H as [Ho H]. destruct (IH (rl_after r o) H) as (H1 & H2 & H3).
    rewrite H1, H2. pose proof (consume_only_limit r o Ho) as Hl. rewrite Hl in H3.
    unfold raised. rewrite Hl.
    destruct o; try discriminate. cbn [put_back].
    repeat split; try lia; assumption.
Qed.

Lemma throughput_const os r t0 t1 :
  wf_rl r -> Forall op_wf os -> Forall (fun o => t0 <= op_time o <= t1) os -> t0 <= t1 -> rl_last r <= t1 ->
  forallb is_consume os = true ->
  total taken r os * day <= rl_limit r * (day + (t1 - t0)).
Proof.
  intros Hwf Hos Htm Ht Hlast Hc. destruct (consume_only_totals os r Hc) as (Hp & Hr & HL).
  pose proof (throughput _ t0 t1 os r Hwf Hos Htm Ht HL) as H. cbv zeta in H.
  specialize (H ltac:(lia)). rewrite Hp, Hr in H.
  assert (level r (Z.max t0 (rl_last r)) <= rl_limit r * day) by (unfold level; lia).
  destruct Hwf as (Hl & _). ints. nia.
Qed.

Lemma throughput_day os r t0 :
  wf_rl r -> Forall op_wf os -> Forall (fun o => t0 <= op_time o <= t0 + day) os -> rl_last r <= t0 + day ->
  forallb is_consume os = true ->
  total taken r os <= 2 * rl_limit r.
Proof.
  intros Hwf Hos Htm Hlast Hc.
  pose proof (throughput_const os r t0 (t0 + day) Hwf Hos Htm ltac:(unfold day; lia) Hlast Hc) as H.
  unfold day in *. nia.
Qed.

(** ** Rounding: every operation forgets less than one unit of refill. *)
Lemma rounding_loss limit os : forall cap last content,
  is_u64 limit -> 0 <= cap <= limit -> 0 <= last <= i64_max ->
  forall E, 0 <= E -> content <= cap * day + E -> content <= limit * day ->
  forall r', all_consumed (RL limit cap last) os = Some r' ->
  Forall (fun x => is_i64 (fst x) /\ is_u64 (snd x)) os ->
  fst (ideal limit content last os) <= rl_cap r' * day + E + Z.of_nat (length os) * (day - 1).
Proof.
  induction os as [|[t a] os IH]; intros cap last content Hl Hc Ht E HE0 He Hcl r' H Hok.
  - cbn in *. injection H as <-. cbn. lia.
  - unfold all_consumed in H. cbn [fold_left fst snd] in H. inversion Hok as [|? ? [Hti Hai] Hok']; subst. cbn [fst snd] in *.
    assert (Hwf : wf_rl (RL limit cap last)) by (unfold wf_rl; cbn; auto).
    destruct (consume_or_delay (RL limit cap last) t a) as [[r1 [x|x]]|] eqn:Ec.
    2,3: exfalso; clear -H; induction os as [|y os IHos]; cbn in H; [discriminate|auto].
    pose proof (consume_consumed_inv _ _ _ _ _ Ec) as (c & Hcap & Hac & -> & ->). cbn [rl_limit] in *.
    pose proof (capacity_range _ _ _ Hwf Hti Hcap) as (Hcr & Hcc & Htl). cbn [rl_limit rl_cap rl_last] in *.
    pose proof (capacity_le_level _ _ _ Hwf Hti Hcap) as [_ Hlv]. unfold level in Hlv. cbn [rl_limit rl_cap rl_last] in Hlv.
    cbn [ideal].
    assert (Hai' : 0 <= a) by ilia.
    specialize (IH (c - a) t (Z.min (content + (t - last) * limit) (limit * day) - a * day) Hl
                   ltac:(lia) ltac:(ilia) (E + (day - 1)) ltac:(unfold day; lia)).
    set (x := (t - last) * limit) in *.
    assert (HE : Z.min (content + x) (limit * day) - a * day <= (c - a) * day + (E + (day - 1))).
    { unfold day in *. lia. }
    specialize (IH HE ltac:(unfold day in *; nia) r' H Hok').
    cbn [length]. rewrite Nat2Z.inj_succ. unfold day in *. lia.
Qed.

(** With a limit below 86400, an operation of amount zero every second keeps an empty limiter empty. *)
Lemma starvation limit n : 0 <= limit < day -> Z.of_nat n <= i64_max - 1 ->
  forall start, 0 <= start -> start + Z.of_nat n <= i64_max ->
  rl_run (RL limit 0 start) (map (fun k => OConsume (start + 1 + Z.of_nat k) 0) (seq 0 n))
  = RL limit 0 (start + Z.of_nat n).
Proof.
  intros Hl Hn. induction n as [|n IH]; intros start Hs Hb.
  - cbn. now rewrite Z.add_0_r.
  - rewrite seq_S, map_app. unfold rl_run. rewrite fold_left_app.
    fold (rl_run (RL limit 0 start) (map (fun k => OConsume (start + 1 + Z.of_nat k) 0) (seq 0 n))).
    rewrite IH by lia. cbn [map fold_left rl_after]. cbn [Nat.add].
    assert (Hwf : wf_rl (RL limit 0 (start + Z.of_nat n))) by (unfold wf_rl, day in *; cbn; ilia).
    assert (Hc : capacity_at (RL limit 0 (start + Z.of_nat n)) (start + 1 + Z.of_nat n) = Ok 0).
    { rewrite capacity_exact by (try assumption; cbn; ilia). cbn [rl_cap rl_last rl_limit].
      replace (start + 1 + Z.of_nat n - (start + Z.of_nat n)) with 1 by lia.
      rewrite Z.mul_1_l, Z.div_small by lia. f_equal. lia. }
    unfold consume_or_delay. rewrite Hc. cbn [bind rl_limit]. change (0 <=? 0) with true. cbv iota beta. rewrite Z.sub_0_r. f_equal. lia.
Qed.

Lemma rounding_loss_0 limit os cap last :
  is_u64 limit -> 0 <= cap <= limit -> 0 <= last <= i64_max ->
  Forall (fun x => is_i64 (fst x) /\ is_u64 (snd x)) os ->
  forall r', all_consumed (RL limit cap last) os = Some r' ->
  fst (ideal limit (cap * day) last os) <= rl_cap r' * day + Z.of_nat (length os) * (day - 1).
Proof.
  intros Hl Hc Ht Hok r' H.
  pose proof (rounding_loss limit os cap last (cap * day) Hl Hc Ht 0 ltac:(lia) ltac:(lia) ltac:(unfold day; lia) r' H Hok).
  lia.
Qed.

Lemma limiter_no_panic r now amount :
  wf_rl r -> rl_last r <= now <= i64_max - day -> is_u64 amount ->
  (exists c, capacity_at r now = Ok c) /\ (exists x, consume_or_delay r now amount = Ok x) /\
  (exists r', refill r now amount = Ok r') /\ (exists r', set_limit r now amount = Ok r').
Proof.
  intros Hwf Hn Ha.
  assert (Hc := capacity_exact r now Hwf ltac:(unfold day in *; lia)).
  assert (Hi : is_i64 now) by (destruct Hwf as (_ & _ & ?); unfold day in *; ilia).
  split; [eauto|]. split; [|split].
  - rewrite (consume_exact _ _ _ _ Hwf Hi ltac:(lia) Ha Hc). eauto.
  - rewrite (refill_exact _ _ _ _ Hwf Hi Ha Hc). eauto.
  - rewrite (set_limit_exact _ _ _ _ Hwf Hi Ha Hc). eauto.
Qed.

Lemma limiter_backwards r now amount :
  now < rl_last r ->
  capacity_at r now = Err Panic /\ consume_or_delay r now amount = Err Panic /\
  refill r now amount = Err Panic /\ set_limit r now amount = Err Panic.
Proof.
  intros H. pose proof (capacity_backwards r now H) as E.
  unfold consume_or_delay, refill, set_limit. rewrite E. auto.
Qed.

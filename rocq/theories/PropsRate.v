(** * Properties C17-C22 and C57: rate limiting. *)
From Verif Require Import Base RateLimit SpecRate RateLimitFacts.
Local Open Scope Z_scope.

(** C17. After any history of operations starting from a new limiter, the limiter is well formed; at any later time its
    capacity lies between 0 and the limit. *)
Theorem C17_capacity_in_range : forall limit os now c,
  is_u64 limit -> Forall op_wf os -> is_i64 now ->
  capacity_at (rl_run (rl_new limit) os) now = Ok c ->
  0 <= c <= rl_limit (rl_run (rl_new limit) os).
Proof.
  exact (fun limit os now c Hl Ho Hn Hc =>
    proj1 (capacity_range _ _ _ (rl_run_wf os _ (rl_new_wf limit Hl) Ho) Hn Hc)).
Qed.
Print Assumptions C17_capacity_in_range.
Example C17_case : capacity_at (rl_run (rl_new 1000) [OConsume 100 400; ORefill 110 50; OSetLimit 120 900]) 130 = Ok 550.
Proof. vm_compute. reflexivity. Qed.

(** C17. Waiting never reduces capacity. *)
Theorem C17_monotone : forall r t1 t2 c1,
  wf_rl r -> t1 <= t2 <= i64_max -> is_i64 t1 -> capacity_at r t1 = Ok c1 ->
  exists c2, capacity_at r t2 = Ok c2 /\ c1 <= c2.
Proof. exact capacity_mono. Qed.
Print Assumptions C17_monotone.
Example C17_mono_case : wf_rl (RL 1000 0 100) /\ capacity_at (RL 1000 0 100) 43300 = Ok 500 /\ capacity_at (RL 1000 0 100) 86000 = Ok 994.
Proof. split; [unfold wf_rl; cbn; ilia|]. split; vm_compute; reflexivity. Qed.

(** C17. A full day after the last operation the capacity is the limit. *)
Theorem C17_full_after_a_day : forall r now,
  wf_rl r -> rl_last r + day <= now <= i64_max -> capacity_at r now = Ok (rl_limit r).
Proof. exact capacity_full. Qed.
Print Assumptions C17_full_after_a_day.
Example C17_full_case : capacity_at (RL 1000 0 100) 86500 = Ok 1000. Proof. vm_compute. reflexivity. Qed.

(** C17. The refill is linear: capacity = min(old + elapsed * limit / 24h, limit). *)
Theorem C17_linear : forall r now,
  wf_rl r -> rl_last r <= now <= i64_max ->
  capacity_at r now = Ok (Z.min (rl_cap r + (now - rl_last r) * rl_limit r / day) (rl_limit r)).
Proof. exact capacity_exact. Qed.
Print Assumptions C17_linear.
Example C17_linear_case : capacity_at (RL u64_max 0 0) 43200 = Ok 9223372036854775807. Proof. vm_compute. reflexivity. Qed.

(** C18. Consumption is immediate exactly when the amount fits; otherwise delayed by 24h without change. *)
Theorem C18_consume_iff_fits : forall r now amount c,
  wf_rl r -> is_i64 now -> now <= i64_max - day -> is_u64 amount -> capacity_at r now = Ok c ->
  consume_or_delay r now amount =
    Ok (if amount <=? c then (RL (rl_limit r) (c - amount) now, Consumed now) else (r, Delayed (now + day))).
Proof. exact consume_exact. Qed.
Print Assumptions C18_consume_iff_fits.
Example C18_case : consume_or_delay (RL 1000 300 100) 100 300 = Ok (RL 1000 0 100, Consumed 100)
  /\ consume_or_delay (RL 1000 300 100) 100 301 = Ok (RL 1000 300 100, Delayed 86500).
Proof. split; vm_compute; reflexivity. Qed.

(** C19. Throughput over any history whose operations lie between [t0] and [t1], in any order, with limits at most
    [L]: everything taken immediately is covered by the level at the start (at most the limit), the pro-rata refill,
    opposite flow and limit increases. Amounts are scaled by [day] to avoid rounding. *)
Theorem C19_throughput : forall L t0 t1 os r,
  wf_rl r -> Forall op_wf os -> Forall (fun o => t0 <= op_time o <= t1) os -> t0 <= t1 ->
  limits_below L r os ->
  let start := Z.max t0 (rl_last r) in
  start <= t1 ->
  total taken r os * day <=
    Z.min (rl_cap r * day + (start - rl_last r) * rl_limit r) (rl_limit r * day)
    + (t1 - start) * L + (total put_back r os + total raised r os) * day.
Proof. exact throughput. Qed.
Print Assumptions C19_throughput.
Example C19_case :
  let os := [OConsume 10 600; ORefill 20 100; OSetLimit 30 2000; OConsume 43230 2000] in
  wf_rl (RL 1000 1000 0) /\ limits_below 2000 (RL 1000 1000 0) os /\ total taken (RL 1000 1000 0) os = 2600
  /\ total put_back (RL 1000 1000 0) os = 100 /\ total raised (RL 1000 1000 0) os = 1000.
Proof. cbv zeta. split; [unfold wf_rl; cbn; ilia|]. split; [vm_compute; intuition congruence|]. repeat split; vm_compute; reflexivity. Qed.

(** C19. Constant limit, no opposite flow. *)
Theorem C19_throughput_constant : forall os r t0 t1,
  wf_rl r -> Forall op_wf os -> Forall (fun o => t0 <= op_time o <= t1) os -> t0 <= t1 -> rl_last r <= t1 ->
  forallb is_consume os = true ->
  total taken r os * day <= rl_limit r * (day + (t1 - t0)).
Proof. exact throughput_const. Qed.
Print Assumptions C19_throughput_constant.

(** C19. At most twice the limit in any 24 hours; and this bound is reached. *)
Theorem C19_twice_per_day : forall os r t0,
  wf_rl r -> Forall op_wf os -> Forall (fun o => t0 <= op_time o <= t0 + day) os -> rl_last r <= t0 + day ->
  forallb is_consume os = true ->
  total taken r os <= 2 * rl_limit r.
Proof. exact throughput_day. Qed.
Print Assumptions C19_twice_per_day.
Example C19_twice_reached :
  total taken (RL 1000 1000 0) [OConsume 0 1000; OConsume 86400 1000] = 2000.
Proof. vm_compute. reflexivity. Qed.

(** C20. Opposite flow. *)
Theorem C20_refill_exact : forall r now amount c,
  wf_rl r -> is_i64 now -> is_u64 amount -> capacity_at r now = Ok c ->
  refill r now amount = Ok (RL (rl_limit r) (Z.min (c + amount) (rl_limit r)) now).
Proof. exact refill_exact. Qed.
Print Assumptions C20_refill_exact.
Example C20_case : refill (RL u64_max 10 5) 5 u64_max = Ok (RL u64_max u64_max 5)
  /\ refill (RL 1000 10 5) 5 30 = Ok (RL 1000 40 5).
Proof. split; vm_compute; reflexivity. Qed.

(** C21. A limit change shifts the capacity by the difference, saturating at 0 (it cannot exceed the new limit). *)
Theorem C21_set_limit_exact : forall r now l c,
  wf_rl r -> is_i64 now -> is_u64 l -> capacity_at r now = Ok c ->
  set_limit r now l = Ok (RL l (Z.max 0 (c + (l - rl_limit r))) now).
Proof. exact set_limit_exact. Qed.
Print Assumptions C21_set_limit_exact.
Example C21_case : set_limit (RL 1000 300 5) 5 1500 = Ok (RL 1500 800 5) /\ set_limit (RL 1000 300 5) 5 900 = Ok (RL 900 200 5).
Proof. split; vm_compute; reflexivity. Qed.

(** C21. The second half of the property, "changing the limit and changing it back leaves the capacity as it was", is
    false: lowering an exhausted limiter saturates at zero, raising it again hands out capacity. *)
Theorem C21_change_and_back_refuted : exists r now l r1 r2,
  wf_rl r /\ capacity_at r now = Ok 0 /\
  set_limit r now l = Ok r1 /\ set_limit r1 now (rl_limit r) = Ok r2 /\
  capacity_at r2 now = Ok (rl_limit r) /\ 0 < rl_limit r.
Proof.
  exists (RL 1000 0 5), 5, 0, (RL 0 0 5), (RL 1000 1000 5).
  split; [unfold wf_rl; cbn; ilia|]. repeat split; vm_compute; reflexivity.
Qed.
Print Assumptions C21_change_and_back_refuted.

(** C22. No overflow, no panic, for clocks from the last operation up to 2^63 - 86401; an earlier clock is refused. *)
Theorem C22_no_panic : forall r now amount,
  wf_rl r -> rl_last r <= now <= i64_max - day -> is_u64 amount ->
  (exists c, capacity_at r now = Ok c) /\ (exists x, consume_or_delay r now amount = Ok x) /\
  (exists r', refill r now amount = Ok r') /\ (exists r', set_limit r now amount = Ok r').
Proof. exact limiter_no_panic. Qed.
Print Assumptions C22_no_panic.
Example C22_case : wf_rl (RL u64_max u64_max 0) /\ capacity_at (RL u64_max u64_max 0) (i64_max - day) = Ok u64_max.
Proof. split; [unfold wf_rl; cbn; ilia|vm_compute; reflexivity]. Qed.

Theorem C22_clock_backwards_refused : forall r now amount,
  now < rl_last r ->
  capacity_at r now = Err Panic /\ consume_or_delay r now amount = Err Panic /\
  refill r now amount = Err Panic /\ set_limit r now amount = Err Panic.
Proof. exact limiter_backwards. Qed.
Print Assumptions C22_clock_backwards_refused.
Example C22_backwards_case : consume_or_delay (RL 10 10 100) 99 1 = Err Panic. Proof. reflexivity. Qed.

(** C57. Rounding. Each successful consumption forgets less than one unit of refill compared with the exact bucket. *)
Theorem C57_rounding_loss_bounded : forall limit os cap last,
  is_u64 limit -> 0 <= cap <= limit -> 0 <= last <= i64_max ->
  Forall (fun x => is_i64 (fst x) /\ is_u64 (snd x)) os ->
  forall r', all_consumed (RL limit cap last) os = Some r' ->
  fst (ideal limit (cap * day) last os) <= rl_cap r' * day + Z.of_nat (length os) * (day - 1).
Proof. exact rounding_loss_0. Qed.
Print Assumptions C57_rounding_loss_bounded.
Example C57_case : all_consumed (RL 1000 500 0) [(50, 100); (150, 0); (250, 7)] = Some (RL 1000 395 250)
  /\ ideal 1000 (500 * day) 0 [(50, 100); (150, 0); (250, 7)] = (34205200, 250).
Proof. split; vm_compute; reflexivity. Qed.

(** C57. With a limit below 86400 base units, one zero-amount operation per second keeps an empty limiter empty for
    ever. *)
Theorem C57_starvation : forall limit n start,
  0 <= limit < day -> Z.of_nat n <= i64_max - 1 -> 0 <= start -> start + Z.of_nat n <= i64_max ->
  rl_run (RL limit 0 start) (map (fun k => OConsume (start + 1 + Z.of_nat k) 0) (seq 0 n))
  = RL limit 0 (start + Z.of_nat n).
Proof. exact (fun limit n start Hl Hn => starvation limit n Hl Hn start). Qed.
Print Assumptions C57_starvation.

(** C57. So the full statement, "operations of amount zero never leave less capacity", is false. *)
Theorem C57_zero_operations_harmless_refuted : exists r os now c c',
  wf_rl r /\ Forall (fun o => exists t, o = OConsume t 0) os /\
  capacity_at r now = Ok c /\ capacity_at (rl_run r os) now = Ok c' /\ c' < c.
Proof.
  exists (RL 86399 0 7), (map (fun k => OConsume (7 + 1 + Z.of_nat k) 0) (seq 0 100)), 107, 99, 0.
  split; [unfold wf_rl; cbn; ilia|]. split; [apply Forall_forall; intros o Ho; apply in_map_iff in Ho as (k & <- & _); eauto|].
  repeat split; vm_compute; reflexivity.
Qed.
Print Assumptions C57_zero_operations_harmless_refuted.

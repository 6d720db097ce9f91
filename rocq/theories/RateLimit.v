(** * Rate limiter.

    Model of solana/programs/example-native-token-transfers/src/queue/rate_limit.rs. The clock sysvar
    ([current_timestamp], clock.rs:15-22) is the argument [now]. *)
From Verif Require Export Base.
Local Open Scope Z_scope.

(** rate_limit.rs:6-18 *)
Record rl := RL { rl_limit : Z; rl_cap : Z; rl_last : Z }.

(** rate_limit.rs:22-29 *)
Inductive rl_result := Consumed (t : Z) | Delayed (t : Z).

(** rate_limit.rs:32-38 *)
Definition rl_new (limit : Z) : rl := RL limit limit 0.

(** rate_limit.rs:40 *)
Definition RATE_LIMIT_DURATION : Z := 60 * 60 * 24.

(** rate_limit.rs:58-87 *)
Definition capacity_at (r : rl) (now : Z) : result Z :=
  let? _ := require (rl_last r <=? now) Panic in
  let? time_passed := plain_i64 (now - rl_last r) in
  let? prod := plain u128_max (time_passed * rl_limit r) in
  let? calculated := plain u128_max (rl_cap r + prod / RATE_LIMIT_DURATION) in
  Ok (Z.min calculated (rl_limit r)).

(** rate_limit.rs:94-104; returns the new state and the outcome. *)
Definition consume_or_delay (r : rl) (now amount : Z) : result (rl * rl_result) :=
  let? capacity := capacity_at r now in
  if amount <=? capacity then
    Ok (RL (rl_limit r) (capacity - amount) now, Consumed now)
  else
    let? t := plain_i64 (now + RATE_LIMIT_DURATION) in
    Ok (r, Delayed t).

(** rate_limit.rs:108-111 *)
Definition refill (r : rl) (now amount : Z) : result rl :=
  let? c := capacity_at r now in
  Ok (RL (rl_limit r) (Z.min (sat_add u64_max c amount) (rl_limit r)) now).

(** rate_limit.rs:113-132 *)
Definition set_limit (r : rl) (now limit : Z) : result rl :=
  let? current := capacity_at r now in
  let new_capacity :=
    if limit <? rl_limit r
    then sat_sub current (rl_limit r - limit)
    else sat_add u64_max current (limit - rl_limit r) in
  Ok (RL limit (Z.min new_capacity limit) now).

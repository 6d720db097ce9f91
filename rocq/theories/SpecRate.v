(** * Specification vocabulary for rate limiting: histories of limiter operations. *)
From Verif Require Import Base RateLimit.
Local Open Scope Z_scope.

(** Seconds in 24 hours. *)
Definition day : Z := 86400.

(** A limiter as it can be stored: limit u64, capacity between 0 and the limit, non-negative timestamp. *)
Definition wf_rl (r : rl) : Prop :=
  is_u64 (rl_limit r) /\ 0 <= rl_cap r <= rl_limit r /\ 0 <= rl_last r <= i64_max.

(** One operation at a time. *)
Inductive rl_op :=
| OConsume (t amount : Z)
| ORefill (t amount : Z)
| OSetLimit (t limit : Z).

Definition op_time (o : rl_op) : Z :=
  match o with OConsume t _ | ORefill t _ | OSetLimit t _ => t end.
Definition op_wf (o : rl_op) : Prop :=
  match o with OConsume t a | ORefill t a | OSetLimit t a => is_i64 t /\ is_u64 a end.

(** State after an operation; an operation that panics has no effect (the transaction is reverted). *)
Definition rl_after (r : rl) (o : rl_op) : rl :=
  match o with
  | OConsume t a => match consume_or_delay r t a with Ok (r', _) => r' | Err _ => r end
  | ORefill t a => match refill r t a with Ok r' => r' | Err _ => r end
  | OSetLimit t l => match set_limit r t l with Ok r' => r' | Err _ => r end
  end.

(** Amount that passed the limiter immediately. *)
Definition taken (r : rl) (o : rl_op) : Z :=
  match o with
  | OConsume t a => match consume_or_delay r t a with Ok (_, Consumed _) => a | _ => 0 end
  | _ => 0
  end.

(** Amount put back by opposite flow. *)
Definition put_back (r : rl) (o : rl_op) : Z :=
  match o with ORefill t a => match refill r t a with Ok _ => a | Err _ => 0 end | _ => 0 end.

(** Increase of the limit. *)
Definition raised (r : rl) (o : rl_op) : Z := Z.max 0 (rl_limit (rl_after r o) - rl_limit r).

Definition rl_run (r : rl) (os : list rl_op) : rl := fold_left rl_after os r.

(** Sum of a measure over the operations of a history. *)
Fixpoint total (f : rl -> rl_op -> Z) (r : rl) (os : list rl_op) : Z :=
  match os with [] => 0 | o :: os' => f r o + total f (rl_after r o) os' end.

(** All limits in force during a history are at most [L]. *)
Fixpoint limits_below (L : Z) (r : rl) (os : list rl_op) : Prop :=
  rl_limit r <= L /\ match os with [] => True | o :: os' => limits_below L (rl_after r o) os' end.

Definition is_consume (o : rl_op) : bool := match o with OConsume _ _ => true | _ => false end.

(** The ideal bucket of the documentation, without rounding: contents scaled by [day]. Each consumption at [t]
    first adds [limit] per day pro rata, capped at the limit. *)
Fixpoint ideal (limit content last : Z) (os : list (Z * Z)) : Z * Z :=
  match os with
  | [] => (content, last)
  | (t, a) :: os' => ideal limit (Z.min (content + (t - last) * limit) (limit * day) - a * day) t os'
  end.

(** All consumptions [(time, amount)] pass immediately, ending in the returned limiter. *)
Definition all_consumed (r : rl) (os : list (Z * Z)) : option rl :=
  fold_left (fun (o : option rl) (x : Z * Z) =>
    match o with
    | Some r => match consume_or_delay r (fst x) (snd x) with
                | Ok (r', Consumed _) => Some r' | _ => None end
    | None => None end) os (Some r).

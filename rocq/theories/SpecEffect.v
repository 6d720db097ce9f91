(** * Vocabulary of the exact effects of instructions (C66). *)
From Verif Require Export SpecTransfer.
Local Open Scope Z_scope.

(** Nothing but the accounts [l] and the upgrade authority may differ. *)
Definition untouched (l : list addr) (s s' : state) : Prop :=
  (forall a, ~ In a l -> st_accts s' a = st_accts s a) /\
  st_now s' = st_now s /\ st_toks s' = st_toks s /\ st_mints s' = st_mints s /\ st_posted s' = st_posted s.

(** A call by [o], the owner of the deployment, who signs. *)
Definition by_owner (s : state) (sg : list addr) (a o : addr) (c : config addr) : Prop :=
  config_at s a c /\ o = cf_owner c /\ In o sg.

(** Parts of a configuration no instruction changes, and those only registrations change. *)
Definition fixed (c : config addr) := (cf_bump c, cf_mint c, cf_token_program c, cf_mode c, cf_chain c, cf_threshold c, cf_custody c).
Definition registry (c : config addr) := (cf_next c, cf_enabled c).

(** A limiter after its limit is changed. *)
Definition relimited (r : rl) (now limit : Z) : rl := RL limit (Z.max 0 (capacity r now + (limit - rl_limit r))) now.

(** * Vocabulary of end-to-end delivery (C76). *)
From Verif Require Export Network SpecMove.
Local Open Scope Z_scope.

(** What the chain a message [tm] of chain [j] is for must offer: a deployment that is not paused, knows the source (as manager and as transceiver),
    has transceiver program [p] registered and enabled, has not redeemed the message, whose clock has passed those of the limiters, and where the
    recipient has the associated token account; [v] is an address where the core bridge can put the attestation. *)
Record expecting (H : hashes) (s : state) (p : prog) (j : Z) (tm : tr_msg) (v : addr) (c : config addr) (rt : registered addr)
  (pe : peer addr) (xp : xpeer addr) (m : mint) (irl orl : rl) (d cu : tok) : Prop := {
  ex_config : config_at s pda_config c;
  ex_paused : cf_paused c = false;
  ex_reg : reg_at s (pda_reg (AProg p)) rt;
  ex_enabled : Z.testbit (cf_enabled c) (rt_id rt) = true;
  ex_xpeer : xpeer_at s p j xp;
  ex_emitter : xp_address xp = pda_emitter p;
  ex_peer : peer_at s j pe;
  ex_source : pe_address pe = tm_source tm;
  ex_new : st_accts s (item_of H j (tm_msg tm)) = None;
  ex_mint : st_mints s (cf_mint c) = Some m;
  ex_amount : representable (ta_amount (nm_amount (tm_msg tm))) (ta_decimals (nm_amount (tm_msg tm))) (mt_decimals m);
  ex_irl : in_limiter s j irl;
  ex_orl : out_limiter s orl;
  ex_clock : rl_last irl <= st_now s /\ rl_last orl <= st_now s /\ st_now s + day <= i64_max;
  ex_slot : (exists t z b e, v = APda PWormhole t z b e) /\ st_accts s v = None /\ st_toks s v = None /\ st_mints s v = None;
  ex_dest : st_toks s (ata (mt_prog m) (nm_to (tm_msg tm)) (cf_mint c)) = Some d;
  ex_owner : tk_owner d = nm_to (tm_msg tm);
  ex_private : nm_to (tm_msg tm) <> token_authority;
  ex_custody : st_toks s (cf_custody c) = Some cu }.

(** [x] units can be paid: the 64-bit counters have room and, in locking mode, custody holds as much. *)
Definition affordable (c : config addr) (m : mint) (d cu : tok) (x : Z) : Prop :=
  tk_amount d + (x - fee_of m x) <= u64_max /\ mt_withheld m + fee_of m x <= u64_max /\
  match cf_mode c with
  | Locking => x <= tk_amount cu
  | Burning => tk_amount cu + x <= u64_max /\ mt_supply m + x <= u64_max
  end.

(** [x] units were paid to token account [dst], less the token's own fee, out of custody or by minting; no other token account or mint changed. *)
Definition credited_to (s s' : state) (c : config addr) (m : mint) (dst : addr) (d cu : tok) (x : Z) : Prop :=
  st_toks s' dst = Some (given d (x - fee_of m x)) /\
  match cf_mode c with
  | Locking => st_toks s' (cf_custody c) = Some (given cu (- x)) /\ st_mints s' (cf_mint c) = Some (minted m 0 (fee_of m x))
  | Burning => st_toks s' (cf_custody c) = Some cu /\ st_mints s' (cf_mint c) = Some (minted m x (fee_of m x))
  end /\
  (forall b, b <> dst -> b <> cf_custody c -> st_toks s' b = st_toks s b) /\
  (forall b, b <> cf_mint c -> st_mints s' b = st_mints s b).

(** The calls that carry a transfer from outbox item [a] of chain [j] to its recipient on chain [k], newest last. Nobody signs any of them. [t] and
    [t'] are the times on the two chains by which the limiters have let the transfer go. *)
Definition release_call (md : mode) (x : release_accts) : call :=
  Call [] (match md with Locking => IReleaseUnlock x true | Burning => IReleaseMint x true end).
Definition route (H : hashes) (j k : Z) (p : prog) (a v : addr) (tm : tr_msg) (t t' : Z) (md : mode) (tp : prog) : list (Z * call) :=
  [ (j, Call [] (EClock t));
    (j, Call [] (IXRelease p pda_config a (pda_reg (AProg p)) true true));
    (k, Call [] (EPostVaa v j (pda_emitter p) (Some tm)));
    (k, Call [] (IXReceive p pda_config v));
    (k, Call [] (IRedeem (RedeemAccts pda_config (pda_vtm p j a) (pda_reg (AProg p)) pda_outbox_rl)));
    (k, Call [] (EClock t'));
    (k, release_call md (ReleaseAccts pda_config (item_of H j (tm_msg tm)) tp true)) ].
(** The calls of a history, oldest first. *)
Definition calls_in (h : history) : list (Z * call) := rev (map (fun x => (fst x, e_call (snd x))) h).
(** When the inbound limiter lets [x] units go that are redeemed at [now]. *)
Definition let_go (r : rl) (now x : Z) : Z := if x <=? capacity r now then now else now + day.

(** * Vocabulary of the exact effects of instructions that move value (C67). *)
From Verif Require Export SpecTransfer SpecEffect.
Local Open Scope Z_scope.

(** A limiter charged with [v], and one whose capacity [v] flows back into. *)
Definition charged (r : rl) (now v : Z) : rl := RL (rl_limit r) (capacity r now - v) now.
Definition credited (r : rl) (now v : Z) : rl := RL (rl_limit r) (Z.min (capacity r now + v) (rl_limit r)) now.
(** Moving [v] at time [now] through limiter [a], whose opposite direction has limiter [b]: at once if it fits, else a day later.
    The clock must not be behind a limiter that is used, and the day later must exist. *)
Definition metered (now v : Z) (a b : rl) : rl * rl * Z :=
  if v <=? capacity a now then (charged a now v, credited b now v, now) else (a, b, now + day).
Definition meterable (now v : Z) (a b : rl) : Prop :=
  rl_last a <= now /\ (v <= capacity a now -> rl_last b <= now) /\ (capacity a now < v -> now + day <= i64_max).

(** [x] units of [f] decimals can be converted to [t] decimals. *)
Definition representable (x f t : Z) : Prop :=
  Z.abs (f - t) < 20 /\ (f < t -> x * 10 ^ (t - f) <= u64_max).

(** A token account after its delegate took [v], and after [v] arrived. *)
Definition debited (f : tok) (v : Z) : tok :=
  Tok (tk_prog f) (tk_mint f) (tk_owner f) (tk_amount f - v) (if v =? tk_delegated f then None else tk_delegate f) (tk_delegated f - v).
Definition given (f : tok) (v : Z) : tok := Tok (tk_prog f) (tk_mint f) (tk_owner f) (tk_amount f + v) (tk_delegate f) (tk_delegated f).
(** A mint after supply changed by [v] and withheld fees by [w]. *)
Definition minted (m : mint) (v w : Z) : mint := Mint (mt_prog m) (mt_decimals m) (mt_supply m + v) (mt_auth m) (mt_bps m) (mt_maxfee m) (mt_withheld m + w).

(** Everything an outbound transfer needs. *)
Record transferable (H : hashes) (s : state) (sg : list addr) (x : transfer_accts) (a : targs) (md : mode)
  (c : config addr) (m : mint) (pe : peer addr) (f cu : tok) (orl irl : rl) (v : Z) : Prop := {
  ta_config : config_at s (xa_config x) c;
  ta_paused : cf_paused c = false;
  ta_enabled : cf_enabled c <> 0;
  ta_mode : cf_mode c = md;
  ta_mint : st_mints s (cf_mint c) = Some m;
  ta_peer : peer_at s (ar_chain a) pe;
  ta_from : st_toks s (xa_from x) = Some f;
  ta_from_mint : tk_mint f = cf_mint c;
  ta_custody : st_toks s (cf_custody c) = Some cu;
  ta_prog : xa_tp x = mt_prog m;
  ta_hook : xa_hook_ok x = true;
  ta_signed : In (xa_outbox_item x) sg;
  ta_fresh : (forall p, xa_outbox_item x <> AProg p) /\ st_accts s (xa_outbox_item x) = None /\ st_toks s (xa_outbox_item x) = None /\ st_mints s (xa_outbox_item x) = None;
  ta_orl : xa_outbox_rl x = pda_outbox_rl /\ out_limiter s orl;
  ta_irl : in_limiter s (ar_chain a) irl;
  ta_value : v = dust_free (ar_amount a) (mt_decimals m) (pe_decimals pe);
  ta_decimals_gap : mt_decimals m - shared (mt_decimals m) (pe_decimals pe) < 20;
  ta_session : tk_delegate f = Some (pda_session (tk_owner f) (h_args H a));
  ta_allowance : v <= tk_delegated f;
  ta_balance : v <= tk_amount f;
  ta_room : tk_amount cu + v <= u64_max;
  ta_no_fee : fee_of m v = 0;
  ta_limits : meterable (st_now s) v orl irl;
  ta_queue : capacity orl (st_now s) < v -> ar_queue a = true }.

(** What it does to accounts. *)
Definition recorded (s s' : state) (x : transfer_accts) (a : targs) (m : mint) (pe : peer addr) (f : tok) (orl irl : rl) (v : Z) : Prop :=
  let '(orl', irl', t) := metered (st_now s) v orl irl in
  let d := shared (mt_decimals m) (pe_decimals pe) in
  outbox_at s' (xa_outbox_item x)
    (OutboxItem (Trim (ar_amount a / 10 ^ (mt_decimals m - d)) d) (tk_owner f) (ar_chain a) (pe_address pe) (ar_to a) t 0) /\
  out_limiter s' orl' /\ in_limiter s' (ar_chain a) irl' /\
  (forall b, b <> xa_outbox_item x -> b <> pda_outbox_rl -> b <> pda_inbox_rl (ar_chain a) -> st_accts s' b = st_accts s b) /\
  st_now s' = st_now s /\ st_posted s' = st_posted s /\ st_uauth s' = st_uauth s.

(** Everything a redemption needs: a delivery not redeemed before, whose amount can be converted. *)
Record redeemable (H : hashes) (s : state) (x : redeem_accts) (p : prog) (ch : Z) (tm : tr_msg) (c : config addr) (rt : registered addr)
  (pe : peer addr) (m : mint) (irl orl : rl) : Prop := {
  rb_delivers : delivers s x p ch tm c rt pe;
  rb_mint : st_mints s (cf_mint c) = Some m;
  rb_new : st_accts s (item_of H ch (tm_msg tm)) = None;
  rb_amount : representable (ta_amount (nm_amount (tm_msg tm))) (ta_decimals (nm_amount (tm_msg tm))) (mt_decimals m);
  rb_irl : in_limiter s ch irl;
  rb_orl : ra_outbox_rl x = pda_outbox_rl /\ out_limiter s orl;
  rb_limits : meterable (st_now s) (local_amount m (tm_msg tm)) irl orl }.

(** Everything an inbound release looks at. *)
Record releasable (s : state) (x : release_accts) (md : mode) (c : config addr) (it : inbox_item addr) (m : mint) (d cu : tok) : Prop := {
  re_config : config_at s (la_config x) c;
  re_paused : cf_paused c = false;
  re_mode : cf_mode c = md;
  re_item : inbox_at s (la_item x) it;
  re_mint : st_mints s (cf_mint c) = Some m;
  re_prog : la_tp x = mt_prog m;
  re_custody : st_toks s (cf_custody c) = Some cu;
  re_dest : st_toks s (destination x c it) = Some d;
  re_owner : tk_owner d = ib_recipient it }.
Definition early (it : inbox_item addr) (now : Z) : Prop := exists t, ib_status it = ReleaseAfter t /\ now < t.
Definition due (it : inbox_item addr) (now : Z) : Prop := exists t, ib_status it = ReleaseAfter t /\ t <= now.
(** The token program can credit the recipient. *)
Definition creditable (x : release_accts) (c : config addr) (it : inbox_item addr) (m : mint) (d : tok) : Prop :=
  la_hook_ok x = true /\
  (destination x c it <> cf_custody c ->
   tk_amount d + (ib_amount it - fee_of m (ib_amount it)) <= u64_max /\ mt_withheld m + fee_of m (ib_amount it) <= u64_max).
Definition marked (s s' : state) (x : release_accts) (it : inbox_item addr) : Prop :=
  inbox_at s' (la_item x) (InboxItem (ib_init it) (ib_bump it) (ib_amount it) (ib_recipient it) (ib_votes it) Released) /\
  (forall b, b <> la_item x -> st_accts s' b = st_accts s b) /\
  st_now s' = st_now s /\ st_posted s' = st_posted s /\ st_uauth s' = st_uauth s.

(** What paying out of custody does to tokens; nothing if the custody account is itself the destination. *)
Definition unlocked (s s' : state) (x : release_accts) (c : config addr) (it : inbox_item addr) (m : mint) (d cu : tok) : Prop :=
  let v := ib_amount it in let dst := destination x c it in let fee := if addr_eq_dec dst (cf_custody c) then 0 else fee_of m v in
  (dst <> cf_custody c -> st_toks s' dst = Some (given d (v - fee)) /\ st_toks s' (cf_custody c) = Some (given cu (- v))) /\
  (dst = cf_custody c -> st_toks s' dst = st_toks s dst) /\
  (forall b, b <> dst -> b <> cf_custody c -> st_toks s' b = st_toks s b) /\
  st_mints s' (cf_mint c) = Some (minted m 0 fee) /\ (forall b, b <> cf_mint c -> st_mints s' b = st_mints s b).
(** What minting to a recipient does to tokens. *)
Definition issued (s s' : state) (x : release_accts) (c : config addr) (it : inbox_item addr) (m : mint) (d : tok) : Prop :=
  let v := ib_amount it in let dst := destination x c it in let fee := if addr_eq_dec dst (cf_custody c) then 0 else fee_of m v in
  st_toks s' dst = Some (given d (v - fee)) /\ (forall b, b <> dst -> st_toks s' b = st_toks s b) /\
  st_mints s' (cf_mint c) = Some (minted m v fee) /\ (forall b, b <> cf_mint c -> st_mints s' b = st_mints s b).

(** Everything an outbound publication looks at: transceiver program [p], enabled, has not published item [a] yet. *)
Record publishable (s : state) (cfg a tr : addr) (p : prog) (c : config addr) (o : outbox_item addr) (rt : registered addr) : Prop := {
  pu_config : config_at s cfg c;
  pu_paused : cf_paused c = false;
  pu_item : outbox_at s a o;
  pu_reg : reg_at s (pda_reg (AProg p)) rt;
  pu_used : tr = pda_reg (AProg p);
  pu_enabled : Z.testbit (cf_enabled c) (rt_id rt) = true;
  pu_unsent : Z.testbit (ob_released o) (rt_id rt) = false }.
Definition sent_by (o : outbox_item addr) (id : Z) : outbox_item addr :=
  OutboxItem (ob_amount o) (ob_sender o) (ob_chain o) (ob_manager o) (ob_recipient o) (ob_release o) (Z.setbit (ob_released o) id).
(** The message about outbox item [o] at [a], under config [c]. *)
Definition announcement (c : config addr) (a : addr) (o : outbox_item addr) : tr_msg :=
  TrMsg (AProg PManager) (ob_manager o) (NttMsg a (ob_sender o) (ob_amount o) (cf_mint c) (ob_chain o) (ob_recipient o)).
(** One message [pl] of program [p] went out, in account [msg]; apart from that and account [l] nothing changed. *)
Definition announced (s s' : state) (p : prog) (msg : addr) (pl : post_payload) (l : list addr) : Prop :=
  st_accts s' msg = Some (Acct PWormhole DPosted) /\ st_posted s' = Post (pda_emitter p) pl :: st_posted s /\
  (forall b, b <> msg -> ~ In b l -> st_accts s' b = st_accts s b) /\
  st_toks s' = st_toks s /\ st_mints s' = st_mints s /\ st_now s' = st_now s /\ st_uauth s' = st_uauth s.
(** [a] signs and nothing exists there yet. *)
Definition fresh_signer (s : state) (sg : list addr) (a : addr) : Prop :=
  In a sg /\ (forall p, a <> AProg p) /\ st_accts s a = None /\ st_toks s a = None /\ st_mints s a = None.
(** Peer transceiver [xp] of transceiver program [p] for a chain. *)
Definition xpeer_at (s : state) (p : prog) (chain : Z) (xp : xpeer addr) : Prop := st_accts s (pda_xpeer p chain) = Some (Acct p (DXPeer xp)).

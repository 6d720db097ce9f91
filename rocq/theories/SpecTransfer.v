(** * Vocabulary of the transfer properties (C29-C47). *)
From Verif Require Export SpecAdmin SpecRate.
Local Open Scope Z_scope.

Definition peer_at (s : state) (chain : Z) (p : peer addr) : Prop := st_accts s (pda_peer chain) = Some (Acct PManager (DPeer p)).
Definition outbox_at (s : state) (a : addr) (o : outbox_item addr) : Prop := st_accts s a = Some (Acct PManager (DOutboxItem o)).
Definition inbox_at (s : state) (a : addr) (i : inbox_item addr) : Prop := st_accts s a = Some (Acct PManager (DInboxItem i)).
Definition out_limiter (s : state) (r : rl) : Prop := st_accts s pda_outbox_rl = Some (Acct PManager (DOutboxRL r)).
Definition in_limiter (s : state) (chain : Z) (r : rl) : Prop := st_accts s (pda_inbox_rl chain) = Some (Acct PManager (DInboxRL r)).

(** The decimals in which an amount travels between tokens of [f] and [t] decimals, and the part of [a] that survives. *)
Definition shared (f t : Z) : Z := Z.min 8 (Z.min f t).
Definition dust_free (a f t : Z) : Z := a / 10 ^ (f - shared f t) * 10 ^ (f - shared f t).
(** The value of [x] units of [f] decimals in units of [t] decimals, rounded down. *)
Definition convert (x f t : Z) : Z := if t <=? f then x / 10 ^ (f - t) else x * 10 ^ (t - f).

(** Capacity of a limiter at time [now]: what is left, plus the linear refill of one limit per day, at most the limit. *)
Definition capacity (r : rl) (now : Z) : Z := Z.min (rl_cap r + (now - rl_last r) * rl_limit r / day) (rl_limit r).

(** Outbound and inbound transfers as they appear in a history. *)
Definition transfer_of (i : instr) : option (mode * transfer_accts * targs) :=
  match i with
  | ITransferLock x a => Some (Locking, x, a)
  | ITransferBurn x a => Some (Burning, x, a)
  | _ => None
  end.
(** The amount a transfer call deposits in state [s]. *)
Definition deposit_value (s : state) (x : transfer_accts) (a : targs) : Z :=
  match st_accts s (xa_config x), st_accts s (pda_peer (ar_chain a)) with
  | Some (Acct _ (DConfig c)), Some (Acct _ (DPeer pe)) =>
      match st_mints s (cf_mint c) with
      | Some m => dust_free (ar_amount a) (mt_decimals m) (pe_decimals pe)
      | None => 0
      end
  | _, _ => 0
  end.
Definition deposited (e : ev) : Z :=
  match transfer_of (ins (e_call e)) with Some (_, x, a) => deposit_value (e_pre e) x a | None => 0 end.

(** A payout: a release call that turns an inbox item into a released one. *)
Definition status_at (s : state) (a : addr) : option release_status :=
  match st_accts s a with Some (Acct PManager (DInboxItem i)) => Some (ib_status i) | _ => None end.
Definition amount_of (s : state) (a : addr) : Z :=
  match st_accts s a with Some (Acct PManager (DInboxItem i)) => ib_amount i | _ => 0 end.
Definition released (s : state) (a : addr) : bool := match status_at s a with Some Released => true | _ => false end.
Definition release_of (i : instr) : option (release_accts) :=
  match i with IReleaseUnlock x _ | IReleaseMint x _ => Some x | _ => None end.
Definition payout (e : ev) : option addr :=
  match release_of (ins (e_call e)) with
  | Some x => if negb (released (e_pre e) (la_item x)) && released (e_post e) (la_item x) then Some (la_item x) else None
  | None => None
  end.
Definition paid_out (e : ev) : Z := match payout e with Some a => amount_of (e_pre e) a | None => 0 end.

Definition sum (f : ev -> Z) (tr : list ev) : Z := fold_right (fun e n => f e + n) 0 tr.

(** A token account other than the ones the manager holds. *)
Definition private (a : addr) : Prop := forall p m, is_token_prog p = true -> a <> ata p token_authority m.
(** What the delegate of a token account may still take. *)
Definition allowance (s : state) (a : addr) : Z :=
  match st_toks s a with Some t => match tk_delegate t with Some _ => tk_delegated t | None => 0 end | None => 0 end.
(** What the modelled programs took from token account [a]. *)
Definition drained (a : addr) (e : ev) : Z :=
  if of_program (ins (e_call e)) then Z.max 0 (balance (e_pre e) a - balance (e_post e) a) else 0.
Definition is_approval (a : addr) (i : instr) : Prop := exists p o d x, i = EApprove p a o d x.

(** What a published message says about outbound transfer [it]. *)
Definition message_for (it : addr) (p : prog) (s : state) : list tr_msg :=
  filter (fun m => if addr_eq_dec (nm_id (tm_msg m)) it then true else false) (published s p).
(** Whether the transceiver with index [id] has published the outbound transfer at [a]. *)
Definition flag (s : state) (a : addr) (id : Z) : bool :=
  match st_accts s a with Some (Acct PManager (DOutboxItem o)) => Z.testbit (ob_released o) id | _ => false end.

(** ** Outbound *)
(** What a transfer call did. *)
Record transferred (s : state) (sg : list addr) (x : transfer_accts) (a : targs) (s' : state) (md : mode)
  (c : config addr) (m : mint) (pe : peer addr) (f : tok) (o : outbox_item addr) (v : Z) : Prop := {
  tr_config : config_at s (xa_config x) c;
  tr_paused : cf_paused c = false;
  tr_mode : cf_mode c = md;
  tr_mint : st_mints s (cf_mint c) = Some m;
  tr_peer : peer_at s (ar_chain a) pe;
  tr_from : st_toks s (xa_from x) = Some f;
  tr_from_mint : tk_mint f = cf_mint c;
  tr_value : v = dust_free (ar_amount a) (mt_decimals m) (pe_decimals pe);
  tr_range : 0 <= v <= ar_amount a;
  tr_fresh : st_accts s (xa_outbox_item x) = None;
  tr_signed : In (xa_outbox_item x) sg;
  tr_item : outbox_at s' (xa_outbox_item x) o;
  tr_amount : ob_amount o = Trim (ar_amount a / 10 ^ (mt_decimals m - shared (mt_decimals m) (pe_decimals pe))) (shared (mt_decimals m) (pe_decimals pe));
  tr_same_value : ta_amount (ob_amount o) * 10 ^ (mt_decimals m - ta_decimals (ob_amount o)) = v;
  tr_sender : ob_sender o = tk_owner f;
  tr_chain : ob_chain o = ar_chain a;
  tr_manager : ob_manager o = pe_address pe;
  tr_to : ob_recipient o = ar_to a;
  tr_unsent : ob_released o = 0 }.

(** A deposit event for item [a]: what was deposited and what the item says. *)
Definition deposit (e : ev) (a : addr) (c : config addr) (m : mint) (pe : peer addr) (f : tok) (o : outbox_item addr) (v : Z)
  (md : mode) (x : transfer_accts) (ar : targs) : Prop :=
  transfer_of (ins (e_call e)) = Some (md, x, ar) /\ xa_outbox_item x = a /\
  transferred (e_pre e) (signers (e_call e)) x ar (e_post e) md c m pe f o v.
(** What a message says about a deposit. *)
Definition states (m : tr_msg) (a : addr) (c : config addr) (mt : mint) (pe : peer addr) (f : tok) (ar : targs) (v : Z) : Prop :=
  tm_source m = AProg PManager /\ tm_recipient m = pe_address pe /\ nm_id (tm_msg m) = a /\ nm_sender (tm_msg m) = tk_owner f /\
  nm_token (tm_msg m) = cf_mint c /\ nm_to_chain (tm_msg m) = ar_chain ar /\ nm_to (tm_msg m) = ar_to ar /\
  ta_decimals (nm_amount (tm_msg m)) = shared (mt_decimals mt) (pe_decimals pe) /\
  ta_amount (nm_amount (tm_msg m)) * 10 ^ (mt_decimals mt - ta_decimals (nm_amount (tm_msg m))) = v.

(** ** Inbound *)
(** Where the payout of an item goes. *)
Definition destination (x : release_accts) (c : config addr) (it : inbox_item addr) : addr := ata (la_tp x) (ib_recipient it) (cf_mint c).

(** A release that pays. *)
Record pays (s : state) (x : release_accts) (md : mode) (s' : state) (c : config addr) (it : inbox_item addr) (m : mint) : Prop := {
  py_config : config_at s (la_config x) c;
  py_paused : cf_paused c = false;
  py_mode : cf_mode c = md;
  py_mint : st_mints s (cf_mint c) = Some m;
  py_item : inbox_at s (la_item x) it;
  py_amount : is_u64 (ib_amount it);
  py_due : exists t, ib_status it = ReleaseAfter t /\ t <= st_now s;
  py_done : inbox_at s' (la_item x) (InboxItem (ib_init it) (ib_bump it) (ib_amount it) (ib_recipient it) (ib_votes it) Released);
  py_owner : exists t, st_toks s (destination x c it) = Some t /\ tk_owner t = ib_recipient it /\ tk_mint t = cf_mint c;
  py_accts : forall b, b <> la_item x -> st_accts s' b = st_accts s b;
  py_posted : st_posted s' = st_posted s;
  py_fee : 0 <= fee_of m (ib_amount it) <= ib_amount it }.

(** A redemption that counts: transceiver program [p], registered and enabled, holds an account with message [tm] from
    chain [ch]; the message is from the peer of that chain and addressed to this deployment. *)
Record delivers (s : state) (x : redeem_accts) (p : prog) (ch : Z) (tm : tr_msg) (c : config addr) (rt : registered addr) (pe : peer addr) : Prop := {
  dl_config : config_at s (ra_config x) c;
  dl_reg : reg_at s (pda_reg (AProg p)) rt;
  dl_used : ra_transceiver x = pda_reg (AProg p);
  dl_addr : rt_address rt = AProg p;
  dl_enabled : Z.testbit (cf_enabled c) (rt_id rt) = true;
  dl_message : st_accts s (ra_message x) = Some (Acct p (DVtm ch tm));
  dl_peer : peer_at s ch pe;
  dl_source : pe_address pe = tm_source tm;
  dl_recipient : tm_recipient tm = AProg PManager;
  dl_chain : nm_to_chain (tm_msg tm) = cf_chain c }.
(** Event [e] delivers message [nm] of chain [ch] by transceiver program [p]. *)
Definition delivery (e : ev) (p : prog) (ch : Z) (nm : ntt_msg) : Prop :=
  exists x tm c rt pe, ins (e_call e) = IRedeem x /\ delivers (e_pre e) x p ch tm c rt pe /\ tm_msg tm = nm.
(** No two different messages delivered in [tr] have the same hash. *)
Definition no_collision (H : hashes) (tr : list ev) : Prop := forall e e' p p' ch nm ch' nm', In e tr -> In e' tr ->
  delivery e p ch nm -> delivery e' p' ch' nm' -> h_msg H ch nm = h_msg H ch' nm' -> ch = ch' /\ nm = nm'.
(** The inbox item of a message, and its amount in units of the local mint. *)
Definition item_of (H : hashes) (ch : Z) (nm : ntt_msg) : addr := pda_inbox (h_msg H ch nm).
Definition local_amount (m : mint) (nm : ntt_msg) : Z := convert (ta_amount (nm_amount nm)) (ta_decimals (nm_amount nm)) (mt_decimals m).

(** Number of indices below 128 in both sets. *)
Definition both (votes enabled : Z) : list Z := filter (fun i => Z.testbit votes i && Z.testbit enabled i) (map Z.of_nat (seq 0 128)).

(** What a redemption did. *)
Record redeemed (H : hashes) (s : state) (x : redeem_accts) (s' : state) (p : prog) (ch : Z) (tm : tr_msg) (c : config addr)
  (rt : registered addr) (pe : peer addr) (m : mint) (before : option (inbox_item addr)) (after : inbox_item addr) : Prop := {
  rd_delivers : delivers s x p ch tm c rt pe;
  rd_mint : st_mints s (cf_mint c) = Some m;
  rd_before : match before with
              | Some it => inbox_at s (item_of H ch (tm_msg tm)) it
              | None => st_accts s (item_of H ch (tm_msg tm)) = None end;
  rd_after : inbox_at s' (item_of H ch (tm_msg tm)) after;
  rd_amount : ib_amount after = match before with Some it => ib_amount it | None => local_amount m (tm_msg tm) end;
  rd_recipient : ib_recipient after = match before with Some it => ib_recipient it | None => nm_to (tm_msg tm) end;
  rd_votes : ib_votes after = Z.setbit (match before with Some it => ib_votes it | None => 0 end) (rt_id rt);
  rd_status : let old := match before with Some it => ib_status it | None => NotApproved end in
     let v := local_amount m (tm_msg tm) in let now := st_now s in
     (Z.of_nat (length (both (ib_votes after) (cf_enabled c))) < cf_threshold c /\ ib_status after = old /\
      (forall b, b <> item_of H ch (tm_msg tm) -> st_accts s' b = st_accts s b)) \/
     (cf_threshold c <= Z.of_nat (length (both (ib_votes after) (cf_enabled c))) /\ old = NotApproved /\
      exists irl orl irl' orl' t, ib_status after = ReleaseAfter t /\
        in_limiter s ch irl /\ out_limiter s orl /\ in_limiter s' ch irl' /\ out_limiter s' orl' /\
        (v <= capacity irl now -> t = now /\ irl' = RL (rl_limit irl) (capacity irl now - v) now /\
           orl' = RL (rl_limit orl) (Z.min (capacity orl now + v) (rl_limit orl)) now) /\
        (capacity irl now < v -> t = now + day /\ irl' = irl /\ orl' = orl) /\
        (forall b, b <> item_of H ch (tm_msg tm) -> b <> pda_inbox_rl ch -> b <> pda_outbox_rl -> st_accts s' b = st_accts s b));
  rd_ledger : (forall b, st_toks s' b = st_toks s b) /\ (forall b, st_mints s' b = st_mints s b) /\ st_posted s' = st_posted s }.

(** Status order: not approved, scheduled at one time, released. *)
Inductive later : release_status -> release_status -> Prop :=
  | later_same s : later s s
  | later_approve t : later NotApproved (ReleaseAfter t)
  | later_release t : later (ReleaseAfter t) Released
  | later_both : later NotApproved Released.
(** Event [e] approves the item at [a], for release after [t]. *)
Definition approves (H : hashes) (e : ev) (a : addr) (p : prog) (ch : Z) (tm : tr_msg) (c : config addr) (m : mint) (it : inbox_item addr) (t : Z) : Prop :=
  exists x rt pe b, ins (e_call e) = IRedeem x /\ item_of H ch (tm_msg tm) = a /\ redeemed H (e_pre e) x (e_post e) p ch tm c rt pe m b it /\
    status_at (e_pre e) a <> Some Released /\ (forall t, status_at (e_pre e) a <> Some (ReleaseAfter t)) /\ ib_status it = ReleaseAfter t.


(** What holders burned of mint [a] by themselves. *)
Definition burned_by_holder (a : addr) (e : ev) : Z :=
  match ins (e_call e) with EBurn _ _ mnt _ x => if addr_eq_dec mnt a then x else 0 | _ => 0 end.

(** Event [e] receives message [tm] of chain [ch] into transceiver program [p]: an account of the core bridge says that the
    registered peer transceiver of the chain sent it, it is for this chain, and the deployment is not paused. *)
Definition receipt (e : ev) (p : prog) (ch : Z) (tm : tr_msg) : Prop :=
  exists cfg v c xp, ins (e_call e) = IXReceive p cfg v /\
    st_accts (e_pre e) v = Some (Acct PWormhole (DVaa ch (xp_address xp) (Some tm))) /\
    st_accts (e_pre e) (pda_xpeer p ch) = Some (Acct p (DXPeer xp)) /\
    config_at (e_pre e) cfg c /\ cf_paused c = false /\ nm_to_chain (tm_msg tm) = cf_chain c.
(** The account where transceiver program [p] keeps message [id] of chain [ch]. *)
Definition received_at (p : prog) (ch : Z) (id : addr) : addr := pda_vtm p ch id.
(** Event [e] is the core bridge's own record of a message. *)
Definition attested (e : ev) (ch : Z) (em : addr) (tm : tr_msg) : Prop :=
  exists v, ins (e_call e) = EPostVaa v ch em (Some tm).

(** What a release needs besides approval and time: the recipient has an associated token account and the token program's
    64-bit counters have room (in the token programs these follow from the total supply fitting 64 bits). *)
Record can_pay (s : state) (x : release_accts) (c : config addr) (it : inbox_item addr) (m : mint) (t cu : tok) : Prop := {
  cp_config : config_at s (la_config x) c;
  cp_paused : cf_paused c = false;
  cp_item : inbox_at s (la_item x) it;
  cp_due : exists ts, ib_status it = ReleaseAfter ts /\ ts <= st_now s;
  cp_mint : st_mints s (cf_mint c) = Some m;
  cp_tp : la_tp x = mt_prog m;
  cp_hook : la_hook_ok x = true;
  cp_recipient : st_toks s (destination x c it) = Some t;
  cp_owner : tk_owner t = ib_recipient it;
  cp_room : tk_amount t + ib_amount it <= u64_max;
  cp_fees : mt_withheld m + fee_of m (ib_amount it) <= u64_max;
  cp_custody : st_toks s (cf_custody c) = Some cu }.

(** * The client library's transactions: when they succeed and what they do (C97). *)
From Verif Require Export SpecBuilder SpecMove.
Local Open Scope Z_scope.

(** Everything the first two instructions of a transfer need, in terms of the state before the transaction: no allowance given before. *)
Record depositable (s : state) (c : config addr) (sender from item : addr) (a : targs) (ok : bool)
  (m : mint) (pe : peer addr) (f cu : tok) (orl irl : rl) (v : Z) : Prop := {
  dp_mint : st_mints s (cf_mint c) = Some m;
  dp_peer : peer_at s (ar_chain a) pe;
  dp_from : st_toks s from = Some f;
  dp_owner : tk_owner f = sender;
  dp_custody : st_toks s (cf_custody c) = Some cu;
  dp_fresh : (forall p, item <> AProg p) /\ st_accts s item = None /\ st_toks s item = None /\ st_mints s item = None;
  dp_orl : out_limiter s orl;
  dp_irl : in_limiter s (ar_chain a) irl;
  dp_value : v = dust_free (ar_amount a) (mt_decimals m) (pe_decimals pe);
  dp_gap : mt_decimals m - shared (mt_decimals m) (pe_decimals pe) < 20;
  dp_balance : v <= tk_amount f;
  dp_room : tk_amount cu + v <= u64_max;
  dp_supply : cf_mode c = Burning -> v <= mt_supply m;
  dp_no_fee : fee_of m v = 0;
  dp_limits : meterable (st_now s) v orl irl;
  dp_queue : capacity orl (st_now s) < v -> ar_queue a = true;
  dp_ok : ok = true }.
(** The third needs transceiver [x] registered and enabled, and the core bridge's consent if the message is due. *)
Definition sendable (s : state) (c : config addr) (x : prog) (sender from item : addr) (a : targs) (ok ok' : bool)
  (m : mint) (pe : peer addr) (f cu : tok) (orl irl : rl) (rt : registered addr) (v : Z) : Prop :=
  depositable s c sender from item a ok m pe f cu orl irl v /\
  reg_at s (pda_reg (AProg x)) rt /\ Z.testbit (cf_enabled c) (rt_id rt) = true /\
  (v <= capacity orl (st_now s) -> ok' = true).

(** What the transaction does. The item is marked as sent, and the message is out, exactly if the limiter allows it at once.
    What remains of the allowance is the dust. *)
Definition sent (H : hashes) (s s' : state) (c : config addr) (x : prog) (sender from item : addr) (a : targs)
  (m : mint) (pe : peer addr) (f cu : tok) (orl irl : rl) (rt : registered addr) (v : Z) : Prop :=
  let '(orl', irl', t) := metered (st_now s) v orl irl in
  let at_once := v <=? capacity orl (st_now s) in
  let d := shared (mt_decimals m) (pe_decimals pe) in
  let o := OutboxItem (Trim (ar_amount a / 10 ^ (mt_decimals m - d)) d) sender (ar_chain a) (pe_address pe) (ar_to a) t (if at_once then 2 ^ rt_id rt else 0) in
  outbox_at s' item o /\ out_limiter s' orl' /\ in_limiter s' (ar_chain a) irl' /\
  st_accts s' (pda_message x item) = (if at_once then Some (Acct PWormhole DPosted) else st_accts s (pda_message x item)) /\
  (forall b, b <> item -> b <> pda_outbox_rl -> b <> pda_inbox_rl (ar_chain a) -> b <> pda_message x item -> st_accts s' b = st_accts s b) /\
  st_posted s' = (if at_once then Post (pda_emitter x) (PPTransfer (announcement c item o)) :: st_posted s else st_posted s) /\
  st_now s' = st_now s /\ st_uauth s' = st_uauth s /\
  st_toks s' from = Some (Tok (tk_prog f) (tk_mint f) sender (tk_amount f - v)
    (if v =? ar_amount a then None else Some (pda_session sender (h_args H a))) (ar_amount a - v)) /\
  from <> cf_custody c /\
  (forall b, b <> from -> b <> cf_custody c -> st_toks s' b = st_toks s b) /\
  (forall b, b <> cf_mint c -> st_mints s' b = st_mints s b) /\
  match cf_mode c with
  | Locking => st_toks s' (cf_custody c) = Some (given cu v) /\ st_mints s' (cf_mint c) = Some m
  | Burning => st_toks s' (cf_custody c) = Some cu /\ st_mints s' (cf_mint c) = Some (minted m (- v) 0)
  end.

(** Everything the three instructions of a redemption need: message [m] of chain [ch], posted at [vaa], not received by transceiver [x] and not redeemed
    before, and the recipient's associated token account. *)
Record claimable (H : hashes) (s : state) (c : config addr) (x tp : prog) (vaa : addr) (ch : Z) (msg : ntt_msg) (ok : bool)
  (e : addr) (tm : tr_msg) (xp : xpeer addr) (rt : registered addr) (pe : peer addr) (m : mint) (irl orl : rl) (d cu : tok) : Prop := {
  cl_posted : st_accts s vaa = Some (Acct PWormhole (DVaa ch e (Some tm)));
  cl_sender : xpeer_at s x ch xp /\ xp_address xp = e;
  cl_chain : nm_to_chain msg = cf_chain c;
  cl_unreceived : st_accts s (pda_vtm x ch (nm_id msg)) = None;
  cl_reg : reg_at s (pda_reg (AProg x)) rt /\ Z.testbit (cf_enabled c) (rt_id rt) = true;
  cl_peer : peer_at s ch pe /\ pe_address pe = tm_source tm;
  cl_manager : tm_recipient tm = AProg PManager;
  cl_mint : st_mints s (cf_mint c) = Some m;
  cl_new : st_accts s (item_of H ch msg) = None;
  cl_amount : representable (ta_amount (nm_amount msg)) (ta_decimals (nm_amount msg)) (mt_decimals m);
  cl_limits : in_limiter s ch irl /\ out_limiter s orl /\ meterable (st_now s) (local_amount m msg) irl orl;
  cl_custody : st_toks s (cf_custody c) = Some cu;
  cl_dest : st_toks s (ata tp (nm_to msg) (cf_mint c)) = Some d /\ tk_owner d = nm_to msg;
  cl_pays : local_amount m msg <= capacity irl (st_now s) ->
    let v := local_amount m msg in
    ok = true /\
    (ata tp (nm_to msg) (cf_mint c) <> cf_custody c -> tk_amount d + (v - fee_of m v) <= u64_max /\ mt_withheld m + fee_of m v <= u64_max) /\
    match cf_mode c with Locking => v <= tk_amount cu | Burning => tk_amount cu + v <= u64_max /\ mt_supply m + v <= u64_max end }.

(** What it does: the message and the item are recorded, and exactly if the limiter allows it the recipient is paid at once. *)
Definition claimed (H : hashes) (s s' : state) (c : config addr) (x tp : prog) (ch : Z) (msg : ntt_msg)
  (tm : tr_msg) (rt : registered addr) (m : mint) (irl orl : rl) (d cu : tok) : Prop :=
  let v := local_amount m msg in let item := item_of H ch msg in let r := ReleaseAccts pda_config item tp true in
  let '(irl', orl', t) := metered (st_now s) v irl orl in
  let at_once := v <=? capacity irl (st_now s) in
  let it := InboxItem true 0 v (nm_to msg) (2 ^ rt_id rt) (if at_once then Released else ReleaseAfter t) in
  st_accts s' (pda_vtm x ch (nm_id msg)) = Some (Acct x (DVtm ch tm)) /\ inbox_at s' item it /\ in_limiter s' ch irl' /\ out_limiter s' orl' /\
  (forall b, b <> pda_vtm x ch (nm_id msg) -> b <> item -> b <> pda_outbox_rl -> b <> pda_inbox_rl ch -> st_accts s' b = st_accts s b) /\
  st_now s' = st_now s /\ st_posted s' = st_posted s /\ st_uauth s' = st_uauth s /\
  if at_once then match cf_mode c with Locking => unlocked s s' r c it m d cu | Burning => issued s s' r c it m d end
  else (forall b, st_toks s' b = st_toks s b) /\ (forall b, st_mints s' b = st_mints s b).

(** Nothing exists at [a]. *)
Definition blank (s : state) (a : addr) : Prop := (forall p, a <> AProg p) /\ st_accts s a = None /\ st_toks s a = None /\ st_mints s a = None.
(** Program [x] has published [pl], in the account [msg]; the accounts [l] besides may have changed, nothing else. *)
Definition published_with (s s' : state) (x : prog) (msg : addr) (pl : post_payload) (l : list addr) : Prop :=
  st_accts s' msg = Some (Acct PWormhole DPosted) /\ st_posted s' = Post (pda_emitter x) pl :: st_posted s /\
  (forall b, b <> msg -> ~ In b l -> st_accts s' b = st_accts s b) /\
  st_toks s' = st_toks s /\ st_mints s' = st_mints s /\ st_now s' = st_now s /\ st_uauth s' = st_uauth s.

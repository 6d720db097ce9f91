(** * What each successful instruction of the manager and the transceivers did. *)
From Verif Require Export ChainFacts.
Local Open Scope Z_scope.

(** ** Transfers *)

(** The limiter outcome of an outbound transfer. *)
Definition out_limits (now amount : Z) (queue : bool) (orl irl orl' irl' : rl) (ts : Z) : Prop :=
  (consume_or_delay orl now amount = Ok (orl', Consumed ts) /\ refill irl ts amount = Ok irl') \/
  (consume_or_delay orl now amount = Ok (orl', Delayed ts) /\ queue = true /\ irl' = irl).

Record transfer_facts (s : state) (sg : list addr) (x : transfer_accts) (a : targs) (md : mode)
  (c : config addr) (mt : mint) (f : tok) (pe : peer addr) (amount : Z) (t : trimmed) (orl irl orl' irl' : rl) (ts : Z) : Prop := {
  tf_config : has s (xa_config x) PManager (DConfig c);
  tf_paused : cf_paused c = false;
  tf_enabled : cf_enabled c <> 0;
  tf_mode : cf_mode c = md;
  tf_mint : st_mints s (cf_mint c) = Some mt;
  tf_from : st_toks s (xa_from x) = Some f;
  tf_from_mint : tk_mint f = cf_mint c;
  tf_signed : signed sg (xa_outbox_item x) = true;
  tf_free : free s (xa_outbox_item x) = true;
  tf_orl : has s (xa_outbox_rl x) PManager (DOutboxRL orl);
  tf_irl : has s (pda_inbox_rl (ar_chain a)) PManager (DInboxRL irl);
  tf_peer : has s (pda_peer (ar_chain a)) PManager (DPeer pe);
  tf_dust : remove_dust (ar_amount a) (mt_decimals mt) (pe_decimals pe) = Ok (amount, t);
  tf_limits : out_limits (st_now s) amount (ar_queue a) orl irl orl' irl' ts }.

Definition out_item (f : tok) (a : targs) (pe : peer addr) (t : trimmed) (ts : Z) : outbox_item addr :=
  OutboxItem t (tk_owner f) (ar_chain a) (pe_address pe) (ar_to a) ts bm_new.
Definition out_puts (s : state) (x : transfer_accts) (a : targs) (f : tok) (pe : peer addr) (t : trimmed) (orl' irl' : rl) (ts : Z) : state :=
  put (xa_outbox_item x) PManager (DOutboxItem (out_item f a pe t ts))
   (put (pda_inbox_rl (ar_chain a)) PManager (DInboxRL irl') (put (xa_outbox_rl x) PManager (DOutboxRL orl') s)).

Lemma insert_ok s x sender amount t chain mgr to q s' : insert_into_outbox s x sender amount t chain mgr to q = Ok s' ->
  exists orl irl orl' irl' ts, has s (xa_outbox_rl x) PManager (DOutboxRL orl) /\ has s (pda_inbox_rl chain) PManager (DInboxRL irl) /\
    out_limits (st_now s) amount q orl irl orl' irl' ts /\
    s' = put (xa_outbox_item x) PManager (DOutboxItem (OutboxItem t sender chain mgr to ts bm_new))
          (put (pda_inbox_rl chain) PManager (DInboxRL irl') (put (xa_outbox_rl x) PManager (DOutboxRL orl') s)).
Proof.
  unfold insert_into_outbox. intros E. binds E. gets. bools. subst.
  exists v, v0, r, r1, z. split; [assumption|]. split; [assumption|]. split; [|reflexivity].
  unfold out_limits. destruct r0; binds E3; bools.
  - left. inversion E3; subst. auto.
  - right. inversion E3; subst. auto.
Qed.

Lemma transfer_checks_ok s sg x a md c mt f pe : transfer_checks s sg x a md = Ok (c, mt, f, pe) ->
  has s (xa_config x) PManager (DConfig c) /\ cf_paused c = false /\ cf_enabled c <> 0 /\ cf_mode c = md /\
  st_mints s (cf_mint c) = Some mt /\ st_toks s (xa_from x) = Some f /\ tk_mint f = cf_mint c /\
  signed sg (xa_outbox_item x) = true /\ free s (xa_outbox_item x) = true /\
  has s (pda_peer (ar_chain a)) PManager (DPeer pe).
Proof.
  unfold transfer_checks. intros E. binds E. bools. inversion E; subst.
  apply get_not_paused_ok in E0. destruct E0. apply any_mint_ok in E3. apply any_tok_ok in E4. apply get_peer_ok in E10.
  unfold bm_is_empty in *. repeat split; auto. lia.
Qed.

Lemma transfer_lock_ok H s sg x a s' : transfer_lock H s sg x a = Ok s' ->
  exists c mt f pe amount t orl irl orl' irl' ts s1 cu cu',
    transfer_facts s sg x a Locking c mt f pe amount t orl irl orl' irl' ts /\
    tok_transfer s (xa_tp x) (xa_from x) (cf_mint c) (cf_custody c) (pda_session (tk_owner f) (h_args H a)) amount (xa_hook_ok x) = Ok s1 /\
    st_toks s (cf_custody c) = Some cu /\ st_toks s1 (cf_custody c) = Some cu' /\ tk_amount cu' = tk_amount cu + amount /\
    s' = out_puts s1 x a f pe t orl' irl' ts.
Proof.
  unfold transfer_lock. intros E. binds E.
  match goal with E : transfer_checks _ _ _ _ _ = _ |- _ => apply transfer_checks_ok in E; destruct E as (?&?&?&?&?&?&?&?&?&?) end.
  apply insert_ok in E. destruct E as (orl & irl & orl' & irl' & ts & Ho & Hi & HL & ->). gets. bools.
  assert (Hs : same_prog s v0) by (pose proof (tok_transfer_ok _ _ _ _ _ _ _ _ _ E3) as Q; decompose [ex and] Q; assumption).
  destruct Hs as (Ha & Hn & _). unfold has in Ho, Hi. rewrite Ha in Ho, Hi. rewrite Hn in HL.
  apply plain_ok in E5. destruct E5 as [-> ?].
  do 14 eexists. split; [constructor; eassumption|]. do 3 (split; [eassumption|]). split; [lia|]. reflexivity.
Qed.

Lemma transfer_burn_ok H s sg x a s' : transfer_burn H s sg x a = Ok s' ->
  exists c mt f pe amount t orl irl orl' irl' ts s1 s2 cu cu',
    transfer_facts s sg x a Burning c mt f pe amount t orl irl orl' irl' ts /\
    tok_transfer s (xa_tp x) (xa_from x) (cf_mint c) (cf_custody c) (pda_session (tk_owner f) (h_args H a)) amount (xa_hook_ok x) = Ok s1 /\
    tok_burn s1 (xa_tp x) (cf_custody c) (cf_mint c) token_authority amount = Ok s2 /\
    st_toks s (cf_custody c) = Some cu /\ st_toks s2 (cf_custody c) = Some cu' /\ tk_amount cu' = tk_amount cu /\
    s' = out_puts s2 x a f pe t orl' irl' ts.
Proof.
  unfold transfer_burn. intros E. binds E.
  match goal with E : transfer_checks _ _ _ _ _ = _ |- _ => apply transfer_checks_ok in E; destruct E as (?&?&?&?&?&?&?&?&?&?) end.
  apply insert_ok in E. destruct E as (orl & irl & orl' & irl' & ts & Ho & Hi & HL & ->). gets. bools.
  assert (Hs : same_prog s v1).
  { pose proof (tok_transfer_ok _ _ _ _ _ _ _ _ _ E3) as Q. pose proof (tok_burn_ok _ _ _ _ _ _ _ E4) as Q'.
    decompose [ex and] Q; decompose [ex and] Q'; eapply same_prog_trans; eassumption. }
  destruct Hs as (Ha & Hn & _). unfold has in Ho, Hi. rewrite Ha in Ho, Hi. rewrite Hn in HL.
  do 15 eexists. split; [constructor; eassumption|]. do 4 (split; [eassumption|]). split; [lia|]. reflexivity.
Qed.

(** ** Redeem *)
Record redeem_facts (H : hashes) (s : state) (x : redeem_accts)
  (c : config addr) (rt : registered addr) (p : prog) (chain : Z) (tm : tr_msg) (pe : peer addr) (mt : mint)
  (old new : inbox_item addr) (irl orl : rl) (amount n : Z) : Prop := {
  rf_config : has s (ra_config x) PManager (DConfig c);
  rf_threshold : 0 < cf_threshold c;
  rf_reg : has s (ra_transceiver x) PManager (DReg rt);
  rf_addr : rt_address rt = AProg p;
  rf_msg : has s (ra_message x) p (DVtm chain tm);
  rf_peer : has s (pda_peer chain) PManager (DPeer pe);
  rf_source : pe_address pe = tm_source tm;
  rf_to_chain : nm_to_chain (tm_msg tm) = cf_chain c;
  rf_recipient : tm_recipient tm = AProg PManager;
  rf_enabled : bm_get (cf_enabled c) (rt_id rt) = Ok true;
  rf_mint : st_mints s (cf_mint c) = Some mt;
  rf_item : (st_accts s (pda_inbox (h_msg H chain (tm_msg tm))) = None /\ old = inbox_default) \/
            has s (pda_inbox (h_msg H chain (tm_msg tm))) PManager (DInboxItem old);
  rf_irl : has s (pda_inbox_rl chain) PManager (DInboxRL irl);
  rf_orl : has s (ra_outbox_rl x) PManager (DOutboxRL orl);
  rf_amount : untrim (nm_amount (tm_msg tm)) (mt_decimals mt) = Ok amount;
  rf_new : let i := if ib_init old then old else InboxItem true 0 amount (nm_to (tm_msg tm)) bm_new NotApproved in
           exists votes, bm_set (ib_votes i) (rt_id rt) true = Ok votes /\
             new = InboxItem (ib_init i) (ib_bump i) (ib_amount i) (ib_recipient i) votes (ib_status i);
  rf_count : bm_count_enabled_votes (ib_votes new) (cf_enabled c) = Ok n }.

Definition in_limits (now amount : Z) (irl orl irl' orl' : rl) (ts : Z) : Prop :=
  (consume_or_delay irl now amount = Ok (irl', Consumed ts) /\ refill orl ts amount = Ok orl') \/
  (consume_or_delay irl now amount = Ok (irl', Delayed ts) /\ orl' = orl).

Definition set_status (i : inbox_item addr) (st : release_status) : inbox_item addr :=
  InboxItem (ib_init i) (ib_bump i) (ib_amount i) (ib_recipient i) (ib_votes i) st.

Lemma redeem_ok H s x s' : redeem H s x = Ok s' ->
  exists c rt p chain tm pe mt old new irl orl amount n,
    redeem_facts H s x c rt p chain tm pe mt old new irl orl amount n /\
    ((n < cf_threshold c /\ s' = put (pda_inbox (h_msg H chain (tm_msg tm))) PManager (DInboxItem new) s) \/
     (cf_threshold c <= n /\ ib_status new = NotApproved /\ exists irl' orl' ts, in_limits (st_now s) amount irl orl irl' orl' ts /\
        s' = put (pda_inbox (h_msg H chain (tm_msg tm))) PManager (DInboxItem (set_status new (ReleaseAfter ts)))
              (put (ra_outbox_rl x) PManager (DOutboxRL orl') (put (pda_inbox_rl chain) PManager (DInboxRL irl') s)))).
Proof.
  unfold redeem. intros E. binds E. gets. bools. subst.
  set (ia := pda_inbox _) in *. set (i := if ib_init v9 then _ else _) in *.
  set (new := InboxItem (ib_init i) (ib_bump i) (ib_amount i) (ib_recipient i) v13 (ib_status i)) in *.
  exists v, v1, x0, z, t, v2, v8, v9, new, v10, v11, v12, v14. split.
  { constructor; try assumption; try lia; try congruence.
    - fold ia. destruct (st_accts s ia) eqn:Ea.
      + right. apply get_inbox_item_ok. assumption.
      + left. binds E11. bools. auto.
    - cbv zeta. exists v13. split; [exact E15|]. reflexivity. }
  destruct (v14 <? cf_threshold v) eqn:Q.
  - left. split; [lia|]. bools. subst. reflexivity.
  - right. split; [lia|]. binds E. bools. subst.
    match goal with Hr : release_after _ _ = Ok _ |- _ => unfold release_after in Hr; destruct (ib_status new) eqn:Est; try discriminate Hr; apply Ok_inj in Hr; subst end.
    split; [reflexivity|].
    match goal with Hr : match ?r with Consumed _ => _ | Delayed _ => _ end = Ok (?a, ?b), Hc : consume_or_delay _ _ _ = Ok (?d, ?r) |- _ =>
      exists d, b, a; split; [|reflexivity]; unfold in_limits; destruct r; binds Hr; bools; inversion Hr; subst; auto end.
Qed.

(** ** Releases *)
Record release_facts (s : state) (x : release_accts) (md : mode) (c : config addr) (i : inbox_item addr) (mt : mint) (rt : tok) : Prop := {
  lf_config : has s (la_config x) PManager (DConfig c);
  lf_paused : cf_paused c = false;
  lf_mode : cf_mode c = md;
  lf_item : has s (la_item x) PManager (DInboxItem i);
  lf_mint : st_mints s (cf_mint c) = Some mt;
  lf_rcpt : st_toks s (ata (la_tp x) (ib_recipient i) (cf_mint c)) = Some rt;
  lf_rprog : tk_prog rt = la_tp x;
  lf_rowner : tk_owner rt = ib_recipient i;
  lf_rmint : tk_mint rt = cf_mint c }.

Lemma release_checks_ok s x md c i ra : release_checks s x md = Ok (c, i, ra) ->
  ra = ata (la_tp x) (ib_recipient i) (cf_mint c) /\ exists mt rt, release_facts s x md c i mt rt.
Proof.
  unfold release_checks. intros E. binds E. bools. gets. inversion E; subst. split; [reflexivity|].
  do 2 eexists. constructor; try eassumption; reflexivity.
Qed.

Lemma try_release_ok i now i' b : inbox_try_release i now = Ok (i', b) ->
  (b = false /\ i' = i /\ (ib_status i = NotApproved \/ exists ts, ib_status i = ReleaseAfter ts /\ now < ts)) \/
  (b = true /\ exists ts, ib_status i = ReleaseAfter ts /\ ts <= now /\ i' = set_status i Released).
Proof.
  unfold inbox_try_release. destruct (ib_status i) eqn:Es; try discriminate.
  - intros E. inversion E; subst. left. auto.
  - destruct (now <? t) eqn:Q; intros E; inversion E; subst; [left|right]; (split; [reflexivity|]).
    + split; [reflexivity|]. right. exists t. split; [reflexivity|lia].
    + exists t. repeat split. lia.
Qed.

Lemma release_unlock_ok s x r s' : release_inbound_unlock s x r = Ok s' ->
  exists c i mt rt, release_facts s x Locking c i mt rt /\
    ((s' = s /\ r = false /\ (ib_status i = NotApproved \/ exists ts, ib_status i = ReleaseAfter ts /\ st_now s < ts)) \/
     (exists ts s1, ib_status i = ReleaseAfter ts /\ ts <= st_now s /\
        tok_transfer s (la_tp x) (cf_custody c) (cf_mint c) (ata (la_tp x) (ib_recipient i) (cf_mint c)) token_authority (ib_amount i) (la_hook_ok x) = Ok s1 /\
        s' = put (la_item x) PManager (DInboxItem (set_status i Released)) s1)).
Proof.
  unfold release_inbound_unlock. intros E. binds E.
  apply release_checks_ok in E0. destruct E0 as (-> & mt & rt & HF).
  exists c, i, mt, rt. split; [exact HF|].
  apply try_release_ok in E1. destruct E1 as [(-> & -> & Hs)|(-> & ts & Hs & Ht & ->)]; cbn [negb] in E.
  - left. destruct r; [discriminate|]. bools. auto.
  - right. binds E. bools. subst. eauto 10.
Qed.

Lemma release_mint_ok s x r s' : release_inbound_mint s x r = Ok s' ->
  exists c i mt rt, release_facts s x Burning c i mt rt /\
    ((s' = s /\ r = false /\ (ib_status i = NotApproved \/ exists ts, ib_status i = ReleaseAfter ts /\ st_now s < ts)) \/
     (exists ts s1 s2, ib_status i = ReleaseAfter ts /\ ts <= st_now s /\
        tok_mint_to s (la_tp x) (cf_mint c) (cf_custody c) token_authority (ib_amount i) = Ok s1 /\
        tok_transfer s1 (la_tp x) (cf_custody c) (cf_mint c) (ata (la_tp x) (ib_recipient i) (cf_mint c)) token_authority (ib_amount i) (la_hook_ok x) = Ok s2 /\
        s' = put (la_item x) PManager (DInboxItem (set_status i Released)) s2)).
Proof.
  unfold release_inbound_mint. intros E. binds E.
  apply release_checks_ok in E0. destruct E0 as (-> & mt & rt & HF).
  exists c, i, mt, rt. split; [exact HF|].
  apply try_release_ok in E1. destruct E1 as [(-> & -> & Hs)|(-> & ts & Hs & Ht & ->)]; cbn [negb] in E.
  - left. destruct r; [discriminate|]. bools. auto.
  - right. binds E. bools. subst. eauto 12.
Qed.

(** ** Outbound publication *)
Record outbound_facts (s : state) (cfg item transceiver : addr) (c : config addr) (o : outbox_item addr) (rt : registered addr) : Prop := {
  of_config : has s cfg PManager (DConfig c);
  of_paused : cf_paused c = false;
  of_item : has s item PManager (DOutboxItem o);
  of_reg : has s transceiver PManager (DReg rt);
  of_sent : bm_get (ob_released o) (rt_id rt) = Ok false;
  of_enabled : bm_get (cf_enabled c) (rt_id rt) = Ok true }.

Lemma outbound_checks_ok s cfg item tr c o rt : outbound_checks s cfg item tr = Ok (c, o, rt) ->
  outbound_facts s cfg item tr c o rt.
Proof.
  unfold outbound_checks. intros E. binds E. gets. bools. subst. inversion E; subst. constructor; assumption.
Qed.

Definition set_sent (o : outbox_item addr) (r : Z) : outbox_item addr :=
  OutboxItem (ob_amount o) (ob_sender o) (ob_chain o) (ob_manager o) (ob_recipient o) (ob_release o) r.

Lemma outbox_try_release_ok o now id o' b : outbox_try_release o now id = Ok (o', b) ->
  (b = false /\ o' = o /\ now < ob_release o) \/
  (b = true /\ ob_release o <= now /\ bm_get (ob_released o) id = Ok false /\
   exists r, bm_set (ob_released o) id true = Ok r /\ o' = set_sent o r).
Proof.
  unfold outbox_try_release. destruct (now <? ob_release o) eqn:Q; intros E.
  - inversion E; subst. left. repeat split; lia.
  - binds E. bools. subst. inversion E; subst. right. repeat split; [lia|assumption|]. eauto.
Qed.

Lemma mark_ok s sg sn cfg item tr s' b : mark_outbox_item_as_released s sg sn cfg item tr = Ok (s', b) ->
  exists c o rt p, outbound_facts s cfg item tr c o rt /\ rt_address rt = AProg p /\ sn = pda_outbox_signer p /\
    signed sg sn = true /\
    ((b = false /\ st_now s < ob_release o /\ s' = put item PManager (DOutboxItem o) s) \/
     (b = true /\ ob_release o <= st_now s /\ exists r, bm_set (ob_released o) (rt_id rt) true = Ok r /\
        s' = put item PManager (DOutboxItem (set_sent o r)) s)).
Proof.
  unfold mark_outbox_item_as_released. intros E. binds E. bools.
  apply outbound_checks_ok in E0. destruct (rt_address r) eqn:Ra; try discriminate. bools. subst.
  inversion E; subst. do 4 eexists. split; [exact E0|]. do 2 (split; [eassumption || reflexivity|]). split; [assumption|].
  apply outbox_try_release_ok in E3. destruct E3 as [(-> & -> & Hq)|(-> & Hq & Hg & r' & Hr & ->)]; [left; auto|right; eauto 10].
Qed.

Lemma get_put_same s a p d : st_accts (put a p d s) a = Some (Acct p d).
Proof. cbn. apply upd_same. Qed.

Lemma x_release_ok s p cfg item tr rev ok s' : is_ntt_prog p = true -> x_release s p cfg item tr rev ok = Ok s' ->
  exists c o rt, outbound_facts s cfg item tr c o rt /\ rt_address rt = AProg p /\
    ((s' = s /\ rev = false /\ st_now s < ob_release o) \/
     (ob_release o <= st_now s /\ ok = true /\ exists r, bm_set (ob_released o) (rt_id rt) true = Ok r /\
        st_accts s (pda_message p item) = None /\ pda_message p item <> item /\
        s' = set_posted (Post (pda_emitter p) (PPTransfer (outbound_message c item o)) :: st_posted s)
              (put (pda_message p item) PWormhole DPosted (put item PManager (DOutboxItem (set_sent o r)) s)))).
Proof.
  intros Hp. unfold x_release. intros E. binds E. bools.
  apply outbound_checks_ok in E0.
  exists c, o, r. split; [exact E0|]. split; [assumption|].
  assert (Hs1 : (b = false /\ st_now s < ob_release o) \/
                (b = true /\ ob_release o <= st_now s /\ exists r', bm_set (ob_released o) (rt_id r) true = Ok r' /\
                   s0 = put item PManager (DOutboxItem (set_sent o r')) s)).
  { destruct p; try discriminate.
    - binds E2. bools. inversion E2; subst.
      match goal with Ho : outbox_try_release _ _ _ = _ |- _ =>
        apply outbox_try_release_ok in Ho; destruct Ho as [(-> & -> & Hq)|(-> & Hq & Hg & r' & Hr & ->)] end;
      [left; auto|right; eauto 10].
    - apply mark_ok in E2. destruct E2 as (c' & o' & rt' & p' & HF & _ & _ & _ & HB).
      destruct E0, HF. unfold has in *.
      assert (o' = o) by congruence. assert (rt' = r) by congruence. subst.
      destruct HB as [(-> & Hq & ->)|(-> & Hq & r' & Hr & ->)]; [left; auto|right; eauto 10]. }
  destruct Hs1 as [(-> & Hq)|(-> & Hq & r' & Hr & ->)]; cbn [negb] in E.
  - left. destruct rev; [discriminate|]. bools. auto.
  - right. split; [assumption|]. binds E. gets. bools.
    apply bridge_post_ok in E. destruct E as (-> & Hm & _ & _ & ->). split; [reflexivity|].
    exists r'. split; [assumption|]. unfold has in E3. rewrite get_put_same in E3.
    assert (Hn : pda_message p item <> item).
    { intros C. rewrite C in Hm. rewrite get_put_same in Hm. discriminate. }
    split; [|split; [assumption|]].
    + cbn in Hm. rewrite upd_other in Hm by assumption. assumption.
    + inversion E3; subst. reflexivity.
Qed.

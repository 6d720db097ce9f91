(** * Exact effects of the administration instructions (C66). *)
From Verif Require Export SpecEffect LogFacts.
From Verif Require RateLimitFacts BitmapFacts.
Local Open Scope Z_scope.

Lemma step_ok H s sg i s' : forallb can_sign sg = true -> typed i = true -> exec H s sg i = Ok s' -> step H s (Call sg i) = Ok s'.
Proof. intros A B C. unfold step. cbn [signers ins]. rewrite A, B. exact C. Qed.
Lemma owned_ok s sg a o c : by_owner s sg a o c <-> get_owned s sg a o = Ok c.
Proof. unfold by_owner. rewrite get_owned_ok, signed_In. unfold config_at, has. intuition congruence. Qed.
Lemma u16b_ok z : is_u16 z -> u16b z = true. Proof. unfold u16b; ints; lia. Qed.
Lemma u64b_ok z : is_u64 z -> u64b z = true. Proof. unfold u64b; ints; lia. Qed.
Lemma u8b_ok z : is_u8 z -> u8b z = true. Proof. unfold u8b; ints; lia. Qed.

(** Derived addresses of the two programs hold no token account or mint. *)
Lemma pda_free s a : inv s -> reserved a -> st_accts s a = None -> free s a = true.
Proof.
  intros Hi Hr E. unfold free. destruct a; try contradiction. rewrite E.
  destruct (st_toks s _) eqn:Et; [exfalso; exact (proj1 (proj1 (inv_ledger _ Hi) _ _ Et) Hr)|].
  destruct (st_mints s _) eqn:Em; [exfalso; exact (proj1 (proj2 (inv_ledger _ Hi) _ _ Em) Hr)|]. reflexivity.
Qed.

Lemma put_untouched a p d s : untouched [a] s (put a p d s).
Proof.
  split; [|repeat split]. intros b N. cbn [put set_accts st_accts]. rewrite upd_other; [reflexivity|]. intros ->. apply N. now left.
Qed.
Lemma put2_untouched a p d b q e s : untouched [a; b] s (put b q e (put a p d s)).
Proof.
  split; [|repeat split]. intros x N. cbn [put set_accts st_accts]. rewrite !upd_other; [reflexivity| |]; intros ->; apply N; cbn; auto.
Qed.
Lemma uauth_untouched l s s' u : untouched l s s' -> untouched l s (set_uauth u s').
Proof. intros (A & B & C & D & E). repeat split; assumption. Qed.

Lemma paused_effect H s sg a o b : reachable H s -> forallb can_sign sg = true ->
  (succeeds (step H s (Call sg (ISetPaused a o b))) <-> exists c, by_owner s sg a o c) /\
  (forall s', step H s (Call sg (ISetPaused a o b)) = Ok s' -> exists c c', by_owner s sg a o c /\ config_at s' a c' /\
     fixed c' = fixed c /\ registry c' = registry c /\ cf_owner c' = cf_owner c /\ cf_pending c' = cf_pending c /\ cf_paused c' = b /\
     untouched [a] s s' /\ st_uauth s' = st_uauth s).
Proof.
  intros Hr Hsg. split.
  - split.
    + intros (s' & E). apply step_inv in E as (_ & _ & E). cbn [ins exec signers] in E. unfold set_paused in E. binds E. exists v. now apply owned_ok.
    + intros (c & Hc). apply owned_ok in Hc. eexists. apply step_ok; [exact Hsg|reflexivity|]. cbn [exec]. unfold set_paused. rewrite Hc. reflexivity.
  - intros s' E. apply step_inv in E as (_ & _ & E). cbn [ins exec signers] in E. unfold set_paused in E. binds E. apply Ok_inj in E. subst s'.
    eexists v, _. split; [now apply owned_ok|]. split; [apply get_put_same|]. repeat (split; [reflexivity|]). split; [apply put_untouched|reflexivity].
Qed.

Lemma set_peer_effect H s sg a o ch addr0 limit dec : reachable H s -> forallb can_sign sg = true -> is_u16 ch -> is_u64 limit -> is_u8 dec ->
  (succeeds (step H s (Call sg (ISetPeer a o ch addr0 limit dec))) <-> exists c, by_owner s sg a o c) /\
  (forall s', step H s (Call sg (ISetPeer a o ch addr0 limit dec)) = Ok s' -> exists c, by_owner s sg a o c /\
     st_accts s' (pda_peer ch) = Some (Acct PManager (DPeer (Peer 0 addr0 dec))) /\
     st_accts s' (pda_inbox_rl ch) = Some (Acct PManager (DInboxRL (RL limit limit 0))) /\
     untouched [pda_peer ch; pda_inbox_rl ch] s s' /\ st_uauth s' = st_uauth s).
Proof.
  intros Hr Hsg T1 T2 T3. pose proof (reachable_inv _ _ Hr) as Hi. split.
  - split.
    + intros (s' & E). apply step_inv in E as (_ & _ & E). cbn [ins exec signers] in E. unfold set_peer in E. binds E. exists v. now apply owned_ok.
    + intros (c & Hc). apply owned_ok in Hc. eexists. apply step_ok; [exact Hsg|cbn [typed]; now rewrite u16b_ok, u64b_ok, u8b_ok|].
      cbn [exec]. unfold set_peer. rewrite Hc. cbn [bind].
      assert (P1 : init_if_needed s (pda_peer ch) is_peer = Ok tt).
      { unfold init_if_needed. destruct (st_accts s (pda_peer ch)) as [ac|] eqn:F0.
        - destruct (kind_at _ TPeer _ _ _ _ Hi F0) as (r & ->). unfold get. rewrite F0. reflexivity.
        - rewrite pda_free; [reflexivity|exact Hi|exact I|exact F0]. }
      assert (P2 : init_if_needed s (pda_inbox_rl ch) is_inbox_rl = Ok tt).
      { unfold init_if_needed. destruct (st_accts s (pda_inbox_rl ch)) as [ac|] eqn:F0.
        - destruct (kind_at _ TInboxRL _ _ _ _ Hi F0) as (r & ->). unfold get. rewrite F0. reflexivity.
        - rewrite pda_free; [reflexivity|exact Hi|exact I|exact F0]. }
      rewrite P1, P2. reflexivity.
  - intros s' E. apply step_inv in E as (_ & _ & E). cbn [ins exec signers] in E. unfold set_peer in E. binds E. apply Ok_inj in E. subst s'.
    exists v. split; [now apply owned_ok|]. split; [rewrite get_put_other by discriminate; apply get_put_same|]. split; [apply get_put_same|].
    split; [apply put2_untouched|reflexivity].
Qed.

Lemma register_effect H s sg a o t : reachable H s -> forallb can_sign sg = true ->
  (succeeds (step H s (Call sg (IRegisterTransceiver a o t))) <->
   exists c p, by_owner s sg a o c /\ t = AProg p /\ st_accts s (pda_reg t) = None /\ cf_next c < 128) /\
  (forall s', step H s (Call sg (IRegisterTransceiver a o t)) = Ok s' -> exists c c', by_owner s sg a o c /\ config_at s' a c' /\
     fixed c' = fixed c /\ cf_owner c' = cf_owner c /\ cf_pending c' = cf_pending c /\ cf_paused c' = cf_paused c /\
     cf_next c' = cf_next c + 1 /\ (forall i, 0 <= i -> Z.testbit (cf_enabled c') i = (i =? cf_next c) || Z.testbit (cf_enabled c) i) /\
     reg_at s' (pda_reg t) (Registered 0 (cf_next c) t) /\ untouched [pda_reg t; a] s s' /\ st_uauth s' = st_uauth s).
Proof.
  intros Hr Hsg. pose proof (reachable_inv _ _ Hr) as Hi. split.
  - split.
    + intros (s' & E). apply step_inv in E as (_ & _ & E). cbn [ins exec signers] in E. unfold register_transceiver in E. binds E. bools. frees.
      destruct t; try discriminate. exists v, p. split; [now apply owned_ok|]. split; [reflexivity|]. split; [assumption|].
      match goal with Q : bm_set _ _ _ = Ok _ |- _ => unfold bm_set, Bitmap.BITS in Q; destruct (128 <=? cf_next v) eqn:F0 in Q; [discriminate|] end. lia.
    + intros (c & p & Hc & -> & Hn & Hx). pose proof Hc as (Hcf & _). apply owned_ok in Hc.
      assert (Ha : a = pda_config) by (eapply config_addr; eassumption). subst a.
      pose proof (co_next _ _ (inv_config _ Hi _ Hcf)) as Hnx.
      eexists. apply step_ok; [exact Hsg|reflexivity|].
      cbn [exec]. unfold register_transceiver. rewrite Hc. cbn [bind is_executable require]. rewrite pda_free; [|exact Hi|exact I|exact Hn]. cbn [require bind].
      rewrite RateLimitFacts.plain_ok by ilia. cbn [bind]. rewrite BitmapFacts.bm_set_ok by lia. reflexivity.
  - intros s' E. apply step_inv in E as (_ & _ & E). cbn [ins exec signers] in E. unfold register_transceiver in E. binds E. bools. frees.
    match goal with Q : get_owned _ _ _ _ = Ok ?v |- _ => apply owned_ok in Q; rename Q into Ho; rename v into c end.
    pose proof Ho as (Hcf & _).
    assert (Ha : a = pda_config) by (eapply config_addr; eassumption). subst a.
    pose proof (co_next _ _ (inv_config _ Hi _ Hcf)) as Hnx.
    match goal with Q : bm_set _ _ _ = Ok _ |- _ => unfold bm_set, Bitmap.BITS in Q; destruct (128 <=? cf_next c) eqn:F0 in Q; [discriminate|]; apply Ok_inj in Q; subst end.
    match goal with Q : plain _ _ = Ok ?n |- _ => rewrite RateLimitFacts.plain_ok in Q by ilia; apply Ok_inj in Q; subst end.
    eexists c, _. split; [exact Ho|]. split; [apply get_put_same|]. repeat (split; [reflexivity|]).
    split; [intros i Hz; cbn [cf_enabled]; rewrite Z.setbit_eqb by lia; now rewrite Z.eqb_sym|].
    split; [unfold reg_at; rewrite get_put_other by discriminate; apply get_put_same|]. split; [apply put2_untouched|reflexivity].
Qed.

Lemma set_limit_iff r now l : wf_rl r -> is_i64 now -> is_u64 l ->
  (succeeds (set_limit r now l) <-> rl_last r <= now) /\ (forall r', set_limit r now l = Ok r' -> r' = relimited r now l).
Proof.
  intros Hw Hn Hl.
  assert (E : rl_last r <= now -> set_limit r now l = Ok (relimited r now l)).
  { intros L. unfold relimited, capacity. apply RateLimitFacts.set_limit_exact; auto. apply RateLimitFacts.capacity_exact; [assumption|ilia]. }
  assert (B : forall r', set_limit r now l = Ok r' -> rl_last r <= now).
  { intros r' Q. destruct (Z_le_gt_dec (rl_last r) now); [assumption|]. destruct (RateLimitFacts.limiter_backwards r now l) as (_ & _ & _ & C); [lia|]. congruence. }
  split; [split|].
  - intros (r' & Q). eauto.
  - intros L. eexists. exact (E L).
  - intros r' Q. rewrite (E (B _ Q)) in Q. now apply Ok_inj in Q.
Qed.

Lemma outbound_limit_effect H s sg a o ra l : reachable H s -> forallb can_sign sg = true -> is_u64 l ->
  (succeeds (step H s (Call sg (ISetOutboundLimit a o ra l))) <->
   exists c r, by_owner s sg a o c /\ st_accts s ra = Some (Acct PManager (DOutboxRL r)) /\ rl_last r <= st_now s) /\
  (forall s', step H s (Call sg (ISetOutboundLimit a o ra l)) = Ok s' -> exists c r, by_owner s sg a o c /\ ra = pda_outbox_rl /\
     st_accts s ra = Some (Acct PManager (DOutboxRL r)) /\ st_accts s' ra = Some (Acct PManager (DOutboxRL (relimited r (st_now s) l))) /\
     untouched [ra] s s' /\ st_uauth s' = st_uauth s).
Proof.
  intros Hr Hsg Hl. pose proof (reachable_inv _ _ Hr) as Hi.
  assert (W : forall r, st_accts s ra = Some (Acct PManager (DOutboxRL r)) -> ra = pda_outbox_rl /\ wf_rl r) by (intros r E; exact (inv_mgr _ _ _ Hi E)).
  split.
  - split.
    + intros (s' & E). apply step_inv in E as (_ & _ & E). cbn [ins exec signers] in E. unfold set_outbound_limit in E. binds E.
      match goal with Q : get_outbox_rl _ _ = Ok ?r, Q' : set_limit _ _ _ = Ok _ |- _ => apply get_outbox_rl_ok in Q; destruct (W _ Q) as (-> & Hw); exists v, r;
        split; [now apply owned_ok|]; split; [exact Q|]; apply (set_limit_iff _ _ _ Hw (inv_now _ Hi) Hl); eexists; exact Q' end.
    + intros (c & r & Hc & Er & Ht). destruct (W _ Er) as (-> & Hw). apply owned_ok in Hc.
      apply (proj1 (set_limit_iff r (st_now s) l Hw (inv_now _ Hi) Hl)) in Ht. destruct Ht as (r' & Er').
      eexists. apply step_ok; [exact Hsg|cbn [typed]; now apply u64b_ok|].
      cbn [exec]. unfold set_outbound_limit. rewrite Hc. cbn [bind]. apply get_outbox_rl_ok in Er. rewrite Er. cbn [bind]. rewrite Er'. reflexivity.
  - intros s' E. apply step_inv in E as (_ & _ & E). cbn [ins exec signers] in E. unfold set_outbound_limit in E. binds E. apply Ok_inj in E. subst s'.
    match goal with Q : get_outbox_rl _ _ = Ok ?r, Q' : set_limit _ _ _ = Ok _ |- _ => apply get_outbox_rl_ok in Q; destruct (W _ Q) as (-> & Hw); exists v, r;
      apply (proj2 (set_limit_iff r (st_now s) l Hw (inv_now _ Hi) Hl)) in Q'; subst end.
    split; [now apply owned_ok|]. split; [reflexivity|]. split; [assumption|]. split; [apply get_put_same|]. split; [apply put_untouched|reflexivity].
Qed.

Lemma inbound_limit_effect H s sg a o ch l : reachable H s -> forallb can_sign sg = true -> is_u16 ch -> is_u64 l ->
  (succeeds (step H s (Call sg (ISetInboundLimit a o ch l))) <->
   exists c r, by_owner s sg a o c /\ st_accts s (pda_inbox_rl ch) = Some (Acct PManager (DInboxRL r)) /\ rl_last r <= st_now s) /\
  (forall s', step H s (Call sg (ISetInboundLimit a o ch l)) = Ok s' -> exists c r, by_owner s sg a o c /\
     st_accts s (pda_inbox_rl ch) = Some (Acct PManager (DInboxRL r)) /\
     st_accts s' (pda_inbox_rl ch) = Some (Acct PManager (DInboxRL (relimited r (st_now s) l))) /\
     untouched [pda_inbox_rl ch] s s' /\ st_uauth s' = st_uauth s).
Proof.
  intros Hr Hsg Hch Hl. pose proof (reachable_inv _ _ Hr) as Hi.
  assert (W : forall r, st_accts s (pda_inbox_rl ch) = Some (Acct PManager (DInboxRL r)) -> wf_rl r)
    by (intros r E; destruct (inv_mgr _ _ _ Hi E) as (ch' & _ & _ & Hw); exact Hw).
  split.
  - split.
    + intros (s' & E). apply step_inv in E as (_ & _ & E). cbn [ins exec signers] in E. unfold set_inbound_limit in E. binds E.
      match goal with Q : get_inbox_rl _ _ = Ok ?r, Q' : set_limit _ _ _ = Ok _ |- _ => apply get_inbox_rl_ok in Q; pose proof (W _ Q) as Hw; exists v, r;
        split; [now apply owned_ok|]; split; [exact Q|]; apply (set_limit_iff _ _ _ Hw (inv_now _ Hi) Hl); eexists; exact Q' end.
    + intros (c & r & Hc & Er & Ht). pose proof (W _ Er) as Hw. apply owned_ok in Hc.
      apply (proj1 (set_limit_iff r (st_now s) l Hw (inv_now _ Hi) Hl)) in Ht. destruct Ht as (r' & Er').
      eexists. apply step_ok; [exact Hsg|cbn [typed]; now rewrite u16b_ok, u64b_ok|].
      cbn [exec]. unfold set_inbound_limit. rewrite Hc. cbn [bind]. apply get_inbox_rl_ok in Er. rewrite Er. cbn [bind]. rewrite Er'. reflexivity.
  - intros s' E. apply step_inv in E as (_ & _ & E). cbn [ins exec signers] in E. unfold set_inbound_limit in E. binds E. apply Ok_inj in E. subst s'.
    match goal with Q : get_inbox_rl _ _ = Ok ?r, Q' : set_limit _ _ _ = Ok _ |- _ => apply get_inbox_rl_ok in Q; pose proof (W _ Q) as Hw; exists v, r;
      apply (proj2 (set_limit_iff r (st_now s) l Hw (inv_now _ Hi) Hl)) in Q'; subst end.
    split; [now apply owned_ok|]. split; [assumption|]. split; [apply get_put_same|]. split; [apply put_untouched|reflexivity].
Qed.

Lemma offer_effect H s sg a o n : reachable H s -> forallb can_sign sg = true ->
  (succeeds (step H s (Call sg (ITransferOwnership a o n))) <-> exists c, by_owner s sg a o c /\ st_uauth s = Some o) /\
  (forall s', step H s (Call sg (ITransferOwnership a o n)) = Ok s' -> exists c c', by_owner s sg a o c /\ config_at s' a c' /\
     fixed c' = fixed c /\ registry c' = registry c /\ cf_paused c' = cf_paused c /\ cf_owner c' = cf_owner c /\ cf_pending c' = Some n /\
     untouched [a] s s' /\ st_uauth s' = Some upgrade_lock).
Proof.
  intros Hr Hsg. split.
  - split.
    + intros (s' & E). apply step_inv in E as (_ & _ & E). cbn [ins exec signers] in E. unfold transfer_ownership in E. binds E. apply loader_ok in E as (Hu & _).
      exists v. split; [now apply owned_ok|exact Hu].
    + intros (c & Hc & Hu). apply owned_ok in Hc. eexists. apply step_ok; [exact Hsg|reflexivity|]. cbn [exec]. unfold transfer_ownership. rewrite Hc. cbn [bind].
      unfold loader_set_authority. cbn [put set_accts st_uauth]. rewrite Hu. cbn [oaddr_eqb]. rewrite addr_eqb_refl. reflexivity.
  - intros s' E. apply step_inv in E as (_ & _ & E). cbn [ins exec signers] in E. unfold transfer_ownership in E. binds E. apply loader_ok in E as (_ & ->).
    eexists v, _. split; [now apply owned_ok|]. split; [unfold config_at; cbn [set_uauth st_accts]; apply get_put_same|]. repeat (split; [reflexivity|]).
    split; [apply uauth_untouched, put_untouched|reflexivity].
Qed.

Lemma give_effect H s sg a o n : reachable H s -> forallb can_sign sg = true ->
  (succeeds (step H s (Call sg (ITransferOwnershipOneStep a o n))) <-> exists c, by_owner s sg a o c /\ st_uauth s = Some o) /\
  (forall s', step H s (Call sg (ITransferOwnershipOneStep a o n)) = Ok s' -> exists c c', by_owner s sg a o c /\ config_at s' a c' /\
     fixed c' = fixed c /\ registry c' = registry c /\ cf_paused c' = cf_paused c /\ cf_owner c' = n /\ cf_pending c' = None /\
     untouched [a] s s' /\ st_uauth s' = Some n).
Proof.
  intros Hr Hsg. split.
  - split.
    + intros (s' & E). apply step_inv in E as (_ & _ & E). cbn [ins exec signers] in E. unfold transfer_ownership_one_step_unchecked in E. binds E. apply loader_ok in E as (Hu & _).
      exists v. split; [now apply owned_ok|exact Hu].
    + intros (c & Hc & Hu). apply owned_ok in Hc. eexists. apply step_ok; [exact Hsg|reflexivity|]. cbn [exec]. unfold transfer_ownership_one_step_unchecked. rewrite Hc. cbn [bind].
      unfold loader_set_authority. cbn [put set_accts st_uauth]. rewrite Hu. cbn [oaddr_eqb]. rewrite addr_eqb_refl. reflexivity.
  - intros s' E. apply step_inv in E as (_ & _ & E). cbn [ins exec signers] in E. unfold transfer_ownership_one_step_unchecked in E. binds E. apply loader_ok in E as (_ & ->).
    eexists v, _. split; [now apply owned_ok|]. split; [unfold config_at; cbn [set_uauth st_accts]; apply get_put_same|]. repeat (split; [reflexivity|]).
    split; [apply uauth_untouched, put_untouched|reflexivity].
Qed.

Lemma claim_effect H s sg a n : reachable H s -> forallb can_sign sg = true ->
  (succeeds (step H s (Call sg (IClaimOwnership a n))) <->
   exists c, config_at s a c /\ (cf_pending c = Some n \/ cf_owner c = n) /\ In n sg /\ st_uauth s = Some upgrade_lock) /\
  (forall s', step H s (Call sg (IClaimOwnership a n)) = Ok s' -> exists c c', config_at s a c /\ config_at s' a c' /\
     fixed c' = fixed c /\ registry c' = registry c /\ cf_paused c' = cf_paused c /\ cf_owner c' = n /\ cf_pending c' = None /\
     untouched [a] s s' /\ st_uauth s' = Some n).
Proof.
  intros Hr Hsg. split.
  - split.
    + intros (s' & E). apply step_inv in E as (_ & _ & E). cbn [ins exec signers] in E. unfold claim_ownership in E. binds E. bools. gets. apply loader_ok in E as (Hu & _).
      exists v. split; [assumption|]. rewrite <- signed_In. split; [|split; assumption].
      match goal with Q : oaddr_eqb _ _ || _ = true |- _ => apply orb_true_iff in Q; destruct Q as [Q|Q]; bools; auto end.
    + intros (c & Hc & Hn & Hin & Hu). apply signed_In in Hin. eexists. apply step_ok; [exact Hsg|reflexivity|]. cbn [exec]. unfold claim_ownership.
      assert (Gc : get_config s a = Ok c) by (now apply get_config_ok). rewrite Gc. cbn [bind].
      assert (N : oaddr_eqb (cf_pending c) n || addr_eqb (cf_owner c) n = true).
      { destruct Hn as [->| ->]; cbn [oaddr_eqb]; rewrite addr_eqb_refl; [reflexivity|apply orb_true_r]. }
      rewrite N, Hin. cbn [require bind]. unfold loader_set_authority. cbn [put set_accts st_uauth]. rewrite Hu. cbn [oaddr_eqb]. rewrite addr_eqb_refl. reflexivity.
  - intros s' E. apply step_inv in E as (_ & _ & E). cbn [ins exec signers] in E. unfold claim_ownership in E. binds E. gets. apply loader_ok in E as (_ & ->).
    eexists v, _. split; [assumption|]. split; [unfold config_at; cbn [set_uauth st_accts]; apply get_put_same|]. repeat (split; [reflexivity|]).
    split; [apply uauth_untouched, put_untouched|reflexivity].
Qed.

Lemma x_peer_effect H s p sg a o ch addr0 : reachable H s -> forallb can_sign sg = true -> is_ntt_prog p = true -> is_u16 ch ->
  (succeeds (step H s (Call sg (IXSetPeer p a o ch addr0))) <-> exists c, by_owner s sg a o c /\ st_accts s (pda_xpeer p ch) = None) /\
  (forall s', step H s (Call sg (IXSetPeer p a o ch addr0)) = Ok s' -> exists c, by_owner s sg a o c /\
     st_accts s' (pda_xpeer p ch) = Some (Acct p (DXPeer (XPeer 0 addr0))) /\ untouched [pda_xpeer p ch] s s' /\ st_uauth s' = st_uauth s).
Proof.
  intros Hr Hsg Hp Hch. pose proof (reachable_inv _ _ Hr) as Hi. split.
  - split.
    + intros (s' & E). apply step_inv in E as (_ & _ & E). cbn [ins exec signers] in E. unfold x_set_peer in E. binds E. bools. frees. exists v. split; [now apply owned_ok|assumption].
    + intros (c & Hc & Hn). apply owned_ok in Hc. eexists. apply step_ok; [exact Hsg|cbn [typed]; now rewrite Hp, u16b_ok|]. cbn [exec]. unfold x_set_peer. rewrite Hc. cbn [bind].
      rewrite pda_free; [reflexivity|exact Hi|destruct p; try discriminate; exact I|exact Hn].
  - intros s' E. apply step_inv in E as (_ & _ & E). cbn [ins exec signers] in E. unfold x_set_peer in E. binds E. apply Ok_inj in E. subst s'.
    exists v. split; [now apply owned_ok|]. split; [apply get_put_same|]. split; [apply put_untouched|reflexivity].
Qed.

Lemma receive_effect H s p sg a v : reachable H s -> forallb can_sign sg = true -> is_ntt_prog p = true ->
  (succeeds (step H s (Call sg (IXReceive p a v))) <->
   exists c ch em m xp, config_at s a c /\ cf_paused c = false /\ st_accts s v = Some (Acct PWormhole (DVaa ch em (Some m))) /\
     st_accts s (pda_xpeer p ch) = Some (Acct p (DXPeer xp)) /\ xp_address xp = em /\ nm_to_chain (tm_msg m) = cf_chain c /\
     st_accts s (pda_vtm p ch (nm_id (tm_msg m))) = None) /\
  (forall s', step H s (Call sg (IXReceive p a v)) = Ok s' -> exists ch em m, st_accts s v = Some (Acct PWormhole (DVaa ch em (Some m))) /\
     st_accts s' (pda_vtm p ch (nm_id (tm_msg m))) = Some (Acct p (DVtm ch m)) /\ untouched [pda_vtm p ch (nm_id (tm_msg m))] s s' /\ st_uauth s' = st_uauth s).
Proof.
  intros Hr Hsg Hp. pose proof (reachable_inv _ _ Hr) as Hi. split.
  - split.
    + intros (s' & E). apply step_inv in E as (_ & _ & E). cbn [ins exec signers] in E. unfold x_receive in E. binds E. destruct v1; try discriminate. match goal with Q : match ?x with Some _ => _ | None => _ end = Ok _ |- _ => destruct x as [m|]; [|discriminate] end. binds E. bools. gets. frees.
      match goal with Q : (_ =? _) = true |- _ => apply Z.eqb_eq in Q end. exists v0. do 2 eexists. exists m. eexists. repeat (split; [eassumption || reflexivity|]). assumption.
    + intros (c & ch & em & m & xp & Hc & Hnp & Hv & Hx & He & Ht & Hn). eexists. apply step_ok; [exact Hsg|exact Hp|]. cbn [exec]. unfold x_receive.
      assert (Gc : get_not_paused s a = Ok c) by (now apply get_not_paused_ok). rewrite Gc. cbn [bind]. unfold get. rewrite Hv. cbn [ac_owner ac_data prog_eqb]. 
      match goal with |- context [if ?b then _ else _] => change b with true end. cbn [bind].
      assert (Gx : get_xpeer s p (pda_xpeer p ch) = Ok xp) by (now apply get_xpeer_ok). rewrite Gx. cbn [bind]. rewrite He, addr_eqb_refl. cbn [require bind].
      rewrite Ht, Z.eqb_refl. cbn [require bind]. rewrite pda_free; [reflexivity|exact Hi|destruct p; try discriminate; exact I|exact Hn].
  - intros s' E. apply step_inv in E as (_ & _ & E). cbn [ins exec signers] in E. unfold x_receive in E. binds E. destruct v1; try discriminate. match goal with Q : match ?x with Some _ => _ | None => _ end = Ok _ |- _ => destruct x as [m|]; [|discriminate] end. binds E. apply Ok_inj in E. subst s'. gets.
    do 2 eexists. exists m. split; [eassumption|]. split; [apply get_put_same|]. split; [apply put_untouched|reflexivity].
Qed.

(** ** Initialisation *)
Lemma orl_needs_config H s : reachable H s -> st_accts s pda_config = None -> st_accts s pda_outbox_rl = None.
Proof.
  revert s. apply (reach_ind H (fun s => st_accts s pda_config = None -> st_accts s pda_outbox_rl = None)).
  - intros s Hi _. destruct (st_accts s pda_outbox_rl) eqn:E; [|reflexivity]. apply (ini_accts _ Hi) in E as (E & _). exfalso. apply E. exact I.
  - intros s c s' Hr IH Hs Hn. pose proof (reachable_inv _ _ Hr) as Hi.
    assert (Hn0 : st_accts s pda_config = None).
    { apply no_config; [exact Hi|]. intros cf Hc. destruct (config_kept H s [Ev s c s'] s' pda_config cf Hr) as (c' & Hc' & _); [econstructor; [constructor|exact Hs]|exact Hc|].
      unfold config_at in Hc'. congruence. }
    specialize (IH Hn0). destruct (step_change _ _ _ _ Hs pda_outbox_rl) as [Q|Q]; [congruence|]. exfalso.
    destruct (st_accts s' pda_outbox_rl) as [ac|] eqn:En; [|inversion Q; congruence].
    destruct (kind_at _ TOutboxRL _ _ _ _ (step_inv_pres _ _ _ _ Hi Hs) En) as (r & ->). clear En.
    assert (Hc : exists d m tp ch l md, ins c = IInitialize d m tp ch l md).
    { rewrite IH in Q. destruct c as [sg i]. cbn [signers ins] in *. remember pda_outbox_rl as a eqn:Ea. clear Ea IH.
      inversion Q; subst; eauto 10; congruence. }
    destruct Hc as (d & m & tp & ch & l & md & Ei). destruct c as [sg i]. cbn [ins] in Ei. subst i.
    apply step_inv in Hs as (Hsg & _ & E). cbn [signers ins exec] in *. apply initialize_ok in E as (mt & s1 & _ & _ & _ & _ & _ & _ & _ & _ & ->); [|exact Hsg].
    rewrite get_put_other in Hn by discriminate. rewrite get_put_same in Hn. discriminate.
Qed.

Lemma initialize_effect H s sg d mnt tp ch l md : reachable H s -> forallb can_sign sg = true -> is_u16 ch -> is_u64 l ->
  let cu := ata tp token_authority mnt in
  (succeeds (step H s (Call sg (IInitialize d mnt tp ch l md))) <->
   In d sg /\ st_uauth s = Some d /\ st_accts s pda_config = None /\ is_token_prog tp = true /\
   exists m, st_mints s mnt = Some m /\ mt_prog m = tp /\ (md = Burning -> mt_auth m = Some token_authority) /\
     (st_toks s cu = None -> st_accts s cu = None /\ st_mints s cu = None)) /\
  (forall s', step H s (Call sg (IInitialize d mnt tp ch l md)) = Ok s' ->
     config_at s' pda_config (Config 0 d None mnt (AProg tp) md ch 0 1 0 false cu) /\
     st_accts s' pda_outbox_rl = Some (Acct PManager (DOutboxRL (RL l l 0))) /\
     (forall a, a <> pda_config -> a <> pda_outbox_rl -> st_accts s' a = st_accts s a) /\
     (forall a, a <> cu -> st_toks s' a = st_toks s a) /\
     (exists t, st_toks s' cu = Some t /\ tk_prog t = tp /\ tk_mint t = mnt /\ tk_owner t = token_authority /\ tk_delegate t = None /\
        (st_toks s cu = Some t \/ st_toks s cu = None /\ tk_amount t = 0)) /\
     st_mints s' = st_mints s /\ st_now s' = st_now s /\ st_posted s' = st_posted s /\ st_uauth s' = st_uauth s).
Proof.
  intros Hr Hsg Hch Hl cu. pose proof (reachable_inv _ _ Hr) as Hi.
  assert (W : is_token_prog tp = true -> forall t, st_toks s cu = Some t -> tk_prog t = tp /\ tk_mint t = mnt /\ tk_owner t = token_authority /\ tk_delegate t = None /\
     exists m, st_mints s mnt = Some m /\ mt_prog m = tp).
  { intros Htp t Et. destruct (proj1 (inv_ledger _ Hi) _ _ Et) as (_ & _ & _ & _ & (m & Em & Ep) & W1 & W2 & W3).
    destruct (W1 tp token_authority mnt Htp eq_refl) as (A & B). pose proof (W2 tp mnt Htp eq_refl) as C. subst. eauto 10. }
  split.
  - split.
    + intros (s' & E). apply step_inv in E as (_ & _ & E). cbn [ins exec signers] in E. apply initialize_ok in E as (m & s1 & A & B & C & D & F & G & J & K & _); [|exact Hsg].
      apply signed_In in A. repeat (split; [assumption|]). exists m. split; [exact G|].
      unfold init_custody in K. fold cu in K. destruct (st_toks s cu) as [t|] eqn:Et.
      * destruct (W F _ eq_refl) as (_ & _ & _ & _ & m' & Em & Ep). split; [congruence|]. split; [exact J|discriminate].
      * apply tok_init_ok in K. destruct K as (m' & ? & ? & ? & ? & ? & _). split; [congruence|]. auto.
    + intros (A & B & C & D & m & Em & Ep & Ha & Hf). apply signed_In in A.
      assert (K : exists s1, init_custody s tp mnt = Ok s1).
      { unfold init_custody. fold cu. destruct (st_toks s cu) as [t|] eqn:Et.
        - destruct (W D _ eq_refl) as (T1 & T2 & T3 & _). rewrite T1, T2, T3, !addr_eqb_refl. unfold prog_eqb. destruct (prog_eq_dec tp tp); [|congruence]. eexists. reflexivity.
        - destruct (Hf eq_refl) as (F1 & F2). unfold tok_init.
          assert (Gm : get_mint s tp mnt = Ok m) by (apply get_mint_ok; auto). rewrite Gm. cbn [bind].
          assert (Fr : free s cu = true) by (unfold free; unfold cu, ata in *; rewrite F1, Et, F2; reflexivity). rewrite Fr. eexists. reflexivity. }
      destruct K as (s1 & K). eexists. apply step_ok; [exact Hsg|cbn [typed]; now rewrite u16b_ok, u64b_ok|]. cbn [exec]. unfold initialize. rewrite A, B, addr_eqb_refl. cbn [require bind].
      rewrite (pda_free s pda_config Hi I C), (pda_free s pda_outbox_rl Hi I (orl_needs_config _ _ Hr C)). cbn [require bind].
      assert (T : match tp with PToken | PToken22 => true | _ => false end = true) by (destruct tp; try discriminate; reflexivity). rewrite T. cbn [require bind]. rewrite Em. cbn [ok_or bind].
      destruct md; [cbn [bind]; rewrite K; reflexivity|]. rewrite (Ha eq_refl), addr_eqb_refl. cbn [require bind]. rewrite K. reflexivity.
  - intros s' E. apply step_inv in E as (_ & _ & E). cbn [ins exec signers] in E. apply initialize_ok in E as (m & s1 & A & B & C & D & F & G & J & K & ->); [|exact Hsg].
    assert (Q : st_accts s1 = st_accts s /\ st_mints s1 = st_mints s /\ st_now s1 = st_now s /\ st_posted s1 = st_posted s /\ st_uauth s1 = st_uauth s /\
      (forall a, a <> cu -> st_toks s1 a = st_toks s a) /\ (exists t, st_toks s1 cu = Some t /\ tk_prog t = tp /\ tk_mint t = mnt /\ tk_owner t = token_authority /\ tk_delegate t = None /\
        (st_toks s cu = Some t \/ st_toks s cu = None /\ tk_amount t = 0))).
    { unfold init_custody in K. fold cu in K. destruct (st_toks s cu) as [t|] eqn:Et.
      - binds K. apply Ok_inj in K. subst s1. repeat (split; [reflexivity|]). destruct (W F _ eq_refl) as (? & ? & ? & ? & _). exists t. auto 10.
      - apply tok_init_ok in K. destruct K as (m' & ? & ? & ? & ? & ? & ->). repeat (split; [reflexivity|]).
        split; [intros a N; cbn [put_tok set_toks st_toks]; now rewrite upd_other|].
        eexists. split; [cbn [put_tok set_toks st_toks]; apply upd_same|]. cbn. auto 10. }
    destruct Q as (Q1 & Q2 & Q3 & Q4 & Q5 & Q6 & Q7).
    split; [unfold config_at; rewrite get_put_other by discriminate; apply get_put_same|]. split; [apply get_put_same|].
    split; [intros a N1 N2; rewrite !get_put_other by assumption; now rewrite Q1|]. cbn [put set_accts st_toks st_mints st_now st_posted st_uauth]. auto 10.
Qed.

(** * Proofs about what the client library reads (C103, C104). *)
From Coq Require Import String.
From Verif Require Import RateLimitFacts.
From Verif Require Export Reads SpecReads.
From Verif Require Import TxFacts UpkeepFacts MoveFacts AuthorityFacts EffectFacts InFacts.
Import ListNotations.
Local Open Scope Z_scope.
Local Strategy 1000 [sha256].

(** ** Inbox items *)
Lemma item_there H s h : reachable H s -> st_accts s (pda_inbox h) = None \/ exists it, inbox_at s (pda_inbox h) it.
Proof.
  intros R. destruct (st_accts s (pda_inbox h)) as [ac|] eqn:E; [right|auto].
  destruct (kind_at _ TInbox _ _ _ _ (reachable_inv _ _ R) E) as (it & ->). exists it. exact E.
Qed.
Lemma item_waits H s a it : reachable H s -> inbox_at s a it -> ib_init it = true /\ ((exists t, ib_status it = ReleaseAfter t) \/ ib_status it = Released).
Proof.
  intros R E. pose proof (item_addr _ _ _ (reachable_inv _ _ R) E) as (_ & I & _). split; [exact I|].
  pose proof (scheduled_at_once H s R a it E). destruct (ib_status it); [contradiction|eauto|auto].
Qed.
Lemma read_found H alive s ch m it : inbox_at s (item_of H ch m) it -> read_item H alive s ch m = Found it.
Proof. unfold inbox_at, item_of, read_item, fetch. intros ->. reflexivity. Qed.
Lemma read_none H alive s ch m : st_accts s (item_of H ch m) = None -> read_item H alive s ch m = if alive (item_of H ch m) then Broken else Missing.
Proof. unfold item_of, read_item, fetch. intros ->. reflexivity. Qed.

Lemma reads_item H alive s ch m it : reachable H s -> inbox_at s (item_of H ch m) it ->
  getIsApproved H alive s ch m = Some true /\
  (getIsExecuted H alive s ch m = Some true /\ getIsTransferInboundQueued H alive s ch m = Some false /\
   getInboundQueuedTransfer H alive s ch m = Some None /\ ib_status it = Released \/
   exists t, getIsExecuted H alive s ch m = Some false /\ getIsTransferInboundQueued H alive s ch m = Some true /\
   (Z.abs t < 2 ^ 53 -> getInboundQueuedTransfer H alive s ch m = Some (Some (ib_recipient it, ib_amount it, t))) /\ ib_status it = ReleaseAfter t).
Proof.
  intros R E. destruct (item_waits _ _ _ _ R E) as (I & S). unfold getIsApproved, getIsExecuted, getIsTransferInboundQueued, getInboundQueuedTransfer.
  rewrite (read_found _ alive _ _ _ _ E). cbn [nullable]. rewrite I. split; [reflexivity|]. destruct S as [(t & S)|S]; rewrite S; [right|left; auto].
  exists t. split; [reflexivity|]. split; [reflexivity|]. split; [|reflexivity]. intros L. unfold to_number. apply Z.ltb_lt in L. rewrite L. reflexivity.
Qed.
Lemma reads_nothing H alive s ch m : st_accts s (item_of H ch m) = None -> alive (item_of H ch m) = false ->
  getIsApproved H alive s ch m = Some false /\ getIsExecuted H alive s ch m = Some false /\
  getIsTransferInboundQueued H alive s ch m = Some false /\ getInboundQueuedTransfer H alive s ch m = Some None.
Proof.
  intros E A. unfold getIsApproved, getIsExecuted, getIsTransferInboundQueued, getInboundQueuedTransfer. rewrite (read_none _ alive _ _ _ E), A. auto.
Qed.
Lemma reads_dusted H alive s ch m : st_accts s (item_of H ch m) = None -> alive (item_of H ch m) = true ->
  getIsApproved H alive s ch m = None /\ getIsExecuted H alive s ch m = None /\
  getIsTransferInboundQueued H alive s ch m = None /\ getInboundQueuedTransfer H alive s ch m = None /\ track H alive s ch m RAttested = None.
Proof.
  intros E A. unfold track, getIsApproved, getIsExecuted, getIsTransferInboundQueued, getInboundQueuedTransfer. rewrite (read_none _ alive _ _ _ E), A. auto.
Qed.

(** ** Tracking *)
Lemma track_item H alive s ch m r it : reachable H s -> inbox_at s (item_of H ch m) it -> r <> RFinalized ->
  (forall t, ib_status it = ReleaseAfter t -> Z.abs t < 2 ^ 53) ->
  track H alive s ch m r = Some (match ib_status it with ReleaseAfter t => RQueued t | _ => RFinalized end).
Proof.
  intros R E N T. destruct (reads_item H alive s ch m it R E) as (A & B). unfold track.
  destruct B as [(B1 & _ & B2 & S)|(t & B1 & _ & B2 & S)]; rewrite S.
  - destruct r; try contradiction; rewrite ?A, B2, B1; reflexivity.
  - specialize (B2 (T t S)). destruct r; try contradiction; rewrite ?A, B2; reflexivity.
Qed.
Lemma track_stage H alive s ch m : reachable H s -> alive (item_of H ch m) = false -> timely s (item_of H ch m) ->
  track H alive s ch m RAttested = Some (stage s (item_of H ch m)).
Proof.
  intros R A T. destruct (item_there H s (h_msg H ch m) R) as [E|(it & E)]; fold (item_of H ch m) in E.
  - unfold track. destruct (reads_nothing H alive s ch m E A) as (-> & _). unfold stage, status_at. rewrite E. reflexivity.
  - rewrite (track_item H alive s ch m RAttested it R E); [|discriminate|intros t S; apply T; unfold status_at; rewrite E; congruence].
    unfold stage, status_at. rewrite E. destruct (item_waits _ _ _ _ R E) as (_ & [(t & ->)| ->]); reflexivity.
Qed.
Lemma stage_run H s tr s' a : reachable H s -> run H s tr s' -> (exists h, a = pda_inbox h) -> stage_le (stage s a) (stage s' a).
Proof.
  intros R Rn (h & ->). destruct (item_there H s h R) as [E|(it & E)].
  - unfold stage at 1, status_at. rewrite E. apply SL_start.
  - destruct (status_run _ _ _ _ _ _ R Rn E) as (it' & E' & _ & _ & L). unfold stage, status_at. rewrite E, E'.
    pose proof (item_waits _ _ _ _ R E) as (_ & S). destruct S as [(t & S)|S]; rewrite S in L |- *; inversion L; constructor.
Qed.
Lemma track_resumes H alive s tr s' ch m : reachable H s -> run H s tr s' -> alive (item_of H ch m) = false -> timely s' (item_of H ch m) ->
  track H alive s' ch m (stage s (item_of H ch m)) = track H alive s' ch m RAttested.
Proof.
  intros R Rn A T. pose proof (run_reachable _ _ _ _ R Rn) as R'.
  destruct (item_there H s (h_msg H ch m) R) as [E|(it & E)]; fold (item_of H ch m) in E.
  - unfold stage, status_at. rewrite E. reflexivity.
  - destruct (status_run _ _ _ _ _ _ R Rn E) as (it' & E' & _ & _ & L).
    assert (T' : forall t, ib_status it' = ReleaseAfter t -> Z.abs t < 2 ^ 53) by (intros t S; apply T; unfold status_at; rewrite E'; congruence).
    rewrite (track_item H alive s' ch m RAttested it' R' E') by (exact T' || discriminate).
    unfold stage, status_at. rewrite E. pose proof (item_waits _ _ _ _ R E) as (_ & [(t & S)|S]); rewrite S in L |- *.
    + rewrite (track_item H alive s' ch m (RQueued t) it' R' E') by (exact T' || discriminate). reflexivity.
    + apply later_released in L. rewrite L. reflexivity.
Qed.

(** ** Peers and limits *)
Lemma peer_pair H s : reachable H s -> forall ch, (exists p, peer_at s ch p) <-> (exists r, in_limiter s ch r).
Proof.
  revert s. apply (reach_ind H (fun s => forall ch, (exists p, peer_at s ch p) <-> (exists r, in_limiter s ch r))).
  - intros s I ch. split; intros (x & E); exfalso; destruct (ini_accts _ I _ _ E) as (_ & C & _); discriminate.
  - intros s c s' R IH E ch. pose proof (step_inv _ _ _ _ E) as (Cs & Ty & _).
    assert (New : forall a o ad l d, ins c = ISetPeer a o ch ad l d -> (exists p, peer_at s' ch p) /\ (exists r, in_limiter s' ch r)).
    { intros a o ad l d Q. destruct c as [sg i]. cbn [ins signers] in *. subst i. cbn [typed] in Ty. bools.
      destruct (set_peer_effect H s sg a o ch ad l d R Cs) as [_ Z]; try (first [apply Changes.u16b_ok|apply Changes.u64b_ok|apply Changes.u8b_ok]; assumption).
      destruct (Z s' E) as (_ & _ & P1 & P2 & _). unfold peer_at, in_limiter. eauto. }
    split; intros (x & Q).
    + destruct (step_change _ _ _ _ E (pda_peer ch)) as [K|K].
      * unfold peer_at in Q. rewrite K in Q. destruct (proj1 (IH ch) (ex_intro _ x Q)) as (r & L). exact (irl_kept _ _ _ _ _ _ E L).
      * unfold peer_at in Q. rewrite Q in K. remember (ins c) as i eqn:Ei. remember (signers c) as sg. clear Heqsg.
        remember (st_accts s (pda_peer ch)) as old. clear Heqold. inversion K; subst; eapply New; eauto.
    + destruct (step_change _ _ _ _ E (pda_inbox_rl ch)) as [K|K].
      * unfold in_limiter in Q. rewrite K in Q. destruct (proj2 (IH ch) (ex_intro _ x Q)) as (r & L).
        destruct (kind_kept _ _ _ _ _ _ E L) as (d & E' & Kd). destruct d; try discriminate. eexists. exact E'.
      * unfold in_limiter in Q. rewrite Q in K. destruct (st_accts s (pda_inbox_rl ch)) as [ac|] eqn:Old.
        -- destruct (kind_at _ TInboxRL _ _ _ _ (reachable_inv _ _ R) Old) as (r0 & ->).
           destruct (proj2 (IH ch) (ex_intro _ r0 Old)) as (p & L). destruct (kind_kept _ _ _ _ _ _ E L) as (d & E' & Kd). destruct d; try discriminate. eexists. exact E'.
        -- remember (ins c) as i eqn:Ei. remember (signers c) as sg. clear Heqsg. inversion K; subst; eapply New; eauto.
Qed.
Lemma config_pair H s : reachable H s -> (exists c, fetched s c) <-> (exists r, out_limiter s r).
Proof.
  revert s. apply (reach_ind H (fun s => (exists c, fetched s c) <-> (exists r, out_limiter s r))).
  - intros s I. split; intros (x & E); exfalso; destruct (ini_accts _ I _ _ E) as (_ & C & _); discriminate.
  - intros s c s' R IH E. pose proof (step_inv _ _ _ _ E) as (Cs & Ty & _).
    assert (New : forall d mnt tp ch l md, ins c = IInitialize d mnt tp ch l md -> (exists c, fetched s' c) /\ (exists r, out_limiter s' r)).
    { intros d mnt tp ch l md Q. destruct c as [sg i]. cbn [ins signers] in *. subst i. cbn [typed] in Ty. bools.
      destruct (initialize_effect H s sg d mnt tp ch l md R Cs) as [_ Z]; try (first [apply Changes.u16b_ok|apply Changes.u64b_ok]; assumption).
      destruct (Z s' E) as (P1 & P2 & _). unfold fetched, out_limiter. eauto. }
    assert (Keep : (exists c, fetched s c) /\ (exists r, out_limiter s r) -> (exists c, fetched s' c) /\ (exists r, out_limiter s' r)).
    { intros ((x & X) & (r & Y)). split; [|exact (orl_kept _ _ _ _ _ _ E Y)].
      destruct (kind_kept _ _ _ _ _ _ E X) as (d & E' & Kd). destruct d; try discriminate. eexists. exact E'. }
    split; intros (x & Q).
    + destruct (st_accts s pda_config) as [ac|] eqn:Old.
      * destruct (kind_at _ TConfig _ _ _ _ (reachable_inv _ _ R) Old) as (c0 & ->). apply Keep. split; [|apply IH]; exists c0; exact Old.
      * destruct (step_change _ _ _ _ E pda_config) as [K|K]; [unfold fetched in Q; congruence|]. unfold fetched in Q. rewrite Q, Old in K.
        remember (ins c) as i eqn:Ei. remember (signers c) as sg. clear Heqsg. inversion K; subst; eapply New; eauto.
    + destruct (st_accts s pda_outbox_rl) as [ac|] eqn:Old.
      * destruct (kind_at _ TOutboxRL _ _ _ _ (reachable_inv _ _ R) Old) as (c0 & ->). apply Keep. split; [apply IH|]; exists c0; exact Old.
      * destruct (step_change _ _ _ _ E pda_outbox_rl) as [K|K]; [unfold out_limiter in Q; congruence|]. unfold out_limiter in Q. rewrite Q, Old in K.
        remember (ins c) as i eqn:Ei. remember (signers c) as sg. clear Heqsg. inversion K; subst; eapply New; eauto.
Qed.

Lemma peer_there H s ch : reachable H s -> st_accts s (pda_peer ch) = None \/ exists p, peer_at s ch p.
Proof.
  intros R. destruct (st_accts s (pda_peer ch)) as [ac|] eqn:E; [right|auto].
  destruct (kind_at _ TPeer _ _ _ _ (reachable_inv _ _ R) E) as (p & ->). exists p. exact E.
Qed.
Lemma irl_there H s ch : reachable H s -> st_accts s (pda_inbox_rl ch) = None \/ exists r, in_limiter s ch r.
Proof.
  intros R. destruct (st_accts s (pda_inbox_rl ch)) as [ac|] eqn:E; [right|auto].
  destruct (kind_at _ TInboxRL _ _ _ _ (reachable_inv _ _ R) E) as (p & ->). exists p. exact E.
Qed.
Lemma xpeer_there H s x ch : reachable H s -> is_ntt_prog x = true -> st_accts s (pda_xpeer x ch) = None \/ exists p, xpeer_at s x ch p.
Proof.
  intros R X. destruct (st_accts s (pda_xpeer x ch)) as [ac|] eqn:E; [right|auto]. pose proof (reachable_inv _ _ R) as Hi.
  destruct x; try discriminate X.
  - destruct (kind_at _ TXPeer _ _ _ _ Hi E) as (p & ->). exists p. exact E.
  - pose proof (inv_shape _ Hi _ _ E) as Sh. unfold shape in Sh. destruct ac as [o d]. cbn in Sh.
    destruct o; try (destruct Sh as [(Q&_)|(Ee&p&it&Hp&Q)]; [exfalso; apply Q; exact I|discriminate Q]).
    + exfalso. destruct d; cbn in Sh; unfold wf_vtm in Sh; repeat match goal with Q : ex _ |- _ => destruct Q | Q : _ /\ _ |- _ => destruct Q end; discriminate || contradiction.
    + destruct d; cbn in Sh; try contradiction; [eexists; exact E|]. exfalso. destruct Sh as (_ & Q & _). discriminate.
Qed.

Lemma reads_peer H alive s ch : reachable H s ->
  (exists p r, peer_at s ch p /\ in_limiter s ch r /\ getPeer alive s ch = Some (Some (pe_address p, pe_decimals p, rl_limit r)) /\
     getInboundLimit alive s ch = Some (rl_limit r) /\ getCurrentInboundCapacity alive s ch = Some (rl_cap r)) \/
  (st_accts s (pda_peer ch) = None /\ st_accts s (pda_inbox_rl ch) = None /\ getInboundLimit alive s ch = None /\ getCurrentInboundCapacity alive s ch = None /\
   (alive (pda_peer ch) = false -> getPeer alive s ch = Some None)).
Proof.
  intros R. pose proof (peer_pair H s R ch) as P. unfold getPeer, getInboundLimit, getCurrentInboundCapacity, fetch.
  destruct (peer_there H s ch R) as [E|(p & E)].
  - right. destruct (irl_there H s ch R) as [F|F]; [|exfalso; destruct (proj2 P F) as (p & Q); unfold peer_at in Q; congruence].
    rewrite E, F. split; [reflexivity|]. split; [reflexivity|]. split; [destruct (alive (pda_inbox_rl ch)); reflexivity|].
    split; [destruct (alive (pda_inbox_rl ch)); reflexivity|]. intros ->. reflexivity.
  - left. destruct (proj1 P (ex_intro _ p E)) as (r & F). exists p, r. split; [exact E|]. split; [exact F|]. unfold peer_at, in_limiter in E, F. rewrite E, F. auto.
Qed.
Lemma reads_xpeer H alive s x ch : reachable H s -> is_ntt_prog x = true ->
  (exists p, xpeer_at s x ch p /\ getTransceiverPeer alive s x ch = Some (Some (xp_address p))) \/
  (st_accts s (pda_xpeer x ch) = None /\ (alive (pda_xpeer x ch) = false -> getTransceiverPeer alive s x ch = Some None)).
Proof.
  intros R X. unfold getTransceiverPeer, fetch. destruct (xpeer_there H s x ch R X) as [E|(p & E)].
  - right. rewrite E. split; [reflexivity|]. intros ->. reflexivity.
  - left. exists p. split; [exact E|]. unfold xpeer_at in E. rewrite E. reflexivity.
Qed.
Lemma reads_outbox H alive s : reachable H s ->
  (exists c r, fetched s c /\ out_limiter s r /\ getConfig alive s None = Some c /\ getOutboundLimit alive s = Some (rl_limit r) /\ getCurrentOutboundCapacity alive s = Some (rl_cap r)) \/
  (st_accts s pda_config = None /\ getConfig alive s None = None /\ getOutboundLimit alive s = None /\ getCurrentOutboundCapacity alive s = None).
Proof.
  intros R. pose proof (config_pair H s R) as P. unfold getConfig, getOutboundLimit, getCurrentOutboundCapacity, fetch.
  destruct (st_accts s pda_config) as [ac|] eqn:E.
  - left. destruct (kind_at _ TConfig _ _ _ _ (reachable_inv _ _ R) E) as (c & ->). destruct (proj1 P (ex_intro _ c E)) as (r & F).
    exists c, r. split; [exact E|]. split; [exact F|]. unfold out_limiter in F. rewrite F. auto.
  - right. destruct (st_accts s pda_outbox_rl) as [ac|] eqn:F.
    { exfalso. destruct (kind_at _ TOutboxRL _ _ _ _ (reachable_inv _ _ R) F) as (r & ->). destruct (proj2 P (ex_intro _ r F)) as (c & Q). unfold fetched in Q. congruence. }
    split; [reflexivity|]. split; [destruct (alive pda_config); reflexivity|]. split; destruct (alive pda_outbox_rl); reflexivity.
Qed.

(** ** Capacity and amounts *)
Lemma cap_below r now : wf_rl r -> rl_last r <= now -> rl_cap r <= capacity r now.
Proof.
  intros (U & C & L) T. unfold capacity. apply Z.min_glb; [|lia]. assert (0 <= (now - rl_last r) * rl_limit r / day); [|lia].
  apply Z.div_pos; [|unfold day; lia]. apply Z.mul_nonneg_nonneg; [lia|]. red in U. lia.
Qed.
Lemma trim_is a f t : trimAmount a f t = dust_free a f t.
Proof.
  unfold trimAmount, truncate, dust_free. replace (Z.min (Z.min f t) 8) with (shared f t) by (unfold shared; lia).
  destruct (shared f t <? f) eqn:L; [reflexivity|]. apply Z.ltb_ge in L. replace (f - shared f t) with 0 by (unfold shared in *; lia). rewrite Z.pow_0_r, Z.div_1_r, Z.mul_1_r. reflexivity.
Qed.
Lemma dust_free_idem a f t : 0 <= f -> 0 <= t -> dust_free (dust_free a f t) f t = dust_free a f t.
Proof.
  intros F T. unfold dust_free. assert (0 < 10 ^ (f - shared f t)) by (apply Z.pow_pos_nonneg; unfold shared; lia). rewrite Z.div_mul by lia. reflexivity.
Qed.
Lemma quote_is a f t : 0 <= f -> 0 <= t -> quote_amount a f t = convert (a / 10 ^ (f - shared f t)) (shared f t) t.
Proof.
  intros F T. unfold quote_amount. rewrite trim_is. unfold dust_free, scale_to, convert. set (d := shared f t). assert (0 <= d <= f /\ d <= t) by (unfold d, shared; lia).
  clearbody d. set (q := a / _).
  assert (G : (if f <? t then q * 10 ^ (f - d) * 10 ^ (t - f) else q * 10 ^ (f - d) / 10 ^ (f - t)) = q * 10 ^ (t - d)).
  { destruct (f <? t) eqn:L; [apply Z.ltb_lt in L|apply Z.ltb_ge in L].
    - rewrite <- Z.mul_assoc, <- Z.pow_add_r by lia. f_equal. f_equal. lia.
    - replace (f - d) with ((t - d) + (f - t)) by lia. rewrite Z.pow_add_r by lia. rewrite Z.mul_assoc, Z.div_mul; [reflexivity|]. assert (0 < 10 ^ (f - t)) by (apply Z.pow_pos_nonneg; lia). lia. }
  rewrite G. destruct (t <=? d) eqn:L; [apply Z.leb_le in L|reflexivity]. replace t with d by lia. rewrite Z.sub_diag, Z.pow_0_r, Z.div_1_r, Z.mul_1_r. reflexivity.
Qed.
Lemma quoted_amounts a f t m nm : 0 <= f -> 0 <= t -> mt_decimals m = t -> nm_amount nm = Trim (a / 10 ^ (f - shared f t)) (shared f t) ->
  trimAmount a f t = dust_free a f t /\ dust_free (trimAmount a f t) f t = trimAmount a f t /\
  trimAmount a f t / 10 ^ (f - shared f t) = a / 10 ^ (f - shared f t) /\ local_amount m nm = quote_amount a f t.
Proof.
  intros F T M N. split; [apply trim_is|]. rewrite trim_is. split; [apply dust_free_idem; assumption|]. split.
  - unfold dust_free. apply Z.div_mul. assert (0 < 10 ^ (f - shared f t)) by (apply Z.pow_pos_nonneg; unfold shared; lia). lia.
  - rewrite quote_is by assumption. unfold local_amount. rewrite N, M. reflexivity.
Qed.

Lemma not_warned H alive s sg x s' ch tm m c a f p : reachable H s -> forallb can_sign sg = true -> step H s (Call sg (IRedeem x)) = Ok s' ->
  st_accts s (ra_message x) = Some (Acct p (DVtm ch tm)) -> fetched s c -> st_mints s (cf_mint c) = Some m ->
  local_amount m (tm_msg tm) = quote_amount a f (mt_decimals m) -> quote_warns alive s ch a f (mt_decimals m) = Some false ->
  exists it, inbox_at s' (item_of H ch (tm_msg tm)) it /\ ib_status it = ReleaseAfter (st_now s) /\ ib_amount it = quote_amount a f (mt_decimals m).
Proof.
  intros R Cs St V F M Q W. destruct (proj2 (redeem_effect H s sg x R Cs) s' St) as (p' & ch' & tm' & c' & rt & pe & m' & irl & orl & Rb & Eff).
  destruct Rb as [D Rm _ _ Ri _ Rl].
  pose proof (dl_message _ _ _ _ _ _ _ _ D) as V'. rewrite V in V'. injection V' as <- <- <-.
  pose proof (dl_config _ _ _ _ _ _ _ _ D) as F'. pose proof (config_addr _ _ _ (reachable_inv _ _ R) F') as Ea. rewrite Ea in F'.
  assert (c' = c) by (unfold config_at, fetched in *; congruence). subst c'. assert (m' = m) by congruence. subst m'.
  unfold quote_warns in W. change (0 <? getRateLimitDuration) with true in W. cbv beta iota in W.
  unfold getCurrentInboundCapacity, fetch in W. unfold in_limiter in Ri. rewrite Ri in W. cbn [as_irl needed] in W.
  injection W as W. unfold isCapacityThresholdExceeded in W. apply Z.ltb_ge in W.
  pose proof (irl_wf _ _ _ (reachable_inv _ _ R) Ri) as Wf. destruct Rl as (Lt & _ & _). pose proof (cap_below irl (st_now s) Wf Lt) as B.
  assert (Le : local_amount m (tm_msg tm) <= capacity irl (st_now s)).
  { rewrite Q. destruct Wf as (_ & Wc & _). assert (rl_cap irl * 95 / 100 <= rl_cap irl) by (apply Z.div_le_upper_bound; lia). lia. }
  cbv zeta in Eff. unfold metered in Eff. apply Z.leb_le in Le. rewrite Le in Eff. destruct Eff as (I & _). rewrite <- Q. eexists. split; [exact I|]. split; reflexivity.
Qed.

(** ** Addresses *)
Lemma verify_iff c token x : verifyAddresses c token x = None <-> cf_mint c = token /\ x = Some PManager.
Proof.
  unfold verifyAddresses. assert (N : addr_eqb (pda_emitter PManager) (pda_emitter PManager) = true) by apply addr_eqb_refl. split.
  - destruct (addr_eqb (cf_mint c) token) eqn:T; [|discriminate]. apply addr_eqb_eq in T. destruct x as [x|]; [|discriminate].
    destruct (addr_eqb (pda_emitter PManager) (pda_emitter x)) eqn:E; [|discriminate]. apply addr_eqb_eq in E. injection E as <-. auto.
  - intros (-> & ->). rewrite addr_eqb_refl, N. reflexivity.
Qed.

Lemma verify_what c token x t w : verifyAddresses c token x = Some (t, w) ->
  (t = None /\ cf_mint c = token \/ t = Some (cf_mint c) /\ cf_mint c <> token) /\
  (w = None /\ x = Some PManager \/ w = Some (APda PManager TEmitter 0 ANull ANull) /\ x <> Some PManager).
Proof.
  unfold verifyAddresses. intros Q. assert (Q' : t = (if addr_eqb (cf_mint c) token then None else Some (cf_mint c)) /\
    w = match x with Some x => if addr_eqb (pda_emitter PManager) (pda_emitter x) then None else Some (pda_emitter PManager) | None => Some (pda_emitter PManager) end).
  { destruct (addr_eqb (cf_mint c) token), x as [x|]; [destruct (addr_eqb (pda_emitter PManager) (pda_emitter x))| |destruct (addr_eqb (pda_emitter PManager) (pda_emitter x))|];
      try discriminate Q; injection Q as <- <-; auto. }
  clear Q. destruct Q' as (-> & ->). split.
  - destruct (addr_eqb (cf_mint c) token) eqn:T; [left; apply addr_eqb_eq in T; auto|right; split; [reflexivity|intros E; apply addr_eqb_eq in E; congruence]].
  - destruct x as [x|]; [|right; split; [reflexivity|discriminate]]. destruct (addr_eqb (pda_emitter PManager) (pda_emitter x)) eqn:T.
    + apply addr_eqb_eq in T. injection T as <-. auto.
    + right. split; [reflexivity|]. intros [= ->]. rewrite addr_eqb_refl in T. discriminate T.
Qed.
Lemma duration_fills r now : wf_rl r -> rl_cap r = 0 -> 0 < rl_limit r -> rl_last r <= now <= i64_max ->
  (capacity_at r now = Ok (rl_limit r) <-> getRateLimitDuration <= now - rl_last r).
Proof.
  intros Wf C L T. rewrite (capacity_exact _ _ Wf T). rewrite C. change getRateLimitDuration with 86400. change day with 86400. split.
  - intros Q. apply Ok_inj in Q. assert (K : rl_limit r <= (now - rl_last r) * rl_limit r / 86400) by lia.
    assert (M : 86400 * rl_limit r <= (now - rl_last r) * rl_limit r). { pose proof (Z.mul_div_le ((now - rl_last r) * rl_limit r) 86400 ltac:(lia)). nia. } nia.
  - intros D. f_equal. apply Z.min_r. apply Z.div_le_lower_bound; [lia|]. nia.
Qed.

(** ** A configuration read before *)
Lemma held_config H s0 c0 tr s c : reachable H s0 -> fetched s0 c0 -> run H s0 tr s -> fetched s c -> identity c0 = identity c.
Proof.
  intros R F Rn G. destruct (config_kept _ _ _ _ _ _ R Rn F) as (c' & E & I). assert (c' = c) by (unfold config_at, fetched in *; congruence). subst c'. symmetry. exact I.
Qed.
Section Held.
Context (nm : bytes -> addr) (H : hashes) (c0 c : config addr).
Hypothesis Same : identity c0 = identity c.
Lemma sm_mint : cf_mint c0 = cf_mint c. Proof. injection Same. auto. Qed.
Lemma sm_tp : cf_token_program c0 = cf_token_program c. Proof. injection Same. auto. Qed.
Lemma sm_mode : cf_mode c0 = cf_mode c. Proof. injection Same. auto. Qed.
Lemma sm_custody : cf_custody c0 = cf_custody c. Proof. injection Same. auto. Qed.
Lemma held_burn py from au it a ch to q : createTransferBurn nm H py from au it c0 a ch to q = createTransferBurn nm H py from au it c a ch to q.
Proof. unfold createTransferBurn, transfer_common. rewrite sm_mint, sm_tp. reflexivity. Qed.
Lemma held_unlock py r ch m rv : createReleaseInboundUnlock H py r c0 ch m rv = createReleaseInboundUnlock H py r c ch m rv.
Proof. unfold createReleaseInboundUnlock, release_common. rewrite sm_mint, sm_tp. reflexivity. Qed.
Lemma held_mint py r ch m rv : createReleaseInboundMint H py r c0 ch m rv = createReleaseInboundMint H py r c ch m rv.
Proof. unfold createReleaseInboundMint, release_common. rewrite sm_mint, sm_tp. reflexivity. Qed.
Lemma held_redeem py x ch m : createRedeem H py c0 x ch m = createRedeem H py c x ch m.
Proof. unfold createRedeem. rewrite sm_mint. reflexivity. Qed.
Lemma held_lut py x slot : initializeOrUpdateLUT py c0 x slot = initializeOrUpdateLUT py c x slot.
Proof. unfold initializeOrUpdateLUT. rewrite sm_mint, sm_tp, sm_custody. reflexivity. Qed.
Lemma held_id py msg x : createBroadcastWormholeId py msg c0 x = createBroadcastWormholeId py msg c x.
Proof. unfold createBroadcastWormholeId. rewrite sm_mint. reflexivity. Qed.
Hypothesis Paused : cf_paused c0 = cf_paused c.
Lemma held_lock py from au it a ch to q : createTransferLock nm H py from au it c0 a ch to q = createTransferLock nm H py from au it c a ch to q.
Proof. unfold createTransferLock, transfer_common. rewrite sm_mint, sm_tp, Paused. reflexivity. Qed.
Lemma held_transfer sd a ch to q it x : client_transfer nm H sd a ch to q it c0 x = client_transfer nm H sd a ch to q it c x.
Proof.
  pose proof held_lock as HL. unfold client_transfer. rewrite Paused, sm_tp, sm_mint, sm_mode. destruct (assoc _ _ _); try reflexivity. rewrite HL, held_burn. reflexivity.
Qed.
Lemma held_claim py v ch m x : client_redeem H py v ch m c0 x = client_redeem H py v ch m c x.
Proof. unfold client_redeem. rewrite Paused, sm_mode, held_redeem, held_unlock, held_mint. reflexivity. Qed.
Lemma held_complete py ch m : completeInboundQueuedTransfer H py ch m c0 = completeInboundQueuedTransfer H py ch m c.
Proof. unfold completeInboundQueuedTransfer. rewrite Paused, sm_mode, held_unlock, held_mint. reflexivity. Qed.
Lemma held_register py o msg x : registerWormholeTransceiver py o msg c0 x = registerWormholeTransceiver py o msg c x.
Proof. unfold registerWormholeTransceiver. rewrite Paused, held_id. reflexivity. Qed.
End Held.

Lemma m_lock_held nm ok H s py from au it c0 c tp amount ch to q f : reachable H s -> fetched s c -> identity c0 = identity c -> cf_token_program c = AProg tp -> cf_paused c0 = false ->
  st_toks s from = Some f -> tk_owner f = au -> is_u64 amount -> is_u16 ch -> is32 to ->
  means nm ok H s (createTransferLock nm H py from au it c0 amount ch to q) (ITransferLock (TransferAccts pda_config from tp it pda_outbox_rl ok) (TransferArgs amount ch (nm to) q)).
Proof.
  intros R F Same E0 P X O A C T. destruct (fetched_ok _ _ _ R F) as (tp' & TP & E & K). rewrite E0 in E. injection E as <-. unfold createTransferLock. rewrite P.
  unfold transfer_common, custody_address. rewrite (sm_tp _ _ Same), (sm_mint _ _ Same), E0. cbn [assoc].
  intro_means (GTransferLock amount ch to q) AManager.
  intros sg s' _. cbn [layout xa_config xa_from xa_tp xa_outbox_item xa_outbox_rl ar_chain]. rewrite (fetched_get _ _ F). unfold any_tok. rewrite X. cbn [ok_or bind]. rewrite O, K.
  eexists. split; [reflexivity|]. meets_all.
Qed.

(** The built transactions when the deployment has been paused since. *)
Lemma paused_transfer nm H s c0 c tp sender amount chain to q item x l oks : reachable H s -> fetched s c -> identity c0 = identity c -> cf_paused c0 = false -> cf_paused c = true ->
  cf_token_program c = AProg tp -> can_sign sender = true -> can_sign item = true -> is_u64 amount -> is_u16 chain -> is32 to ->
  client_transfer nm H sender amount chain to q item c0 x = Some l -> List.length oks = 3%nat -> ~ succeeds (submit nm H sender s (combine l oks)).
Proof.
  intros R F Same P0 P E CS CI U16a U16 T32 L N (s' & Q).
  destruct (fetched_ok _ _ _ R F) as (tp' & TP & E' & K). assert (tp' = tp) by congruence. subst tp'. clear E'.
  unfold client_transfer in L. rewrite P0, (sm_tp _ _ Same), (sm_mint _ _ Same), (sm_mode _ _ Same), E in L. cbn [assoc] in L.
  set (from := ata tp sender (cf_mint c)) in *. set (a := TransferArgs amount chain (nm to) q) in *.
  set (b2 := match cf_mode c with Locking => _ | Burning => _ end) in L. set (b3 := createReleaseWormholeOutbound _ _ _ _) in L. injection L as <-.
  destruct oks as [|o1 [|o2 [|o3 [|]]]]; try discriminate N. clear N. cbn [combine] in Q. unfold submit in Q. cbn [flat_map fst] in Q. rewrite app_nil_r in Q. cbn [metas_of app] in Q.
  assert (W2 : wants b2 [sender; item]) by (unfold b2; destruct (cf_mode c); [eapply w_lock|eapply w_burn]; eauto; rewrite (sm_tp _ _ Same); exact E).
  assert (W3 : wants b3 [sender]) by apply w_release.
  set (all := _ :: _ :: _ :: _ :: _) in Q.
  assert (CA : forallb can_sign (signers_of all) = true).
  { apply forallb_forall. intros y. unfold all. unfold signers_of at 1. cbn [flat_map me_key me_signer app]. fold (signers_of (metas_of (Ours b2) ++ metas_of (Ours b3))).
    rewrite signers_app. cbn [In]. rewrite in_app_iff, (wanted_in _ _ _ W2), (wanted_in _ _ _ W3). cbn [In]. intros I. assert (y = sender \/ y = item) as [-> | ->] by intuition; assumption. }
  assert (IS : In sender (signers_of all)) by (left; reflexivity).
  assert (I2 : incl (metas_of (Ours b2)) all) by (intros y I; unfold all; do 4 right; apply in_or_app; left; exact I).
  clearbody all. cbn [submit_ submit1] in Q. set (ses := pda_session sender (h_args H a)) in Q.
  apply bind_ok in Q. destruct Q as (s1 & Q1 & Q). apply bind_ok in Q. destruct Q as (s2 & Q2 & _).
  pose proof (step_reachable _ _ _ _ R Q1) as R1.
  apply (approve_iff H s _ tp from sender ses amount s1 CA TP U16a IS) in Q1. destruct Q1 as (f & T & _ & O & ->). set (s1 := put_tok _ _ _) in *.
  assert (T1 : st_toks s1 from = Some (set_delegate f (Some ses) amount)) by apply upd_same.
  assert (F1 : fetched s1 c) by exact F.
  assert (M : means nm o2 H s1 b2 (deposit_call (cf_mode c) (TransferAccts pda_config from tp item pda_outbox_rl o2) a)).
  { unfold b2, deposit_call. destruct (cf_mode c); [eapply m_lock_held; eauto|]. rewrite (held_burn nm H c0 c Same). eapply m_burn; eauto. }
  destruct (submit_ours _ _ _ _ _ _ _ M I2) as (sg2 & _ & _ & C). cbn [submit1] in C. apply C in Q2.
  refine (paused_blocked H s1 sg2 _ pda_config c R1 F1 P _ (ex_intro _ s2 Q2)). unfold deposit_call. destruct (cf_mode c); reflexivity.
Qed.
Lemma paused_claim nm H s c0 c payer vaa ch msg x l oks : reachable H s -> fetched s c -> cf_paused c = true -> is_ntt_prog x = true ->
  (forall ch' e tm, st_accts s vaa = Some (Acct PWormhole (DVaa ch' e (Some tm))) -> ch' = ch /\ tm_msg tm = msg) ->
  client_redeem H payer vaa ch msg c0 x = Some l -> List.length oks = 3%nat -> ~ succeeds (submit nm H payer s (combine l oks)).
Proof.
  intros R F P X V L N (s' & Q). unfold client_redeem in L. destruct (cf_paused c0); [discriminate L|].
  set (b1 := createReceive _ _ _ _ _) in L. set (b2 := createRedeem _ _ _ _ _ _) in L. set (b3 := match cf_mode c0 with Locking => _ | Burning => _ end) in L. injection L as <-.
  destruct oks as [|o1 [|o2 [|o3 [|]]]]; try discriminate N. clear N. cbn [combine] in Q. unfold submit in Q. cbn [flat_map fst] in Q. rewrite app_nil_r in Q.
  set (all := _ :: _) in Q. assert (I1 : incl (metas_of (Ours b1)) all) by (intros y I; unfold all; right; apply in_or_app; left; exact I). clearbody all.
  cbn [submit_] in Q. apply bind_ok in Q. destruct Q as (s1 & Q1 & _).
  destruct (submit_ours nm o1 H s b1 _ all (m_receive nm o1 H s payer vaa x ch msg X V) I1) as (sg & _ & _ & C). apply C in Q1.
  exact (paused_blocked H s sg (IXReceive x pda_config vaa) pda_config c R F P eq_refl (ex_intro _ s1 Q1)).
Qed.
Lemma paused_complete nm H s c0 c tp payer ch msg l oks : reachable H s -> fetched s c -> identity c0 = identity c -> cf_paused c = true -> cf_token_program c = AProg tp ->
  (forall it, inbox_at s (item_of H ch msg) it -> ib_recipient it = nm_to msg) ->
  completeInboundQueuedTransfer H payer ch msg c0 = Some l -> List.length oks = 1%nat -> ~ succeeds (submit nm H payer s (combine l oks)).
Proof.
  intros R F Same P E V L N (s' & Q). unfold completeInboundQueuedTransfer in L. destruct (cf_paused c0); [discriminate L|].
  rewrite (sm_mode _ _ Same), (held_unlock H c0 c Same), (held_mint H c0 c Same) in L. set (b := match cf_mode c with Locking => _ | Burning => _ end) in L. injection L as <-.
  destruct oks as [|ok [|]]; try discriminate N. clear N. cbn [combine] in Q. unfold submit in Q. cbn [flat_map fst] in Q. rewrite app_nil_r in Q.
  set (all := _ :: _) in Q. assert (I1 : incl (metas_of (Ours b)) all) by (intros y I; unfold all; right; exact I). clearbody all.
  cbn [submit_] in Q. apply bind_ok in Q. destruct Q as (s1 & Q1 & _). set (x := ReleaseAccts pda_config (item_of H ch msg) tp ok).
  assert (M : means nm ok H s b (payout_call (cf_mode c) x false)).
  { unfold b, payout_call. destruct (cf_mode c); [apply m_unlock|apply m_mint]; assumption. }
  destruct (submit_ours nm ok H s b _ all M I1) as (sg & _ & _ & C). apply C in Q1.
  refine (paused_blocked H s sg _ pda_config c R F P _ (ex_intro _ s1 Q1)). unfold payout_call. destruct (cf_mode c); reflexivity.
Qed.

Section HeldTx.
Context (nm : bytes -> addr) (H : hashes) (s : state) (c0 c : config addr) (tp : prog).
Hypothesis (R : reachable H s) (F : fetched s c) (Same : identity c0 = identity c) (P0 : cf_paused c0 = false) (E : cf_token_program c = AProg tp).

Lemma held_transfer_tx sender amount chain to q item x : can_sign sender = true -> can_sign item = true -> is_ntt_prog x = true -> is_u64 amount -> is_u16 chain -> is32 to ->
  let a := TransferArgs amount chain (nm to) q in let from := ata tp sender (cf_mint c) in
  exists i1 i2 i3, client_transfer nm H sender amount chain to q item c0 x = Some [i1; i2; i3] /\ forall ok0 ok ok',
    let r := submit nm H sender s [(i1, ok0); (i2, ok); (i3, ok')] in
    (succeeds r <-> cf_paused c = false /\ exists m pe f cu orl irl rt v, sendable s c x sender from item a ok ok' m pe f cu orl irl rt v) /\
    (forall s', r = Ok s' -> exists m pe f cu orl irl rt v, sent H s s' c x sender from item a m pe f cu orl irl rt v).
Proof.
  intros CS CI X U16a U16 T32. cbv zeta. destruct (cf_paused c) eqn:P.
  - assert (exists i1 i2 i3, client_transfer nm H sender amount chain to q item c0 x = Some [i1; i2; i3]) as (i1 & i2 & i3 & L).
    { unfold client_transfer. rewrite P0, (sm_tp _ _ Same), E. cbn [assoc]. do 3 eexists. reflexivity. }
    exists i1, i2, i3. split; [exact L|]. intros ok0 ok ok'.
    pose proof (paused_transfer nm H s c0 c tp sender amount chain to q item x _ [ok0; ok; ok'] R F Same P0 P E CS CI U16a U16 T32 L eq_refl) as K. cbn [combine] in K.
    split; [split; [intros Q; destruct (K Q)|intros (Q & _); discriminate Q]|intros s' Q; destruct (K (ex_intro _ s' Q))].
  - rewrite (held_transfer nm H c0 c Same) by congruence.
    destruct (transfer_tx nm H s c tp sender amount chain to q item x R F P E CS CI X U16a U16 T32) as (i1 & i2 & i3 & L & K). cbv zeta in K. exists i1, i2, i3. split; [exact L|].
    intros ok0 ok ok'. destruct (K ok0 ok ok') as (K1 & K2). split; [rewrite K1; split; [intros Q; split; [reflexivity|exact Q]|intros (_ & Q); exact Q]|].
    intros s' Q. destruct (K2 s' Q) as (m & pe & f & cu & orl & irl & rt & v & _ & Z). exists m, pe, f, cu, orl, irl, rt, v. exact Z.
Qed.
Lemma held_redeem_tx payer vaa ch msg x : can_sign payer = true -> is_ntt_prog x = true ->
  (forall ch' e tm, st_accts s vaa = Some (Acct PWormhole (DVaa ch' e (Some tm))) -> ch' = ch /\ tm_msg tm = msg) ->
  exists i1 i2 i3, client_redeem H payer vaa ch msg c0 x = Some [i1; i2; i3] /\ forall ok1 ok2 ok,
    let r := submit nm H payer s [(i1, ok1); (i2, ok2); (i3, ok)] in
    (succeeds r <-> cf_paused c = false /\ exists e tm xp rt pe m irl orl d cu, claimable H s c x tp vaa ch msg ok e tm xp rt pe m irl orl d cu) /\
    (forall s', r = Ok s' -> exists tm rt m irl orl d cu, claimed H s s' c x tp ch msg tm rt m irl orl d cu).
Proof.
  intros CS X V. destruct (cf_paused c) eqn:P.
  - assert (exists i1 i2 i3, client_redeem H payer vaa ch msg c0 x = Some [i1; i2; i3]) as (i1 & i2 & i3 & L).
    { unfold client_redeem. rewrite P0. do 3 eexists. reflexivity. }
    exists i1, i2, i3. split; [exact L|]. intros ok1 ok2 ok. cbv zeta.
    pose proof (paused_claim nm H s c0 c payer vaa ch msg x _ [ok1; ok2; ok] R F P X V L eq_refl) as K. cbn [combine] in K.
    split; [split; [intros Q; destruct (K Q)|intros (Q & _); discriminate Q]|intros s' Q; destruct (K (ex_intro _ s' Q))].
  - rewrite (held_claim H c0 c Same) by congruence.
    destruct (redeem_tx nm H s c tp payer vaa ch msg x R F P E CS X V) as (i1 & i2 & i3 & L & K). cbv zeta in K |- *. exists i1, i2, i3. split; [exact L|].
    intros ok1 ok2 ok. destruct (K ok1 ok2 ok) as (K1 & K2). split; [rewrite K1; split; [intros Q; split; [reflexivity|exact Q]|intros (_ & Q); exact Q]|].
    intros s' Q. destruct (K2 s' Q) as (e & tm & xp & rt & pe & m & irl & orl & d & cu & _ & Z). exists tm, rt, m, irl, orl, d, cu. exact Z.
Qed.
Lemma held_complete_tx payer ch msg : can_sign payer = true -> (forall it, inbox_at s (item_of H ch msg) it -> ib_recipient it = nm_to msg) ->
  exists i, completeInboundQueuedTransfer H payer ch msg c0 = Some [i] /\ forall ok,
    let r := submit nm H payer s [(i, ok)] in let x := ReleaseAccts pda_config (item_of H ch msg) tp ok in
    (succeeds r -> cf_paused c = false) /\
    (cf_paused c = false -> completeInboundQueuedTransfer H payer ch msg c = Some [i] /\
     (succeeds r <-> exists it m d cu, releasable s x (cf_mode c) c it m d cu /\
     (early it (st_now s) \/ due it (st_now s) /\ creditable x c it m d /\
      match cf_mode c with Locking => ib_amount it <= tk_amount cu | Burning => tk_amount cu + ib_amount it <= u64_max /\ mt_supply m + ib_amount it <= u64_max end))).
Proof.
  intros CS V. destruct (cf_paused c) eqn:P.
  - assert (exists i, completeInboundQueuedTransfer H payer ch msg c0 = Some [i]) as (i & L).
    { unfold completeInboundQueuedTransfer. rewrite P0. eexists. reflexivity. }
    exists i. split; [exact L|]. intros ok. cbv zeta.
    pose proof (paused_complete nm H s c0 c tp payer ch msg _ [ok] R F Same P E V L eq_refl) as K. cbn [combine] in K.
    split; [intros Q; destruct (K Q)|discriminate].
  - rewrite (held_complete H c0 c Same) by congruence.
    destruct (complete_tx nm H s c tp payer ch msg R F P E CS V) as (i & L & K). cbv zeta in K |- *. exists i. split; [exact L|].
    intros ok. split; [reflexivity|]. intros _. split; [exact L|]. exact (proj1 (K ok)).
Qed.
End HeldTx.

Lemma held_same nm H s0 c0 tr s c : reachable H s0 -> fetched s0 c0 -> run H s0 tr s -> fetched s c ->
  getMode c0 = getMode c /\ getThreshold c0 = getThreshold c /\ getCustodyAddress c0 = getCustodyAddress c /\ cf_mint c0 = cf_mint c /\
  (forall py x slot, initializeOrUpdateLUT py c0 x slot = initializeOrUpdateLUT py c x slot) /\
  (isPaused c0 = isPaused c ->
   (forall sd a ch to q it x, client_transfer nm H sd a ch to q it c0 x = client_transfer nm H sd a ch to q it c x) /\
   (forall py v ch m x, client_redeem H py v ch m c0 x = client_redeem H py v ch m c x) /\
   (forall py ch m, completeInboundQueuedTransfer H py ch m c0 = completeInboundQueuedTransfer H py ch m c) /\
   (forall py o msg x, registerWormholeTransceiver py o msg c0 x = registerWormholeTransceiver py o msg c x)).
Proof.
  intros R0 F0 Rn F. pose proof (held_config _ _ _ _ _ _ R0 F0 Rn F) as I. unfold getMode, getThreshold, getCustodyAddress, isPaused.
  split; [apply sm_mode, I|]. split; [injection I; auto|]. split; [apply sm_custody, I|]. split; [apply sm_mint, I|]. split; [intros; apply held_lut, I|].
  intros P. split; [intros; apply held_transfer; assumption|]. split; [intros; apply held_claim; assumption|]. split; intros; [apply held_complete|apply held_register]; assumption.
Qed.
Lemma held_refuses nm H c0 : cf_paused c0 = true -> (forall sd a ch to q it x, client_transfer nm H sd a ch to q it c0 x = None) /\
  (forall py v ch m x, client_redeem H py v ch m c0 x = None) /\ (forall py ch m, completeInboundQueuedTransfer H py ch m c0 = None).
Proof. intros P. unfold client_transfer, client_redeem, completeInboundQueuedTransfer. rewrite P. auto. Qed.
Lemma cap_bounded H s r : reachable H s -> (out_limiter s r \/ exists ch, in_limiter s ch r) -> rl_last r <= st_now s -> 0 <= rl_cap r <= capacity r (st_now s).
Proof.
  intros R L T. assert (W : wf_rl r) by (destruct L as [L|(ch & L)]; [eapply orl_addr|eapply irl_wf]; [apply reachable_inv in R; exact R|exact L|apply reachable_inv in R; exact R|exact L]).
  split; [destruct W as (_ & ? & _); lia|]. apply cap_below; assumption.
Qed.
Definition held_transfers nm H s0 c0 tr s c tp R0 F0 Rn F P0 E :=
  held_transfer_tx nm H s c0 c tp (run_reachable H s0 tr s R0 Rn) F (held_config H s0 c0 tr s c R0 F0 Rn F) P0 E.
Definition held_redeems nm H s0 c0 tr s c tp R0 F0 Rn F P0 E :=
  held_redeem_tx nm H s c0 c tp (run_reachable H s0 tr s R0 Rn) F (held_config H s0 c0 tr s c R0 F0 Rn F) P0 E.
Definition held_completes nm H s0 c0 tr s c tp R0 F0 Rn F P0 E :=
  held_complete_tx nm H s c0 c tp (run_reachable H s0 tr s R0 Rn) F (held_config H s0 c0 tr s c R0 F0 Rn F) P0 E.

(** What the getters report is what the programs act upon. *)
Lemma same_config H s a c c' : reachable H s -> fetched s c -> has s a PManager (DConfig c') -> c' = c.
Proof. intros R F E. assert (Q : config_at s pda_config c') by exact (config_at_pda _ _ _ _ R E). unfold config_at in Q. unfold fetched in F. congruence. Qed.
Lemma getters H s sg i s' c : reachable H s -> fetched s c -> step H s (Call sg i) = Ok s' ->
  (forall a, settings (st_accts s' a) <> settings (st_accts s a) -> In (getOwner c) sg \/ exists a n, i = IClaimOwnership a n /\ cf_pending c = Some n /\ In n sg) /\
  (moves_value i = true -> isPaused c = false) /\
  (forall x a, i = ITransferLock x a -> getMode c = Locking) /\ (forall x a, i = ITransferBurn x a -> getMode c = Burning) /\
  (forall x r, i = IReleaseUnlock x r -> getMode c = Locking) /\ (forall x r, i = IReleaseMint x r -> getMode c = Burning).
Proof.
  intros R F E. split; [|split; [|repeat match goal with |- _ /\ _ => split end]].
  - intros a D. destruct (settings_owner H s (Call sg i) s' a R E D) as [(b & cf & o & C & A & I & W)|(d & m & tp & ch & l & md & N & _)]; [|destruct (N _ _ F)].
    rewrite (same_config H s b c cf R F C) in W. cbn [signers ins] in *. destruct W as [->|((a' & n & ->) & P)]; [left; exact I|right]. exists a', n. cbn [admin_by] in A. apply Some_inj in A. subst o. auto.
  - intros M. destruct (isPaused c) eqn:P; [|reflexivity]. exfalso. apply (paused_blocked H s sg i pda_config c R F P M). exists s'. exact E.
  - intros x a ->. apply step_inv in E as (_ & _ & E). cbn [exec signers ins] in E. apply transfer_lock_ok in E as (c' & ? & ? & ? & ? & ? & ? & ? & ? & ? & ? & ? & ? & ? & T & _). rewrite <- (same_config H s _ c c' R F (tf_config _ _ _ _ _ _ _ _ _ _ _ _ _ _ _ _ T)). exact (tf_mode _ _ _ _ _ _ _ _ _ _ _ _ _ _ _ _ T).
  - intros x a ->. apply step_inv in E as (_ & _ & E). cbn [exec signers ins] in E. apply transfer_burn_ok in E as (c' & ? & ? & ? & ? & ? & ? & ? & ? & ? & ? & ? & ? & ? & ? & T & _). rewrite <- (same_config H s _ c c' R F (tf_config _ _ _ _ _ _ _ _ _ _ _ _ _ _ _ _ T)). exact (tf_mode _ _ _ _ _ _ _ _ _ _ _ _ _ _ _ _ T).
  - intros x r ->. apply step_inv in E as (_ & _ & E). cbn [exec signers ins] in E. apply release_unlock_ok in E as (c' & ? & ? & ? & T & _). rewrite <- (same_config H s _ c c' R F (lf_config _ _ _ _ _ _ _ T)). exact (lf_mode _ _ _ _ _ _ _ T).
  - intros x r ->. apply step_inv in E as (_ & _ & E). cbn [exec signers ins] in E. apply release_mint_ok in E as (c' & ? & ? & ? & T & _). rewrite <- (same_config H s _ c c' R F (lf_config _ _ _ _ _ _ _ T)). exact (lf_mode _ _ _ _ _ _ _ T).
Qed.
Lemma getters_still H s c : reachable H s -> fetched s c ->
  getThreshold c = 1 /\ exists tp t, cf_token_program c = AProg tp /\ getCustodyAddress c = ata tp token_authority (cf_mint c) /\ st_toks s (getCustodyAddress c) = Some t /\ tk_owner t = token_authority.
Proof.
  intros R F. split; [exact (threshold_one H s pda_config c R F)|]. pose proof (reachable_inv _ _ R) as I. destruct (co_prog _ _ (inv_config _ I _ F)) as (tp & m & t & _ & Ep & Ec & _ & _ & Et & _).
  destruct (custody_tok _ _ I (inv_config _ I _ F)) as (cu & Ecu & Ow & _). exists tp, cu. auto.
Qed.

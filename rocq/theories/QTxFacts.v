(** * Proofs about the automatic transfer (C100). *)
From Coq Require Import String.
From Verif Require Import Client BuilderFacts TxFacts QuoterFacts QEffectFacts DispatchFacts Inv Kept.
From Verif Require EntryFacts.
From Verif Require Import QEntryFacts.
From Verif Require Export QBuilderFacts.
From Verif Require Import Quoter QEntry.
Import ListNotations.
Local Open Scope Z_scope.
Local Open Scope list_scope.
Local Strategy 1000 [sha256].

(** The other programs' part of a transaction, seen from the quoter. *)
Definition with_world (q : qstate) (w : state) : qstate := QState w (q_accts q) (q_lamports q) (q_uauth q).
Lemma world_reachable E q sg i w : q_reachable E q -> step (qe_hashes E) (q_world q) (Call sg i) = Ok w -> q_reachable E (with_world q w).
Proof.
  intros R S. apply (q_step_reachable E q (QCall sg (QWorld i))); [exact R|]. unfold q_step. cbn [q_signers q_ins q_typed q_exec].
  rewrite S. cbn [bind]. assert (C : forallb can_sign sg = true).
  { unfold step in S. cbn [signers ins] in S. destruct (forallb can_sign sg); [reflexivity|discriminate S]. }
  rewrite C. reflexivity.
Qed.
Lemma submit_world nm E all l : forall q w, q_reachable E q -> submit_ nm (qe_hashes E) all (q_world q) l = Ok w -> q_reachable E (with_world q w).
Proof.
  induction l as [|[i ok] l IH]; intros q w R S; cbn [submit_] in S; [injection S as <-; destruct q; exact R|].
  destruct (submit1 nm (qe_hashes E) all ok (q_world q) i) as [w1|] eqn:S1; cbn [bind] in S; [|discriminate S].
  assert (R1 : q_reachable E (with_world q w1)).
  { destruct i as [[i|]|tp a d o n]; cbn [submit1] in S1; [|discriminate S1|].
    - destruct (EntryFacts.entry_step _ _ _ _ _ _ _ _ S1) as [->|(j & sg & _ & _ & T)]; [destruct q; exact R|]. eapply world_reachable; eassumption.
    - destruct tp; try discriminate S1. eapply world_reachable; eassumption. }
  exact (IH (with_world q w1) w R1 S).
Qed.

Lemma transfer_signers nm H sender amount chain to q item c x tp i1 i2 i3 : cf_token_program c = AProg tp ->
  client_transfer nm H sender amount chain to q item c x = Some [i1; i2; i3] ->
  forall y, In y (signers_of (metas_of i1 ++ metas_of i2 ++ metas_of i3)) -> y = sender \/ y = item.
Proof.
  intros E. unfold client_transfer. destruct (cf_paused c) eqn:P; [discriminate|]. rewrite E. cbn [assoc].
  set (b2 := match cf_mode c with Locking => _ | Burning => _ end). set (b3 := createReleaseWormholeOutbound _ _ _ _).
  intros T. injection T as <- <- <-.
  assert (W2 : wants b2 [sender; item]) by (unfold b2; destruct (cf_mode c); [eapply w_lock|eapply w_burn]; eauto).
  assert (W3 : wants b3 [sender]) by apply w_release.
  intros y. rewrite !signers_app, !in_app_iff, (wanted_in _ _ _ W2), (wanted_in _ _ _ W3). cbn [metas_of signers_of flat_map me_key me_signer app In]. intuition.
Qed.
Lemma q_raise_least all ms : q_at_least ms (map (q_raise all) ms).
Proof.
  exists (map (q_raise all) ms), []. split; [symmetry; apply app_nil_r|]. induction ms as [|m ms IH]; constructor; [|exact IH].
  unfold q_raise. cbn [qm_key qm_signer qm_writable]. split; [reflexivity|]. split; intros ->; reflexivity.
Qed.
Lemma q_raise_signers all ms y : In y (q_signers_of (map (q_raise all) ms)) -> In y (q_signers_of ms) \/ In y (signers_of all).
Proof.
  rewrite !q_signers_of_in. intros (m & I & K & S). apply in_map_iff in I. destruct I as (m0 & <- & I). unfold q_raise in K, S. cbn [qm_key qm_signer] in K, S. rewrite K in S.
  apply orb_prop in S. destruct S as [S|S]; [left; exists m0; auto|]. right. apply existsb_exists in S. destruct S as (n & In' & B). apply andb_prop in B. destruct B as [B1 B2].
  apply EntryFacts.signers_of_in. exists n. split; [exact In'|]. split; [|exact B2]. unfold handle_eqb in B1. destruct (handle_eq_dec (me_key n) (HA y)); [assumption|discriminate B1].
Qed.

(** The conditions of [relayable] after the transfer, in terms of the state before. *)
Lemma ready_iff E q w sg sender item chain d m o rt : In sender sg -> st_accts w item = Some (Acct PManager (DOutboxItem o)) -> ob_chain o = chain -> 0 <= rt_id rt < 128 ->
  (exists b : bool, ob_released o = if b then 2 ^ rt_id rt else 0) -> forall i n c y,
  (exists p o', relayable E (with_world q w) sg sender QInst item d m i p o' n c y) <->
  ob_released o = 2 ^ rt_id rt /\ relay_ready E q sender item chain d m rt i n c y.
Proof.
  intros S T C B (b & Rl) i n c y. split.
  - intros (p & o' & [A1 [_ A2] A3 A4 A5 A6 A7 A8 A9 A10 A11 A12 A13 A14 A15 A16]). cbn [with_world q_world q_accts q_lamports] in *. rewrite T in A4. injection A4 as <- <-.
    assert (b = true /\ rn_index n = rt_id rt) as (-> & X).
    { rewrite Rl in A7. destruct b; [|rewrite Z.testbit_0_l in A7; discriminate A7]. split; [reflexivity|].
      destruct (Z.eq_dec (rn_index n) (rt_id rt)) as [X|X]; [exact X|]. rewrite Z.pow2_bits_false in A7 by congruence. discriminate A7. }
    split; [exact Rl|]. rewrite C in A8. constructor; assumption.
  - intros (Rl' & [A2 A3 A5 A7 A8 A9 A10 A11 A12 A13 A14 A15 A16]). exists PManager, o. constructor; cbn [with_world q_world q_accts q_lamports]; try assumption.
    + split; [reflexivity|exact A2].
    + lia.
    + rewrite Rl', A7. apply Z.pow2_bits_true. lia.
    + rewrite C. assumption.
Qed.

Lemma sendable_same s c x sender from item a ok ok' m pe f cu orl irl rt v m' pe' f' cu' orl' irl' rt' v' :
  sendable s c x sender from item a ok ok' m pe f cu orl irl rt v -> sendable s c x sender from item a ok ok' m' pe' f' cu' orl' irl' rt' v' ->
  m' = m /\ pe' = pe /\ f' = f /\ cu' = cu /\ orl' = orl /\ irl' = irl /\ rt' = rt /\ v' = v.
Proof.
  intros (D & R & _) (D' & R' & _). destruct D as [A1 A2 A3 _ A5 _ A7 A8 A9 _ _ _ _ _ _ _ _], D' as [B1 B2 B3 _ B5 _ B7 B8 B9 _ _ _ _ _ _ _ _].
  unfold reg_at, peer_at, out_limiter, in_limiter in *. assert (m' = m) by congruence. assert (pe' = pe) by congruence. subst m' pe'. repeat split; congruence.
Qed.

Lemma automatic_tx I nm E q c tp sender amount chain to qu item x m d : q_reachable E q -> fetched (q_world q) c -> cf_paused c = false -> cf_token_program c = AProg tp ->
  can_sign sender = true -> can_sign item = true -> is_ntt_prog x = true -> is_u64 amount -> is_u16 chain -> is32 to -> js_safe m -> js_safe d ->
  let H := qe_hashes E in let s := q_world q in
  let a := TransferArgs amount chain (nm to) qu in let from := ata tp sender (cf_mint c) in
  exists i1 i2 i3, client_transfer nm H sender amount chain to qu item c x = Some [i1; i2; i3] /\ forall ok0 ok ok',
    let r := submit_automatic I nm E sender q [(i1, ok0); (i2, ok); (i3, ok')] (createRequestRelay sender item (AProg PManager) chain m d) in
    (succeeds r <-> exists mt pe f cu orl irl rt v i n rc charge, sendable s c x sender from item a ok ok' mt pe f cu orl irl rt v /\
       v <= capacity orl (st_now s) /\ relay_ready E q sender item chain d m rt i n rc charge) /\
    (forall q', r = Ok q' -> exists mt pe f cu orl irl rt v i n rc charge, sendable s c x sender from item a ok ok' mt pe f cu orl irl rt v /\
       v <= capacity orl (st_now s) /\ relay_ready E q sender item chain d m rt i n rc charge /\
       sent H s (q_world q') c x sender from item a mt pe f cu orl irl rt v /\ request_at q' item (RelayRequest d) /\
       (forall b, b <> QReq item -> q_accts q' b = q_accts q b) /\ q_uauth q' = q_uauth q /\
       moved q q' (QExt sender) (QReq item) (charge - Z.min (q_lamports q (QReq item)) (request_rent E))).
Proof.
  intros R F P T CS CI X U1 U2 L32 Jm Jd. cbv zeta. pose proof (q_reachable_inv _ _ R) as Iv. pose proof (qv_world _ _ Iv) as Rw.
  destruct (transfer_tx nm (qe_hashes E) (q_world q) c tp sender amount chain to qu item x Rw F P T CS CI X U1 U2 L32) as (i1 & i2 & i3 & B & K).
  exists i1, i2, i3. split; [exact B|]. intros ok0 ok ok'. specialize (K ok0 ok ok'). cbv zeta in K.
  set (a := TransferArgs amount chain (nm to) qu) in *. set (from := ata tp sender (cf_mint c)) in *.
  destruct (qw_request sender item (AProg PManager) chain m d Jm Jd) as (bx & Bx & Wx).
  set (all := Meta (HA sender) true true :: flat_map (fun i : tx_item * bool => metas_of (fst i)) [(i1, ok0); (i2, ok); (i3, ok')]).
  set (sg := q_signers_of (map (q_raise all) (qx_metas bx))).
  assert (Ssg : In sender sg).
  { unfold sg. apply q_signers_of_in. destruct (proj2 (Wx sender) (or_introl eq_refl)) as (mm & Im & Km & Sm). exists (q_raise all mm). split; [apply in_map, Im|].
    unfold q_raise. cbn [qm_key qm_signer]. rewrite Sm. auto. }
  assert (Csg : forallb can_sign sg = true).
  { apply forallb_forall. intros y Iy. assert (y = sender \/ y = item) as [-> | ->]; [|assumption|assumption]. destruct (q_raise_signers _ _ _ Iy) as [Iq|Iq].
    - apply q_signers_of_in, Wx in Iq. destruct Iq as [->|[]]. auto.
    - unfold all in Iq. cbn [flat_map fst] in Iq. rewrite app_nil_r in Iq. change (Meta (HA sender) true true :: ?l) with ([Meta (HA sender) true true] ++ l) in Iq.
      rewrite signers_app in Iq. apply in_app_iff in Iq. destruct Iq as [Iq|Iq]; [cbn in Iq; destruct Iq as [->|[]]; auto|]. exact (transfer_signers _ _ _ _ _ _ _ _ _ _ _ _ _ _ T B y Iq). }
  (* the request, after a transfer that succeeded *)
  assert (Step : forall w mt pe f cu orl irl rt v, submit nm (qe_hashes E) sender (q_world q) [(i1, ok0); (i2, ok); (i3, ok')] = Ok w ->
    sendable (q_world q) c x sender from item a ok ok' mt pe f cu orl irl rt v -> sent (qe_hashes E) (q_world q) w c x sender from item a mt pe f cu orl irl rt v ->
    let r := q_entry I nm E (with_world q w) (map (q_raise all) (qx_metas bx)) (qx_data bx) in
    (q_succeeds r <-> exists i n rc charge, v <= capacity orl (st_now (q_world q)) /\ relay_ready E q sender item chain d m rt i n rc charge) /\
    (forall q', r = Ok q' -> exists i n rc charge, v <= capacity orl (st_now (q_world q)) /\ relay_ready E q sender item chain d m rt i n rc charge /\ q_world q' = w /\
       request_at q' item (RelayRequest d) /\ (forall b, b <> QReq item -> q_accts q' b = q_accts q b) /\ q_uauth q' = q_uauth q /\
       moved q q' (QExt sender) (QReq item) (charge - Z.min (q_lamports q (QReq item)) (request_rent E)))).
  { intros w mt pe f cu orl irl rt v Sb Sd Se. pose proof (submit_world _ _ _ _ _ _ R Sb) as R1.
    unfold sent in Se. destruct (metered _ _ _ _) as [[orl' irl'] t]. destruct Se as (Ob & _).
    match type of Ob with outbox_at w item ?o => set (o0 := o) in * end.
    assert (Id : 0 <= rt_id rt < 128) by (destruct Sd as (_ & Rg & _); exact (reg_id _ _ _ (reachable_inv _ _ Rw) Rg)).
    assert (M : q_means I nm E (with_world q w) (createRequestRelay sender item (AProg PManager) chain m d) (QRequestRelay sender QInst item d m)).
    { apply qm_request; [exact Jm|exact Jd|]. cbn [with_world q_world]. unfold outbox_at in Ob. intros p o Hp. rewrite Ob in Hp. injection Hp as <- <-. split; reflexivity. }
    destruct M as (bx' & Bx' & M). rewrite Bx in Bx'. injection Bx' as <-. specialize (M _ (q_raise_least all (qx_metas bx))).
    assert (Rel : forall i n rc y, (exists p o', relayable E (with_world q w) sg sender QInst item d m i p o' n rc y) <->
      v <= capacity orl (st_now (q_world q)) /\ relay_ready E q sender item chain d m rt i n rc y).
    { intros i n rc y. rewrite (ready_iff E q w sg sender item chain d m o0 rt Ssg Ob eq_refl Id); [|exists (v <=? capacity orl (st_now (q_world q))); reflexivity].
      unfold o0. cbn [ob_released]. assert (0 < 2 ^ rt_id rt) by (apply Z.pow_pos_nonneg; lia). destruct (v <=? capacity orl (st_now (q_world q))) eqn:Le; [apply Z.leb_le in Le|apply Z.leb_gt in Le]; split; intros (V1 & V2); (split; [|exact V2]); lia. }
    destruct (q_request_effect E (with_world q w) sg R1 Csg sender QInst item d m (js_u64 _ Jd) (js_u64 _ Jm)) as [Iff Eff]. cbv zeta. split.
    - split.
      + intros (q' & Hq). apply M in Hq. destruct (proj1 Iff (ex_intro _ q' Hq)) as (i & p & o & n & rc & y & Ra). exists i, n, rc, y. apply Rel. eauto.
      + intros (i & n & rc & y & V). apply Rel in V. destruct V as (p & o & Ra). destruct (proj2 Iff) as (q' & Hq); [do 6 eexists; exact Ra|]. exists q'. apply M. exact Hq.
    - intros q' Hq. apply M in Hq. destruct (Eff _ Hq) as (i & p & o & n & rc & y & Ra & Rq & (O1 & O2 & O3) & Mv). exists i, n, rc, y.
      destruct (proj1 (Rel i n rc y)) as (V1 & V2); [eauto|]. split; [exact V1|]. split; [exact V2|]. split; [exact O2|]. split; [exact Rq|]. split; [exact O1|]. split; [exact O3|]. exact Mv. }
  unfold submit_automatic. rewrite Bx. fold all. destruct K as [K1 K2].
  destruct (submit nm (qe_hashes E) sender (q_world q) [(i1, ok0); (i2, ok); (i3, ok')]) as [w|e] eqn:Sb; cbn [bind].
  - destruct (K2 w eq_refl) as (mt & pe & f & cu & orl & irl & rt & v & Sd & Se). destruct (Step w _ _ _ _ _ _ _ _ eq_refl Sd Se) as [Iff Eff]. fold (with_world q w). split.
    + split.
      * intros Su. apply Iff in Su. destruct Su as (i & n & rc & y & V1 & V2). exists mt, pe, f, cu, orl, irl, rt, v, i, n, rc, y. auto.
      * intros (mt' & pe' & f' & cu' & orl' & irl' & rt' & v' & i & n & rc & y & Sd' & V1 & V2). destruct (sendable_same _ _ _ _ _ _ _ _ _ _ _ _ _ _ _ _ _ _ _ _ _ _ _ _ _ Sd Sd') as (-> & -> & -> & -> & -> & -> & -> & ->).
        apply Iff. exists i, n, rc, y. auto.
    + intros q' Hq. destruct (Eff q' Hq) as (i & n & rc & y & V1 & V2 & W & V3). exists mt, pe, f, cu, orl, irl, rt, v, i, n, rc, y. rewrite W. split; [exact Sd|]. split; [exact V1|]. split; [exact V2|]. split; [exact Se|exact V3].
  - split; [|discriminate]. split; [intros (q' & Hq); discriminate Hq|]. intros (mt & pe & f & cu & orl & irl & rt & v & i & n & rc & y & Sd & _). exfalso.
    destruct (proj2 K1) as (w & Hw); [do 8 eexists; exact Sd|]. discriminate Hw.
Qed.

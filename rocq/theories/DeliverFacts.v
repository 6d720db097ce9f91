(** * Proofs about end-to-end delivery (C76). *)
From Verif Require Export SpecDeliver NetFacts MoveFacts.
Local Open Scope Z_scope.

(** ** The destination: from an attestation to the payout *)
Section Chain.
Context {H : hashes} {s : state} {p : prog} {j : Z} {tm : tr_msg} {v : addr} {c : config addr} {rt : registered addr}
  {pe : peer addr} {xp : xpeer addr} {m : mint} {irl orl : rl} {d cu : tok}.
Hypothesis (Hr : reachable H s) (Hp : is_ntt_prog p = true) (Ex : expecting H s p j tm v c rt pe xp m irl orl d cu).
Hypothesis (Hj : is_u16 j) (Ht : typed_tm tm = true) (Hc : nm_to_chain (tm_msg tm) = cf_chain c) (Hm : tm_recipient tm = AProg PManager).
Hypothesis (Hv : st_accts s (pda_vtm p j (nm_id (tm_msg tm))) = None).
Let x := local_amount m (tm_msg tm).
Let item := item_of H j (tm_msg tm).
Let vtm := pda_vtm p j (nm_id (tm_msg tm)).
Let dst := ata (mt_prog m) (nm_to (tm_msg tm)) (cf_mint c).
Hypothesis (Ha : affordable c m d cu x).

Lemma post_step : step H s (Call [] (EPostVaa v j (pda_emitter p) (Some tm))) = Ok (put v PWormhole (DVaa j (pda_emitter p) (Some tm)) s).
Proof.
  destruct (ex_slot _ _ _ _ _ _ _ _ _ _ _ _ _ _ _ Ex) as ((t & z & b & e & ->) & V1 & V2 & V3).
  unfold step. cbn [signers ins forallb typed]. assert (Ej : u16b j = true) by (unfold u16b; ilia). rewrite Ej, Ht. cbn [andb require bind exec].
  unfold free. rewrite V1, V2, V3. reflexivity.
Qed.
Lemma away_slot b : (forall t z y e, b <> APda PWormhole t z y e) -> b <> v.
Proof. intros N C. destruct (ex_slot _ _ _ _ _ _ _ _ _ _ _ _ _ _ _ Ex) as ((t & z & y & e & ->) & _). eapply N, C. Qed.

Lemma receive_step s1 : reachable H s1 -> (forall b, b <> v -> st_accts s1 b = st_accts s b) -> st_accts s1 v = Some (Acct PWormhole (DVaa j (pda_emitter p) (Some tm))) ->
  exists s2, step H s1 (Call [] (IXReceive p pda_config v)) = Ok s2 /\ st_accts s2 vtm = Some (Acct p (DVtm j tm)) /\ untouched [vtm] s1 s2.
Proof.
  intros R1 A1 A2. destruct (receive_effect H s1 p [] pda_config v R1 eq_refl Hp) as ((_ & S) & E).
  assert (Q : succeeds (step H s1 (Call [] (IXReceive p pda_config v)))).
  { assert (K : forall b, (forall t z y e, b <> APda PWormhole t z y e) -> st_accts s1 b = st_accts s b) by (intros b B; apply A1, away_slot, B).
    apply S. exists c, j, (pda_emitter p), tm, xp. unfold config_at. rewrite (K pda_config) by discriminate.
    rewrite (K (pda_xpeer p j)) by (destruct p; discriminate). rewrite (K (pda_vtm p j (nm_id (tm_msg tm)))) by (destruct p; discriminate).
    destruct Ex. unfold config_at, xpeer_at in *. repeat (split; [assumption|]). assumption. }
  destruct Q as (s2 & Q). exists s2. split; [exact Q|]. destruct (E _ Q) as (ch & em & m' & V & V' & U & _). rewrite A2 in V. inversion V; subst. auto.
Qed.

Lemma redeem_step s1 s2 : reachable H s2 -> (forall b, b <> v -> st_accts s1 b = st_accts s b) -> st_now s1 = st_now s -> st_toks s1 = st_toks s -> st_mints s1 = st_mints s ->
  st_accts s2 vtm = Some (Acct p (DVtm j tm)) -> untouched [vtm] s1 s2 ->
  exists s3, step H s2 (Call [] (IRedeem (RedeemAccts pda_config vtm (pda_reg (AProg p)) pda_outbox_rl))) = Ok s3 /\
    inbox_at s3 item (InboxItem true 0 x (nm_to (tm_msg tm)) (2 ^ rt_id rt) (ReleaseAfter (let_go irl (st_now s) x))) /\
    config_at s3 pda_config c /\ st_toks s3 = st_toks s /\ st_mints s3 = st_mints s /\ st_now s3 = st_now s.
Proof.
  intros R2 A1 N1 T1 M1 V2 (U1 & U2 & U3 & U4 & _).
  assert (A2 : forall b, b <> v -> b <> vtm -> st_accts s2 b = st_accts s b).
  { intros b B1 B2. rewrite U1 by (intros [C|[]]; congruence). apply A1, B1. }
  assert (K : forall b, (forall t z y e, b <> APda PWormhole t z y e) -> b <> vtm -> st_accts s2 b = st_accts s b) by (intros b B1 B2; apply A2; [apply away_slot, B1|exact B2]).
  destruct (redeem_effect H s2 [] (RedeemAccts pda_config vtm (pda_reg (AProg p)) pda_outbox_rl) R2 eq_refl) as ((_ & S) & E).
  assert (Kc : st_accts s2 pda_config = st_accts s pda_config) by (apply K; [discriminate|destruct p; discriminate]).
  assert (Kr : st_accts s2 (pda_reg (AProg p)) = st_accts s (pda_reg (AProg p))) by (apply K; [discriminate|destruct p; discriminate]).
  assert (Kp : st_accts s2 (pda_peer j) = st_accts s (pda_peer j)) by (apply K; [discriminate|destruct p; discriminate]).
  assert (Ki : st_accts s2 item = st_accts s item) by (apply K; [discriminate|destruct p; discriminate]).
  assert (Kl : st_accts s2 (pda_inbox_rl j) = st_accts s (pda_inbox_rl j)) by (apply K; [discriminate|destruct p; discriminate]).
  assert (Ko : st_accts s2 pda_outbox_rl = st_accts s pda_outbox_rl) by (apply K; [discriminate|destruct p; discriminate]).
  assert (Mt : st_mints s2 = st_mints s) by congruence. assert (Nw : st_now s2 = st_now s) by congruence.
  assert (Hid : rt_address rt = AProg p).
  { destruct (reg_addr _ _ _ (reachable_inv _ _ Hr) (ex_reg _ _ _ _ _ _ _ _ _ _ _ _ _ _ _ Ex)) as (q & Eq & A). inversion Eq; subst. exact A. }
  assert (Rd : redeemable H s2 (RedeemAccts pda_config vtm (pda_reg (AProg p)) pda_outbox_rl) p j tm c rt pe m irl orl).
  { destruct Ex. constructor; [constructor|..]; cbn [ra_config ra_message ra_transceiver ra_outbox_rl]; unfold config_at, reg_at, peer_at, in_limiter, out_limiter in *; try congruence.
    - exact (eq_trans Ki ex_new).
    - split; [reflexivity|congruence].
    - rewrite Nw. unfold meterable. intuition. }
  assert (Q : succeeds (step H s2 (Call [] (IRedeem (RedeemAccts pda_config vtm (pda_reg (AProg p)) pda_outbox_rl))))) by (apply S; do 9 eexists; exact Rd).
  destruct Q as (s3 & Q). exists s3. split; [exact Q|]. destruct (E _ Q) as (p' & ch' & tm' & c' & rt' & pe' & m' & irl' & orl' & Rd' & F).
  assert (Eq : p' = p /\ ch' = j /\ tm' = tm).
  { pose proof (dl_message _ _ _ _ _ _ _ _ (rb_delivers _ _ _ _ _ _ _ _ _ _ _ _ Rd')) as D. cbn [ra_message] in D. rewrite V2 in D. inversion D; subst. auto. }
  destruct Eq as (-> & -> & ->).
  assert (c' = c).
  { pose proof (dl_config _ _ _ _ _ _ _ _ (rb_delivers _ _ _ _ _ _ _ _ _ _ _ _ Rd')) as D. pose proof (ex_config _ _ _ _ _ _ _ _ _ _ _ _ _ _ _ Ex) as D'. unfold config_at in *. cbn [ra_config] in D. congruence. }
  assert (rt' = rt).
  { pose proof (dl_reg _ _ _ _ _ _ _ _ (rb_delivers _ _ _ _ _ _ _ _ _ _ _ _ Rd')) as D. pose proof (ex_reg _ _ _ _ _ _ _ _ _ _ _ _ _ _ _ Ex) as D'. unfold reg_at in *. congruence. }
  subst c' rt'.
  assert (m' = m). { pose proof (rb_mint _ _ _ _ _ _ _ _ _ _ _ _ Rd') as D. pose proof (ex_mint _ _ _ _ _ _ _ _ _ _ _ _ _ _ _ Ex) as D'. congruence. } subst m'.
  assert (irl' = irl). { pose proof (rb_irl _ _ _ _ _ _ _ _ _ _ _ _ Rd') as D. pose proof (ex_irl _ _ _ _ _ _ _ _ _ _ _ _ _ _ _ Ex) as D'. unfold in_limiter in *. congruence. } subst irl'.
  cbv zeta in F. unfold metered in F. rewrite Nw in F. fold x item in F. unfold let_go.
  destruct (x <=? capacity irl (st_now s)); destruct F as (F1 & _ & _ & (F4 & F5 & F6 & F7 & _) & _);
  (split; [exact F1|]; split; [|repeat split; congruence]; unfold config_at; rewrite F4 by (intros [C|[C|[C|[]]]]; discriminate C); rewrite Kc; apply Ex).
Qed.

Lemma dst_private : dst <> cf_custody c.
Proof.
  destruct (co_prog _ _ (inv_config _ (reachable_inv _ _ Hr) _ (ex_config _ _ _ _ _ _ _ _ _ _ _ _ _ _ _ Ex))) as (tp & m' & t & _ & _ & -> & _).
  intros C. apply (ex_private _ _ _ _ _ _ _ _ _ _ _ _ _ _ _ Ex). unfold dst, ata in C. inversion C. reflexivity.
Qed.

Lemma payout_step s4 : reachable H s4 ->
  inbox_at s4 item (InboxItem true 0 x (nm_to (tm_msg tm)) (2 ^ rt_id rt) (ReleaseAfter (let_go irl (st_now s) x))) ->
  config_at s4 pda_config c -> st_toks s4 = st_toks s -> st_mints s4 = st_mints s -> st_now s4 = let_go irl (st_now s) x ->
  exists s5, step H s4 (release_call (cf_mode c) (ReleaseAccts pda_config item (mt_prog m) true)) = Ok s5 /\ released s5 item = true /\
    credited_to s s5 c m dst d cu x /\ st_now s5 = let_go irl (st_now s) x.
Proof.
  intros R4 I4 C4 T4 M4 N4. pose proof dst_private as Hdst. set (it := InboxItem true 0 x (nm_to (tm_msg tm)) (2 ^ rt_id rt) (ReleaseAfter (let_go irl (st_now s) x))) in *.
  set (ac := ReleaseAccts pda_config item (mt_prog m) true).
  assert (Rl : releasable s4 ac (cf_mode c) c it m d cu).
  { destruct Ex. constructor; unfold ac; cbn [la_config la_item la_tp]; unfold destination; cbn [la_tp ib_recipient it]; try assumption; try reflexivity; try congruence. }
  assert (Du : due it (st_now s4)) by (exists (let_go irl (st_now s) x); split; [reflexivity|lia]).
  assert (Cr : creditable ac c it m d).
  { split; [reflexivity|]. intros _. cbn [ib_amount it]. destruct Ha as (A1 & A2 & _). auto. }
  assert (Ne : ~ early it (st_now s4)) by (intros (t & E & L); unfold it in E; cbn [ib_status] in E; inversion E; subst t; lia).
  assert (Same : forall md c' it' m' d' cu', releasable s4 ac md c' it' m' d' cu' -> c' = c /\ it' = it /\ m' = m /\ d' = d /\ cu' = cu).
  { intros md c' it' m' d' cu' R'. destruct R', Rl. unfold config_at, inbox_at in *. assert (c' = c) by congruence. assert (it' = it) by congruence. subst c' it'.
    repeat split; congruence. }
  destruct Ha as (A1 & A2 & A3).
  assert (Pay : forall s5, marked s4 s5 ac it -> released s5 item = true /\ st_now s5 = let_go irl (st_now s) x).
  { intros s5 (M1 & _ & M3 & _). split; [|congruence]. unfold released, status_at, inbox_at in *. unfold ac in M1. cbn [la_item] in M1. rewrite M1. reflexivity. }
  unfold release_call. destruct (cf_mode c) eqn:Md.
  - destruct (unlock_effect H s4 [] ac true R4 eq_refl) as ((_ & S) & E).
    assert (Q : succeeds (step H s4 (Call [] (IReleaseUnlock ac true)))).
    { apply S. exists c, it, m, d, cu. split; [exact Rl|]. right. cbn [ib_amount it]. intuition. }
    destruct Q as (s5 & Q). exists s5. split; [exact Q|]. destruct (E _ Q) as (c' & it' & m' & d' & cu' & R' & F). destruct (Same _ _ _ _ _ _ R') as (-> & -> & -> & -> & ->).
    destruct F as [(C & _)|(_ & Mk & Is)]; [contradiction|]. destruct (Pay _ Mk) as (P1 & P2). split; [exact P1|]. split; [|exact P2].
    unfold unlocked in Is. cbv zeta in Is. cbn [ib_amount it] in Is. change (destination ac c it) with dst in Is. destruct (addr_eq_dec dst (cf_custody c)) as [C|_]; [contradiction|].
    destruct Is as (I1 & _ & I2 & I3 & I5). destruct (I1 Hdst) as (I6 & I7). unfold credited_to. rewrite Md. rewrite T4 in I2. rewrite M4 in I5.
    repeat split; auto.
  - destruct (mint_release_effect H s4 [] ac true R4 eq_refl) as ((_ & S) & E).
    assert (Q : succeeds (step H s4 (Call [] (IReleaseMint ac true)))).
    { apply S. exists c, it, m, d, cu. split; [exact Rl|]. right. cbn [ib_amount it]. intuition. }
    destruct Q as (s5 & Q). exists s5. split; [exact Q|]. destruct (E _ Q) as (c' & it' & m' & d' & cu' & R' & F). destruct (Same _ _ _ _ _ _ R') as (-> & -> & -> & -> & ->).
    destruct F as [(C & _)|(_ & Mk & Is)]; [contradiction|]. destruct (Pay _ Mk) as (P1 & P2). split; [exact P1|]. split; [|exact P2].
    unfold issued in Is. cbv zeta in Is. cbn [ib_amount it] in Is. change (destination ac c it) with dst in Is. destruct (addr_eq_dec dst (cf_custody c)) as [C|_]; [contradiction|].
    destruct Is as (I1 & I2 & I3 & I5). unfold credited_to. rewrite Md. rewrite T4 in I2. rewrite M4 in I5.
    repeat split; auto. rewrite I2 by congruence. apply Ex.
Qed.
End Chain.


(** ** A message that was not published was not received *)
Lemma reserved_vtm p j a : is_ntt_prog p = true -> reserved (pda_vtm p j a).
Proof. destruct p; try discriminate; intros _; exact I. Qed.
Lemma vtm_owner H s p j a ac : reachable H s -> is_ntt_prog p = true -> st_accts s (pda_vtm p j a) = Some ac -> exists ch tm, ac = Acct p (DVtm ch tm) /\ ch = j /\ nm_id (tm_msg tm) = a.
Proof.
  intros Hr Hp E. pose proof (inv_shape _ (reachable_inv _ _ Hr) _ _ E) as Sh. destruct ac as [o dt]. unfold shape in Sh. cbn [ac_owner ac_data] in Sh.
  assert (F : wf_foreign (pda_vtm p j a) (Acct o dt) \/ Acct o dt = Acct PWormhole DPosted /\ (exists q it, is_ntt_prog q = true /\ pda_vtm p j a = pda_message q it) -> False).
  { intros [(C & _)|(_ & q & it & _ & C)]; [exact (C (reserved_vtm _ _ _ Hp))|discriminate C]. }
  destruct o; try (exfalso; exact (F Sh)).
  - destruct dt; cbn [mgr_shape] in Sh; try contradiction;
    try (destruct Sh as (_ & _ & C); inversion C; fail).
    all: repeat match goal with S : exists _, _ |- _ => destruct S | S : _ /\ _ |- _ => destruct S end; try discriminate.
    + destruct p; discriminate.
    + match goal with W : wf_vtm _ _ _ _ |- _ => destruct W as (_ & W & _); inversion W; subst end. eexists _, _. split; [reflexivity|auto].
  - destruct dt; try contradiction.
    + destruct Sh as (ch & _ & C). discriminate C.
    + destruct Sh as (_ & W & _). inversion W; subst. eexists _, _. split; [reflexivity|auto].
Qed.

Lemma unpublished H ids n0 h n j k p a o rt xp : net_initial ids n0 -> net_run H ids n0 h n -> In j ids -> In k ids -> is_ntt_prog p = true ->
  outbox_at (n j) a o -> reg_at (n j) (pda_reg (AProg p)) rt -> Z.testbit (ob_released o) (rt_id rt) = false ->
  xpeer_at (n k) p j xp -> xp_address xp = pda_emitter p -> st_accts (n k) (pda_vtm p j a) = None.
Proof.
  intros Hini R Hj Hk Hp Ho Hrt Hb Hx Hxe. destruct (st_accts (n k) (pda_vtm p j a)) as [ac|] eqn:E; [|reflexivity]. exfalso.
  pose proof (net_reach Hini _ _ _ R Hk) as Rk. pose proof (net_reach Hini _ _ _ R Hj) as Rj.
  destruct (vtm_owner _ _ _ _ _ _ Rk Hp E) as (ch & tm & -> & -> & Ea).
  pose proof (net_node _ _ _ _ _ R k) as Nk.
  destruct (message_authentic _ _ _ _ _ _ _ _ (ni_nodes _ _ Hini _ Hk) Nk Hp E) as (_ & e & xp' & v & Hin & _ & Hx' & Src).
  assert (xp' = xp).
  { destruct (In_split_run _ _ _ _ _ Nk Hin) as (tr2 & tr1 & Etr & R1 & Se & R2).
    assert (R3 : forall tr s', run H (e_pre e) tr s' -> reachable H (e_pre e) -> st_accts s' (pda_xpeer p j) = Some (Acct p (DXPeer xp'))).
    { intros tr s' Q. induction Q as [|tr s0 cl s1 Q IH S]; intros Re; [exact Hx'|]. eapply xpeer_kept; [|exact S|exact Hp|exact (IH Re)]. eapply run_reachable; eassumption. }
    assert (Re : reachable H (e_pre e)) by (exists (n0 k), tr1; split; [apply (ni_nodes _ _ Hini _ Hk)|exact R1]).
    pose proof (xpeer_kept _ _ _ _ _ _ _ Re Se Hp Hx') as Hx2.
    assert (R4 : forall tr s', run H (e_post e) tr s' -> st_accts s' (pda_xpeer p j) = Some (Acct p (DXPeer xp'))).
    { intros tr s' Q. induction Q as [|tr s0 cl s1 Q IH S]; [exact Hx2|]. eapply xpeer_kept; [|exact S|exact Hp|exact IH]. eapply run_reachable; [|exact Q]. eapply step_reachable; eassumption. }
    specialize (R4 _ _ R2). unfold xpeer_at in Hx. congruence. }
  subst xp'. rewrite Hxe in Src.
  assert (P : In (Post (pda_emitter p) (PPTransfer tm)) (st_posted (n j))).
  { destruct Src as [Src|(e' & Hin' & At)].
    - eapply net_posted; [exact R|]. eapply (ni_vaas _ _ Hini); [exact Hk|exact Hj|exact Src].
    - eapply net_attested; [exact R| |exact At|exact Hj]. apply on_In, Hin'. }
  apply published_In in P. destruct (log_once _ _ _ Hp Rj) as (_ & L). apply L in P. rewrite Ea in P.
  destruct (message_flag _ _ Rj _ _ _ Hp P) as (rt' & Hrt' & F). unfold reg_at in *. assert (rt' = rt) by congruence. subst rt'.
  unfold flag, outbox_at in *. rewrite Ho in F. congruence.
Qed.

(** ** The whole way *)
Lemma net_go {H ids n0 h n k c s'} : step H (n k) c = Ok s' -> attestation ids n c -> proper ids k c -> In k ids -> net_run H ids n0 h n ->
  net_run H ids n0 ((k, Ev (n k) c s') :: h) (net_upd n k s').
Proof. intros E A P K R. apply net_step; assumption. Qed.

Theorem delivered H ids n0 h n j k p a v ci o ri c rt pe xp m irl orl d cu : net_initial ids n0 -> net_run H ids n0 h n ->
  In j ids -> In k ids -> j <> k -> is_ntt_prog p = true ->
  publishable (n j) pda_config a (pda_reg (AProg p)) p ci o ri -> ob_chain o = k -> ob_manager o = AProg PManager ->
  let tm := announcement ci a o in let x := local_amount m (tm_msg tm) in
  let t := Z.max (st_now (n j)) (ob_release o) in let t' := let_go irl (st_now (n k)) x in
  expecting H (n k) p j tm v c rt pe xp m irl orl d cu -> affordable c m d cu x ->
  exists h' n', net_run H ids n0 (h' ++ h) n' /\ calls_in h' = route H j k p a v tm t t' (cf_mode c) (mt_prog m) /\
    released (n' k) (item_of H j (tm_msg tm)) = true /\
    credited_to (n k) (n' k) c m (ata (mt_prog m) (ob_recipient o) (cf_mint c)) d cu x /\
    outbox_at (n' j) a (sent_by o (rt_id ri)) /\ st_now (n' j) = t /\ st_now (n' k) = t' /\
    st_toks (n' j) = st_toks (n j) /\ st_mints (n' j) = st_mints (n j) /\ (forall i, i <> j -> i <> k -> n' i = n i).
Proof.
  intros Hini R Hj Hk Hjk Hp Pu Hch Hmgr tm x t t' Ex Af.
  pose proof (net_reach Hini _ _ _ R Hj) as Rj. pose proof (net_reach Hini _ _ _ R Hk) as Rk.
  pose proof (reachable_inv _ _ Rj) as Ij. pose proof (reachable_inv _ _ Rk) as Ik.
  destruct (inv_mgr _ _ _ Ij (pu_item _ _ _ _ _ _ _ _ Pu)) as (Sa & Ua & Ud & Uc & Ur & _).
  destruct (inv_config _ Ij _ (pu_config _ _ _ _ _ _ _ _ Pu)) as [_ Cj _ _ _ _ _].
  pose proof (tu_chain _ _ _ (proj1 (net_trusted Hini _ _ _ R Hj)) _ _ (pu_config _ _ _ _ _ _ _ _ Pu)) as Ej.
  pose proof (tu_chain _ _ _ (proj1 (net_trusted Hini _ _ _ R Hk)) _ _ (ex_config _ _ _ _ _ _ _ _ _ _ _ _ _ _ _ Ex)) as Ek.
  assert (Uj : is_u16 j) by (rewrite <- Ej; exact Cj).
  assert (Tt : typed_tm tm = true) by (unfold typed_tm, tm; cbn [announcement tm_msg nm_amount nm_to_chain]; unfold u64b, u8b, u16b; ilia).
  assert (Vt : st_accts (n k) (pda_vtm p j (nm_id (tm_msg tm))) = None).
  { eapply unpublished; [exact Hini|exact R|exact Hj|exact Hk|exact Hp|apply Pu|apply Pu|apply Pu|apply Ex|apply Ex]. }
  (* the clock of the source *)
  assert (S1 : step H (n j) (Call [] (EClock t)) = Ok (set_now t (n j))).
  { unfold step. cbn [signers ins forallb typed]. assert (Et : i64b t = true) by (pose proof (inv_now _ Ij); unfold i64b, t; ilia). rewrite Et. reflexivity. }
  pose proof (net_go S1 I I Hj R) as R1. set (n1 := net_upd n j (set_now t (n j))) in *.
  assert (N1 : n1 j = set_now t (n j)) by apply net_upd_same.
  (* publishing *)
  assert (Pu1 : publishable (n1 j) pda_config a (pda_reg (AProg p)) p ci o ri) by (rewrite N1; destruct Pu; constructor; assumption).
  assert (T1 : ob_release o <= st_now (n1 j)) by (rewrite N1; unfold set_now; cbn [st_now]; unfold t; lia).
  destruct (publish_effect H (n1 j) [] p pda_config a (pda_reg (AProg p)) true true (net_reach Hini _ _ _ R1 Hj) eq_refl Hp) as ((_ & Sx) & Ef).
  assert (Q : succeeds (step H (n1 j) (Call [] (IXRelease p pda_config a (pda_reg (AProg p)) true true)))) by (apply Sx; exists ci, o, ri; split; [exact Pu1|right; split; [exact T1|reflexivity]]).
  destruct Q as (s2 & S2). destruct (Ef _ S2) as (ci' & o' & ri' & Pu' & F).
  assert (Eq : ci' = ci /\ o' = o /\ ri' = ri).
  { destruct Pu', Pu1. unfold config_at, outbox_at, reg_at in *. repeat split; congruence. }
  destruct Eq as (-> & -> & ->). destruct F as [(C & _)|(_ & F1 & F2)]; [lia|]. clear Ef Sx Pu'.
  destruct F2 as (_ & F3 & _ & F5 & F6 & F7 & _).
  pose proof (net_go S2 I I Hj R1) as R2. set (n2 := net_upd n1 j s2) in *.
  assert (N2 : n2 j = s2) by apply net_upd_same.
  assert (K2 : n2 k = n k) by (unfold n2, n1; rewrite !net_upd_other by congruence; reflexivity).
  (* the attestation *)
  assert (S3 : step H (n2 k) (Call [] (EPostVaa v j (pda_emitter p) (Some tm))) = Ok (put v PWormhole (DVaa j (pda_emitter p) (Some tm)) (n k))).
  { rewrite K2. eapply post_step; [exact Ex|exact Uj|exact Tt]. }
  assert (At : attestation ids n2 (Call [] (EPostVaa v j (pda_emitter p) (Some tm)))).
  { unfold attestation. cbn [ins]. intros _. rewrite N2, F3. left. reflexivity. }
  pose proof (net_go S3 At I Hk R2) as R3. set (s3 := put v PWormhole (DVaa j (pda_emitter p) (Some tm)) (n k)) in *. set (n3 := net_upd n2 k s3) in *.
  assert (N3 : n3 k = s3) by apply net_upd_same.
  assert (A3 : forall b, b <> v -> st_accts s3 b = st_accts (n k) b) by (intros b B; unfold s3; cbn [put set_accts st_accts]; apply upd_other; congruence).
  assert (V3 : st_accts s3 v = Some (Acct PWormhole (DVaa j (pda_emitter p) (Some tm)))) by (unfold s3; cbn [put set_accts st_accts]; apply upd_same).
  (* receiving *)
  destruct (receive_step Hp Ex Uj Tt (eq_trans Hch (eq_sym Ek)) Hmgr Vt Af s3) as (s4 & S4 & V4 & U4); [rewrite <- N3; exact (net_reach Hini _ _ _ R3 Hk)|exact A3|exact V3|].
  rewrite <- N3 in S4. pose proof (net_go S4 I I Hk R3) as R4. set (n4 := net_upd n3 k s4) in *.
  assert (N4 : n4 k = s4) by apply net_upd_same.
  (* redeeming *)
  destruct (redeem_step Rk Hp Ex Uj Tt (eq_trans Hch (eq_sym Ek)) Hmgr Vt Af s3 s4) as (s5 & S5 & I5 & C5 & T5 & M5 & W5); [rewrite <- N4; exact (net_reach Hini _ _ _ R4 Hk)|exact A3|reflexivity|reflexivity|reflexivity|exact V4|exact U4|].
  rewrite <- N4 in S5. pose proof (net_go S5 I I Hk R4) as R5. set (n5 := net_upd n4 k s5) in *.
  assert (N5 : n5 k = s5) by apply net_upd_same.
  (* the clock of the destination *)
  assert (S6 : step H (n5 k) (Call [] (EClock t')) = Ok (set_now t' (n5 k))).
  { unfold step. cbn [signers ins forallb typed]. assert (Et : i64b t' = true).
    { pose proof (inv_now _ Ik). destruct (ex_clock _ _ _ _ _ _ _ _ _ _ _ _ _ _ _ Ex) as (_ & _ & L). assert (D : t' = st_now (n k) \/ t' = st_now (n k) + day) by (unfold t', let_go; destruct (_ <=? _); auto). unfold i64b. unfold day in *. ilia. }
    rewrite Et. reflexivity. }
  pose proof (net_go S6 I I Hk R5) as R6. set (n6 := net_upd n5 k (set_now t' (n5 k))) in *.
  assert (N6 : n6 k = set_now t' s5) by (unfold n6; rewrite net_upd_same, N5; reflexivity).
  (* paying *)
  destruct (payout_step Rk Ex Af (n6 k)) as (s7 & S7 & P7 & D7 & W7); [exact (net_reach Hini _ _ _ R6 Hk)|rewrite N6; exact I5|rewrite N6; exact C5|rewrite N6; exact T5|rewrite N6; exact M5|rewrite N6; reflexivity|].
  assert (Pr : proper ids k (release_call (cf_mode c) (ReleaseAccts pda_config (item_of H j (tm_msg tm)) (mt_prog m) true))) by (unfold proper, release_call; destruct (cf_mode c); exact I).
  assert (At7 : attestation ids n6 (release_call (cf_mode c) (ReleaseAccts pda_config (item_of H j (tm_msg tm)) (mt_prog m) true))) by (unfold attestation, release_call; destruct (cf_mode c); exact I).
  pose proof (net_go S7 At7 Pr Hk R6) as R7. set (n7 := net_upd n6 k s7) in *.
  assert (N7 : n7 k = s7) by apply net_upd_same.
  assert (J7 : n7 j = s2) by (unfold n7, n6, n5, n4, n3; rewrite !net_upd_other by congruence; exact N2).
  exists [(k, Ev (n6 k) (release_call (cf_mode c) (ReleaseAccts pda_config (item_of H j (tm_msg tm)) (mt_prog m) true)) s7);
          (k, Ev (n5 k) (Call [] (EClock t')) (set_now t' (n5 k)));
          (k, Ev (n4 k) (Call [] (IRedeem (RedeemAccts pda_config (pda_vtm p j a) (pda_reg (AProg p)) pda_outbox_rl))) s5);
          (k, Ev (n3 k) (Call [] (IXReceive p pda_config v)) s4);
          (k, Ev (n2 k) (Call [] (EPostVaa v j (pda_emitter p) (Some tm))) s3);
          (j, Ev (n1 j) (Call [] (IXRelease p pda_config a (pda_reg (AProg p)) true true)) s2);
          (j, Ev (n j) (Call [] (EClock t)) (set_now t (n j)))], n7.
  split; [exact R7|]. split; [reflexivity|]. rewrite N7, J7. split; [exact P7|]. split; [exact D7|]. split; [exact F1|].
  split; [rewrite F7, N1; reflexivity|]. split; [exact W7|]. split; [rewrite F5, N1; reflexivity|]. split; [rewrite F6, N1; reflexivity|].
  intros i B1 B2. unfold n7, n6, n5, n4, n3, n2, n1. rewrite !net_upd_other by congruence. reflexivity.
Qed.

(** ** A hub can pay everything that is in flight to it *)
Lemma sum_of_nonneg {A} (f : A -> Z) l : (forall x, In x l -> 0 <= f x) -> 0 <= sum_of f l.
Proof. induction l as [|x l IH]; intros N; [cbn; lia|]. rewrite sum_of_cons. pose proof (N x (or_introl eq_refl)). specialize (IH (fun y q => N y (or_intror q))). lia. Qed.
Lemma sum_of_member {A} (f : A -> Z) l x : (forall y, In y l -> 0 <= f y) -> In x l -> f x <= sum_of f l.
Proof.
  induction l as [|y l IH]; intros N Hin; [contradiction|]. rewrite sum_of_cons. destruct Hin as [<-|Hin].
  - pose proof (sum_of_nonneg f l (fun y q => N y (or_intror q))). lia.
  - specialize (IH (fun z q => N z (or_intror q)) Hin). pose proof (N y (or_introl eq_refl)). lia.
Qed.

Lemma flight_member H ids n0 h n K dec j k a o cj mj mk : net_initial ids n0 -> net_run H ids n0 h n -> In j ids -> In k ids -> decs ids n K dec ->
  config_at (n j) pda_config cj -> st_mints (n j) (cf_mint cj) = Some mj -> mt_decimals mk = dec k -> 0 <= dec k <= K ->
  outbox_at (n j) a o -> ob_chain o = k -> released (n k) (item_of H j (tm_msg (announcement cj a o))) = false ->
  worth K (dec k) (local_amount mk (tm_msg (announcement cj a o))) <= in_flight H ids K dec n h.
Proof.
  intros Hini R Hj Hk Hdec Hcj Emj Edk LeKl Ho Hch Hrel. set (nm := tm_msg (announcement cj a o)) in *.
  destruct (Hdec _ _ _ Hj Hcj Emj) as (Edj & LeK).
  assert (Tk : ticket (n j) a nm) by (exists o, cj; split; [exact Ho|split; [exact Hcj|reflexivity]]).
  destruct (ticket_deposit _ _ _ _ _ _ _ _ (ni_nodes _ _ Hini _ Hj) (net_node _ _ _ _ _ R j) Tk Hcj Emj) as (e & Hin & Mk & Hd & Ev & Nn).
  apply on_In in Hin.
  assert (Ar : arrived H ids n j e = false).
  { rewrite (made_arrived _ _ _ _ _ _ Mk); [|cbn [nm_to_chain nm announcement tm_msg]; rewrite Hch; exact Hk].
    change (nm_to_chain nm) with (ob_chain o). rewrite Hch. exact Hrel. }
  assert (NN : forall x, In x h -> 0 <= (if arrived H ids n (fst x) (snd x) then 0 else worth K (dec (fst x)) (deposited (snd x)))).
  { intros (i, e') Hin'. cbn [fst snd]. destruct (arrived H ids n i e'); [lia|]. apply worth_nonneg. pose proof (net_ids _ _ _ _ _ _ _ R Hin') as Hi.
    eapply deposited_nonneg; [apply initial_reachable, (ni_nodes _ _ Hini _ Hi)|apply (net_node _ _ _ _ _ R i)|now apply on_In]. }
  pose proof (sum_of_member _ _ _ NN Hin) as Le. cbn [fst snd] in Le. rewrite Ar in Le. fold (in_flight H ids K dec n h) in Le.
  etransitivity; [|exact Le]. unfold local_amount. rewrite <- Edk in *. transitivity (worth K (ta_decimals (nm_amount nm)) (ta_amount (nm_amount nm))).
  - destruct (inv_mgr _ _ _ (reachable_inv _ _ (net_reach Hini _ _ _ R Hj)) Ho) as (_ & Ua & _).
    apply convert_worth; [exact (proj1 Ua)|ilia|exact LeKl].
  - unfold worth. rewrite Ev, <- Edj, <- Z.mul_assoc, <- Z.pow_add_r by lia. apply Z.eq_le_incl. do 2 f_equal. lia.
Qed.

Lemma began_reach H ids n0 h n k b c : net_initial ids n0 -> net_run H ids n0 h n -> In k ids -> began (on k h) b -> config_at (n k) pda_config c -> reachable H b.
Proof.
  intros Hini R Hk Bg Hc. destruct (began_run _ _ _ _ _ _ (ni_nodes _ _ Hini _ Hk) (net_node _ _ _ _ _ R k) Bg Hc) as (tr2 & c0 & _ & Hr & _). exact Hr.
Qed.
Lemma supply_nonneg H s mnt : reachable H s -> 0 <= supply_of s mnt.
Proof.
  intros Hr. unfold supply_of. destruct (st_mints s mnt) as [m|] eqn:E; [|lia]. pose proof (proj2 (inv_ledger _ (reachable_inv _ _ Hr)) _ _ E) as (_ & _ & _ & W & _). apply W.
Qed.
Lemma balance_nonneg H s a : reachable H s -> 0 <= balance s a.
Proof.
  intros Hr. unfold balance. destruct (st_toks s a) as [t|] eqn:E; [|lia]. pose proof (proj1 (inv_ledger _ (reachable_inv _ _ Hr)) _ _ E) as (_ & _ & W & _). apply W.
Qed.

(** Supplies that began at nothing, and everything in flight, are covered by custody. *)
Lemma hub_cover H l bs n0 h n K cf dec b : NoDup (l :: bs) -> net_initial (l :: bs) n0 -> net_run H (l :: bs) n0 h n ->
  (forall k, In k (l :: bs) -> managed (n k) (cf k) (dec k) /\ dec k <= K /\ began (on k h) (b k)) ->
  cf_mode (cf l) = Locking -> (forall k, In k bs -> cf_mode (cf k) = Burning /\ supply_of (b k) (cf_mint (cf k)) = 0) ->
  sum_of (fun k => worth K (dec k) (supply_of (n k) (cf_mint (cf k)))) bs + in_flight H (l :: bs) K dec n h <= worth K (dec l) (balance (n l) (cf_custody (cf l))).
Proof.
  intros ND Hini R Hm Hl Hb. pose proof (net_custody _ _ _ _ _ _ _ _ _ _ ND Hini R Hm Hl (fun k q => proj1 (Hb k q))) as C.
  rewrite (sum_of_ext _ (fun k => worth K (dec k) (supply_of (n k) (cf_mint (cf k)))) bs) in C.
  2: { intros k Hk. destruct (Hb k Hk) as (_ & ->). f_equal. lia. }
  etransitivity; [exact C|]. apply worth_mono. destruct (Hm l (or_introl eq_refl)) as ((Hcl & _) & _ & Bg).
  pose proof (balance_nonneg _ _ (cf_custody (cf l)) (began_reach _ _ _ _ _ _ _ _ Hini R (or_introl eq_refl) Bg Hcl)). lia.
Qed.
Lemma hub_decs l bs n K (cf : Z -> config addr) dec : (forall k, In k (l :: bs) -> managed (n k) (cf k) (dec k) /\ dec k <= K) -> decs (l :: bs) n K dec.
Proof.
  intros Hm k c m' Hk Hc Em'. destruct (Hm k Hk) as ((Hc' & m2 & Em2 & Ed) & Le). assert (c = cf k) by (unfold config_at in *; congruence). subst c.
  split; [congruence|exact Le].
Qed.

Lemma funded H l bs n0 h n K cf dec b j a o m : NoDup (l :: bs) -> net_initial (l :: bs) n0 -> net_run H (l :: bs) n0 h n ->
  (forall k, In k (l :: bs) -> managed (n k) (cf k) (dec k) /\ dec k <= K /\ began (on k h) (b k)) ->
  cf_mode (cf l) = Locking -> (forall k, In k bs -> cf_mode (cf k) = Burning /\ supply_of (b k) (cf_mint (cf k)) = 0) ->
  In j (l :: bs) -> outbox_at (n j) a o -> ob_chain o = l -> st_mints (n l) (cf_mint (cf l)) = Some m ->
  released (n l) (item_of H j (tm_msg (announcement (cf j) a o))) = false ->
  local_amount m (tm_msg (announcement (cf j) a o)) <= balance (n l) (cf_custody (cf l)).
Proof.
  intros ND Hini R Hm Hl Hb Hj Ho Hch Em Hrel. pose proof (hub_cover _ _ _ _ _ _ _ _ _ _ ND Hini R Hm Hl Hb) as C.
  assert (Hdec : decs (l :: bs) n K dec) by (apply (hub_decs _ _ _ _ cf); intros k Hk; destruct (Hm k Hk) as (? & ? & _); auto).
  destruct (Hm j Hj) as ((Hcj & mj & Emj & _) & _). destruct (Hm l (or_introl eq_refl)) as ((Hcl & ml & Eml & Edl) & LeKl & _).
  assert (ml = m) by congruence. subst ml. pose proof (mint_dec _ _ _ (reachable_inv _ _ (net_reach Hini _ _ _ R (or_introl eq_refl))) Em) as Ud.
  assert (Fl : worth K (dec l) (local_amount m (tm_msg (announcement (cf j) a o))) <= in_flight H (l :: bs) K dec n h).
  { eapply flight_member; [exact Hini|exact R|exact Hj|now left|exact Hdec|exact Hcj|exact Emj|exact Edl|ilia|exact Ho|exact Hch|exact Hrel]. }
  assert (Su : 0 <= sum_of (fun k => worth K (dec k) (supply_of (n k) (cf_mint (cf k)))) bs).
  { apply sum_of_nonneg. intros k Hk. apply worth_nonneg. eapply supply_nonneg, (net_reach Hini _ _ _ R). now right. }
  assert (W : worth K (dec l) (local_amount m (tm_msg (announcement (cf j) a o))) <= worth K (dec l) (balance (n l) (cf_custody (cf l)))) by lia.
  unfold worth in W. apply Z.mul_le_mono_pos_r in W; [exact W|]. apply Z.pow_pos_nonneg; lia.
Qed.

(** ** An item nobody redeemed is not paid *)
Lemma new_unreleased s a : st_accts s a = None -> released s a = false.
Proof. intros E. unfold released, status_at. rewrite E. reflexivity. Qed.

(** * Received messages (C45) and the inbound limiter (C47). *)
From Verif Require Export FlowFacts.
Local Open Scope Z_scope.

Lemma vtm_kept H s cl s' a p ch tm : step H s cl = Ok s' -> is_ntt_prog p = true -> st_accts s a = Some (Acct p (DVtm ch tm)) -> st_accts s' a = Some (Acct p (DVtm ch tm)).
Proof.
  intros Hs Hp Hd. destruct (step_change _ _ _ _ Hs a) as [Q|Q]; [congruence|].
  rewrite Hd in Q. remember (st_accts s' a) as new eqn:En. clear En. exfalso. inversion Q; subst; try congruence; try discriminate.
  all: try (match goal with F : redeem_facts _ _ _ _ _ _ _ _ _ _ _ _ _ _ _ _ |- _ => pose proof (inbox_old _ _ _ _ _ _ _ _ _ _ _ _ _ _ _ _ _ F Hd) as E end; discriminate).
  all: repeat match goal with E : _ \/ _ |- _ => destruct E as [E|[? E]] end; try discriminate; match goal with E : Some _ = Some _ |- _ => inversion E end; subst; discriminate.
Qed.

Lemma vtm_run H s tr s' a p ch tm : run H s tr s' -> is_ntt_prog p = true -> st_accts s a = Some (Acct p (DVtm ch tm)) -> st_accts s' a = Some (Acct p (DVtm ch tm)).
Proof. intros R Hp E. induction R; [exact E|]. eapply vtm_kept; eassumption. Qed.

(** A receipt leaves the message in its account, which was free. *)
Lemma receive_exact H s sg p cfg v s' : step H s (Call sg (IXReceive p cfg v)) = Ok s' -> is_ntt_prog p = true /\
  exists ch tm, receipt (Ev s (Call sg (IXReceive p cfg v)) s') p ch tm /\ st_accts s (received_at p ch (nm_id (tm_msg tm))) = None /\
    st_accts s' (received_at p ch (nm_id (tm_msg tm))) = Some (Acct p (DVtm ch tm)) /\
    (forall b, b <> received_at p ch (nm_id (tm_msg tm)) -> st_accts s' b = st_accts s b).
Proof.
  intros Hs. apply step_inv in Hs. destruct Hs as (Hsg & Hty & He). cbn [exec ins signers typed] in *. split; [exact Hty|].
  unfold x_receive in He. binds He. gets. destruct v1; try discriminate. destruct m; try discriminate. binds He. gets. bools. frees. subst s'.
  exists chain, t. split.
  - exists cfg, v, v0, v1. cbn [e_pre e_call ins]. subst. repeat (split; [assumption || reflexivity|]). lia.
  - split; [assumption|]. split; [apply get_put_same|]. intros b Hb. now apply get_put_other.
Qed.

Lemma vtm_made H s cl s' a p ch tm : step H s cl = Ok s' -> is_ntt_prog p = true -> st_accts s' a = Some (Acct p (DVtm ch tm)) ->
  st_accts s a = Some (Acct p (DVtm ch tm)) \/ (receipt (Ev s cl s') p ch tm /\ a = received_at p ch (nm_id (tm_msg tm)) /\ st_accts s a = None).
Proof.
  intros Hs Hp Hd. destruct (step_change _ _ _ _ Hs a) as [Q|Q]; [left; congruence|]. right.
  rewrite Hd in Q. remember (st_accts s a) as old eqn:Eo. destruct cl as [sg i]. cbn [signers ins] in *. inversion Q; subst; try discriminate.
  split; [|auto]. exists cfg, v, c, xp. cbn [e_pre e_call ins]. auto 10.
Qed.

Lemma vtm_origin H s0 tr s a p ch tm : initial s0 -> run H s0 tr s -> is_ntt_prog p = true -> st_accts s a = Some (Acct p (DVtm ch tm)) ->
  a = received_at p ch (nm_id (tm_msg tm)) /\ exists e, In e tr /\ receipt e p ch tm.
Proof.
  intros Hini R Hp. induction R as [|tr s cl s' R IH E]; intros Hd.
  - exfalso. destruct (ini_accts _ Hini _ _ Hd) as (_ & C & _). cbn in C. congruence.
  - destruct (vtm_made _ _ _ _ _ _ _ _ E Hp Hd) as [Q|(Q & Ea & _)].
    + destruct (IH Q) as (Ea & e & Hin & Re). split; [exact Ea|]. exists e. split; [now right|exact Re].
    + split; [exact Ea|]. eexists. split; [now left|exact Q].
Qed.

Lemma receipt_pinned e p ch tm ch' tm' : receipt e p ch tm -> receipt e p ch' tm' -> ch = ch' /\ tm = tm'.
Proof.
  intros (cfg & v & c & xp & Ei & Ev & _) (cfg' & v' & c' & xp' & Ei' & Ev' & _). rewrite Ei in Ei'. inversion Ei'; subst. rewrite Ev in Ev'. inversion Ev'. auto.
Qed.

Lemma receipt_once H s0 tr1 e2 tr2 s e1 p ch tm1 tm2 : run H s0 (tr1 ++ e2 :: tr2) s -> In e1 tr2 -> receipt e1 p ch tm1 -> receipt e2 p ch tm2 ->
  nm_id (tm_msg tm1) = nm_id (tm_msg tm2) -> False.
Proof.
  intros R Hin R1 R2 Hid. apply run_split in R. destruct R as (Ra & Es2 & _).
  destruct (In_split_run _ _ _ _ _ Ra Hin) as (t2 & t1 & -> & _ & Es1 & Rb).
  destruct e1 as [a1 [sg1 i1] b1], e2 as [a2 [sg2 i2] b2]. cbn [e_pre e_call e_post] in *.
  pose proof R1 as (cfg1 & v1 & c1 & xp1 & Ei1 & _). pose proof R2 as (cfg2 & v2 & c2 & xp2 & Ei2 & _). cbn [e_call ins] in Ei1, Ei2. subst i1 i2.
  destruct (receive_exact _ _ _ _ _ _ _ Es1) as (Hp & ch1 & t & Q1 & _ & K1 & _). destruct (receipt_pinned _ _ _ _ _ _ R1 Q1) as (<- & <-).
  destruct (receive_exact _ _ _ _ _ _ _ Es2) as (_ & ch2 & t' & Q2 & K2 & _). destruct (receipt_pinned _ _ _ _ _ _ R2 Q2) as (<- & <-).
  pose proof (vtm_run _ _ _ _ _ _ _ _ Rb Hp K1) as K. rewrite Hid in K. congruence.
Qed.

(** Accounts of the core bridge. *)
Lemma vaa_made H s cl s' a ch em tm : step H s cl = Ok s' -> st_accts s' a = Some (Acct PWormhole (DVaa ch em (Some tm))) ->
  st_accts s a = Some (Acct PWormhole (DVaa ch em (Some tm))) \/ attested (Ev s cl s') ch em tm.
Proof.
  intros Hs Hd. destruct (step_change _ _ _ _ Hs a) as [Q|Q]; [left; congruence|]. right.
  rewrite Hd in Q. remember (st_accts s a) as old eqn:Eo. destruct cl as [sg i]. cbn [signers ins] in *. inversion Q; subst; try discriminate.
  exists a. reflexivity.
Qed.
Lemma vaa_origin H s0 tr s a ch em tm : run H s0 tr s -> st_accts s a = Some (Acct PWormhole (DVaa ch em (Some tm))) ->
  st_accts s0 a = Some (Acct PWormhole (DVaa ch em (Some tm))) \/ exists e, In e tr /\ attested e ch em tm.
Proof.
  intros R. induction R as [|tr s cl s' R IH E]; intros Hd; [auto|].
  destruct (vaa_made _ _ _ _ _ _ _ _ E Hd) as [Q|Q]; [|right; eexists; split; [now left|exact Q]].
  destruct (IH Q) as [K|(e & Hin & K)]; [auto|]. right. exists e. split; [now right|exact K].
Qed.

Lemma xpeer_kept H s cl s' p ch x : reachable H s -> step H s cl = Ok s' -> is_ntt_prog p = true -> st_accts s (pda_xpeer p ch) = Some (Acct p (DXPeer x)) -> st_accts s' (pda_xpeer p ch) = Some (Acct p (DXPeer x)).
Proof.
  intros Hr Hs Hp Hd. destruct (step_change _ _ _ _ Hs (pda_xpeer p ch)) as [Q|Q]; [congruence|].
  rewrite Hd in Q. remember (pda_xpeer p ch) as a. remember (st_accts s' a) as new eqn:En. clear En. exfalso. inversion Q; subst; try congruence; try discriminate.
  all: try (match goal with F : redeem_facts _ _ _ _ _ _ _ _ _ _ _ _ _ _ _ _ |- _ => pose proof (inbox_old _ _ _ _ _ _ _ _ _ _ _ _ _ _ _ _ _ F Hd) as E end; discriminate).
  all: repeat match goal with E : _ \/ _ |- _ => destruct E as [E|[? E]] end; try discriminate; match goal with E : Some _ = Some _ |- _ => inversion E end; subst; discriminate.
Qed.

(** C45 *)
Lemma message_authentic H s0 tr s a p ch tm : initial s0 -> run H s0 tr s -> is_ntt_prog p = true -> st_accts s a = Some (Acct p (DVtm ch tm)) ->
  a = received_at p ch (nm_id (tm_msg tm)) /\
  exists e xp v, In e tr /\ receipt e p ch tm /\
    st_accts (e_pre e) (pda_xpeer p ch) = Some (Acct p (DXPeer xp)) /\
    (st_accts s0 v = Some (Acct PWormhole (DVaa ch (xp_address xp) (Some tm))) \/ exists e', In e' tr /\ attested e' ch (xp_address xp) tm).
Proof.
  intros Hini R Hp Hd. destruct (vtm_origin _ _ _ _ _ _ _ _ Hini R Hp Hd) as (Ea & e & Hin & Re). split; [exact Ea|].
  pose proof Re as (cfg & v & c & xp & Ei & Ev & Ex & _). exists e, xp, v. repeat (split; [assumption|]).
  destruct (In_split_run _ _ _ _ _ R Hin) as (tr2 & tr1 & -> & R1 & _ & _).
  destruct (vaa_origin _ _ _ _ _ _ _ _ R1 Ev) as [K|(e' & Hin' & K)]; [auto|]. right. exists e'. split; [apply in_or_app; right; now right|exact K].
Qed.

(** ** The inbound limiter of a chain *)
Lemma inbox_rl_inj a b : pda_inbox_rl a = pda_inbox_rl b -> a = b.
Proof. intros Q. now inversion Q. Qed.

Lemma inbound_limiter_step H s sg i s' ch r : reachable H s -> step H s (Call sg i) = Ok s' -> in_limiter s ch r ->
  exists r', in_limiter s' ch r' /\
  (r' = r \/
   (exists md x a c m pe f o v, transfer_of i = Some (md, x, a) /\ ar_chain a = ch /\ transferred s sg x a s' md c m pe f o v /\
      r' = RL (rl_limit r) (Z.min (capacity r (st_now s) + v) (rl_limit r)) (st_now s)) \/
   (exists x p tm c rt pe m b af, i = IRedeem x /\ redeemed H s x s' p ch tm c rt pe m b af /\ local_amount m (tm_msg tm) <= capacity r (st_now s) /\
      r' = RL (rl_limit r) (capacity r (st_now s) - local_amount m (tm_msg tm)) (st_now s)) \/
   (exists cfg o l c, i = ISetInboundLimit cfg o ch l /\ config_at s cfg c /\ cf_owner c = o /\ In o sg /\
      r' = RL l (Z.max 0 (capacity r (st_now s) + (l - rl_limit r))) (st_now s)) \/
   (exists cfg o a l d c, i = ISetPeer cfg o ch a l d /\ config_at s cfg c /\ cf_owner c = o /\ In o sg /\ r' = RL l l 0)).
Proof.
  intros Hr Hs Hd. pose proof (reachable_inv _ _ Hr) as Hi. pose proof (irl_wf _ _ _ Hi Hd) as W. pose proof (inv_now _ Hi) as Hn.
  destruct (step_change _ _ _ _ Hs (pda_inbox_rl ch)) as [Q|Q]; [exists r; split; [unfold in_limiter in *; congruence|auto]|].
  unfold in_limiter in *. rewrite Hd in Q. cbn [signers ins] in Q.
  destruct (irl_kept _ _ _ _ _ _ Hs Hd) as (r' & Hd'). unfold has in Hd'. exists r'. split; [exact Hd'|].
  rewrite Hd' in Q. remember (pda_inbox_rl ch) as a eqn:Ea. inversion Q; subst; try discriminate.
  - match goal with E : is_transfer _ _ _ _ |- _ => rename E into Et end.
    match goal with E : pda_inbox_rl _ = pda_inbox_rl _ |- _ => apply inbox_rl_inj in E; rename E into Ech end.
    assert (Ti : transfer_of i = Some (md, x, a0)) by (destruct md; cbn in Et; subst i; reflexivity).
    destruct (transfer_limits _ _ _ _ _ _ _ _ Hr Hs Ti) as (c0 & m0 & pe0 & f0 & o0 & v0 & orl1 & irl1 & orl2 & irl2 & T & K1 & K2 & K3 & K4 & K5 & K6 & _).
    subst ch. unfold in_limiter in *. assert (irl1 = r) by congruence. assert (irl2 = r') by congruence. subst irl1 irl2.
    destruct (Z_le_gt_dec v0 (capacity orl1 (st_now s))) as [L|L].
    + right. left. exists md, x, a0, c0, m0, pe0, f0, o0, v0. split; [exact Ti|]. split; [reflexivity|]. split; [exact T|]. apply K5 in L. tauto.
    + left. apply Z.gt_lt in L. apply K6 in L. tauto.
  - clear Q. destruct (redeem_exact _ _ _ _ _ Hr Hs) as (p' & ch' & tm' & c' & rt' & pe' & m' & b' & af' & Rd).
    destruct (rd_status _ _ _ _ _ _ _ _ _ _ _ _ _ Rd) as [(_ & _ & K)|(_ & _ & irl1 & orl1 & irl2 & orl2 & t & _ & K1 & K2 & K3 & K4 & K5 & K6 & K)].
    + left. rewrite K in Hd' by discriminate. congruence.
    + destruct (Z.eq_dec ch' ch) as [->|N].
      * unfold in_limiter in *. assert (irl1 = r) by congruence. assert (irl2 = r') by congruence. subst irl1 irl2.
        destruct (Z_le_gt_dec (local_amount m' (tm_msg tm')) (capacity r (st_now s))) as [L|L]; [|left; apply K6; lia].
        right. right. left. exists x, p', tm', c', rt', pe', m', b', af'. repeat (split; [assumption || reflexivity|]). apply K5, L.
      * left. rewrite K in Hd'; [congruence|discriminate| |discriminate]. intros C. apply inbox_rl_inj in C. congruence.
  - match goal with E : pda_inbox_rl _ = pda_inbox_rl _ |- _ => apply inbox_rl_inj in E; subst end.
    do 4 right. exists cfg, (cf_owner c), a0, l, d, c. repeat (split; [assumption || reflexivity|]). split; [now apply signed_In|reflexivity].
  - match goal with E : pda_inbox_rl _ = pda_inbox_rl _ |- _ => apply inbox_rl_inj in E; subst end.
    do 3 right. left. exists cfg, (cf_owner c), l, c. repeat (split; [assumption || reflexivity|]). split; [now apply signed_In|].
    match goal with E : set_limit _ _ _ = Ok _ |- _ => rename E into Esl end. match goal with E : is_u64 l |- _ => rename E into Hl end.
    destruct (RateLimitFacts.set_limit_inv _ _ _ _ Esl) as (k & Hk & _). rewrite (RateLimitFacts.set_limit_exact _ _ _ _ W Hn Hl Hk) in Esl. apply Ok_inj in Esl. rewrite <- Esl.
    now rewrite (capacity_spec _ _ _ W Hn Hk).
Qed.

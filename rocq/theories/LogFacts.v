(** * The message log and outbound items over time (C33, C34, C46). *)
From Verif Require Export DelegateFacts.
Local Open Scope Z_scope.

(** ** One step of the log *)
Lemma log_step H s cl s' p : reachable H s -> step H s cl = Ok s' -> is_ntt_prog p = true ->
  published s' p = published s p \/
  exists cfg it tr rev c o rt, ins cl = IXRelease p cfg it tr rev true /\ outbound_facts s cfg it tr c o rt /\ rt_address rt = AProg p /\
    ob_release o <= st_now s /\ st_accts s (pda_message p it) = None /\ st_accts s' (pda_message p it) = Some (Acct PWormhole DPosted) /\
    published s' p = outbound_message c it o :: published s p.
Proof.
  intros Hr Hs Hp. pose proof (step_inv _ _ _ _ Hs) as (Hsg & Hty & He). destruct cl as [sg i]. cbn [signers ins] in *.
  pose proof (step_rest _ _ _ _ Hs) as R. cbn [signers ins] in R. inversion R; subst; try (left; apply published_same; congruence).
  - cbn [exec] in He. apply x_release_ok in He; [|assumption].
    destruct He as (c' & o' & rt' & F & Hra & [(-> & _)|(Ht & _ & r & Hr' & Hm & Hn & ->)]); [left; reflexivity|].
    unfold published. cbn [set_posted st_posted flat_map po_payload po_emitter].
    destruct (addr_eq_dec (pda_emitter p0) (pda_emitter p)) as [C|]; [|left; reflexivity]. inversion C; subst p0. right.
    exists cfg, it, tr, rev, c', o', rt'. repeat (split; [first [assumption|reflexivity]|]). split; [|reflexivity].
    cbn. apply upd_same.
  - left. unfold published. match goal with Q : _ = st_posted s' |- _ => rewrite <- Q end. reflexivity.
  - left. unfold published. match goal with Q : _ = st_posted s' |- _ => rewrite <- Q end. reflexivity.
  - left. unfold published. match goal with Q : _ = st_posted s' |- _ => rewrite <- Q end. cbn [flat_map po_payload po_emitter].
    destruct pl; try reflexivity. destruct (addr_eq_dec _ _) as [->|]; [|reflexivity].
    match goal with Q : signed sg _ = true |- _ => apply (signed_can _ _ Hsg) in Q; destruct p; discriminate end.
Qed.

(** Accounts of the core bridge stay. *)
Lemma wormhole_kept H s cl s' a d : step H s cl = Ok s' -> st_accts s a = Some (Acct PWormhole d) -> st_accts s' a = Some (Acct PWormhole d).
Proof.
  intros Hs Hd. destruct (step_change _ _ _ _ Hs a) as [Q|Q]; [congruence|].
  rewrite Hd in Q. remember (st_accts s' a) as new eqn:En. clear En. exfalso. inversion Q; subst; try congruence.
  - olds.
  - match goal with F : redeem_facts _ _ _ _ _ _ _ _ _ _ _ _ _ _ _ _ |- _ => pose proof (inbox_old _ _ _ _ _ _ _ _ _ _ _ _ _ _ _ _ _ F Hd) as E end. discriminate.
  - match goal with F : redeem_facts _ _ _ _ _ _ _ _ _ _ _ _ _ _ _ _ |- _ => pose proof (inbox_old _ _ _ _ _ _ _ _ _ _ _ _ _ _ _ _ _ F Hd) as E end. discriminate.
  - olds.
  - olds.
  - olds.
Qed.

Lemma initial_published s p : initial s -> is_ntt_prog p = true -> published s p = [].
Proof.
  intros Hi Hp. unfold published. assert (Hn : forall po, In po (st_posted s) -> po_emitter po <> pda_emitter p).
  { intros po Hin C. apply (ini_posted _ Hi _ Hin). rewrite C. destruct p; try discriminate; exact I. }
  induction (st_posted s) as [|po l IH]; [reflexivity|]. cbn [flat_map]. rewrite IH by (intros q Hq; apply Hn; right; exact Hq).
  destruct (po_payload po); try reflexivity. destruct (addr_eq_dec _ _) as [C|]; [|reflexivity]. exfalso. exact (Hn po (or_introl eq_refl) C).
Qed.

Lemma reach_ind H (P : state -> Prop) : (forall s, initial s -> P s) ->
  (forall s c s', reachable H s -> P s -> step H s c = Ok s' -> P s') -> forall s, reachable H s -> P s.
Proof.
  intros H0 Hs s (s0 & tr & Hi & R). induction R as [|tr s c s' R IH E]; [auto|]. eapply Hs; [|exact IH|exact E].
  exists s0, tr. auto.
Qed.

(** ** At most one message per item and transceiver *)
Lemma log_once H s p : is_ntt_prog p = true -> reachable H s ->
  NoDup (map (fun m => nm_id (tm_msg m)) (published s p)) /\
  forall m, In m (published s p) -> st_accts s (pda_message p (nm_id (tm_msg m))) = Some (Acct PWormhole DPosted).
Proof.
  intros Hp. revert s. apply reach_ind.
  - intros s Hi. rewrite (initial_published _ _ Hi Hp). split; [constructor|intros m []].
  - intros s c s' Hr (IH1 & IH2) E.
    assert (Hk : forall m, In m (published s p) -> st_accts s' (pda_message p (nm_id (tm_msg m))) = Some (Acct PWormhole DPosted))
      by (intros m Hm; eapply wormhole_kept; eauto).
    destruct (log_step _ _ _ _ _ Hr E Hp) as [->|(cfg & it & tr & rev & cf & o & rt & _ & _ & _ & _ & N & N' & ->)]; [auto|].
    split.
    + cbn. constructor; [|exact IH1]. intros C. apply in_map_iff in C. destruct C as (m & Em & Hm). specialize (IH2 _ Hm).
      rewrite Em in IH2. congruence.
    + intros m [<-|Hm]; [exact N'|auto].
Qed.

(** ** Outbound items stay, with their flags only set *)
Lemma item_step H s cl s' a o : reachable H s -> step H s cl = Ok s' -> outbox_at s a o ->
  outbox_at s' a o \/
  exists c rt p r cfg tr, outbox_at s' a (set_sent o r) /\ outbound_facts s cfg a tr c o rt /\ rt_address rt = AProg p /\
    ob_release o <= st_now s /\ bm_set (ob_released o) (rt_id rt) true = Ok r /\
    ((ins cl = IMark (pda_outbox_signer p) cfg a tr /\ In (pda_outbox_signer p) (signers cl)) \/
     exists rev, is_ntt_prog p = true /\ ins cl = IXRelease p cfg a tr rev true).
Proof.
  intros Hr Hs Hd. unfold outbox_at in *. destruct (step_change _ _ _ _ Hs a) as [Q|Q]; [left; congruence|right].
  rewrite Hd in Q. remember (st_accts s' a) as new eqn:En. clear En. destruct cl as [sg i]. cbn [signers ins] in *.
  inversion Q; subst; try congruence; olds.
  - match goal with F : redeem_facts _ _ _ _ _ _ _ _ _ _ _ _ _ _ _ _ |- _ => pose proof (inbox_old _ _ _ _ _ _ _ _ _ _ _ _ _ _ _ _ _ F Hd) as E end. discriminate.
  - match goal with F : redeem_facts _ _ _ _ _ _ _ _ _ _ _ _ _ _ _ _ |- _ => pose proof (inbox_old _ _ _ _ _ _ _ _ _ _ _ _ _ _ _ _ _ F Hd) as E end. discriminate.
  - match goal with F : outbound_facts _ _ _ _ ?c ?o ?rt, P : rt_address ?rt = AProg ?p, B : bm_set _ _ _ = Ok ?r |- _ => exists c, rt, p, r, cfg, tr end.
    repeat (split; [first [assumption|reflexivity]|]). left. split; [reflexivity|]. now apply signed_In.
  - match goal with F : outbound_facts _ _ _ _ ?c ?o ?rt, P : rt_address ?rt = AProg ?p, B : bm_set _ _ _ = Ok ?r |- _ => exists c, rt, p, r, cfg, tr end.
    repeat (split; [first [assumption|reflexivity]|]). right. eauto.
Qed.

Definition same_item (o o' : outbox_item addr) : Prop := o' = set_sent o (ob_released o').
Lemma same_item_refl o : same_item o o. Proof. destruct o; reflexivity. Qed.
Lemma item_kept H s tr s' a o : reachable H s -> run H s tr s' -> outbox_at s a o -> exists o', outbox_at s' a o' /\ same_item o o'.
Proof.
  intros Hr R E. eapply (run_ind_from H s (fun t => exists o', outbox_at t a o' /\ same_item o o')); [exact Hr|exact R| |].
  - exists o. split; [exact E|apply same_item_refl].
  - intros t c t' Hrt (o' & E' & S) Hst. destruct (item_step _ _ _ _ _ _ Hrt Hst E') as [Q|(cf & rt & p & r & cfg & trr & Q & _)]; [eauto|].
    exists (set_sent o' r). split; [exact Q|]. unfold same_item in *. rewrite S. reflexivity.
Qed.

(** Every outbound item comes from a transfer. *)
Lemma item_made H s cl s' a o : step H s cl = Ok s' -> outbox_at s' a o -> (forall o0, ~ outbox_at s a o0) ->
  exists md x ar, transfer_of (ins cl) = Some (md, x, ar) /\ xa_outbox_item x = a.
Proof.
  intros Hs E Hn. unfold outbox_at in *. destruct (step_change _ _ _ _ Hs a) as [Q|Q]; [exfalso; apply (Hn o); congruence|].
  remember (st_accts s a) as old eqn:Eo. rewrite E in Q. destruct cl as [sg i]. cbn [signers ins] in *. inversion Q; subst.
  - exists md, x, a0. split; [|reflexivity]. match goal with Q : is_transfer _ _ _ _ |- _ => destruct md; cbn in Q; subst i; reflexivity end.
  - exfalso. eapply Hn. eauto.
  - exfalso. eapply Hn. eauto.
Qed.

Lemma transfer_done H s sg i s' md x a : reachable H s -> step H s (Call sg i) = Ok s' -> transfer_of i = Some (md, x, a) ->
  exists c m pe f o v, transferred s sg x a s' md c m pe f o v.
Proof.
  intros Hr Hs Ht. destruct (transfer_limits _ _ _ _ _ _ _ _ Hr Hs Ht) as (c & m & pe & f & o & v & _ & _ & _ & _ & T & _). eauto 10.
Qed.

Lemma outbox_dec s a : (exists o, outbox_at s a o) \/ forall o, ~ outbox_at s a o.
Proof.
  unfold outbox_at. destruct (st_accts s a) as [[p d]|]; [|right; discriminate].
  destruct p; try (right; congruence); destruct d; try (right; congruence). left. eauto.
Qed.

Lemma item_origin H s0 tr s a o : initial s0 -> run H s0 tr s -> outbox_at s a o ->
  exists e c m pe f o0 v md x ar, In e tr /\ deposit e a c m pe f o0 v md x ar /\ same_item o0 o.
Proof.
  intros Hi R. revert o. induction R as [|tr s c s' R IH E]; intros o Ho.
  - exfalso. destruct (ini_accts _ Hi _ _ Ho) as (_ & C & _). discriminate.
  - assert (Hr : reachable H s) by (exists s0, tr; auto). destruct (outbox_dec s a) as [(o1 & E1)|Hn].
    + assert (S : same_item o1 o).
      { destruct (item_step _ _ _ _ _ _ Hr E E1) as [Q|(cf & rt & p & r & cfg & trr & Q & _)]; unfold outbox_at in *.
        - assert (o1 = o) by congruence. subst. apply same_item_refl.
        - assert (o = set_sent o1 r) by congruence. subst. reflexivity. }
      destruct (IH _ E1) as (e & cf & m & pe & f & o0 & v & md & x & ar & Hin & D & S0).
      exists e, cf, m, pe, f, o0, v, md, x, ar. split; [right; exact Hin|]. split; [exact D|]. unfold same_item in *. rewrite S, S0. reflexivity.
    + destruct (item_made _ _ _ _ _ _ E Ho Hn) as (md & x & ar & Et & Ex). destruct c as [sg i]. cbn [ins] in Et.
      destruct (transfer_done _ _ _ _ _ _ _ _ Hr E Et) as (cf & m & pe & f & o0 & v & T).
      exists (Ev s (Call sg i) s'), cf, m, pe, f, o0, v, md, x, ar. split; [left; reflexivity|]. split; [exact (conj Et (conj Ex T))|].
      pose proof (tr_item _ _ _ _ _ _ _ _ _ _ _ _ T) as Q. rewrite Ex in Q. unfold outbox_at in *. assert (o0 = o) by congruence. subst. apply same_item_refl.
Qed.

Lemma run_split H s0 e tr1 tr2 s : run H s0 (tr2 ++ e :: tr1) s ->
  run H s0 tr1 (e_pre e) /\ step H (e_pre e) (e_call e) = Ok (e_post e) /\ run H (e_post e) tr2 s.
Proof.
  revert s. induction tr2 as [|e2 tr2 IH]; intros s R; cbn in R; inversion R; subst; cbn.
  - repeat split; [assumption|assumption|constructor].
  - destruct (IH _ ltac:(eassumption)) as (A & B & C). repeat split; try assumption. apply run_step; assumption.
Qed.

(** An item is deposited at most once. *)
Lemma deposit_once H s0 e e' a tr1 tr2 tr3 s : reachable H s0 -> run H s0 (tr3 ++ e' :: tr2 ++ e :: tr1) s ->
  (exists md x ar, transfer_of (ins (e_call e)) = Some (md, x, ar) /\ xa_outbox_item x = a) ->
  (exists md x ar, transfer_of (ins (e_call e')) = Some (md, x, ar) /\ xa_outbox_item x = a) -> False.
Proof.
  intros Hr R (md & x & ar & Et & Ex) (md' & x' & ar' & Et' & Ex').
  apply run_split in R. destruct R as (R & D & _). apply run_split in R. destruct R as (A & B & C).
  assert (Hr1 : reachable H (e_pre e)) by (eapply run_reachable; eassumption).
  assert (Hr2 : reachable H (e_post e)) by (eapply step_reachable; eassumption).
  assert (Hr3 : reachable H (e_pre e')) by (eapply run_reachable; eassumption).
  destruct (e_call e) as [sg i], (e_call e') as [sg' i']. cbn [ins] in *.
  destruct (transfer_done _ _ _ _ _ _ _ _ Hr1 B Et) as (? & ? & ? & ? & o & ? & T).
  destruct (transfer_done _ _ _ _ _ _ _ _ Hr3 D Et') as (? & ? & ? & ? & o' & ? & T').
  pose proof (tr_item _ _ _ _ _ _ _ _ _ _ _ _ T) as I1. pose proof (tr_fresh _ _ _ _ _ _ _ _ _ _ _ _ T') as I2. rewrite Ex in I1. rewrite Ex' in I2.
  destruct (item_kept _ _ _ _ _ _ Hr2 C I1) as (o2 & I3 & _). unfold outbox_at in *. congruence.
Qed.

(** ** Published messages state deposits (C34) *)
Lemma run_config H s tr s' a c b d : reachable H s -> run H s tr s' -> config_at s a c -> config_at s' b d -> identity d = identity c.
Proof.
  intros Hr R E F. destruct (config_kept _ _ _ _ _ _ Hr R E) as (c' & E' & Hid).
  destruct (config_one _ _ _ _ _ _ (run_reachable _ _ _ _ Hr R) E' F). congruence.
Qed.

Lemma log_states H s0 tr s p m : initial s0 -> run H s0 tr s -> is_ntt_prog p = true -> In m (published s p) ->
  exists e c mt pe f o v md x ar, In e tr /\ deposit e (nm_id (tm_msg m)) c mt pe f o v md x ar /\ states m (nm_id (tm_msg m)) c mt pe f ar v.
Proof.
  intros Hi R Hp. induction R as [|tr s c s' R IH E].
  - rewrite (initial_published _ _ Hi Hp). intros [].
  - assert (Hr : reachable H s) by (exists s0, tr; auto). intros Hin.
    assert (Hold : In m (published s p) -> exists e c0 mt pe f o v md x ar, In e (Ev s c s' :: tr) /\
      deposit e (nm_id (tm_msg m)) c0 mt pe f o v md x ar /\ states m (nm_id (tm_msg m)) c0 mt pe f ar v).
    { intros Q. destruct (IH Q) as (e & cf & mt & pe & f & o & v & md & x & ar & Hine & D & S). exists e, cf, mt, pe, f, o, v, md, x, ar. split; [right; exact Hine|]. auto. }
    destruct (log_step _ _ _ _ _ Hr E Hp) as [Q|(cfg & it & trr & rev & cf & o & rt & _ & F & _ & _ & _ & _ & Q)]; rewrite Q in Hin; [auto|].
    destruct Hin as [<-|Hin]; [|auto].
    destruct (item_origin _ _ _ _ _ _ Hi R (of_item _ _ _ _ _ _ _ F)) as (e & c0 & mt & pe & f & o0 & v & md & x & ar & Hine & D & S).
    exists e, c0, mt, pe, f, o0, v, md, x, ar. split; [right; exact Hine|]. cbn [outbound_message tm_msg nm_id]. split; [exact D|].
    destruct D as (Et & Ex & T). destruct (run_event _ _ _ _ _ R Hine) as (Hse & tr1 & tr2 & R1 & R2 & _).
    assert (Hre : reachable H (e_pre e)) by (exists s0, tr1; auto).
    assert (R3 : run H (e_pre e) (tr2 ++ [Ev (e_pre e) (e_call e) (e_post e)]) s).
    { eapply run_app; [|exact R2]. apply run_step; [constructor|exact Hse]. }
    pose proof (run_config _ _ _ _ _ _ _ _ Hre R3 (tr_config _ _ _ _ _ _ _ _ _ _ _ _ T) (of_config _ _ _ _ _ _ _ F)) as Hid.
    unfold identity in Hid. unfold same_item in S. rewrite S. destruct T. unfold states. cbn.
    repeat (split; [first [reflexivity|congruence]|]). split; [|exact tr_same_value]. rewrite tr_amount. reflexivity.
Qed.

(** ** Flags (C46) *)
Lemma reg_same_id H s a r b r' : reachable H s -> reg_at s a r -> reg_at s b r' -> rt_id r = rt_id r' -> a = b /\ r = r'.
Proof.
  intros Hr E F Hid. apply reachable_inv in Hr. destruct (reg_addr _ _ _ Hr E) as (p & -> & _). destruct (reg_addr _ _ _ Hr F) as (q & -> & _).
  assert (p = q) by (eapply (inv_reg_inj _ Hr p q); eassumption). subst q. unfold reg_at in *. split; congruence.
Qed.

Lemma flag_step H s cl s' a id : reachable H s -> step H s cl = Ok s' -> flag s' a id <> flag s a id ->
  flag s a id = false /\ flag s' a id = true /\
  exists p cfg tr rt o, reg_at s tr rt /\ rt_address rt = AProg p /\ rt_id rt = id /\ outbox_at s a o /\ ob_release o <= st_now s /\
    ((ins cl = IMark (pda_outbox_signer p) cfg a tr /\ In (pda_outbox_signer p) (signers cl)) \/
     (exists rev, is_ntt_prog p = true /\ ins cl = IXRelease p cfg a tr rev true)).
Proof.
  intros Hr Hs Hne. pose proof (reachable_inv _ _ Hr) as Hi. destruct (outbox_dec s a) as [(o & E)|Hn].
  - destruct (item_step _ _ _ _ _ _ Hr Hs E) as [E'|(cf & rt & p & r & cfg & tr & E' & F & Hp & Ht & Hb & Hw)].
    { exfalso. apply Hne. unfold flag, outbox_at in *. rewrite E, E'. reflexivity. }
    pose proof (reg_id _ _ _ Hi (of_reg _ _ _ _ _ _ _ F)) as Hid. pose proof (of_sent _ _ _ _ _ _ _ F) as Hsent.
    unfold flag, outbox_at in *. rewrite E, E' in *. cbn [set_sent ob_released] in *.
    assert (Hbit : Z.testbit r id = if Z.eqb id (rt_id rt) then true else Z.testbit (ob_released o) id).
    { unfold bm_set, BITS in Hb. destruct (128 <=? rt_id rt) eqn:Q; [lia|]. apply Ok_inj in Hb. subst r.
      rewrite Z.setbit_eqb by lia. destruct (Z.eqb_spec (rt_id rt) id), (Z.eqb_spec id (rt_id rt)); try lia; reflexivity. }
    rewrite Hbit in *. destruct (Z.eqb_spec id (rt_id rt)) as [->|]; [|contradiction].
    unfold bm_get, BITS in Hsent. destruct (128 <=? rt_id rt) eqn:Q; [lia|]. apply Ok_inj in Hsent.
    split; [exact Hsent|]. split; [reflexivity|]. exists p, cfg, tr, rt, o.
    split; [apply F|]. repeat (split; [first [assumption|reflexivity]|]). exact Hw.
  - exfalso. apply Hne. assert (Hf : flag s a id = false).
    { unfold flag. destruct (st_accts s a) as [[ow d]|] eqn:Ea; [|reflexivity]. destruct ow, d; try reflexivity. exfalso. eapply Hn. exact Ea. }
    rewrite Hf. destruct (outbox_dec s' a) as [(o & E)|Hn'].
    + destruct (item_made _ _ _ _ _ _ Hs E Hn) as (md & x & ar & Et & Ex). destruct cl as [sg i]. cbn [ins] in Et.
      destruct (transfer_done _ _ _ _ _ _ _ _ Hr Hs Et) as (? & ? & ? & ? & o' & ? & T). pose proof (tr_item _ _ _ _ _ _ _ _ _ _ _ _ T) as I1.
      rewrite Ex in I1. unfold flag, outbox_at in *. rewrite I1. rewrite (tr_unsent _ _ _ _ _ _ _ _ _ _ _ _ T). apply Z.testbit_0_l.
    + unfold flag. destruct (st_accts s' a) as [[ow d]|] eqn:Ea; [|reflexivity]. destruct ow, d; try reflexivity. exfalso. eapply Hn'. exact Ea.
Qed.

(** The derived signers of the two modelled programs sign no call from outside. *)
Lemma ntt_signer_silent sg p : forallb can_sign sg = true -> is_ntt_prog p = true -> ~ In (pda_outbox_signer p) sg.
Proof. intros Hsg Hp Hin. rewrite forallb_forall in Hsg. apply Hsg in Hin. destruct p; discriminate. Qed.

Lemma flag_ntt H s cl s' a tr rt p : reachable H s -> step H s cl = Ok s' -> reg_at s tr rt -> rt_address rt = AProg p -> is_ntt_prog p = true ->
  flag s' a (rt_id rt) <> flag s a (rt_id rt) -> exists cfg rev, ins cl = IXRelease p cfg a tr rev true /\
    exists c o, published s' p = outbound_message c a o :: published s p /\ outbox_at s a o.
Proof.
  intros Hr Hs E Ep Hp Hne. destruct (flag_step _ _ _ _ _ _ Hr Hs Hne) as (F0 & F1 & q & cfg & tr' & rt' & o & E' & Eq & Hid & Ho & Ht & Hw).
  destruct (reg_same_id _ _ _ _ _ _ Hr E' E Hid) as (-> & ->). assert (q = p) by congruence. subst q.
  destruct Hw as [(_ & Hin)|(rev & _ & Ei)].
  - exfalso. eapply ntt_signer_silent; [|exact Hp|exact Hin]. apply step_inv in Hs. apply Hs.
  - exists cfg, rev. split; [exact Ei|]. pose proof (step_inv _ _ _ _ Hs) as (_ & _ & He). rewrite Ei in He. cbn [exec] in He.
    apply x_release_ok in He; [|assumption].
    destruct He as (c & o' & rt2 & F & _ & [(-> & _)|(_ & _ & r & _ & _ & _ & ->)]); [contradiction|].
    exists c, o'. split; [|apply F]. unfold published. cbn [set_posted st_posted flat_map po_payload po_emitter].
    destruct (addr_eq_dec (pda_emitter p) (pda_emitter p)); [reflexivity|contradiction].
Qed.

(** ** Consequences *)
Lemma lock_fee_refused H s sg x a c m pe : reachable H s -> config_at s (xa_config x) c -> st_mints s (cf_mint c) = Some m -> peer_at s (ar_chain a) pe ->
  0 < fee_of m (dust_free (ar_amount a) (mt_decimals m) (pe_decimals pe)) -> ~ succeeds (step H s (Call sg (ITransferLock x a))).
Proof.
  intros Hr Ec Em Ep Hf (s' & Hs). destruct (lock_exact _ _ _ _ _ _ Hr Hs) as (c' & m' & pe' & f & o & v & T & _ & Hz & _).
  destruct T. unfold config_at, peer_at in *. assert (c' = c) by congruence. subst. assert (m' = m) by congruence. assert (pe' = pe) by congruence. subst. lia.
Qed.
Lemma burn_fee_refused H s sg x a c m pe : reachable H s -> config_at s (xa_config x) c -> st_mints s (cf_mint c) = Some m -> peer_at s (ar_chain a) pe ->
  0 < fee_of m (dust_free (ar_amount a) (mt_decimals m) (pe_decimals pe)) -> ~ succeeds (step H s (Call sg (ITransferBurn x a))).
Proof.
  intros Hr Ec Em Ep Hf (s' & Hs). destruct (burn_exact _ _ _ _ _ _ Hr Hs) as (c' & m' & pe' & f & o & v & T & _ & Hz & _).
  destruct T. unfold config_at, peer_at in *. assert (c' = c) by congruence. subst. assert (m' = m) by congruence. assert (pe' = pe) by congruence. subst. lia.
Qed.

Lemma limit_refused H s sg i md x a c m pe r : reachable H s -> transfer_of i = Some (md, x, a) -> ar_queue a = false ->
  config_at s (xa_config x) c -> st_mints s (cf_mint c) = Some m -> peer_at s (ar_chain a) pe -> out_limiter s r ->
  capacity r (st_now s) < dust_free (ar_amount a) (mt_decimals m) (pe_decimals pe) -> ~ succeeds (step H s (Call sg i)).
Proof.
  intros Hr Ht Hq Ec Em Ep Er Hlt (s' & Hs).
  destruct (transfer_limits _ _ _ _ _ _ _ _ Hr Hs Ht) as (c' & m' & pe' & f & o & v & orl & irl & orl' & irl' & T & Eo & _ & _ & _ & _ & Q & _).
  destruct T. unfold config_at, peer_at, out_limiter in *. assert (c' = c) by congruence. subst. assert (m' = m) by congruence. assert (pe' = pe) by congruence.
  assert (orl = r) by congruence. subst. destruct (Q Hlt). congruence.
Qed.

Lemma message_once H s p it : reachable H s -> is_ntt_prog p = true -> (length (message_for it p s) <= 1)%nat.
Proof.
  intros Hr Hp. destruct (log_once _ _ _ Hp Hr) as (Hn & _). unfold message_for.
  induction (published s p) as [|m l IH]; cbn; [lia|]. inversion Hn; subst. specialize (IH H3).
  destruct (addr_eq_dec (nm_id (tm_msg m)) it) as [Q|]; [|exact IH]. cbn. subst it.
  assert (E : filter (fun m0 => if addr_eq_dec (nm_id (tm_msg m0)) (nm_id (tm_msg m)) then true else false) l = []).
  { clear IH Hn H3. induction l as [|m0 l IH]; [reflexivity|]. cbn in *. destruct (addr_eq_dec _ _) as [C|]; [exfalso; apply H2; left; exact C|].
    apply IH. intros C. apply H2. right. exact C. }
  rewrite E. cbn. lia.
Qed.

(** A set flag of a modelled transceiver and its published message come together. *)
Lemma publish_conditions H s cl s' p : reachable H s -> step H s cl = Ok s' -> is_ntt_prog p = true -> published s' p <> published s p ->
  exists cfg it tr rev c o rt m, ins cl = IXRelease p cfg it tr rev true /\
    config_at s cfg c /\ cf_paused c = false /\ outbox_at s it o /\ ob_release o <= st_now s /\
    reg_at s tr rt /\ rt_address rt = AProg p /\ Z.testbit (cf_enabled c) (rt_id rt) = true /\
    flag s it (rt_id rt) = false /\ flag s' it (rt_id rt) = true /\
    published s' p = m :: published s p /\ nm_id (tm_msg m) = it.
Proof.
  intros Hr Hs Hp Hne. pose proof (reachable_inv _ _ Hr) as Hi.
  destruct (log_step _ _ _ _ _ Hr Hs Hp) as [Q|(cfg & it & tr & rev & c & o & rt & Ei & F & Ea & Ht & N & _ & Q)]; [contradiction|].
  pose proof (reg_id _ _ _ Hi (of_reg _ _ _ _ _ _ _ F)) as Hid.
  exists cfg, it, tr, rev, c, o, rt, (outbound_message c it o). split; [exact Ei|]. split; [apply F|]. split; [apply F|]. split; [apply F|].
  split; [exact Ht|]. split; [apply F|]. split; [exact Ea|].
  pose proof (of_enabled _ _ _ _ _ _ _ F) as He. pose proof (of_sent _ _ _ _ _ _ _ F) as Hse. unfold bm_get, BITS in *. destruct (128 <=? rt_id rt) eqn:Q0; [lia|].
  apply Ok_inj in He, Hse. split; [exact He|]. split; [unfold flag; rewrite (of_item _ _ _ _ _ _ _ F); exact Hse|]. split; [|split; [exact Q|reflexivity]].
  pose proof (step_inv _ _ _ _ Hs) as (_ & _ & Hx). rewrite Ei in Hx. cbn [exec] in Hx. apply x_release_ok in Hx; [|assumption].
  destruct Hx as (c' & o' & rt' & F' & _ & [(-> & _)|(_ & _ & r & Hb & _ & Hn & ->)]); [contradiction|].
  pose proof (of_reg _ _ _ _ _ _ _ F) as R1. pose proof (of_reg _ _ _ _ _ _ _ F') as R2. unfold has in *. assert (rt' = rt) by congruence. subst.
  unfold flag. change (st_accts (set_posted ?l ?t)) with (st_accts t). rewrite get_put_other by congruence. rewrite get_put_same. cbn.
  unfold bm_set, BITS in Hb. rewrite Q0 in Hb. apply Ok_inj in Hb. subst r. apply Z.setbit_eq. lia.
Qed.

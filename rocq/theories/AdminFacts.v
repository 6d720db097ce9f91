(** * Administration: configuration, ownership, registry, pause. *)
From Verif Require Export Transact SpecAdmin.
Local Open Scope Z_scope.

Lemma config_one H s a c b d : reachable H s -> config_at s a c -> config_at s b d -> a = b /\ c = d.
Proof.
  intros Hr E F. apply reachable_inv in Hr. pose proof (config_addr _ _ _ Hr E). pose proof (config_addr _ _ _ Hr F). subst.
  unfold config_at in *. split; congruence.
Qed.

Lemma config_made H s c s' a cf : reachable H s -> step H s c = Ok s' -> config_at s' a cf ->
  (exists cf0, config_at s a cf0) \/
  (exists d m tp ch l md, (forall b cf0, ~ config_at s b cf0) /\ ins c = IInitialize d m tp ch l md /\ In d (signers c) /\ st_uauth s = Some d /\
     identity cf = (m, AProg tp, md, ch, ata tp token_authority m, 1) /\ cf_owner cf = d /\ cf_pending cf = None).
Proof.
  intros Hr Hs E. pose proof (step_reachable _ _ _ _ Hr Hs) as Hr'. apply reachable_inv in Hr, Hr'.
  pose proof (config_addr _ _ _ Hr' E). subst. destruct (config_dec _ Hr) as [Q|[cf0 Q]]; [right|left; eauto].
  destruct (config_new _ _ _ _ _ Hs Q E) as (d & mnt & tp & ch & l & md & mt & Hins & -> & Hsg & Hu & _).
  exists d, mnt, tp, ch, l, md. split.
  - intros b cf0 F. pose proof (config_addr _ _ _ Hr F). subst. unfold config_at in F. congruence.
  - apply signed_In in Hsg. repeat split; assumption.
Qed.

Lemma run_ind_from H s (P : state -> Prop) tr s' : reachable H s -> run H s tr s' -> P s ->
  (forall t c t', reachable H t -> P t -> step H t c = Ok t' -> P t') -> P s'.
Proof.
  intros Hr R H0 Hs. induction R as [|tr t c t' R IH E]; [assumption|]. eapply Hs; [|exact IH|exact E].
  eapply run_reachable; eassumption.
Qed.

Lemma config_step_at H s c s' a cf : reachable H s -> step H s c = Ok s' -> config_at s a cf ->
  exists cf', config_at s' a cf' /\ (cf' = cf \/ cfg_change s (signers c) (ins c) cf cf').
Proof.
  intros Hr Hs E. apply reachable_inv in Hr. pose proof (config_addr _ _ _ Hr E). subst. exact (config_step _ _ _ _ _ Hr Hs E).
Qed.

Lemma config_kept H s tr s' a c : reachable H s -> run H s tr s' -> config_at s a c ->
  exists c', config_at s' a c' /\ identity c' = identity c.
Proof.
  intros Hr R E. revert Hr R. intros Hr R.
  refine (run_ind_from _ _ (fun t => exists c', config_at t a c' /\ identity c' = identity c) _ _ Hr R (ex_intro _ c (conj E eq_refl)) _).
  intros t cl t' Ht (c1 & E1 & Hid) Hs. destruct (config_step_at _ _ _ _ _ _ Ht Hs E1) as (c2 & E2 & [->|Q]); [eauto|].
  exists c2. split; [exact E2|]. rewrite <- Hid. apply cfg_change_same in Q. unfold cfg_same in Q. unfold identity. intuition congruence.
Qed.

(** ** Settings *)
Lemma consume_limit r now x r' o : consume_or_delay r now x = Ok (r', o) -> rl_limit r' = rl_limit r.
Proof. unfold consume_or_delay. intros E. binds E. destruct (x <=? v); binds E; apply Ok_inj in E; inversion E; subst; reflexivity. Qed.
Lemma refill_limit r now x r' : refill r now x = Ok r' -> rl_limit r' = rl_limit r.
Proof. unfold refill. intros E. binds E. apply Ok_inj in E. subst. reflexivity. Qed.
Lemma out_limits_limit now x q orl irl orl' irl' ts : out_limits now x q orl irl orl' irl' ts ->
  rl_limit orl' = rl_limit orl /\ rl_limit irl' = rl_limit irl.
Proof. intros [(A & B)|(A & _ & ->)]; split; try reflexivity; eauto using consume_limit, refill_limit. Qed.
Lemma in_limits_limit now x irl orl irl' orl' ts : in_limits now x irl orl irl' orl' ts ->
  rl_limit orl' = rl_limit orl /\ rl_limit irl' = rl_limit irl.
Proof. intros [(A & B)|(A & ->)]; split; try reflexivity; eauto using consume_limit, refill_limit. Qed.

Lemma settings_owner H s c s' a : reachable H s -> step H s c = Ok s' ->
  settings (st_accts s' a) <> settings (st_accts s a) ->
  (exists b cf o, config_at s b cf /\ admin_by (ins c) = Some o /\ In o (signers c) /\
     (o = cf_owner cf \/ (is_claim (ins c) /\ cf_pending cf = Some o))) \/
  (exists d m tp ch l md, (forall b cf, ~ config_at s b cf) /\ ins c = IInitialize d m tp ch l md /\ In d (signers c) /\ st_uauth s = Some d).
Proof.
  intros Hr Hs Hne. pose proof (reachable_inv _ _ Hr) as Hi.
  destruct (step_change _ _ _ _ Hs a) as [Q|Q]; [congruence|].
  remember (st_accts s a) as old eqn:Eo. remember (st_accts s' a) as new eqn:En.
  destruct c as [sg i]. cbn [signers ins] in *.
  assert (Hown : forall cfg cf o, has s cfg PManager (DConfig cf) -> cf_owner cf = o -> signed sg o = true ->
     admin_by i = Some o ->
     exists b cf o, config_at s b cf /\ admin_by i = Some o /\ In o sg /\
     (o = cf_owner cf \/ (is_claim i /\ cf_pending cf = Some o))).
  { intros cfg cf o E1 E2 E3 E4. exists cfg, cf, o. apply signed_In in E3. repeat split; auto. }
  assert (Hnone : st_accts s pda_config = None -> forall b cf, ~ config_at s b cf).
  { intros N b cf E. pose proof (config_addr _ _ _ Hi E). subst. unfold config_at in E. congruence. }
  assert (Hold : old = None -> a = pda_config -> st_accts s pda_config = None) by congruence.
  assert (Hold2 : forall d, a = pda_inbox d -> old = st_accts s (pda_inbox d)) by congruence.
  clear Eo En.
  inversion Q; subst; try (exfalso; apply Hne; reflexivity); try (left; eapply Hown; try eassumption; reflexivity).
  - right. exists d, mnt, tp, ch, l, md. split; [apply Hnone; auto|]. rewrite signed_In in *. auto.
  - right. pose proof (step_inv _ _ _ _ Hs) as (Hsg & _ & He). cbn [exec signers ins] in He, Hsg.
    apply initialize_ok in He; [|assumption]. destruct He as (mt & s1 & E1 & E2 & _).
    exists d, mnt, tp, ch, l, md. split; [apply Hnone; auto|]. rewrite signed_In in *. auto.
  - exfalso. apply Hne. olds; match goal with Q : _ \/ _ |- _ => destruct Q as [Q|[? Q]]; rewrite Q; reflexivity end.
  - exfalso. apply Hne. cbn. f_equal. f_equal. match goal with F : transfer_facts _ _ _ _ _ _ _ _ _ _ _ _ _ _ _ _ |- _ => apply tf_limits, out_limits_limit in F; destruct F end. assumption.
  - exfalso. apply Hne. cbn. f_equal. f_equal. match goal with F : transfer_facts _ _ _ _ _ _ _ _ _ _ _ _ _ _ _ _ |- _ => apply tf_limits, out_limits_limit in F; destruct F end. assumption.
  - exfalso. apply Hne. match goal with F : redeem_facts _ _ _ _ _ _ _ _ _ _ _ _ _ _ _ _ |- _ => destruct (rf_item _ _ _ _ _ _ _ _ _ _ _ _ _ _ _ _ F) as [[C _]|C]; unfold has in C; rewrite C; reflexivity end.
  - exfalso. apply Hne. match goal with F : redeem_facts _ _ _ _ _ _ _ _ _ _ _ _ _ _ _ _ |- _ => destruct (rf_item _ _ _ _ _ _ _ _ _ _ _ _ _ _ _ _ F) as [[C _]|C]; unfold has in C; rewrite C; reflexivity end.
  - exfalso. apply Hne. cbn. f_equal. f_equal. match goal with F : in_limits _ _ _ _ _ _ _ |- _ => apply in_limits_limit in F; destruct F end. assumption.
  - exfalso. apply Hne. cbn. f_equal. f_equal. match goal with F : in_limits _ _ _ _ _ _ _ |- _ => apply in_limits_limit in F; destruct F end. assumption.
  - left. match goal with Q : signed _ n = true |- _ => apply signed_In in Q end. exists a, c, n. split; [assumption|].
    split; [reflexivity|]. split; [assumption|]. match goal with Q : _ \/ _ |- _ => destruct Q; [right|left; congruence] end.
    split; [|assumption]. do 2 eexists. reflexivity.
  - exfalso. apply Hne. destruct p; reflexivity.
  - exfalso. apply Hne. olds; match goal with Q : _ \/ _ |- _ => destruct Q as [Q|[? Q]]; rewrite Q; reflexivity end.
Qed.

(** ** Ownership *)
Lemma cfg_change_ownership s sg i c c' : cfg_change s sg i c c' ->
  ownership sg i (cf_owner c) (cf_pending c) (cf_owner c') (cf_pending c').
Proof.
  intros Q. destruct Q as [o n c Ho Hg _|o n c Ho Hg _|n c Hp Hg _|o b c Ho Hg|o p c en Ho Hg _ _ _];
  apply signed_In in Hg; cbn; subst; try constructor; auto.
  destruct Hp as [->| <-]; constructor; assumption.
Qed.

Lemma ownership_step H s c s' a cf : reachable H s -> step H s c = Ok s' -> config_at s a cf ->
  exists cf', config_at s' a cf' /\
    ownership (signers c) (ins c) (cf_owner cf) (cf_pending cf) (cf_owner cf') (cf_pending cf').
Proof.
  intros Hr Hs E. destruct (config_step_at _ _ _ _ _ _ Hr Hs E) as (cf' & E' & Q); exists cf'; (split; [exact E'|]). destruct Q as [->|Q]; [apply O_same|].
  eapply cfg_change_ownership; eassumption.
Qed.

Lemma ownership_owner sg i o p o' p' : ownership sg i o p o' p' ->
  o' = o \/ (exists b, i = ITransferOwnershipOneStep b o o' /\ In o sg) \/ (exists b, i = IClaimOwnership b o' /\ p = Some o' /\ In o' sg).
Proof. intros []; eauto 10. Qed.
Lemma ownership_pending sg i o p o' p' n : ownership sg i o p o' p' -> p' = Some n ->
  o' = o /\ (p = Some n \/ exists b, i = ITransferOwnership b o n /\ In o sg).
Proof. intros [] E; try discriminate; split; auto. inversion E; subst. eauto. Qed.

Lemma initial_no_config s a c : initial s -> ~ config_at s a c.
Proof. intros Hi E. destruct (ini_accts _ Hi _ _ E) as (_ & C & _). discriminate. Qed.

Lemma pending_offered H s0 tr s a c n : initial s0 -> run H s0 tr s -> config_at s a c -> cf_pending c = Some n ->
  exists tr1 e tr2, tr = tr1 ++ e :: tr2 /\ (exists b, ins (e_call e) = ITransferOwnership b (cf_owner c) n) /\
    In (cf_owner c) (signers (e_call e)) /\
    (forall e', In e' (tr1 ++ [e]) -> exists c', config_at (e_post e') a c' /\ cf_owner c' = cf_owner c /\ cf_pending c' = Some n).
Proof.
  intros Hi R. revert a c n. induction R as [|tr t cl t' R IH Hs]; intros a c n E Hp.
  - exfalso. eapply initial_no_config; eassumption.
  - assert (Ht : reachable H t) by (exists s0, tr; auto).
    destruct (config_made _ _ _ _ _ _ Ht Hs E) as [(c0 & E0)|(d & m & tp & ch & l & md & _ & _ & _ & _ & _ & _ & Q)]; [|congruence].
    destruct (ownership_step _ _ _ _ _ _ Ht Hs E0) as (c' & E' & Ho). unfold config_at in E, E'. assert (c' = c) by congruence. subst c'.
    destruct (ownership_pending _ _ _ _ _ _ _ Ho Hp) as (Eo & [Ep|(b & Hins & Hsg)]).
    + destruct (IH _ _ n E0 Ep) as (tr1 & e & tr2 & -> & Hins & Hsg & Hall). rewrite <- Eo in Hins, Hsg, Hall.
      exists (Ev t cl t' :: tr1), e, tr2. split; [reflexivity|]. split; [exact Hins|]. split; [exact Hsg|].
      intros e' [<-|Hin]; [cbn; exists c; auto|]. auto.
    + rewrite <- Eo in *. exists [], (Ev t cl t'), tr. cbn. split; [reflexivity|]. split; [eauto|]. split; [assumption|].
      intros e' [<-|[]]. cbn. exists c. auto.
Qed.

Lemma owner_named H s0 tr s a c : initial s0 -> run H s0 tr s -> config_at s a c ->
  exists e, In e tr /\
   ((exists m tp ch l md, ins (e_call e) = IInitialize (cf_owner c) m tp ch l md /\ In (cf_owner c) (signers (e_call e)) /\
        st_uauth (e_pre e) = Some (cf_owner c)) \/
    (exists c0 b, config_at (e_pre e) a c0 /\ ins (e_call e) = ITransferOwnershipOneStep b (cf_owner c0) (cf_owner c) /\
        In (cf_owner c0) (signers (e_call e))) \/
    (exists c0 b, config_at (e_pre e) a c0 /\ cf_pending c0 = Some (cf_owner c) /\ ins (e_call e) = IClaimOwnership b (cf_owner c) /\
        In (cf_owner c) (signers (e_call e)))).
Proof.
  intros Hi R. revert a c. induction R as [|tr t cl t' R IH Hs]; intros a c E.
  - exfalso. eapply initial_no_config; eassumption.
  - assert (Ht : reachable H t) by (exists s0, tr; auto).
    destruct (config_made _ _ _ _ _ _ Ht Hs E) as [(c0 & E0)|(d & m & tp & ch & l & md & _ & Hins & Hsg & Hu & _ & Ho & _)].
    + destruct (ownership_step _ _ _ _ _ _ Ht Hs E0) as (c' & E' & Ho). unfold config_at in E, E'. assert (c' = c) by congruence. subst c'.
      destruct (ownership_owner _ _ _ _ _ _ Ho) as [Eo|[(b & Hins & Hsg)|(b & Hins & Hp & Hsg)]].
      * destruct (IH _ _ E0) as (e & Hin & He). rewrite <- Eo in He. exists e. split; [right; exact Hin|exact He].
      * exists (Ev t cl t'). split; [left; reflexivity|]. right. left. exists c0, b. cbn. auto.
      * exists (Ev t cl t'). split; [left; reflexivity|]. right. right. exists c0, b. cbn. auto.
    + exists (Ev t cl t'). split; [left; reflexivity|]. left. subst d. cbn. eauto 10.
Qed.

Lemma cancel_ok H s a c : reachable H s -> config_at s a c -> st_uauth s = Some upgrade_lock -> can_sign (cf_owner c) = true ->
  exists s', step H s (Call [cf_owner c] (IClaimOwnership a (cf_owner c))) = Ok s' /\
    config_at s' a (with_owner c (cf_owner c) None) /\ st_uauth s' = Some (cf_owner c).
Proof.
  intros Hr E Hu Hc. unfold step. cbn [signers ins forallb typed exec]. rewrite Hc. cbn [andb require bind].
  unfold claim_ownership. assert (Ec : get_config s a = Ok c) by (apply get_config_ok; exact E). rewrite Ec. cbn [bind].
  rewrite addr_eqb_refl, orb_true_r. cbn [require bind]. unfold signed. cbn [existsb]. rewrite addr_eqb_refl. cbn [orb require bind].
  unfold loader_set_authority. cbn [put set_accts st_uauth]. rewrite Hu. cbn [oaddr_eqb]. rewrite addr_eqb_refl. cbn [require bind].
  eexists. split; [reflexivity|]. split; [|reflexivity]. apply get_put_same.
Qed.

(** ** States that differ only in the config, in parts that most instructions ignore. *)
Record twin (a : addr) (c c2 : config addr) (s s2 : state) : Prop := {
  tw_c : config_at s a c;
  tw_only : forall b d, config_at s b d -> b = a;
  tw_c2 : config_at s2 a c2;
  tw_accts : forall b, b <> a -> st_accts s2 b = st_accts s b;
  tw_toks : st_toks s2 = st_toks s;
  tw_mints : st_mints s2 = st_mints s;
  tw_now : st_now s2 = st_now s;
  tw_uauth : st_uauth s2 = st_uauth s;
  tw_owner : cf_owner c2 = cf_owner c;
  tw_ident : identity c2 = identity c;
  tw_next : cf_next c2 = cf_next c;
  tw_enabled : cf_enabled c2 = cf_enabled c }.

Definition succeeds {A} (r : result A) : Prop := exists x, r = Ok x.

Lemma bind_succ {A B C} (x : result A) (f : A -> result B) (g : A -> result C) :
  (forall v, x = Ok v -> succeeds (f v) -> succeeds (g v)) -> succeeds (bind x f) -> succeeds (bind x g).
Proof. destruct x; cbn; [auto|]. intros _ [? ?]. discriminate. Qed.
Lemma succ_ok {A B} (r : result A) (y : B) : succeeds r -> succeeds (Ok y).
Proof. intros _. eexists. reflexivity. Qed.

Section Twin.
Context (a : addr) (c c2 : config addr) (s s2 : state) (T : twin a c c2 s s2).

Ltac at_a := pose proof (tw_c _ _ _ _ _ T) as Q1; pose proof (tw_c2 _ _ _ _ _ T) as Q2; unfold config_at in Q1, Q2;
  rewrite ?Q1, ?Q2; cbn.
Ltac twget b := unfold get_peer, get_reg, get_outbox_rl, get_inbox_rl, get_inbox_item, get_outbox_item, get_xpeer, get;
  destruct (addr_eq_dec b a) as [->|Hne]; [at_a; repeat match goal with |- context[prog_eqb ?x ?y] => destruct (prog_eqb x y) end; reflexivity|rewrite (tw_accts _ _ _ _ _ T) by assumption; reflexivity].
Lemma tw_peer b : get_peer s2 b = get_peer s b. Proof. twget b. Qed.
Lemma tw_reg b : get_reg s2 b = get_reg s b. Proof. twget b. Qed.
Lemma tw_orl b : get_outbox_rl s2 b = get_outbox_rl s b. Proof. twget b. Qed.
Lemma tw_irl b : get_inbox_rl s2 b = get_inbox_rl s b. Proof. twget b. Qed.
Lemma tw_item b : get_inbox_item s2 b = get_inbox_item s b. Proof. twget b. Qed.
Lemma tw_message b o : get_message s2 b o = get_message s b o.
Proof. unfold get_message. destruct (addr_eq_dec b a) as [->|Hne]; [at_a; reflexivity|rewrite (tw_accts _ _ _ _ _ T) by assumption; reflexivity]. Qed.
Lemma tw_free b : free s2 b = free s b.
Proof.
  unfold free. rewrite (tw_toks _ _ _ _ _ T), (tw_mints _ _ _ _ _ T).
  destruct (addr_eq_dec b a) as [->|Hne]; [at_a; destruct a; reflexivity|rewrite (tw_accts _ _ _ _ _ T) by assumption; reflexivity].
Qed.
Lemma tw_init b k : k (DConfig c) = false -> k (DConfig c2) = false -> init_if_needed s2 b k = init_if_needed s b k.
Proof.
  intros K1 K2. unfold init_if_needed, get. rewrite tw_free.
  destruct (addr_eq_dec b a) as [->|Hne]; [at_a; rewrite K1, K2; reflexivity|rewrite (tw_accts _ _ _ _ _ T) by assumption; reflexivity].
Qed.
Lemma tw_anymint b : any_mint s2 b = any_mint s b. Proof. unfold any_mint. now rewrite (tw_mints _ _ _ _ _ T). Qed.
Lemma tw_config {B C} b (f : config addr -> result B) (g : config addr -> result C) :
  (b = a -> succeeds (f c) -> succeeds (g c2)) -> succeeds (bind (get_config s b) f) -> succeeds (bind (get_config s2 b) g).
Proof.
  intros K. destruct (get_config s b) as [v|] eqn:E; [|intros [? ?]; discriminate]. apply get_config_ok in E.
  pose proof (tw_only _ _ _ _ _ T _ _ E) as ->. pose proof (tw_c _ _ _ _ _ T) as Q1. unfold config_at, has in *. assert (v = c) by congruence. subst.
  assert (Q2 : get_config s2 a = Ok c2) by (apply get_config_ok; exact (tw_c2 _ _ _ _ _ T)). rewrite Q2. cbn. auto.
Qed.
Lemma tw_owned {B C} sg b o (f : config addr -> result B) (g : config addr -> result C) :
  (b = a -> succeeds (f c) -> succeeds (g c2)) -> succeeds (bind (get_owned s sg b o) f) -> succeeds (bind (get_owned s2 sg b o) g).
Proof.
  intros K. destruct (get_owned s sg b o) as [v|] eqn:E; [|intros [? ?]; discriminate]. apply get_owned_ok in E. destruct E as (E & Ho & Hg).
  pose proof (tw_only _ _ _ _ _ T _ _ E) as ->. pose proof (tw_c _ _ _ _ _ T) as Q1. unfold config_at, has in *. assert (v = c) by congruence. subst v.
  assert (Q2 : get_owned s2 sg a o = Ok c2).
  { apply get_owned_ok. split; [exact (tw_c2 _ _ _ _ _ T)|]. split; [|assumption]. rewrite (tw_owner _ _ _ _ _ T). assumption. }
  rewrite Q2. cbn. auto.
Qed.
Lemma tw_fields : cf_mint c2 = cf_mint c /\ cf_token_program c2 = cf_token_program c /\ cf_mode c2 = cf_mode c /\ cf_chain c2 = cf_chain c /\
  cf_custody c2 = cf_custody c /\ cf_threshold c2 = cf_threshold c.
Proof. pose proof (tw_ident _ _ _ _ _ T) as Q. unfold identity in Q. inversion Q. repeat split. Qed.

(** Instructions of the owner other than the moves of ownership. *)
Definition plain_admin (i : instr) : bool :=
  match i with
  | ISetPaused _ _ _ | ISetPeer _ _ _ _ _ _ | IRegisterTransceiver _ _ _ | ISetOutboundLimit _ _ _ _ | ISetInboundLimit _ _ _ _
  | IXSetPeer _ _ _ _ _ => true
  | _ => false
  end.
Lemma twin_admin H sg i : plain_admin i = true -> succeeds (exec H s sg i) -> succeeds (exec H s2 sg i).
Proof.
  destruct i; try discriminate; intros _; cbn [exec].
  - apply tw_owned. intros _. apply succ_ok.
  - apply tw_owned. intros _. rewrite !tw_init by reflexivity. apply bind_succ. intros ? _. apply bind_succ. intros ? _. apply succ_ok.
  - apply tw_owned. intros _. rewrite tw_free, (tw_next _ _ _ _ _ T), (tw_enabled _ _ _ _ _ T). do 4 (apply bind_succ; intros ? _). apply succ_ok.
  - apply tw_owned. intros _. rewrite tw_orl, (tw_now _ _ _ _ _ T). do 2 (apply bind_succ; intros ? _). apply succ_ok.
  - apply tw_owned. intros _. rewrite tw_irl, (tw_now _ _ _ _ _ T). do 2 (apply bind_succ; intros ? _). apply succ_ok.
  - apply tw_owned. intros _. rewrite tw_free. do 1 (apply bind_succ; intros ? _). apply succ_ok.
Qed.

Lemma twin_loader (u : addr) v : succeeds (loader_set_authority s u v) -> succeeds (loader_set_authority s2 u v).
Proof. unfold loader_set_authority. rewrite (tw_uauth _ _ _ _ _ T). apply bind_succ. intros ? _. apply succ_ok. Qed.
Lemma loader_put t b d u v : succeeds (loader_set_authority (put b PManager d t) u v) <-> succeeds (loader_set_authority t u v).
Proof.
  unfold loader_set_authority. cbn [put set_accts st_uauth]. split; apply bind_succ; intros ? _; apply succ_ok.
Qed.
Definition is_ownership (i : instr) : bool :=
  match i with ITransferOwnership _ _ _ | ITransferOwnershipOneStep _ _ _ | IClaimOwnership _ _ => true | _ => false end.
Lemma twin_ownership H sg i : cf_pending c2 = cf_pending c -> is_ownership i = true -> succeeds (exec H s sg i) -> succeeds (exec H s2 sg i).
Proof.
  intros Hp. destruct i; try discriminate; intros _; cbn [exec].
  - apply tw_owned. intros _. rewrite !loader_put. apply twin_loader; assumption.
  - apply tw_owned. intros _. rewrite !loader_put. apply twin_loader; assumption.
  - apply tw_config. intros _. rewrite Hp, (tw_owner _ _ _ _ _ T). do 2 (apply bind_succ; intros ? _). rewrite !loader_put. apply twin_loader; assumption.
Qed.

Lemma twin_redeem H x : succeeds (redeem H s x) -> succeeds (redeem H s2 x).
Proof.
  unfold redeem. destruct tw_fields as (F1 & F2 & F3 & F4 & F5 & F6).
  apply tw_config. intros _. rewrite F1, F4, F6, (tw_enabled _ _ _ _ _ T), (tw_now _ _ _ _ _ T).
  apply bind_succ; intros ? _. rewrite tw_reg. apply bind_succ; intros rt _. rewrite tw_message. apply bind_succ; intros [ch tm] _.
  rewrite tw_peer. apply bind_succ; intros pe _. do 3 (apply bind_succ; intros ? _). apply bind_succ; intros en _. apply bind_succ; intros ? _.
  rewrite tw_anymint. apply bind_succ; intros mt _. cbv zeta.
  assert (Hitem : (match st_accts s2 (pda_inbox (h_msg H ch (tm_msg tm))) with
                | None => let? _ := require (free s2 (pda_inbox (h_msg H ch (tm_msg tm)))) Constraint in Ok inbox_default
                | Some _ => get_inbox_item s2 (pda_inbox (h_msg H ch (tm_msg tm))) end) =
               (match st_accts s (pda_inbox (h_msg H ch (tm_msg tm))) with
                | None => let? _ := require (free s (pda_inbox (h_msg H ch (tm_msg tm)))) Constraint in Ok inbox_default
                | Some _ => get_inbox_item s (pda_inbox (h_msg H ch (tm_msg tm))) end)).
  { rewrite tw_item, tw_free. destruct (addr_eq_dec (pda_inbox (h_msg H ch (tm_msg tm))) a) as [->|Hne].
    - at_a. reflexivity.
    - rewrite (tw_accts _ _ _ _ _ T) by assumption. reflexivity. }
  rewrite Hitem. apply bind_succ; intros item _. rewrite tw_irl, tw_orl. do 2 (apply bind_succ; intros ? _). apply bind_succ; intros am _.
  apply bind_succ; intros votes _. apply bind_succ; intros n _. destruct (n <? cf_threshold c); [apply succ_ok|].
  apply bind_succ; intros [? ?] _. apply bind_succ; intros [? ?] _. apply bind_succ; intros ? _. apply succ_ok.
Qed.
End Twin.

Lemma step_succ H s sg i : succeeds (step H s (Call sg i)) <-> forallb can_sign sg = true /\ typed i = true /\ succeeds (exec H s sg i).
Proof.
  unfold step. cbn [signers ins]. destruct (forallb can_sign sg && typed i) eqn:E; cbn [require bind].
  - apply andb_true_iff in E. tauto.
  - split; [intros [? ?]; discriminate|]. intros (A & B & _). rewrite A, B in E. discriminate.
Qed.

(** * Facts about the canonical lookup table (C65). *)
From Verif Require Export Lut AdminFacts.
Local Open Scope Z_scope.

Lemma l_step_inv H l c l' : l_step H l c = Ok l' -> forallb can_sign (l_signers c) = true /\ l_exec H l (l_signers c) (l_ins c) = Ok l'.
Proof. unfold l_step. intros E. binds E. bools. auto. Qed.

Lemma lut_mine_ok l sg tab a t : lut_mine l sg tab a = Ok t -> l_tabs l tab = Some t /\ signed sg a = true /\ lt_auth t = Some a.
Proof. unfold lut_mine. intros E. binds E. bools. subst. auto. Qed.
Lemma lut_create_ok l sg a p slot l' : lut_create l sg a p slot = Ok l' -> signed sg p = true /\ l_recent l slot = true /\
  l' = match l_tabs l (lut_at a slot) with Some _ => l | None => set_tab (lut_at a slot) (Some (Table (Some a) true [])) l end.
Proof.
  unfold lut_create. intros E. binds E. bools. split; [assumption|]. split; [assumption|].
  destruct (l_tabs _ _); apply Ok_inj in E; now subst.
Qed.
Lemma lut_extend_ok l sg tab a new l' : lut_extend l sg tab a new = Ok l' -> exists t, l_tabs l tab = Some t /\ signed sg a = true /\ lt_auth t = Some a /\
  lt_active t = true /\ new <> [] /\ Z.of_nat (length (lt_entries t)) + Z.of_nat (length new) <= 256 /\
  l' = set_tab tab (Some (Table (lt_auth t) true (lt_entries t ++ new))) l.
Proof.
  unfold lut_extend. intros E. binds E. bools.
  match goal with Q : lut_mine _ _ _ _ = Ok ?t |- _ => apply lut_mine_ok in Q; destruct Q as (Q1 & Q2 & Q3); exists t end.
  repeat (split; [assumption|]). split; [intros ->; discriminate|]. split; [unfold MAX_ADDRESSES in *; lia|]. now subst.
Qed.

Lemma lut_at_inj a z a' z' : lut_at a z = lut_at a' z' -> a = a' /\ z = z'.
Proof. intros E. inversion E. auto. Qed.
Lemma set_tab_same a t l : l_tabs (set_tab a t l) a = t.
Proof. apply upd_same. Qed.
Lemma set_tab_other a t l b : b <> a -> l_tabs (set_tab a t l) b = l_tabs l b.
Proof. intros N. cbn. now apply upd_other. Qed.

(** ** The canonical initialisation *)
Definition own_tab (slot : Z) : addr := lut_at lut_authority slot.

Record l_made (H : hashes) (l : lstate) (sg : list addr) (x : lut_accts) (slot : Z) (l' : lstate) (c : config addr) (old : list addr) : Prop := {
  lm_payer : signed sg (lx_payer x) = true;
  lm_recent : l_recent l slot = true;
  lm_config : has (l_world l) (lx_config x) PManager (DConfig c);
  lm_custody : lx_custody x = cf_custody c;
  lm_token_program : lx_token_program x = cf_token_program c;
  lm_mint : lx_mint x = cf_mint c;
  lm_step : step H (l_world l) (Call sg (IInitializeLut (lx_config x) (lx_outbox_rl x) (own_tab slot) true)) = Ok (l_world l');
  lm_orl : exists r, has (l_world l) (lx_outbox_rl x) PManager (DOutboxRL r);
  lm_record : st_accts (l_world l') pda_lut = Some (Acct PManager (DLut (Lut 0 (own_tab slot))));
  lm_old : (l_tabs l (own_tab slot) = None /\ old = []) \/ l_tabs l (own_tab slot) = Some (Table (Some lut_authority) true old);
  lm_new : l_tabs l' (own_tab slot) = Some (Table (Some lut_authority) true (old ++ lut_entries x));
  lm_room : Z.of_nat (length old) + 14 <= 256;
  lm_others : forall a, a <> own_tab slot -> l_tabs l' a = l_tabs l a }.

Lemma initialize_lut_ok s cfg orl a s' : initialize_lut s cfg orl a true = Ok s' ->
  (exists r, has s orl PManager (DOutboxRL r)) /\ st_accts s' pda_lut = Some (Acct PManager (DLut (Lut 0 a))).
Proof.
  unfold initialize_lut. intros E. binds E. gets. apply Ok_inj in E. subst s'. split; [eauto|]. apply get_put_same.
Qed.

Lemma l_init_ok H l sg x slot l' : forallb can_sign sg = true -> l_initialize l sg x slot = Ok l' -> exists c old, l_made H l sg x slot l' c old.
Proof.
  intros Hsg. unfold l_initialize. intros E. binds E. bools. gets.
  match goal with Q : initialize_lut _ _ _ _ _ = Ok ?s, W : lut_create _ _ _ _ _ = Ok ?l1 |- _ =>
    pose proof (initialize_lut_ok _ _ _ _ _ Q) as (HR & HL); rename Q into Qs; rename W into Qc end.
  apply lut_create_ok in Qc as (_ & Hrec & Ec). cbn [l_tabs l_recent] in *.
  apply lut_extend_ok in E as (t & Et & _ & Ea & Hact & _ & Hlen & ->).
  change (length (lut_entries x)) with 14%nat in Hlen.
  assert (St : forall s0, initialize_lut (l_world l) (lx_config x) (lx_outbox_rl x) (own_tab slot) true = Ok s0 ->
     step H (l_world l) (Call sg (IInitializeLut (lx_config x) (lx_outbox_rl x) (own_tab slot) true)) = Ok s0).
  { intros s0 F0. unfold step. cbn [signers ins typed exec]. rewrite Hsg. exact F0. }
  destruct (l_tabs l (lut_at lut_authority slot)) as [t0|] eqn:F0; subst.
  - cbn [l_tabs l_world] in *. assert (t = t0) as -> by congruence. destruct t0 as [au ac en]. cbn [lt_auth lt_active lt_entries] in *. subst.
    eexists _, en. constructor; try eassumption; cbn [l_world set_tab]; auto.
    + apply set_tab_same.
    + intros a N. rewrite set_tab_other by exact N. reflexivity.
  - rewrite set_tab_same in Et. injection Et as <-. cbn [lt_auth lt_active lt_entries] in *.
    eexists _, []. constructor; try eassumption; cbn [l_world set_tab]; auto.
    + apply set_tab_same.
    + intros a N. rewrite !set_tab_other by exact N. reflexivity.
Qed.

(** ** Steps *)
Lemma lut_authority_mute sg : forallb can_sign sg = true -> signed sg lut_authority = true -> False.
Proof. intros Hs Q. apply (signed_can _ _ Hs) in Q. discriminate. Qed.

Lemma l_world_step H l c l' : l_step H l c = Ok l' -> l_world l' = l_world l \/ exists c', step H (l_world l) c' = Ok (l_world l').
Proof.
  intros Hs. apply l_step_inv in Hs as (Hsg & E). destruct c as [sg i]. cbn [l_signers l_ins] in *. destruct i; cbn [l_exec] in E.
  - binds E. destruct (l_init_ok H _ _ _ _ _ Hsg E) as (c & old & M). right. eexists. apply M.
  - right. assert (E' : exists s, step H (l_world l) (Call sg i) = Ok s /\ l' = LState s (l_tabs l) (l_recent l)).
    { destruct i; try discriminate; binds E; apply Ok_inj in E; subst; eauto. }
    destruct E' as (s & Es & ->). eauto.
  - binds E. apply lut_create_ok in E as (_ & _ & ->). left. destruct (l_tabs _ _); reflexivity.
  - apply lut_extend_ok in E as (t & _ & _ & _ & _ & _ & _ & ->). now left.
  - unfold lut_freeze in E. binds E. apply Ok_inj in E. subst. now left.
  - unfold lut_deactivate in E. binds E. apply Ok_inj in E. subst. now left.
  - unfold lut_close in E. binds E. apply Ok_inj in E. subst. now left.
  - apply Ok_inj in E. subst. now left.
Qed.

Lemma l_world_reachable H l : l_reachable H l -> reachable H (l_world l).
Proof.
  intros (l0 & cs & Hi & R). induction R as [|cs l c l' R IH E]; [exists (l_world l0), []; split; [apply Hi|constructor]|].
  destruct (l_world_step _ _ _ _ E) as [->|(c' & Ec)]; [exact IH|]. eapply step_reachable; eassumption.
Qed.

Definition own_ok (l : lstate) : Prop := forall slot t, l_tabs l (own_tab slot) = Some t -> lt_auth t = Some lut_authority /\ lt_active t = true.

Lemma tab_step H l c l' slot : own_ok l -> l_step H l c = Ok l' ->
  l_tabs l' (own_tab slot) = l_tabs l (own_tab slot) \/
  (l_tabs l (own_tab slot) = None /\ l_tabs l' (own_tab slot) = Some (Table (Some lut_authority) true [])) \/
  (exists x cf old, l_ins c = LInit x slot /\ l_made H l (l_signers c) x slot l' cf old).
Proof.
  intros Ok Hs. apply l_step_inv in Hs as (Hsg & E). destruct c as [sg i]. cbn [l_signers l_ins] in *.
  assert (Q : forall tab a t, lut_mine l sg tab a = Base.Ok t -> own_tab slot <> tab).
  { intros tab a t M <-. apply lut_mine_ok in M as (M1 & M2 & M3). destruct (Ok _ _ M1) as (M4 & _). rewrite M4 in M3. injection M3 as <-.
    eapply lut_authority_mute; eassumption. }
  destruct i; cbn [l_exec] in E.
  - binds E. destruct (l_init_ok H _ _ _ _ _ Hsg E) as (c & old & M). destruct (Z.eq_dec slot0 slot) as [->|N]; [right; right; eauto|].
    left. apply M. intros C. apply lut_at_inj in C as (_ & C). congruence.
  - left. destruct i; try discriminate; binds E; apply Ok_inj in E; subst; reflexivity.
  - binds E. apply lut_create_ok in E as (_ & _ & ->). destruct (l_tabs l (lut_at authority slot0)) eqn:F0; [now left|].
    destruct (addr_eq_dec (own_tab slot) (lut_at authority slot0)) as [C|N]; [|left; now apply set_tab_other].
    right. left. rewrite <- C in F0 |- *. split; [exact F0|]. rewrite set_tab_same. unfold own_tab in C. apply lut_at_inj in C as (<- & _). reflexivity.
  - left. unfold lut_extend in E. binds E. apply Ok_inj in E. subst. apply set_tab_other. eapply Q; eassumption.
  - left. unfold lut_freeze in E. binds E. apply Ok_inj in E. subst. apply set_tab_other. eapply Q; eassumption.
  - left. unfold lut_deactivate in E. binds E. apply Ok_inj in E. subst. apply set_tab_other. eapply Q; eassumption.
  - left. unfold lut_close in E. binds E. apply Ok_inj in E. subst. apply set_tab_other. eapply Q; eassumption.
  - left. apply Ok_inj in E. subst. reflexivity.
Qed.

(** ** The invariant *)
Definition tab_ok (l : lstate) (t : table) : Prop :=
  lt_auth t = Some lut_authority /\ lt_active t = true /\ Z.of_nat (length (lt_entries t)) <= 256 /\
  (lt_entries t = [] \/ exists c xs, config_at (l_world l) pda_config c /\ xs <> [] /\ lt_entries t = flat_map (canonical c) xs).
Definition l_inv (l : lstate) : Prop :=
  (forall slot t, l_tabs l (own_tab slot) = Some t -> tab_ok l t) /\
  (forall r, st_accts (l_world l) pda_lut = Some (Acct PManager (DLut r)) -> exists slot t, lu_address r = own_tab slot /\ l_tabs l (own_tab slot) = Some t /\ lt_entries t <> []).

Lemma canonical_same c c' e : cfg_same c c' -> canonical c' e = canonical c e.
Proof. intros (E1 & E2 & E3 & E4 & E5 & E6). destruct e as [[b f] q]. unfold canonical. congruence. Qed.

Lemma config_same_step H s c s' cf : reachable H s -> step H s c = Ok s' -> config_at s pda_config cf -> exists cf', config_at s' pda_config cf' /\ cfg_same cf cf'.
Proof.
  intros Hr Hs E. destruct (config_step _ _ _ _ _ (reachable_inv _ _ Hr) Hs E) as (cf' & E' & Q). exists cf'. split; [exact E'|].
  destruct Q as [->|Q]; [repeat split|eapply cfg_change_same; eassumption].
Qed.
Lemma config_same_l H l c l' cf : l_reachable H l -> l_step H l c = Ok l' -> config_at (l_world l) pda_config cf ->
  exists cf', config_at (l_world l') pda_config cf' /\ cfg_same cf cf'.
Proof.
  intros Hr Hs E. destruct (l_world_step _ _ _ _ Hs) as [->|(c' & Ec)]; [exists cf; split; [exact E|repeat split]|].
  eapply config_same_step; [apply l_world_reachable; eassumption|eassumption|assumption].
Qed.
Lemma canonical_same_map c c' xs : cfg_same c c' -> flat_map (canonical c') xs = flat_map (canonical c) xs.
Proof. intros S. induction xs as [|e xs IH]; [reflexivity|]. cbn [flat_map]. rewrite IH, (canonical_same c c' e S). reflexivity. Qed.

Lemma tab_ok_kept H l c l' t : l_reachable H l -> l_step H l c = Ok l' -> tab_ok l t -> tab_ok l' t.
Proof.
  intros Hr Hs (T1 & T2 & T3 & T4). repeat (split; [assumption|]). destruct T4 as [T4|(cf & xs & Hc & Hn & T4)]; [now left|right].
  destruct (config_same_l _ _ _ _ _ Hr Hs Hc) as (cf' & Hc' & S). exists cf', xs. repeat (split; [assumption|]).
  rewrite T4. symmetry. now apply canonical_same_map.
Qed.

Lemma made_entries H l sg x slot l' c old : l_reachable H l -> l_made H l sg x slot l' c old ->
  config_at (l_world l) pda_config c /\ lut_entries x = canonical c (lx_bridge x, lx_fee_collector x, lx_sequence x).
Proof.
  intros Hr M. pose proof (reachable_inv _ _ (l_world_reachable _ _ Hr)) as Hi. pose proof (lm_config _ _ _ _ _ _ _ _ M) as Hc.
  pose proof (config_addr _ _ _ Hi Hc) as Ea. destruct (lm_orl _ _ _ _ _ _ _ _ M) as (r & Ho). destruct (inv_mgr _ _ _ Hi Ho) as (Eo & _).
  split; [unfold config_at; rewrite <- Ea; exact Hc|].
  unfold lut_entries, canonical. rewrite (lm_custody _ _ _ _ _ _ _ _ M), (lm_token_program _ _ _ _ _ _ _ _ M), (lm_mint _ _ _ _ _ _ _ _ M), Ea, Eo. reflexivity.
Qed.

Lemma made_ok H l c l' slot x cf old : l_reachable H l -> (forall slot t, l_tabs l (own_tab slot) = Some t -> tab_ok l t) -> l_step H l c = Ok l' ->
  l_made H l (l_signers c) x slot l' cf old ->
  tab_ok l' (Table (Some lut_authority) true (old ++ lut_entries x)) /\ exists cf' xs, config_at (l_world l') pda_config cf' /\
   old ++ lut_entries x = flat_map (canonical cf') (xs ++ [(lx_bridge x, lx_fee_collector x, lx_sequence x)]).
Proof.
  intros Hr It Hs M. destruct (made_entries _ _ _ _ _ _ _ _ Hr M) as (Hc & Ee).
  assert (Q : exists xs, old = flat_map (canonical cf) xs).
  { destruct (lm_old _ _ _ _ _ _ _ _ M) as [(_ & ->)|E0]; [exists []; reflexivity|].
    destruct (It _ _ E0) as (_ & _ & _ & [T|(cf2 & xs & Hc2 & _ & T)]); cbn [lt_entries] in T; [exists []; exact T|].
    exists xs. destruct (config_one _ _ _ _ _ _ (l_world_reachable _ _ Hr) Hc Hc2) as (_ & ->). exact T. }
  destruct Q as (xs & ->). destruct (config_same_l _ _ _ _ _ Hr Hs Hc) as (cf' & Hc' & S).
  assert (Q : flat_map (canonical cf) xs ++ lut_entries x = flat_map (canonical cf') (xs ++ [(lx_bridge x, lx_fee_collector x, lx_sequence x)])).
  { rewrite (canonical_same_map _ _ _ S), flat_map_app, Ee. cbn [flat_map]. now rewrite app_nil_r. }
  split; [|eauto]. repeat split.
  - cbn [lt_entries]. rewrite app_length. change (length (lut_entries x)) with 14%nat. pose proof (lm_room _ _ _ _ _ _ _ _ M). lia.
  - right. cbn [lt_entries]. eexists _, _. split; [exact Hc'|]. split; [|exact Q]. intros C. now apply app_eq_nil in C as (_ & C).
Qed.

Lemma record_step H s c s' : reachable H s -> step H s c = Ok s' ->
  st_accts s' pda_lut = st_accts s pda_lut \/ exists cfg orl a ok, ins c = IInitializeLut cfg orl a ok.
Proof.
  intros Hr Hs. destruct (step_change _ _ _ _ Hs pda_lut) as [Q|Q]; [now left|]. right.
  pose proof (step_reachable _ _ _ _ Hr Hs) as Hr'.
  assert (K : forall ac, st_accts s pda_lut = Some ac -> exists r, ac = Acct PManager (DLut r)).
  { intros ac E. exact (kind_at _ TLut _ _ _ _ (reachable_inv _ _ Hr) E). }
  assert (K' : forall ac, st_accts s' pda_lut = Some ac -> exists r, ac = Acct PManager (DLut r)).
  { intros ac E. exact (kind_at _ TLut _ _ _ _ (reachable_inv _ _ Hr') E). }
  remember (st_accts s pda_lut) as old eqn:Eo. remember (st_accts s' pda_lut) as new eqn:En. clear Eo En.
  destruct c as [sg i]. cbn [signers ins] in *. remember pda_lut as a eqn:Ea. clear Ea.
  inversion Q; subst; eauto 10; exfalso;
    first [destruct (K' _ eq_refl) as (r0 & Er); discriminate Er | destruct (K _ eq_refl) as (r0 & Er); discriminate Er].
Qed.

Lemma l_reach_ind H (P : lstate -> Prop) : (forall l, l_initial l -> P l) ->
  (forall l c l', l_reachable H l -> P l -> l_step H l c = Ok l' -> P l') -> forall l, l_reachable H l -> P l.
Proof.
  intros H0 Hs l (l0 & cs & Hi & R). induction R as [|cs l c l' R IH E]; [auto|]. eapply Hs; [|exact IH|exact E]. exists l0, cs. auto.
Qed.

Lemma l_record_step H l c l' : l_reachable H l -> l_step H l c = Ok l' ->
  st_accts (l_world l') pda_lut = st_accts (l_world l) pda_lut \/
  exists x slot cf old, l_ins c = LInit x slot /\ l_made H l (l_signers c) x slot l' cf old.
Proof.
  intros Hr Hs. pose proof (l_step_inv _ _ _ _ Hs) as (Hsg & Ex). destruct c as [sg i]. cbn [l_signers l_ins] in *.
  destruct i; cbn [l_exec] in Ex.
  - binds Ex. destruct (l_init_ok H _ _ _ _ _ Hsg Ex) as (cf & old & M). right. eauto 10.
  - left. assert (E' : exists s, step H (l_world l) (Call sg i) = Ok s /\ l' = LState s (l_tabs l) (l_recent l) /\ forall cfg orl a ok, i <> IInitializeLut cfg orl a ok).
    { destruct i; try discriminate; binds Ex; apply Ok_inj in Ex; subst; eexists; (split; [eassumption|]); (split; [reflexivity|discriminate]). }
    destruct E' as (s & Es & -> & N). destruct (record_step _ _ _ _ (l_world_reachable _ _ Hr) Es) as [Q|(cfg & orl & a & ok & Q)]; [exact Q|].
    exfalso. exact (N _ _ _ _ Q).
  - left. binds Ex. apply lut_create_ok in Ex as (_ & _ & ->). destruct (l_tabs _ _); reflexivity.
  - left. apply lut_extend_ok in Ex as (t & _ & _ & _ & _ & _ & _ & ->). reflexivity.
  - left. unfold lut_freeze in Ex. binds Ex. apply Ok_inj in Ex. subst. reflexivity.
  - left. unfold lut_deactivate in Ex. binds Ex. apply Ok_inj in Ex. subst. reflexivity.
  - left. unfold lut_close in Ex. binds Ex. apply Ok_inj in Ex. subst. reflexivity.
  - left. apply Ok_inj in Ex. subst. reflexivity.
Qed.

Lemma app_not_nil {A} (x y : list A) : y <> [] -> x ++ y <> [].
Proof. intros N C. now apply app_eq_nil in C as (_ & C). Qed.

Lemma l_inv_all H l : l_reachable H l -> l_inv l.
Proof.
  revert l. apply l_reach_ind.
  - intros l0 Hi. split.
    + intros slot t E. apply (li_tabs _ Hi) in E. subst t. repeat split; [cbn; lia|now left].
    + intros r E. exfalso. apply (ini_accts _ (li_world _ Hi)) in E. destruct E as (E & _). apply E. exact I.
  - intros l1 c l' Hr (It & Ir) Hs.
    assert (Oo : own_ok l1) by (intros slot t E; destruct (It _ _ E) as (? & ? & _); auto).
    split.
    + intros slot t E. destruct (tab_step _ _ _ _ slot Oo Hs) as [Q|[(_ & Q)|(x & cf & old & Ei & M)]].
      * rewrite Q in E. eapply tab_ok_kept; eauto.
      * rewrite Q in E. injection E as <-. repeat split; [cbn; lia|now left].
      * rewrite (lm_new _ _ _ _ _ _ _ _ M) in E. injection E as <-. eapply made_ok; eassumption.
    + intros r E. destruct (l_record_step _ _ _ _ Hr Hs) as [Q|(x & slot & cf & old & _ & M)].
      * rewrite Q in E. destruct (Ir _ E) as (slot & t & Ea & Et & Hn). exists slot.
        destruct (tab_step _ _ _ _ slot Oo Hs) as [W|[(W & _)|(x & cf & old & _ & M)]]; [rewrite W; eauto|congruence|].
        eexists. split; [exact Ea|]. split; [apply M|]. apply app_not_nil. discriminate.
      * rewrite (lm_record _ _ _ _ _ _ _ _ M) in E. injection E as <-. exists slot. eexists. split; [reflexivity|]. split; [apply M|]. apply app_not_nil. discriminate.
Qed.

(** C65 *)
Lemma own_tables H l slot t : l_reachable H l -> l_tabs l (lut_at lut_authority slot) = Some t ->
  lt_auth t = Some lut_authority /\ lt_active t = true /\ Z.of_nat (length (lt_entries t)) <= 256 /\
  (lt_entries t = [] \/ exists c xs, config_at (l_world l) pda_config c /\ xs <> [] /\ lt_entries t = flat_map (canonical c) xs).
Proof. intros Hr E. exact (proj1 (l_inv_all _ _ Hr) _ _ E). Qed.

Lemma record_points H l r : l_reachable H l -> st_accts (l_world l) pda_lut = Some (Acct PManager (DLut r)) ->
  exists slot t c xs, lu_address r = lut_at lut_authority slot /\ l_tabs l (lu_address r) = Some t /\ config_at (l_world l) pda_config c /\
    xs <> [] /\ lt_entries t = flat_map (canonical c) xs.
Proof.
  intros Hr E. destruct (l_inv_all _ _ Hr) as (It & Ir). destruct (Ir _ E) as (slot & t & Ea & Et & Hn).
  destruct (It _ _ Et) as (_ & _ & _ & [C|(c & xs & Hc & Hx & T)]); [contradiction|].
  exists slot, t, c, xs. rewrite Ea. auto.
Qed.

Lemma own_step H l c l' slot t : l_reachable H l -> l_step H l c = Ok l' -> l_tabs l (lut_at lut_authority slot) = Some t ->
  exists t', l_tabs l' (lut_at lut_authority slot) = Some t' /\ lt_auth t' = lt_auth t /\ lt_active t' = lt_active t /\
    (lt_entries t' = lt_entries t \/ exists x cf, l_ins c = LInit x slot /\ config_at (l_world l) pda_config cf /\
       lt_entries t' = lt_entries t ++ canonical cf (lx_bridge x, lx_fee_collector x, lx_sequence x)).
Proof.
  intros Hr Hs E. destruct (l_inv_all _ _ Hr) as (It & _).
  assert (Oo : own_ok l) by (intros s0 t0 E0; destruct (It _ _ E0) as (? & ? & _); auto).
  destruct (It _ _ E) as (A1 & A2 & _).
  destruct (tab_step _ _ _ _ slot Oo Hs) as [Q|[(Q & _)|(x & cf & old & Ei & M)]]; unfold own_tab in *.
  - rewrite Q. eauto 10.
  - congruence.
  - destruct (made_entries _ _ _ _ _ _ _ _ Hr M) as (Hc & Ee). eexists. split; [apply M|]. cbn [lt_auth lt_active lt_entries].
    split; [congruence|]. split; [congruence|]. right. exists x, cf. split; [exact Ei|]. split; [exact Hc|]. rewrite <- Ee. f_equal.
    destruct (lm_old _ _ _ _ _ _ _ _ M) as [(C & _)|C]; unfold own_tab in C; rewrite E in C; [discriminate|]. injection C as ->. reflexivity.
Qed.

Lemma own_grows H l0 cs l slot t : l_reachable H l0 -> l_run H l0 cs l -> l_tabs l0 (lut_at lut_authority slot) = Some t ->
  exists t' more, l_tabs l (lut_at lut_authority slot) = Some t' /\ lt_entries t' = lt_entries t ++ more.
Proof.
  intros Hr R E. induction R as [|cs l c l' R IH Hs]; [exists t, []; split; [exact E|now rewrite app_nil_r]|].
  destruct IH as (t1 & more & E1 & Ee).
  assert (Hr1 : l_reachable H l).
  { destruct Hr as (l00 & cs0 & Hi & R0). clear -Hi R0 R. exists l00. induction R as [|cs l c l' R IH Hs]; [eauto|].
    destruct IH as (cs1 & _ & R1). exists (c :: cs1). split; [exact Hi|]. econstructor; eassumption. }
  destruct (own_step _ _ _ _ _ _ Hr1 Hs E1) as (t2 & E2 & _ & _ & [Q|(x & cf & _ & _ & Q)]).
  - exists t2, more. split; [exact E2|]. congruence.
  - eexists t2, (more ++ _). split; [exact E2|]. rewrite Q, Ee, <- app_assoc. reflexivity.
Qed.

(** Anyone can make and record a table, with any three addresses in the unchecked places. *)
Lemma anyone_records H l c r payer b f q slot : l_reachable H l -> config_at (l_world l) pda_config c ->
  st_accts (l_world l) pda_outbox_rl = Some (Acct PManager (DOutboxRL r)) -> can_sign payer = true -> is_u64 slot -> l_recent l slot = true ->
  (forall t, l_tabs l (lut_at lut_authority slot) = Some t -> Z.of_nat (length (lt_entries t)) <= 242) ->
  let x := LutAccts payer pda_config (cf_custody c) (cf_token_program c) (cf_mint c) pda_outbox_rl b f q in
  exists l' t old, l_step H l (LCall [payer] (LInit x slot)) = Ok l' /\ recorded l' (lut_at lut_authority slot) t /\
    lt_entries t = old ++ canonical c (b, f, q).
Proof.
  intros Hr Hc Ho Hp Hslot Hrec Hroom x. pose proof (reachable_inv _ _ (l_world_reachable _ _ Hr)) as Hi.
  assert (Gc : get_config (l_world l) pda_config = Ok c) by (unfold get_config, get; rewrite Hc; reflexivity).
  assert (Go : get_outbox_rl (l_world l) pda_outbox_rl = Ok r) by (unfold get_outbox_rl, get; rewrite Ho; reflexivity).
  assert (Il : initialize_lut (l_world l) pda_config pda_outbox_rl (lut_at lut_authority slot) true =
               Ok (put pda_lut PManager (DLut (Lut 0 (lut_at lut_authority slot))) (l_world l))).
  { unfold initialize_lut. rewrite Gc, Go. cbn [bind]. destruct (st_accts (l_world l) pda_lut) as [ac|] eqn:F0.
    - destruct (kind_at _ TLut _ _ _ _ Hi F0) as (r0 & ->). unfold get. rewrite F0. reflexivity.
    - assert (Fr : free (l_world l) pda_lut = true).
      { unfold free, pda_lut. fold pda_lut. rewrite F0.
        destruct (st_toks (l_world l) pda_lut) eqn:Et; [exfalso; exact (proj1 (proj1 (inv_ledger _ Hi) _ _ Et) I)|].
        destruct (st_mints (l_world l) pda_lut) eqn:Em; [exfalso; exact (proj1 (proj2 (inv_ledger _ Hi) _ _ Em) I)|]. reflexivity. }
      rewrite Fr. reflexivity. }
  assert (Sg : signed [payer] payer = true) by (cbn [signed existsb]; now rewrite addr_eqb_refl).
  assert (Sa : signed [lut_authority; payer] lut_authority = true) by (cbn [signed existsb]; now rewrite addr_eqb_refl).
  assert (U : u64b slot = true) by (unfold u64b; ints; lia).
  assert (Ex : exists old, (l_tabs l (lut_at lut_authority slot) = None /\ old = [] \/ l_tabs l (lut_at lut_authority slot) = Some (Table (Some lut_authority) true old)) /\
    Z.of_nat (length old) <= 242).
  { destruct (l_tabs l (lut_at lut_authority slot)) as [t|] eqn:F0; [|exists []; split; [auto|cbn; lia]].
    destruct (own_tables _ _ _ _ Hr F0) as (A1 & A2 & _). exists (lt_entries t). split; [|auto]. right. destruct t as [au ac en]; cbn [lt_auth lt_active lt_entries] in *; congruence. }
  destruct Ex as (old & Ht & Hl).
  eexists. exists (Table (Some lut_authority) true (old ++ canonical c (b, f, q))), old. split; [|split; [|reflexivity]].
  - unfold l_step. cbn [l_signers l_ins forallb]. rewrite Hp. cbn [andb require bind l_exec]. rewrite U. cbn [require bind]. unfold l_initialize, x.
    cbn [lx_payer lx_config lx_custody lx_token_program lx_mint lx_outbox_rl]. rewrite Sg, Gc. cbn [require bind]. rewrite !addr_eqb_refl. cbn [require bind].
    rewrite Il. cbn [bind]. unfold lut_create. rewrite Sg. cbn [require bind l_recent l_tabs]. rewrite Hrec. cbn [require bind].
    instantiate (1 := set_tab (lut_at lut_authority slot) (Some (Table (Some lut_authority) true (old ++ canonical c (b, f, q))))
      (match l_tabs l (lut_at lut_authority slot) with Some _ => LState (put pda_lut PManager (DLut (Lut 0 (lut_at lut_authority slot))) (l_world l)) (l_tabs l) (l_recent l)
       | None => set_tab (lut_at lut_authority slot) (Some (Table (Some lut_authority) true [])) (LState (put pda_lut PManager (DLut (Lut 0 (lut_at lut_authority slot))) (l_world l)) (l_tabs l) (l_recent l)) end)).
    assert (Le : Z.of_nat (length old) + Z.of_nat 14 <=? MAX_ADDRESSES = true) by (unfold MAX_ADDRESSES; lia).
    unfold lut_extend, lut_mine. destruct Ht as [(Ht & ->)|Ht]; rewrite Ht; cbn [bind].
    + rewrite set_tab_same. cbn [ok_or bind]. rewrite Sa. cbn [require bind lt_auth lt_active lt_entries]. cbn [oaddr_eqb]. rewrite addr_eqb_refl. cbn [require bind lt_active].
      reflexivity.
    + cbn [l_tabs]. rewrite Ht. cbn [ok_or bind]. rewrite Sa. cbn [require bind lt_auth lt_active lt_entries]. cbn [oaddr_eqb]. rewrite addr_eqb_refl. cbn [require bind lt_active lt_entries lt_auth].
      change (length (lut_entries _)) with 14%nat. rewrite Le. reflexivity.
  - exists (Lut 0 (lut_at lut_authority slot)). split; [|split; [reflexivity|apply set_tab_same]].
    destruct (l_tabs l (lut_at lut_authority slot)); cbn [l_world set_tab]; apply get_put_same.
Qed.

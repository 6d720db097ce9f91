(** * The supply of a mint is the sum of its accounts (C77). *)
From Verif Require Export SpecSupply DeliverFacts.
Local Open Scope Z_scope.

(** ** Sums over lists without repetition *)
Lemma sum_of_change {A} (f g : A -> Z) (a : A) l : NoDup l -> In a l -> (forall x, x <> a -> g x = f x) -> sum_of g l = sum_of f l + (g a - f a).
Proof.
  induction l as [|x l IH]; intros ND Hin Eq; [contradiction|]. apply NoDup_cons_iff in ND. destruct ND as (N & ND). rewrite !sum_of_cons. destruct Hin as [->|Hin].
  - rewrite (sum_of_ext g f l); [lia|]. intros y Hy. apply Eq. congruence.
  - rewrite (IH ND Hin Eq). rewrite (Eq x) by congruence. lia.
Qed.
Lemma sum_of_sub {A} (dec : forall x y : A, {x = y} + {x <> y}) (f : A -> Z) : forall l l', NoDup l -> (forall x, In x l -> f x = 0 \/ In x l') -> (forall x, In x l' -> 0 <= f x) -> sum_of f l <= sum_of f l'.
Proof.
  induction l as [|x l IH]; intros l' ND Sub N; [apply sum_of_nonneg, N|]. apply NoDup_cons_iff in ND. destruct ND as (Nx & ND). rewrite sum_of_cons.
  destruct (Sub x (or_introl eq_refl)) as [Z|Hin].
  - rewrite Z. apply IH; [exact ND|intros y Hy; apply Sub; now right|exact N].
  - apply in_split in Hin. destruct Hin as (l1 & l2 & ->).
    assert (E : sum_of f (l1 ++ x :: l2) = f x + sum_of f (l1 ++ l2)) by (rewrite !sum_of_app, sum_of_cons; lia). rewrite E.
    assert (sum_of f l <= sum_of f (l1 ++ l2)); [|lia]. apply IH; [exact ND| |].
    + intros y Hy. destruct (Sub y (or_intror Hy)) as [Z|Hin]; [now left|right]. apply in_app_or in Hin. apply in_or_app. destruct Hin as [Q|[->|Q]]; auto. contradiction.
    + intros y Hy. apply N. apply in_app_or in Hy. apply in_or_app. destruct Hy; [now left|right; now right].
Qed.

(** ** Updates *)
Section Updates.
Context {s s' : state}.
Definition linked (s : state) : Prop := forall a t, st_toks s a = Some t -> exists m, st_mints s (tk_mint t) = Some m.

Lemma acc_same : (forall b, st_toks s' b = st_toks s b) -> (forall b, st_mints s' b = st_mints s b) -> accounted s /\ linked s -> accounted s' /\ linked s'.
Proof.
  intros ET EM (A & L). split.
  - intros mnt m Em. rewrite EM in Em. destruct (A _ _ Em) as (l & (ND & C) & E). exists l. split; [split; [exact ND|]|].
    + intros a t Et. rewrite ET in Et. apply C, Et.
    + rewrite <- E. f_equal. apply sum_of_ext. intros x _. unfold holding. now rewrite ET.
  - intros a t Et. rewrite ET in Et. rewrite EM. eauto.
Qed.
(** One account changes, and its mint. *)
Lemma acc_tok a t t' m m' : st_toks s a = Some t -> tk_mint t' = tk_mint t -> st_mints s (tk_mint t) = Some m ->
  (forall b, st_toks s' b = if addr_eq_dec b a then Some t' else st_toks s b) -> (forall b, st_mints s' b = if addr_eq_dec b (tk_mint t) then Some m' else st_mints s b) ->
  mt_supply m' - mt_withheld m' - (mt_supply m - mt_withheld m) = tk_amount t' - tk_amount t -> accounted s /\ linked s -> accounted s' /\ linked s'.
Proof.
  intros Et Em' Em ET EM D (A & L).
  assert (Hh : forall mnt, holding s' mnt a - holding s mnt a = if addr_eq_dec (tk_mint t) mnt then tk_amount t' - tk_amount t else 0).
  { intros mnt. unfold holding. rewrite ET, Et. destruct (addr_eq_dec a a) as [_|C]; [|congruence]. rewrite Em'. destruct (addr_eq_dec (tk_mint t) mnt); lia. }
  assert (Ho : forall mnt b, b <> a -> holding s' mnt b = holding s mnt b).
  { intros mnt b Hb. unfold holding. rewrite ET. destruct (addr_eq_dec b a); [contradiction|reflexivity]. }
  split.
  - intros mnt q Eq. rewrite EM in Eq.
    assert (Cv : forall l, all_holders s mnt l -> all_holders s' mnt l).
    { intros l (ND & C). split; [exact ND|]. intros b u Eu Eb. rewrite ET in Eu. destruct (addr_eq_dec b a) as [->|_]; [|eapply C; eassumption].
      apply Some_inj in Eu. subst u. apply (C a t Et). congruence. }
    destruct (addr_eq_dec mnt (tk_mint t)) as [->|Hn].
    + apply Some_inj in Eq. subst q. destruct (A _ _ Em) as (l & AH & E). exists l. split; [exact (Cv l AH)|].
      rewrite (sum_of_change (holding s (tk_mint t)) (holding s' (tk_mint t)) a l (proj1 AH) (proj2 AH _ _ Et eq_refl) (fun x q => Ho _ x q)).
      specialize (Hh (tk_mint t)). destruct (addr_eq_dec (tk_mint t) (tk_mint t)); [|congruence]. lia.
    + destruct (A _ _ Eq) as (l & AH & E). exists l. split; [exact (Cv l AH)|]. rewrite <- E. f_equal. apply sum_of_ext. intros x _.
      destruct (addr_eq_dec x a) as [->|Hx]; [|now apply Ho]. specialize (Hh mnt). destruct (addr_eq_dec (tk_mint t) mnt); [congruence|lia].
  - intros b u Eu. rewrite ET in Eu. rewrite EM. destruct (addr_eq_dec b a) as [->|_].
    + apply Some_inj in Eu. subst u. rewrite Em'. destruct (addr_eq_dec (tk_mint t) (tk_mint t)); [eauto|congruence].
    + destruct (L _ _ Eu) as (q & Eq). destruct (addr_eq_dec (tk_mint u) (tk_mint t)); eauto.
Qed.
(** One mint changes, not its totals. *)
Lemma acc_mint mnt m m' : st_mints s mnt = Some m -> (forall b, st_toks s' b = st_toks s b) -> (forall b, st_mints s' b = if addr_eq_dec b mnt then Some m' else st_mints s b) ->
  mt_supply m' - mt_withheld m' = mt_supply m - mt_withheld m -> accounted s /\ linked s -> accounted s' /\ linked s'.
Proof.
  intros Em ET EM D (A & L).
  assert (Hh : forall q b, holding s' q b = holding s q b) by (intros q b; unfold holding; now rewrite ET).
  split.
  - intros q mq Eq. rewrite EM in Eq. assert (X : exists mq0, st_mints s q = Some mq0 /\ mt_supply mq - mt_withheld mq = mt_supply mq0 - mt_withheld mq0).
    { destruct (addr_eq_dec q mnt) as [->|_]; [exists m; split; [exact Em|]; apply Some_inj in Eq; now subst|exists mq; auto]. }
    destruct X as (mq0 & Eq0 & Dq). destruct (A _ _ Eq0) as (l & (ND & C) & E). exists l. split; [split; [exact ND|]|].
    + intros a t Et. rewrite ET in Et. apply C, Et.
    + rewrite (sum_of_ext (holding s' q) (holding s q)) by (intros; apply Hh). lia.
  - intros a t Et. rewrite ET in Et. rewrite EM. destruct (L _ _ Et) as (q & Eq). destruct (addr_eq_dec (tk_mint t) mnt); eauto.
Qed.
(** A new empty account. *)
Lemma acc_init a t m : st_toks s a = None -> st_mints s (tk_mint t) = Some m -> tk_amount t = 0 ->
  (forall b, st_toks s' b = if addr_eq_dec b a then Some t else st_toks s b) -> (forall b, st_mints s' b = st_mints s b) -> accounted s /\ linked s -> accounted s' /\ linked s'.
Proof.
  intros En Em E0 ET EM (A & L).
  assert (Hh : forall q b, holding s' q b = holding s q b).
  { intros q b. unfold holding. rewrite ET. destruct (addr_eq_dec b a) as [->|_]; [|reflexivity]. rewrite En, E0. destruct (addr_eq_dec _ _); reflexivity. }
  split.
  - intros q mq Eq. rewrite EM in Eq. destruct (A _ _ Eq) as (l & (ND & C) & E).
    assert (X : exists l', NoDup l' /\ In a l' /\ (forall b, In b l -> In b l') /\ sum_of (holding s' q) l' = sum_of (holding s q) l).
    { destruct (in_dec addr_eq_dec a l) as [Hin|Hn].
      - exists l. repeat (split; [assumption|]). split; [auto|]. apply sum_of_ext. intros; apply Hh.
      - exists (a :: l). split; [now constructor|]. split; [now left|]. split; [now right|]. rewrite sum_of_cons, Hh.
        rewrite (sum_of_ext (holding s' q) (holding s q)) by (intros; apply Hh). unfold holding at 1. rewrite En. lia. }
    destruct X as (l' & ND' & Ha & Sub & Es). exists l'. split; [split; [exact ND'|]|rewrite Es; exact E].
    intros b u Eu Eb. rewrite ET in Eu. destruct (addr_eq_dec b a) as [->|_]; [exact Ha|]. apply Sub. eapply C; eassumption.
  - intros b u Eu. rewrite ET in Eu. rewrite EM. destruct (addr_eq_dec b a) as [->|_]; [apply Some_inj in Eu; subst u; eauto|eauto].
Qed.
(** An empty account is closed. *)
Lemma acc_close a t : st_toks s a = Some t -> tk_amount t = 0 ->
  (forall b, st_toks s' b = if addr_eq_dec b a then None else st_toks s b) -> (forall b, st_mints s' b = st_mints s b) -> accounted s /\ linked s -> accounted s' /\ linked s'.
Proof.
  intros Et E0 ET EM (A & L).
  assert (Hh : forall q b, holding s' q b = holding s q b).
  { intros q b. unfold holding. rewrite ET. destruct (addr_eq_dec b a) as [->|_]; [|reflexivity]. rewrite Et, E0. destruct (addr_eq_dec _ _); reflexivity. }
  split.
  - intros q mq Eq. rewrite EM in Eq. destruct (A _ _ Eq) as (l & (ND & C) & E). exists l. split; [split; [exact ND|]|].
    + intros b u Eu. rewrite ET in Eu. destruct (addr_eq_dec b a); [discriminate|]. apply C, Eu.
    + rewrite <- E. f_equal. apply sum_of_ext. intros; apply Hh.
  - intros b u Eu. rewrite ET in Eu. rewrite EM. destruct (addr_eq_dec b a); [discriminate|eauto].
Qed.
(** A new mint. *)
Lemma acc_new a m : st_mints s a = None -> mt_supply m = 0 -> mt_withheld m = 0 -> (forall b, st_toks s' b = st_toks s b) ->
  (forall b, st_mints s' b = if addr_eq_dec b a then Some m else st_mints s b) -> accounted s /\ linked s -> accounted s' /\ linked s'.
Proof.
  intros En E0 E1 ET EM (A & L). split.
  - intros q mq Eq. rewrite EM in Eq. destruct (addr_eq_dec q a) as [->|_].
    + apply Some_inj in Eq. subst mq. exists []. split; [split; [constructor|]|cbn; lia]. intros b u Eu Eb. rewrite ET in Eu. destruct (L _ _ Eu) as (mm & Em). congruence.
    + destruct (A _ _ Eq) as (l & (ND & C) & E). exists l. split; [split; [exact ND|]|].
      * intros b u Eu. rewrite ET in Eu. apply C, Eu.
      * rewrite <- E. f_equal. apply sum_of_ext. intros b _. unfold holding. now rewrite ET.
  - intros b u Eu. rewrite ET in Eu. rewrite EM. destruct (L _ _ Eu) as (q & Eq). destruct (addr_eq_dec (tk_mint u) a); eauto.
Qed.
End Updates.

(** ** Every token operation *)
Lemma acc_op s o s' : run_op s o = Ok s' -> accounted s /\ linked s -> accounted s' /\ linked s'.
Proof.
  intros E AL. destruct o; cbn [run_op] in E.
  - apply tok_transfer_ok in E. destruct E as (t & d & m & t' & Et & Ed & Em & _ & _ & _ & Mt & Md & Le & Sp & _ & _ & [(_ & ->)|(Hn & _ & _ & EM & ET)]); [exact AL|].
    apply spend_ok in Sp. destruct Sp as (_ & Mt' & _ & At' & _).
    set (s1 := put_mint mnt (with_withheld m (mt_withheld m + x)) (put_tok src (with_amount t' (tk_amount t - x)) s)).
    assert (A1 : accounted s1 /\ linked s1).
    { apply (@acc_tok s s1 src t (with_amount t' (tk_amount t - x)) m (with_withheld m (mt_withheld m + x))); try assumption.
      - congruence.
      - intros b. apply upd_eq.
      - rewrite Mt. intros b. apply upd_eq.
      - cbn. lia. }
    apply (@acc_tok s1 s' dst d (with_amount d (tk_amount d + (x - fee_of m x))) (with_withheld m (mt_withheld m + x)) (with_withheld m (mt_withheld m + fee_of m x))); try assumption.
    + cbn. rewrite upd_other by congruence. exact Ed.
    + reflexivity.
    + rewrite Md. cbn. apply upd_same.
    + intros b. rewrite ET. cbn. rewrite !upd_eq. reflexivity.
    + rewrite Md. intros b. rewrite EM. cbn. rewrite !upd_eq. destruct (addr_eq_dec b mnt); reflexivity.
    + cbn. lia.
  - apply tok_mint_to_ok in E. destruct E as (d & m & Ed & Em & _ & _ & Md & _ & _ & _ & _ & ET & EM).
    apply (@acc_tok s s' dst d (with_amount d (tk_amount d + x)) m (with_supply m (mt_supply m + x))); try assumption; try reflexivity; try congruence.
    + intros b. rewrite ET. apply upd_eq.
    + rewrite Md. intros b. rewrite EM. apply upd_eq.
    + cbn. lia.
  - apply tok_burn_ok in E. destruct E as (t & m & t' & Et & Em & _ & _ & Mt & Le & Sp & _ & _ & ET & EM). apply spend_ok in Sp. destruct Sp as (_ & Mt' & _ & At' & _).
    apply (@acc_tok s s' src t (with_amount t' (tk_amount t - x)) m (with_supply m (mt_supply m - x))); try assumption; try congruence.
    + intros b. rewrite ET. apply upd_eq.
    + rewrite Mt. intros b. rewrite EM. apply upd_eq.
    + cbn. lia.
  - apply tok_init_ok in E. destruct E as (m & Em & _ & _ & En & _ & ->).
    eapply (@acc_init s _ a (Tok p mnt owner 0 None 0) m); try assumption; try reflexivity. intros b. apply upd_eq.
  - binds E. gets. bools. subst. pose proof AL as (_ & L). assert (Hm : exists m, st_mints s (tk_mint v) = Some m) by (eapply L; eassumption). destruct Hm as (m & Em).
    eapply (@acc_tok s _ a v (set_delegate v (Some del) x) m m); try eassumption; try reflexivity; [intros b; apply upd_eq| |cbn; lia].
    intros b. cbn. destruct (addr_eq_dec b (tk_mint v)) as [->|_]; [exact Em|reflexivity].
  - binds E. gets. bools. subst. pose proof AL as (_ & L). assert (Hm : exists m, st_mints s (tk_mint v) = Some m) by (eapply L; eassumption). destruct Hm as (m & Em).
    eapply (@acc_tok s _ a v (set_delegate v None 0) m m); try eassumption; try reflexivity; [intros b; apply upd_eq| |cbn; lia].
    intros b. cbn. destruct (addr_eq_dec b (tk_mint v)) as [->|_]; [exact Em|reflexivity].
  - binds E. gets. bools. subst. eapply (@acc_mint s _ mnt v (Mint (mt_prog v) (mt_decimals v) (mt_supply v) new (mt_bps v) (mt_maxfee v) (mt_withheld v))); try eassumption; try reflexivity. intros b; apply upd_eq.
  - binds E. gets. bools. subst. pose proof AL as (_ & L). assert (Hm : exists m, st_mints s (tk_mint v) = Some m) by (eapply L; eassumption). destruct Hm as (m & Em).
    eapply (@acc_tok s _ a v (Tok (tk_prog v) (tk_mint v) new (tk_amount v) None 0) m m); try eassumption; try reflexivity; [intros b; apply upd_eq| |cbn; lia].
    intros b. cbn. destruct (addr_eq_dec b (tk_mint v)) as [->|_]; [exact Em|reflexivity].
  - binds E. gets. bools. subst. eapply (@acc_close s _ a v); [eassumption|lia|intros b; apply upd_eq|reflexivity|exact AL].
  - binds E. bools. frees. subst. eapply (@acc_new s _ a (Mint p dec 0 auth 0 0 0)); try eassumption; try reflexivity. intros b; apply upd_eq.
  - binds E. gets. bools. subst. eapply (@acc_mint s _ mnt v (Mint (mt_prog v) (mt_decimals v) (mt_supply v) (mt_auth v) bps mx (mt_withheld v))); try eassumption; try reflexivity. intros b; apply upd_eq.
  - binds E. gets. bools. subst.
    eapply (@acc_tok s _ dst v0 (with_amount v0 (tk_amount v0 + x)) v (with_withheld v (mt_withheld v - x))); try eassumption; try reflexivity; [intros b; apply upd_eq|intros b; apply upd_eq|cbn; ilia].
Qed.
Lemma acc_ops os : forall s s', run_ops s os = Ok s' -> accounted s /\ linked s -> accounted s' /\ linked s'.
Proof.
  induction os as [|o r IH]; intros s s' E AL; cbn [run_ops] in E; [apply Ok_inj in E; now subst|]. binds E. eapply IH; [exact E|]. eapply acc_op; eassumption.
Qed.
Lemma acc_step H s c s' : reachable H s -> step H s c = Ok s' -> accounted s -> accounted s'.
Proof.
  intros Hr E A. destruct (step_ops _ _ _ _ E) as (os & s1 & R & (T & M) & _).
  assert (L : linked s). { intros a t Et. destruct (proj1 (inv_ledger _ (reachable_inv _ _ Hr)) _ _ Et) as (_ & _ & _ & _ & (m & Em & _) & _). eauto. }
  destruct (acc_ops _ _ _ R (conj A L)) as (A1 & L1). apply (@acc_same s1 s'); [intros; now rewrite T|intros; now rewrite M|auto].
Qed.
Lemma acc_run H s tr s' : reachable H s -> run H s tr s' -> accounted s -> accounted s'.
Proof. intros Hr R A. induction R as [|tr s1 c s2 R IH E]; [exact A|]. eapply acc_step; [|exact E|exact IH]. eapply run_reachable; eassumption. Qed.

(** ** What follows *)
Lemma holding_nonneg s mnt a : ledger_ok s -> 0 <= holding s mnt a.
Proof.
  intros (L & _). unfold holding. destruct (st_toks s a) as [t|] eqn:E; [|lia]. destruct (addr_eq_dec _ _); [|lia]. destruct (L _ _ E) as (_ & _ & W & _). apply W.
Qed.
Lemma shares H s mnt m l : reachable H s -> accounted s -> st_mints s mnt = Some m -> NoDup l -> sum_of (holding s mnt) l + mt_withheld m <= mt_supply m.
Proof.
  intros Hr A Em ND. destruct (A _ _ Em) as (l' & (_ & C) & <-). apply Z.add_le_mono_r. apply (sum_of_sub addr_eq_dec); [exact ND| |].
  - intros a _. unfold holding. destruct (st_toks s a) as [t|] eqn:E; [|now left]. destruct (addr_eq_dec (tk_mint t) mnt); [right; eauto|now left].
  - intros a _. apply holding_nonneg, (inv_ledger _ (reachable_inv _ _ Hr)).
Qed.
Lemma all_shares H s mnt m l : reachable H s -> accounted s -> st_mints s mnt = Some m -> all_holders s mnt l -> sum_of (holding s mnt) l + mt_withheld m = mt_supply m.
Proof.
  intros Hr A Em (ND & C). apply Z.le_antisymm; [eapply shares; eassumption|]. destruct (A _ _ Em) as (l' & (ND' & _) & <-). apply Z.add_le_mono_r.
  apply (sum_of_sub addr_eq_dec); [exact ND'| |].
  - intros a _. unfold holding. destruct (st_toks s a) as [t|] eqn:E; [|now left]. destruct (addr_eq_dec (tk_mint t) mnt); [right; eauto|now left].
  - intros a _. apply holding_nonneg, (inv_ledger _ (reachable_inv _ _ Hr)).
Qed.

Lemma afford H s c m who d cu x : reachable H s -> accounted s -> config_at s pda_config c -> st_mints s (cf_mint c) = Some m ->
  st_toks s (ata (mt_prog m) who (cf_mint c)) = Some d -> who <> token_authority -> st_toks s (cf_custody c) = Some cu -> 0 <= x ->
  funds c m cu x -> affordable c m d cu x.
Proof.
  intros Hr A Hc Em Ed Hw Ecu Hx F. pose proof (reachable_inv _ _ Hr) as Hi.
  destruct (inv_config _ Hi _ Hc) as [(tp & m' & t & Htp & _ & Ecus & Em' & Epr & _ & _) _ _ _ _ _ _]. assert (m' = m) by congruence. subst m'.
  pose proof (proj2 (inv_ledger _ Hi) _ _ Em) as (_ & Ptp & _ & Ws & Wb & Wx & Ww).
  pose proof (proj1 (inv_ledger _ Hi) _ _ Ed) as (_ & _ & Wd & _ & _ & Wat & _). pose proof (Wat _ _ _ Ptp eq_refl) as (Md & _).
  pose proof (proj1 (inv_ledger _ Hi) _ _ Ecu) as (_ & _ & Wc & _ & _ & Wac & _). pose proof (Wac _ _ _ Htp Ecus) as (Mc & _).
  assert (Hne : ata (mt_prog m) who (cf_mint c) <> cf_custody c) by (rewrite Ecus; intros C; unfold ata in C; inversion C; contradiction).
  assert (ND : NoDup [ata (mt_prog m) who (cf_mint c); cf_custody c]) by (constructor; [intros [C|[]]; congruence|constructor; [intros []|constructor]]).
  pose proof (shares _ _ _ _ _ Hr A Em ND) as Sh. rewrite !sum_of_cons in Sh. unfold holding in Sh. rewrite Ed, Ecu, Md, Mc in Sh.
  destruct (addr_eq_dec (cf_mint c) (cf_mint c)) as [_|C]; [|congruence]. cbn [sum_of fold_right] in Sh.
  assert (Fe : 0 <= fee_of m x <= x) by (apply fee_le; [assumption|assumption|exact (proj1 Wx)]).
  unfold affordable, funds in *. destruct (cf_mode c); repeat split; ilia.
Qed.

(** ** Networks *)
Lemma net_accounted H ids n0 h n k : net_initial ids n0 -> (forall i, In i ids -> accounted (n0 i)) -> net_run H ids n0 h n -> In k ids -> accounted (n k).
Proof.
  intros Hini A R Hk. eapply acc_run; [apply initial_reachable, (ni_nodes _ _ Hini _ Hk)|exact (net_node _ _ _ _ _ R k)|exact (A k Hk)].
Qed.
Lemma local_nonneg H s a o c m : reachable H s -> outbox_at s a o -> 0 <= local_amount m (tm_msg (announcement c a o)).
Proof.
  intros Hr Ho. destruct (inv_mgr _ _ _ (reachable_inv _ _ Hr) Ho) as (_ & Ua & _). unfold local_amount, convert. cbn [announcement tm_msg nm_amount].
  destruct (mt_decimals m <=? ta_decimals (ob_amount o)) eqn:E; bools.
  - apply Z.div_pos; [apply Ua|apply Z.pow_pos_nonneg; lia].
  - apply Z.mul_nonneg_nonneg; [apply Ua|apply Z.pow_nonneg; lia].
Qed.

(** On a burning chain whose token has no more decimals than the hub's, supply and an unpaid transfer fit 64 bits together. *)
Lemma outward_room H l bs n0 h n K cf dec b j k a o m : hub H l bs n0 h n K cf dec b -> In j (l :: bs) -> In k bs -> dec k <= dec l ->
  outbox_at (n j) a o -> ob_chain o = k -> st_mints (n k) (cf_mint (cf k)) = Some m ->
  released (n k) (item_of H j (tm_msg (announcement (cf j) a o))) = false ->
  mt_supply m + local_amount m (tm_msg (announcement (cf j) a o)) <= u64_max.
Proof.
  intros [ND Hini _ R Hm Hl Hb] Hj Hk Hd Ho Hch Em Hrel. pose proof (hub_cover _ _ _ _ _ _ _ _ _ _ ND Hini R Hm Hl Hb) as C.
  assert (Hdec : decs (l :: bs) n K dec) by (apply (hub_decs _ _ _ _ cf); intros i Hi; destruct (Hm i Hi) as (? & ? & _); auto).
  destruct (Hm j Hj) as ((Hcj & mj & Emj & _) & _). destruct (Hm l (or_introl eq_refl)) as ((Hcl & ml & Eml & Edl) & LeKl & _).
  destruct (Hm k (or_intror Hk)) as ((Hck & mk & Emk & Edk) & LeKk & _). assert (mk = m) by congruence. subst mk.
  pose proof (mint_dec _ _ _ (reachable_inv _ _ (net_reach Hini _ _ _ R (or_intror Hk))) Em) as Ud.
  set (x := local_amount m (tm_msg (announcement (cf j) a o))).
  assert (Fl : worth K (dec k) x <= in_flight H (l :: bs) K dec n h).
  { eapply flight_member; [exact Hini|exact R|exact Hj|now right|exact Hdec|exact Hcj|exact Emj|exact Edk|ilia|exact Ho|exact Hch|exact Hrel]. }
  assert (Su : worth K (dec k) (supply_of (n k) (cf_mint (cf k))) <= sum_of (fun i => worth K (dec i) (supply_of (n i) (cf_mint (cf i)))) bs).
  { apply (sum_of_member (fun i => worth K (dec i) (supply_of (n i) (cf_mint (cf i))))); [|exact Hk]. intros i Hi. apply worth_nonneg. eapply supply_nonneg, (net_reach Hini _ _ _ R). now right. }
  unfold supply_of in Su at 1. rewrite Em in Su.
  assert (W : worth K (dec k) (mt_supply m + x) <= worth K (dec l) (balance (n l) (cf_custody (cf l)))) by (unfold worth in *; lia).
  assert (Bl : 0 <= balance (n l) (cf_custody (cf l)) <= u64_max).
  { pose proof (net_reach Hini _ _ _ R (or_introl eq_refl)) as Rl. split; [eapply balance_nonneg, Rl|]. unfold balance. destruct (st_toks (n l) (cf_custody (cf l))) as [t|] eqn:E; [|ilia].
    pose proof (proj1 (inv_ledger _ (reachable_inv _ _ Rl)) _ _ E) as (_ & _ & Wt & _). apply Wt. }
  assert (P : worth K (dec l) (balance (n l) (cf_custody (cf l))) <= worth K (dec k) (balance (n l) (cf_custody (cf l)))).
  { unfold worth. apply Z.mul_le_mono_nonneg_l; [lia|]. apply Z.pow_le_mono_r; lia. }
  assert (W' : worth K (dec k) (mt_supply m + x) <= worth K (dec k) (balance (n l) (cf_custody (cf l)))) by lia.
  unfold worth in W'. apply Z.mul_le_mono_pos_r in W'; [lia|]. apply Z.pow_pos_nonneg; lia.
Qed.

(** Delivery on accounted ledgers. *)
Lemma delivered_funds H ids n0 h n j k p a v ci o ri c rt pe xp m irl orl d cu : net_initial ids n0 -> (forall i, In i ids -> accounted (n0 i)) -> net_run H ids n0 h n ->
  In j ids -> In k ids -> j <> k -> is_ntt_prog p = true ->
  publishable (n j) pda_config a (pda_reg (AProg p)) p ci o ri -> ob_chain o = k -> ob_manager o = AProg PManager ->
  let tm := announcement ci a o in let x := local_amount m (tm_msg tm) in
  let t := Z.max (st_now (n j)) (ob_release o) in let t' := let_go irl (st_now (n k)) x in
  expecting H (n k) p j tm v c rt pe xp m irl orl d cu -> funds c m cu x ->
  exists h' n', net_run H ids n0 (h' ++ h) n' /\ calls_in h' = route H j k p a v tm t t' (cf_mode c) (mt_prog m) /\
    released (n' k) (item_of H j (tm_msg tm)) = true /\
    credited_to (n k) (n' k) c m (ata (mt_prog m) (ob_recipient o) (cf_mint c)) d cu x.
Proof.
  intros Hini A R Hj Hk Hjk Hp Pu Hch Hmgr tm x t t' Ex F.
  assert (Af : affordable c m d cu x).
  { eapply (afford H (n k)); [exact (net_reach Hini _ _ _ R Hk)|exact (net_accounted _ _ _ _ _ _ Hini A R Hk)|apply Ex|apply Ex|apply Ex|apply Ex|apply Ex| |exact F].
    eapply local_nonneg; [exact (net_reach Hini _ _ _ R Hj)|apply Pu]. }
  destruct (delivered H ids n0 h n j k p a v ci o ri c rt pe xp m irl orl d cu Hini R Hj Hk Hjk Hp Pu Hch Hmgr Ex Af) as (h' & n' & Q1 & Q2 & Q3 & Q4 & _).
  exists h', n'. auto.
Qed.

Lemma hub_delivers H l bs n0 h n K cf dec b j k p a v o ri rt pe xp m irl orl d cu : hub H l bs n0 h n K cf dec b ->
  In j (l :: bs) -> In k (l :: bs) -> j <> k -> dec k <= dec l -> is_ntt_prog p = true ->
  publishable (n j) pda_config a (pda_reg (AProg p)) p (cf j) o ri -> ob_chain o = k -> ob_manager o = AProg PManager ->
  let tm := announcement (cf j) a o in let x := local_amount m (tm_msg tm) in
  let t := Z.max (st_now (n j)) (ob_release o) in let t' := let_go irl (st_now (n k)) x in
  expecting H (n k) p j tm v (cf k) rt pe xp m irl orl d cu ->
  exists h' n', net_run H (l :: bs) n0 (h' ++ h) n' /\
    calls_in h' = route H j k p a v tm t t' (cf_mode (cf k)) (mt_prog m) /\
    released (n' k) (item_of H j (tm_msg tm)) = true /\
    credited_to (n k) (n' k) (cf k) m (ata (mt_prog m) (ob_recipient o) (cf_mint (cf k))) d cu x.
Proof.
  intros Hub Hj Hk Hjk Hd Hp Pu Hch Hmgr tm x t t' Ex. pose proof Hub as [ND Hini A R Hm Hl Hb].
  pose proof (new_unreleased _ _ (ex_new _ _ _ _ _ _ _ _ _ _ _ _ _ _ _ Ex)) as Nr. pose proof (ex_mint _ _ _ _ _ _ _ _ _ _ _ _ _ _ _ Ex) as Em.
  assert (F : funds (cf k) m cu x).
  { unfold funds. destruct Hk as [<-|Hk].
    - rewrite Hl. pose proof (funded _ _ _ _ _ _ _ _ _ _ _ _ _ _ ND Hini R Hm Hl Hb Hj (pu_item _ _ _ _ _ _ _ _ Pu) Hch Em Nr) as F.
      unfold balance in F. rewrite (ex_custody _ _ _ _ _ _ _ _ _ _ _ _ _ _ _ Ex) in F. exact F.
    - rewrite (proj1 (Hb k Hk)). exact (outward_room _ _ _ _ _ _ _ _ _ _ _ _ _ _ _ Hub Hj Hk Hd (pu_item _ _ _ _ _ _ _ _ Pu) Hch Em Nr). }
  destruct (delivered_funds H (l :: bs) n0 h n j k p a v (cf j) o ri (cf k) rt pe xp m irl orl d cu Hini A R Hj Hk Hjk Hp Pu Hch Hmgr Ex F) as (h' & n' & R' & Q2 & Q3 & Q4).
  exists h', n'. auto.
Qed.

Lemma sum_of_mono {A} (f g : A -> Z) l : (forall x, In x l -> f x <= g x) -> sum_of f l <= sum_of g l.
Proof. induction l as [|x l IH]; intros Q; [cbn; lia|]. rewrite !sum_of_cons. pose proof (Q x (or_introl eq_refl)). assert (forall y, In y l -> f y <= g y) by (intros; apply Q; now right). specialize (IH H0). lia. Qed.
(** Everything anybody holds on the burning chains, the fees withheld there and everything in flight, is covered by custody. *)
Lemma hub_covered H l bs n0 h n K cf dec b who : hub H l bs n0 h n K cf dec b -> (forall k, In k bs -> NoDup (who k)) ->
  sum_of (fun k => worth K (dec k) (sum_of (holding (n k) (cf_mint (cf k))) (who k) + withheld_at (n k) (cf_mint (cf k)))) bs + in_flight H (l :: bs) K dec n h <= worth K (dec l) (balance (n l) (cf_custody (cf l))).
Proof.
  intros [ND Hini A R Hm Hl Hb] Hw. etransitivity; [|exact (hub_cover _ _ _ _ _ _ _ _ _ _ ND Hini R Hm Hl Hb)]. apply Z.add_le_mono_r.
  apply sum_of_mono. intros k Hk. apply worth_mono. destruct (Hm k (or_intror Hk)) as ((_ & m & Em & _) & _).
  unfold withheld_at, supply_of. rewrite Em. eapply shares; [exact (net_reach Hini _ _ _ R (or_intror Hk))|exact (net_accounted _ _ _ _ _ _ Hini A R (or_intror Hk))|exact Em|auto].
Qed.

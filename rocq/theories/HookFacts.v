(** * Instructions run together with a transfer hook. *)
From Verif Require Export OutFacts FlowFacts LutFacts SpecHook Transact LogFacts.
Import ListNotations.
Local Open Scope Z_scope.

Ltac feed := repeat match goal with E : ?x = Ok _ |- context [?x] => rewrite E; cbn [bind] end.

Section Facts.
Context {W : Type} (h : hook W) (H : hashes).

Lemma h_transfer_plain s w p src mnt dst auth x ok s' w' l : h_transfer h s w p src mnt dst auth x ok = Ok (s', w', l) ->
  tok_transfer s p src mnt dst auth x ok = Ok s'.
Proof.
  unfold h_transfer. intros E. binds E. destruct (_ && negb _); [binds E|]; apply Ok_inj in E; congruence.
Qed.

(** ** A run with the hook is a run without it. *)
Lemma h_exec_plain s w sg i s' w' l : h_exec h H s w sg i = Ok (s', w', l) -> exec H s sg i = Ok s'.
Proof.
  destruct i; cbn [h_exec exec]; intros E; try (binds E; apply Ok_inj in E; congruence).
  - unfold h_transfer_lock in E. unfold transfer_lock. binds E.
    match goal with E : h_transfer _ _ _ _ _ _ _ _ _ _ = Ok _ |- _ => apply h_transfer_plain in E end. feed. congruence.
  - unfold h_transfer_burn in E. unfold transfer_burn. binds E.
    match goal with E : h_transfer _ _ _ _ _ _ _ _ _ _ = Ok _ |- _ => apply h_transfer_plain in E end. feed. congruence.
  - unfold h_release_mint in E. unfold release_inbound_mint. binds E. feed. destruct (negb _).
    + destruct revert_on_delay; [discriminate|]. congruence.
    + binds E. match goal with E : h_transfer _ _ _ _ _ _ _ _ _ _ = Ok _ |- _ => apply h_transfer_plain in E end. feed. congruence.
  - unfold h_release_unlock in E. unfold release_inbound_unlock. binds E. feed. destruct (negb _).
    + destruct revert_on_delay; [discriminate|]. congruence.
    + binds E. match goal with E : h_transfer _ _ _ _ _ _ _ _ _ _ = Ok _ |- _ => apply h_transfer_plain in E end. feed. congruence.
  - binds E. feed. eapply h_transfer_plain. eassumption.
Qed.

Lemma h_step_plain s w c s' w' l : h_step h H s w c = Ok (s', w', l) -> step H s c = Ok s'.
Proof.
  unfold h_step, step. intros E. binds E. feed. eapply h_exec_plain. eassumption.
Qed.

(** ** Calls made are calls owed. *)
Lemma h_transfer_owed s p src mnt dst auth x ok s' : tok_transfer s p src mnt dst auth x ok = Ok s' ->
  forall w, h_transfer h s w p src mnt dst auth x ok =
    match answers h s' w (owed (hk_mints h) s src mnt dst auth x) with
    | Some w' => Ok (s', w', owed (hk_mints h) s src mnt dst auth x)
    | None => Err TokenErr
    end.
Proof.
  intros E w. unfold h_transfer. rewrite E. cbn [bind]. apply tok_transfer_ok in E.
  destruct E as (t & d & m & t' & _ & _ & Em & _ & _ & Hp & _). unfold owed. rewrite Em.
  destruct (prog_eqb p PToken22) eqn:Ep.
  2: { assert (mt_prog m <> PToken22) by (intros C; rewrite C in Hp; apply (proj2 (prog_eqb_eq p PToken22)) in Hp || symmetry in Hp; apply (proj2 (prog_eqb_eq p PToken22)) in Hp; congruence). destruct (mt_prog m); congruence || reflexivity. }
  apply prog_eqb_eq in Ep. rewrite Hp, Ep. cbn [andb].
  destruct (hk_mints h mnt && negb (addr_eqb src dst)); [|reflexivity]. cbn [answers].
  destruct (hk_execute h s' w _); reflexivity.
Qed.

Lemma owed_same hooked s s' src mnt dst auth x m m' : st_mints s mnt = Some m -> st_mints s' mnt = Some m' -> mt_prog m' = mt_prog m ->
  owed hooked s' src mnt dst auth x = owed hooked s src mnt dst auth x.
Proof. intros E E' P. unfold owed. rewrite E, E', P. reflexivity. Qed.

Lemma deposit_is s sg x a md c mt f pe amount t : inv s -> is_u64 (ar_amount a) ->
  transfer_checks s sg x a md = Ok (c, mt, f, pe) -> remove_dust (ar_amount a) (mt_decimals mt) (pe_decimals pe) = Ok (amount, t) ->
  st_accts s (xa_config x) = Some (Acct PManager (DConfig c)) /\ st_toks s (xa_from x) = Some f /\ deposit_value s x a = amount.
Proof.
  intros Hi Ha F D. apply transfer_checks_ok in F. destruct F as (C & _ & _ & _ & M & F & _ & _ & _ & P).
  destruct (dust_value _ _ _ _ _ Ha (mint_dec _ _ _ Hi M) (peer_dec _ _ _ Hi P) D) as (-> & _).
  unfold has in C, P. unfold deposit_value. rewrite C, P, M. auto.
Qed.

Lemma u64b_is z : u64b z = true -> is_u64 z. Proof. unfold u64b; ints; lia. Qed.

Lemma h_exec_due s sg i s' : inv s -> typed i = true -> exec H s sg i = Ok s' ->
  exists mid, forall w, h_exec h H s w sg i =
    match answers h mid w (due (hk_mints h) H s i) with
    | Some w' => Ok (s', w', due (hk_mints h) H s i)
    | None => Err TokenErr
    end.
Proof.
  intros Hi Ty E.
  assert (Q : exists mid, forall w : W, (let? s0 := exec H s sg i in Ok (s0, w, @nil hookcall))
    = match answers h mid w [] return result (state * W * list hookcall) with Some w' => Ok (s', w', []) | None => Err TokenErr end).
  { exists s. intros w. rewrite E. reflexivity. }
  destruct i; cbn [exec h_exec due typed] in *; try exact Q; clear Q.
  - apply andb_prop in Ty. destruct Ty as [Tu _]. apply u64b_is in Tu.
    unfold transfer_lock in E. unfold h_transfer_lock. binds E.
    match goal with A : transfer_checks _ _ _ _ _ = _, B : remove_dust _ _ _ = _ |- _ =>
      pose proof (deposit_is _ _ _ _ _ _ _ _ _ _ _ Hi Tu A B) as (-> & -> & ->); rewrite A; cbn [bind]; rewrite B end.
    match goal with A : tok_transfer _ _ _ _ _ _ _ _ = Ok ?s1 |- _ => exists s1; intros w; pose proof (h_transfer_owed _ _ _ _ _ _ _ _ _ A w) as HO end.
    cbn [bind]. feed. rewrite HO. clear HO. destruct (answers _ _ _ _); [|reflexivity]. cbn [bind]. feed. reflexivity.
  - apply andb_prop in Ty. destruct Ty as [Tu _]. apply u64b_is in Tu.
    unfold transfer_burn in E. unfold h_transfer_burn. binds E.
    match goal with A : transfer_checks _ _ _ _ _ = _, B : remove_dust _ _ _ = _ |- _ =>
      pose proof (deposit_is _ _ _ _ _ _ _ _ _ _ _ Hi Tu A B) as (-> & -> & ->); rewrite A; cbn [bind]; rewrite B end.
    match goal with A : tok_transfer _ _ _ _ _ _ _ _ = Ok ?s1 |- _ => exists s1; intros w; pose proof (h_transfer_owed _ _ _ _ _ _ _ _ _ A w) as HO end.
    cbn [bind]. feed. rewrite HO. clear HO. destruct (answers _ _ _ _); [|reflexivity]. cbn [bind]. feed. reflexivity.
  - unfold release_inbound_mint in E. unfold h_release_mint. binds E.
    match goal with A : release_checks _ _ _ = _ |- _ => pose proof (release_checks_ok _ _ _ _ _ _ A) as (-> & mt & rt & F); rewrite A end.
    pose proof (lf_config _ _ _ _ _ _ _ F) as C. pose proof (lf_item _ _ _ _ _ _ _ F) as I. unfold has in C, I. rewrite C, I.
    match goal with A : inbox_try_release _ _ = _ |- _ => pose proof (try_release_ok _ _ _ _ A) as T; cbn [bind]; rewrite A end. cbn [bind].
    destruct T as [(-> & -> & T)|(-> & ts & T & Ht & ->)]; cbn [negb] in *.
    + destruct revert_on_delay; [discriminate|]. apply Ok_inj in E. subst s'. exists s. intros w.
      destruct T as [->|(ts & -> & Hlt)]; [reflexivity|]. destruct (Z.leb_spec ts (st_now s)); [lia|reflexivity].
    + rewrite T. destruct (Z.leb_spec ts (st_now s)); [|lia]. binds E.
      match goal with A : tok_mint_to _ _ _ _ _ _ = Ok _ |- _ => pose proof (tok_mint_to_ok _ _ _ _ _ _ _ A) as (d & m & _ & M & _ & _ & _ & _ & _ & _ & _ & _ & M') end.
      match goal with A : tok_transfer _ _ _ _ _ _ _ _ = Ok ?s1 |- _ => exists s1; intros w; pose proof (h_transfer_owed _ _ _ _ _ _ _ _ _ A w) as HO end.
      erewrite owed_same in HO; [|exact M|rewrite M'; apply upd_same|reflexivity].
      feed. rewrite HO. clear HO. destruct (answers _ _ _ _); [|reflexivity]. cbn [bind]. congruence.
  - unfold release_inbound_unlock in E. unfold h_release_unlock. binds E.
    match goal with A : release_checks _ _ _ = _ |- _ => pose proof (release_checks_ok _ _ _ _ _ _ A) as (-> & mt & rt & F); rewrite A end.
    pose proof (lf_config _ _ _ _ _ _ _ F) as C. pose proof (lf_item _ _ _ _ _ _ _ F) as I. unfold has in C, I. rewrite C, I.
    match goal with A : inbox_try_release _ _ = _ |- _ => pose proof (try_release_ok _ _ _ _ A) as T; cbn [bind]; rewrite A end. cbn [bind].
    destruct T as [(-> & -> & T)|(-> & ts & T & Ht & ->)]; cbn [negb] in *.
    + destruct revert_on_delay; [discriminate|]. apply Ok_inj in E. subst s'. exists s. intros w.
      destruct T as [->|(ts & -> & Hlt)]; [reflexivity|]. destruct (Z.leb_spec ts (st_now s)); [lia|reflexivity].
    + rewrite T. destruct (Z.leb_spec ts (st_now s)); [|lia]. binds E.
      match goal with A : tok_transfer _ _ _ _ _ _ _ _ = Ok ?s1 |- _ => exists s1; intros w; pose proof (h_transfer_owed _ _ _ _ _ _ _ _ _ A w) as HO end.
      feed. rewrite HO. clear HO. destruct (answers _ _ _ _); [|reflexivity]. cbn [bind]. congruence.
  - binds E. exists s'. intros w. feed. apply (h_transfer_owed _ _ _ _ _ _ _ _ _ E w).
Qed.
End Facts.

(** ** Holdings *)
Definition op_change (s : state) (m a : addr) (o : tokop) : Z :=
  match o with
  | OTransfer _ src mnt dst _ x =>
      if addr_eqb mnt m && negb (addr_eqb src dst)
      then (if addr_eqb dst a then x - match st_mints s m with Some mt => fee_of mt x | None => 0 end else 0) - (if addr_eqb src a then x else 0)
      else 0
  | OMint _ mnt dst _ x | OWithdraw _ mnt dst x => if addr_eqb mnt m && addr_eqb dst a then x else 0
  | OBurn _ src mnt _ x => if addr_eqb mnt m && addr_eqb src a then - x else 0
  | _ => 0
  end.

Ltac aeq := repeat match goal with
  | |- context [addr_eqb ?x ?y] => let E := fresh in destruct (addr_eqb x y) eqn:E; [apply addr_eqb_eq in E; subst|apply addr_eqb_neq in E]
  end.

Lemma spend_mint t auth x t' : spend t auth x = Ok t' -> tk_mint t' = tk_mint t.
Proof. intros E. apply spend_ok in E. tauto. Qed.

Lemma op_held s o s' m a : run_op s o = Ok s' -> held s' m a = held s m a + op_change s m a o.
Proof.
  intros E. destruct o; cbn [run_op op_change] in *.
  - apply tok_transfer_ok in E. destruct E as (t & d & mt & t' & E1 & E2 & E3 & _ & _ & _ & M1 & M2 & _ & Hs & _ & _ & [(-> & ->)|(Hne & _ & _ & _ & Q)]).
    + rewrite addr_eqb_refl. rewrite andb_false_r. lia.
    + unfold held. rewrite Q. apply addr_eqb_neq in Hne. rewrite Hne. apply addr_eqb_neq in Hne. rewrite andb_true_r.
      rewrite !upd_eq. pose proof (spend_mint _ _ _ _ Hs) as M3.
      destruct (addr_eq_dec a dst) as [->|N1].
      * rewrite E2. cbn [tk_mint tk_amount with_amount]. rewrite M2, addr_eqb_refl. replace (addr_eqb src dst) with false by (symmetry; now apply addr_eqb_neq).
        destruct (addr_eqb mnt m) eqn:Em; [|lia]. apply addr_eqb_eq in Em. subst m. rewrite E3. lia.
      * replace (addr_eqb dst a) with false by (symmetry; apply addr_eqb_neq; congruence).
        destruct (addr_eq_dec a src) as [->|N2].
        -- rewrite E1. cbn [tk_mint tk_amount with_amount]. rewrite M3, M1, addr_eqb_refl. destruct (addr_eqb mnt m); lia.
        -- replace (addr_eqb src a) with false by (symmetry; apply addr_eqb_neq; congruence). destruct (addr_eqb mnt m); lia.
  - apply tok_mint_to_ok in E. destruct E as (d & mt & E1 & _ & _ & _ & M & _ & _ & _ & _ & Q & _). unfold held. rewrite Q, upd_eq.
    destruct (addr_eq_dec a dst) as [->|N].
    + rewrite E1. cbn [tk_mint tk_amount with_amount]. rewrite M, addr_eqb_refl, andb_true_r. destruct (addr_eqb mnt m); lia.
    + replace (addr_eqb dst a) with false by (symmetry; apply addr_eqb_neq; congruence). rewrite andb_false_r. lia.
  - apply tok_burn_ok in E. destruct E as (t & mt & t' & E1 & _ & _ & _ & M & _ & Hs & _ & _ & Q & _). unfold held. rewrite Q, upd_eq.
    pose proof (spend_mint _ _ _ _ Hs) as M3. destruct (addr_eq_dec a src) as [->|N].
    + rewrite E1. cbn [tk_mint tk_amount with_amount]. rewrite M3, M, addr_eqb_refl, andb_true_r. destruct (addr_eqb mnt m); lia.
    + replace (addr_eqb src a) with false by (symmetry; apply addr_eqb_neq; congruence). rewrite andb_false_r. lia.
  - unfold tok_init in E. binds E. bools. subst. frees. unfold held. cbn. rewrite upd_eq. destruct (addr_eq_dec a a0) as [->|N]; [|lia].
    match goal with A : st_toks s a0 = None |- _ => rewrite A end. cbn. destruct (addr_eqb mnt m); lia.
  - binds E. gets. bools. subst. unfold held. cbn. rewrite upd_eq. destruct (addr_eq_dec a a0) as [->|N]; [|lia].
    match goal with A : st_toks s a0 = Some _ |- _ => rewrite A end. cbn. lia.
  - binds E. gets. bools. subst. unfold held. cbn. rewrite upd_eq. destruct (addr_eq_dec a a0) as [->|N]; [|lia].
    match goal with A : st_toks s a0 = Some _ |- _ => rewrite A end. cbn. lia.
  - binds E. gets. bools. subst. unfold held. cbn. lia.
  - binds E. gets. bools. subst. unfold held. cbn. rewrite upd_eq. destruct (addr_eq_dec a a0) as [->|N]; [|lia].
    match goal with A : st_toks s a0 = Some _ |- _ => rewrite A end. cbn. lia.
  - binds E. gets. bools. subst. unfold held. cbn. rewrite upd_eq. destruct (addr_eq_dec a a0) as [->|N]; [|lia].
    match goal with A : st_toks s a0 = Some _ |- _ => rewrite A end. destruct (addr_eqb _ _); lia.
  - binds E. bools. subst. unfold held. cbn. lia.
  - binds E. gets. bools. subst. unfold held. cbn. lia.
  - binds E. gets. bools. subst. unfold held. cbn. rewrite upd_eq. destruct (addr_eq_dec a dst) as [->|N].
    + match goal with A : st_toks s dst = Some _ |- _ => rewrite A end. cbn. rewrite addr_eqb_refl, andb_true_r. destruct (addr_eqb _ m); lia.
    + replace (addr_eqb dst a) with false by (symmetry; apply addr_eqb_neq; congruence). rewrite andb_false_r. lia.
Qed.

Lemma told_owed hooked s m a p src mnt dst auth x : has_hook hooked s m ->
  told s m a (owed hooked s src mnt dst auth x) = op_change s m a (OTransfer p src mnt dst auth x).
Proof.
  intros (Hh & mt & Em & Hp). cbn [op_change]. destruct (addr_eqb mnt m) eqn:D; cbn [andb].
  - apply addr_eqb_eq in D. subst mnt. unfold owed. rewrite Em, Hp, Hh. cbn [andb]. destruct (negb (addr_eqb src dst)); [|reflexivity].
    cbn [told fold_right]. unfold told_one. cbn [hc_mint hc_dest hc_source hc_amount]. rewrite addr_eqb_refl, Em. lia.
  - unfold owed. destruct (st_mints s mnt) as [mt'|]; [|reflexivity]. destruct (mt_prog mt'); try reflexivity.
    destruct (hooked mnt && negb _); [|reflexivity]. cbn [told fold_right]. unfold told_one. cbn [hc_mint]. rewrite D. reflexivity.
Qed.

(** The token operation of a third party. *)
Lemma env_run H s sg i s' o : exec H s sg i = Ok s' -> env_op i = Some o -> run_op s o = Ok s'.
Proof.
  intros E Q. destruct i; cbn [env_op] in Q; try discriminate; apply Some_inj in Q; subst o; cbn [exec run_op] in *; try exact E.
  - binds E. exact E.
  - unfold require in E. binds E. unfold require. destruct (signed sg owner); cbn [andb] in *; [|discriminate]. feed. first [reflexivity|exact E].
  - unfold require in E. binds E. unfold require. destruct (signed sg owner); cbn [andb] in *; [|discriminate]. feed. first [reflexivity|exact E].
  - binds E. exact E.
  - binds E. exact E.
  - unfold require in E. binds E. unfold require. destruct (signed sg auth); cbn [andb] in *; [|discriminate]. feed. first [reflexivity|exact E].
  - unfold require in E. binds E. unfold require. destruct (signed sg owner); cbn [andb] in *; [|discriminate]. feed. first [reflexivity|exact E].
  - unfold require in E. binds E. unfold require. destruct (signed sg owner); cbn [andb] in *; [|discriminate]. feed. first [reflexivity|exact E].
  - binds E. exact E.
  - unfold require in E. binds E. unfold require. destruct (signed sg a); cbn [andb] in *; [|discriminate]. feed. first [reflexivity|exact E].
Qed.

Lemma held_same s s' m a : same_ledger s s' -> held s' m a = held s m a.
Proof. intros (E & _). unfold held. rewrite E. reflexivity. Qed.

Lemma due_transfer hooked H s sg i x a md c mt f pe amount t orl irl orl' irl' ts : inv s -> is_u64 (ar_amount a) -> transfer_of i = Some (md, x, a) ->
  transfer_facts s sg x a md c mt f pe amount t orl irl orl' irl' ts ->
  due hooked H s i = owed hooked s (xa_from x) (cf_mint c) (cf_custody c) (pda_session (tk_owner f) (h_args H a)) amount.
Proof.
  intros Hi Ha Ei F. pose proof (mint_dec _ _ _ Hi (tf_mint _ _ _ _ _ _ _ _ _ _ _ _ _ _ _ _ F)) as Hf.
  pose proof (peer_dec _ _ _ Hi (tf_peer _ _ _ _ _ _ _ _ _ _ _ _ _ _ _ _ F)) as Ht.
  pose proof (tf_dust _ _ _ _ _ _ _ _ _ _ _ _ _ _ _ _ F) as D. destruct (dust_value _ _ _ _ _ Ha Hf Ht D) as (-> & _).
  pose proof (tf_config _ _ _ _ _ _ _ _ _ _ _ _ _ _ _ _ F) as C. pose proof (tf_peer _ _ _ _ _ _ _ _ _ _ _ _ _ _ _ _ F) as P. unfold has in C, P.
  destruct i; try discriminate Ei; inversion Ei; subst; cbn [due]; unfold deposit_value;
  rewrite C, P, (tf_from _ _ _ _ _ _ _ _ _ _ _ _ _ _ _ _ F), (tf_mint _ _ _ _ _ _ _ _ _ _ _ _ _ _ _ _ F); reflexivity.
Qed.

Lemma due_release hooked H s i x md c it mt rt : release_of i = Some x -> release_facts s x md c it mt rt ->
  due hooked H s i = match ib_status it with
    | ReleaseAfter t => if t <=? st_now s
        then owed hooked s (cf_custody c) (cf_mint c) (ata (la_tp x) (ib_recipient it) (cf_mint c)) token_authority (ib_amount it) else []
    | _ => [] end.
Proof.
  intros Ei F. pose proof (lf_config _ _ _ _ _ _ _ F) as C. pose proof (lf_item _ _ _ _ _ _ _ F) as I. unfold has in C, I.
  destruct i; try discriminate Ei; inversion Ei; subst; cbn [due]; rewrite C, I; reflexivity.
Qed.

Lemma due_waits hooked H s i x md c it mt rt : release_of i = Some x -> release_facts s x md c it mt rt ->
  ib_status it = NotApproved \/ (exists ts, ib_status it = ReleaseAfter ts /\ st_now s < ts) -> due hooked H s i = [].
Proof.
  intros Ei F Q. rewrite (due_release hooked H _ _ _ _ _ _ _ _ Ei F). destruct Q as [->|(ts & -> & Q)]; [reflexivity|].
  destruct (Z.leb_spec ts (st_now s)); [lia|reflexivity].
Qed.
Lemma due_pays hooked H s i x md c it mt rt ts : release_of i = Some x -> release_facts s x md c it mt rt -> ib_status it = ReleaseAfter ts -> ts <= st_now s ->
  due hooked H s i = owed hooked s (cf_custody c) (cf_mint c) (ata (la_tp x) (ib_recipient it) (cf_mint c)) token_authority (ib_amount it).
Proof.
  intros Ei F Q L. rewrite (due_release hooked H _ _ _ _ _ _ _ _ Ei F), Q. destruct (Z.leb_spec ts (st_now s)); [reflexivity|lia].
Qed.

Lemma not_at s a c x md : inv s -> not_burnt_from s a -> has s x PManager (DConfig c) -> cf_mode c = md -> md = Burning -> addr_eqb (cf_custody c) a = false.
Proof.
  intros Hi Hb C M Q. pose proof (config_addr _ _ _ Hi C). subst x. apply addr_eqb_neq. apply (Hb c C). congruence.
Qed.

(** ** One instruction: holdings change as the hook is told. *)
Lemma step_told hooked H s sg i s' m a : reachable H s -> step H s (Call sg i) = Ok s' -> has_hook hooked s m -> not_burnt_from s a ->
  held s' m a = held s m a + told s m a (due hooked H s i) + elsewhere m a i.
Proof.
  intros Hr Hs Hh Hb. pose proof (reachable_inv _ _ Hr) as Hi. pose proof (step_inv _ _ _ _ Hs) as (_ & Ty & E). cbn [signers ins] in Ty, E.
  destruct (env_op i) as [o|] eqn:Eo.
  { pose proof (env_run _ _ _ _ _ _ E Eo) as Q. rewrite (op_held _ _ _ m a Q).
    destruct i; cbn [env_op] in Eo; try discriminate; apply Some_inj in Eo; subst o; try (cbn; lia).
    cbn [due elsewhere]. rewrite <- (told_owed hooked s m a p src mnt dst auth amount Hh). lia. }
  destruct (transfer_of i) as [[[md x] ar]|] eqn:Et.
  { assert (Tu : is_u64 (ar_amount ar)).
    { destruct i; try discriminate Et; inversion Et; subst; cbn [typed] in Ty; apply andb_prop in Ty; apply u64b_is; tauto. }
    assert (Z0 : elsewhere m a i = 0) by (destruct i; try discriminate Et; reflexivity). rewrite Z0. clear Z0.
    destruct i; try discriminate Et; inversion Et; subst; cbn [exec] in E.
    - apply transfer_lock_ok in E. destruct E as (c & mt & f & pe & am & t & orl & irl & orl' & irl' & ts & s1 & cu & cu' & F & HT & _ & _ & _ & ->).
      rewrite (due_transfer hooked H _ _ _ _ _ _ _ _ _ _ _ _ _ _ _ _ _ Hi Tu Et F).
      rewrite (told_owed hooked s m a (xa_tp x)) by exact Hh. change (held (out_puts s1 x ar f pe t orl' irl' ts) m a) with (held s1 m a).
      rewrite (op_held s (OTransfer (xa_tp x) (xa_from x) (cf_mint c) (cf_custody c) (pda_session (tk_owner f) (h_args H ar)) am) s1 m a)
        by (cbn [run_op]; eapply hook_true; exact HT).
      lia.
    - apply transfer_burn_ok in E. destruct E as (c & mt & f & pe & am & t & orl & irl & orl' & irl' & ts & s1 & s2 & cu & cu' & F & HT & HB & _ & _ & _ & ->).
      rewrite (due_transfer hooked H _ _ _ _ _ _ _ _ _ _ _ _ _ _ _ _ _ Hi Tu Et F).
      rewrite (told_owed hooked s m a (xa_tp x)) by exact Hh. change (held (out_puts s2 x ar f pe t orl' irl' ts) m a) with (held s2 m a).
      rewrite (op_held s1 (OBurn (xa_tp x) (cf_custody c) (cf_mint c) token_authority am) s2 m a) by exact HB.
      rewrite (op_held s (OTransfer (xa_tp x) (xa_from x) (cf_mint c) (cf_custody c) (pda_session (tk_owner f) (h_args H ar)) am) s1 m a)
        by (cbn [run_op]; eapply hook_true; exact HT).
      cbn [op_change]. rewrite (not_at _ _ _ _ _ Hi Hb (tf_config _ _ _ _ _ _ _ _ _ _ _ _ _ _ _ _ F) (tf_mode _ _ _ _ _ _ _ _ _ _ _ _ _ _ _ _ F) eq_refl).
      rewrite andb_false_r. lia. }
  destruct (release_of i) as [x|] eqn:El.
  { assert (Z0 : elsewhere m a i = 0) by (destruct i; try discriminate El; reflexivity). rewrite Z0. clear Z0.
    destruct i; try discriminate El; inversion El; subst; cbn [exec] in E.
    - apply release_mint_ok in E. destruct E as (c & it & mt & rt & F & [(-> & _ & Q)|(ts & s1 & s2 & Q & Hts & HM & HT & ->)]).
      + rewrite (due_waits hooked H _ _ _ _ _ _ _ _ El F Q). cbn [told fold_right]. lia.
      + rewrite (due_pays hooked H _ _ _ _ _ _ _ _ _ El F Q Hts). rewrite (told_owed hooked s m a (la_tp x)) by exact Hh.
        match goal with |- held (put ?b ?q ?d s2) m a = _ => change (held (put b q d s2) m a) with (held s2 m a) end.
        rewrite (op_held s1 (OTransfer (la_tp x) (cf_custody c) (cf_mint c) (ata (la_tp x) (ib_recipient it) (cf_mint c)) token_authority (ib_amount it)) s2 m a)
          by (cbn [run_op]; eapply hook_true; exact HT).
        rewrite (op_held s (OMint (la_tp x) (cf_mint c) (cf_custody c) token_authority (ib_amount it)) s1 m a) by exact HM.
        cbn [op_change]. rewrite (not_at _ _ _ _ _ Hi Hb (lf_config _ _ _ _ _ _ _ F) (lf_mode _ _ _ _ _ _ _ F) eq_refl).
        rewrite andb_false_r. cbn [op_change].
        assert (Hm : match st_mints s1 m with Some mt => fee_of mt (ib_amount it) | None => 0 end = match st_mints s m with Some mt => fee_of mt (ib_amount it) | None => 0 end).
        { apply tok_mint_to_ok in HM. destruct HM as (d & m0 & _ & M & _ & _ & _ & _ & _ & _ & _ & _ & M'). rewrite M', upd_eq.
          destruct (addr_eq_dec m (cf_mint c)) as [->|]; [|reflexivity]. rewrite M. reflexivity. }
        rewrite Hm. lia.
    - apply release_unlock_ok in E. destruct E as (c & it & mt & rt & F & [(-> & _ & Q)|(ts & s1 & Q & Hts & HT & ->)]).
      + rewrite (due_waits hooked H _ _ _ _ _ _ _ _ El F Q). cbn [told fold_right]. lia.
      + rewrite (due_pays hooked H _ _ _ _ _ _ _ _ _ El F Q Hts). rewrite (told_owed hooked s m a (la_tp x)) by exact Hh.
        match goal with |- held (put ?b ?q ?d s1) m a = _ => change (held (put b q d s1) m a) with (held s1 m a) end.
        rewrite (op_held s (OTransfer (la_tp x) (cf_custody c) (cf_mint c) (ata (la_tp x) (ib_recipient it) (cf_mint c)) token_authority (ib_amount it)) s1 m a)
          by (cbn [run_op]; eapply hook_true; exact HT).
        lia. }
  destruct (step_ops _ _ _ _ Hs) as (os & s1 & Q & L & Y). rewrite (held_same _ _ m a L). cbn [signers ins] in Y.
  assert (Z0 : told s m a (due hooked H s i) = 0 /\ elsewhere m a i = 0).
  { destruct i; try discriminate Et; try discriminate El; try discriminate Eo; split; reflexivity. }
  destruct Z0 as [-> ->]. destruct Y; try discriminate Et; try discriminate El.
  - congruence.
  - cbn [run_ops] in Q. apply Ok_inj in Q. subst. lia.
  - cbn [run_ops] in Q. binds Q. apply Ok_inj in Q. subst. erewrite op_held by eassumption. cbn. lia.
Qed.

(** ** Histories *)
Lemma not_burnt_back H s c s' a : reachable H s -> step H s c = Ok s' -> not_burnt_from s' a -> not_burnt_from s a.
Proof.
  intros Hr E Q cf C M. destruct (config_same_step _ _ _ _ _ Hr E C) as (cf' & C' & (_ & S)).
  assert (cf_mode cf' = cf_mode cf /\ cf_custody cf' = cf_custody cf) as [S1 S2] by tauto. rewrite <- S2. apply Q; [exact C'|congruence].
Qed.
Lemma has_hook_kept hooked H s c s' m : reachable H s -> step H s c = Ok s' -> has_hook hooked s m -> has_hook hooked s' m.
Proof.
  intros Hr E (Hh & mt & Em & Hp). split; [exact Hh|]. destruct (step_ledger _ _ _ _ (reachable_inv _ _ Hr) E) as (_ & Q & _).
  destruct (Q _ _ Em) as (m' & E' & P' & _). exists m'. split; [exact E'|congruence].
Qed.

Section Runs.
Context {W : Type} (h : hook W) (H : hashes).

Lemma h_step_due s w c s' w' l : reachable H s -> h_step h H s w c = Ok (s', w', l) -> l = due (hk_mints h) H s (ins c).
Proof.
  intros Hr E. pose proof (h_step_plain h H _ _ _ _ _ _ E) as P. apply step_inv in P. destruct P as (_ & Ty & P).
  unfold h_step in E. binds E. destruct (h_exec_due h H _ _ _ _ (reachable_inv _ _ Hr) Ty P) as (mid & Q). rewrite Q in E.
  destruct (answers _ _ _ _); [|discriminate]. apply Ok_inj in E. congruence.
Qed.

Lemma h_step_iff s c s' : reachable H s -> step H s c = Ok s' ->
  exists mid, forall w, h_step h H s w c =
    match answers h mid w (due (hk_mints h) H s (ins c)) with
    | Some w' => Ok (s', w', due (hk_mints h) H s (ins c))
    | None => Err TokenErr
    end.
Proof.
  intros Hr E. pose proof (step_inv _ _ _ _ E) as (Hc & Ty & P).
  destruct (h_exec_due h H _ _ _ _ (reachable_inv _ _ Hr) Ty P) as (mid & Q). exists mid. intros w. unfold h_step. rewrite Hc, Ty. cbn [andb require bind].
  apply Q.
Qed.

Lemma h_run_plain s0 w0 tr s w : h_run h H s0 w0 tr s w -> run H s0 (map (fun e => Ev (he_pre e) (he_call e) (he_post e)) tr) s.
Proof.
  induction 1 as [|tr s w c s' w' l R IH E]; [constructor|]. cbn [map he_pre he_call he_post]. econstructor; [exact IH|].
  eapply h_step_plain. exact E.
Qed.

Lemma h_run_told s0 w0 tr s w m a : reachable H s0 -> h_run h H s0 w0 tr s w -> has_hook (hk_mints h) s0 m -> not_burnt_from s a ->
  held s m a = held s0 m a + htotal (fun e => told (he_pre e) m a (he_hooks e) + elsewhere m a (ins (he_call e))) tr.
Proof.
  intros Hr R Hh.
  assert (K : reachable H s /\ has_hook (hk_mints h) s m /\ (not_burnt_from s a ->
    held s m a = held s0 m a + htotal (fun e => told (he_pre e) m a (he_hooks e) + elsewhere m a (ins (he_call e))) tr)).
  { induction R as [|tr s w c s' w' l R (R1 & R2 & IH) E].
    - split; [exact Hr|]. split; [exact Hh|]. cbn. lia.
    - pose proof (h_step_plain h H _ _ _ _ _ _ E) as P. split; [eapply step_reachable; eassumption|].
      split; [eapply has_hook_kept; eassumption|]. intros Hb. specialize (IH (not_burnt_back _ _ _ _ _ R1 P Hb)).
      unfold htotal. cbn [fold_right he_pre he_call he_post he_hooks]. fold (htotal (fun e => told (he_pre e) m a (he_hooks e) + elsewhere m a (ins (he_call e))) tr).
      rewrite (h_step_due _ _ _ _ _ _ R1 E). destruct c as [sg i]. cbn [ins] in *.
      rewrite (step_told (hk_mints h) H _ _ _ _ _ _ R1 P R2 (not_burnt_back _ _ _ _ _ R1 P Hb)). lia. }
  intros Hb. apply K. exact Hb.
Qed.

(** Accepted calls. *)
Lemma answers_all s w l w' c : answers h s w l = Some w' -> In c l -> exists w1 w2, hk_execute h s w1 c = Some w2.
Proof.
  revert w. induction l as [|c0 l IH]; intros w E I; [contradiction|]; cbn [answers] in E; destruct I as [->|I].
  - destruct (hk_execute h s w c) eqn:Q; [eauto|discriminate].
  - destruct (hk_execute h s w c0) eqn:Q; [eauto|discriminate].
Qed.
Lemma h_step_answers s w c s' w' l : reachable H s -> h_step h H s w c = Ok (s', w', l) -> exists mid, answers h mid w l = Some w'.
Proof.
  intros Hr E. pose proof (h_step_plain h H _ _ _ _ _ _ E) as P. destruct (h_step_iff _ _ _ Hr P) as (mid & Q). specialize (Q w).
  rewrite E in Q. exists mid. destruct (answers h mid w _) eqn:A; [|discriminate]. inversion Q; subst. exact A.
Qed.

(** Amounts of the programs' calls. *)
Lemma owed_amount hooked s src mnt dst auth x c : In c (owed hooked s src mnt dst auth x) -> hc_amount c = x.
Proof.
  unfold owed. destruct (st_mints s mnt); [|contradiction]. destruct (mt_prog m); try contradiction.
  destruct (hooked mnt && _); [|contradiction]. intros [<-|[]]. reflexivity.
Qed.
Lemma due_amount s sg i s' c : reachable H s -> step H s (Call sg i) = Ok s' -> In c (due (hk_mints h) H s i) -> 0 <= hc_amount c.
Proof.
  intros Hr Hs I. pose proof (reachable_inv _ _ Hr) as Hi. pose proof (step_inv _ _ _ _ Hs) as (_ & Ty & E). cbn [signers ins] in Ty, E.
  assert (Tr : forall md x ar cf mt f pe am t orl irl orl' irl' ts, transfer_of i = Some (md, x, ar) ->
    transfer_facts s sg x ar md cf mt f pe am t orl irl orl' irl' ts -> 0 <= hc_amount c).
  { intros md x ar cf mt f pe am t orl irl orl' irl' ts Et F.
    assert (Tu : is_u64 (ar_amount ar)).
    { destruct i; try discriminate Et; inversion Et; subst; cbn [typed] in Ty; apply andb_prop in Ty; apply u64b_is; tauto. }
    rewrite (due_transfer _ H _ _ _ _ _ _ _ _ _ _ _ _ _ _ _ _ _ Hi Tu Et F) in I. rewrite (owed_amount _ _ _ _ _ _ _ _ I).
    pose proof (mint_dec _ _ _ Hi (tf_mint _ _ _ _ _ _ _ _ _ _ _ _ _ _ _ _ F)) as Hf.
    pose proof (peer_dec _ _ _ Hi (tf_peer _ _ _ _ _ _ _ _ _ _ _ _ _ _ _ _ F)) as Ht.
    pose proof (tf_dust _ _ _ _ _ _ _ _ _ _ _ _ _ _ _ _ F) as D. destruct (dust_range _ _ _ _ _ Tu Hf Ht D) as (R1 & _). ilia. }
  assert (Re : forall md x cf it mt rt, release_of i = Some x -> release_facts s x md cf it mt rt -> 0 <= hc_amount c).
  { intros md x cf it mt rt El F. rewrite (due_release _ H _ _ _ _ _ _ _ _ El F) in I.
    destruct (ib_status it); try contradiction. destruct (_ <=? _); [|contradiction]. rewrite (owed_amount _ _ _ _ _ _ _ _ I).
    destruct (inv_mgr _ _ _ Hi (lf_item _ _ _ _ _ _ _ F)) as (_ & _ & Q & _). ilia. }
  destruct i; try contradiction I; cbn [exec] in E.
  - apply transfer_lock_ok in E. destruct E as (cf & mt & f & pe & am & t & orl & irl & orl' & irl' & ts & s1 & cu & cu' & F & _). eapply Tr; [reflexivity|exact F].
  - apply transfer_burn_ok in E. destruct E as (cf & mt & f & pe & am & t & orl & irl & orl' & irl' & ts & s1 & s2 & cu & cu' & F & _). eapply Tr; [reflexivity|exact F].
  - apply release_mint_ok in E. destruct E as (cf & it & mt & rt & F & _). eapply Re; [reflexivity|exact F].
  - apply release_unlock_ok in E. destruct E as (cf & it & mt & rt & F & _). eapply Re; [reflexivity|exact F].
  - cbn [due] in I. rewrite (owed_amount _ _ _ _ _ _ _ _ I). cbn [typed] in Ty. apply andb_prop in Ty. destruct Ty as [_ Ty]. apply u64b_is in Ty. ilia.
Qed.

Lemma program_elsewhere m a i : of_program i = true -> elsewhere m a i = 0.
Proof. destruct i; try discriminate; reflexivity. Qed.

Lemma told_nonpos s m a l : (forall c, In c l -> 0 <= hc_amount c /\ (hc_mint c = m -> hc_dest c <> a)) -> told s m a l <= 0.
Proof.
  induction l as [|c l IH]; intros Q; cbn [told fold_right]; [lia|]. fold (told s m a l).
  destruct (Q c (or_introl eq_refl)) as (Q1 & Q2). specialize (IH (fun c I => Q c (or_intror I))).
  unfold told_one. destruct (addr_eqb (hc_mint c) m) eqn:M; [|lia]. apply addr_eqb_eq in M. specialize (Q2 M). apply addr_eqb_neq in Q2. rewrite Q2.
  destruct (addr_eqb (hc_source c) a); lia.
Qed.
Lemma told_nonneg s m a l : ledger_ok s -> (forall c, In c l -> 0 <= hc_amount c /\ (hc_mint c = m -> hc_source c <> a)) -> 0 <= told s m a l.
Proof.
  intros [_ Hm]. induction l as [|c l IH]; intros Q; cbn [told fold_right]; [lia|]. fold (told s m a l).
  destruct (Q c (or_introl eq_refl)) as (Q1 & Q2). specialize (IH (fun c I => Q c (or_intror I))).
  unfold told_one. destruct (addr_eqb (hc_mint c) m) eqn:M; [|lia]. apply addr_eqb_eq in M. specialize (Q2 M). apply addr_eqb_neq in Q2. rewrite Q2.
  destruct (addr_eqb (hc_dest c) a); [|lia]. destruct (st_mints s m) as [mt|] eqn:Em; [|lia].
  pose proof (fee_range _ _ _ (Hm _ _ Em) Q1). lia.
Qed.

(** ** A hook that refuses an account. *)
Lemma barred_dest s w sg i s' w' l m a : reachable H s -> h_step h H s w (Call sg i) = Ok (s', w', l) -> of_program i = true ->
  has_hook (hk_mints h) s m -> not_burnt_from s a ->
  (forall s w c, hc_mint c = m -> hc_dest c = a -> hk_execute h s w c = None) -> held s' m a <= held s m a.
Proof.
  intros Hr E Op Hh Hb Q. pose proof (h_step_plain h H _ _ _ _ _ _ E) as P.
  rewrite (step_told _ H _ _ _ _ _ _ Hr P Hh Hb), (program_elsewhere _ _ _ Op).
  destruct (h_step_answers _ _ _ _ _ _ Hr E) as (mid & A). rewrite (h_step_due _ _ _ _ _ _ Hr E) in A. cbn [ins] in A.
  assert (told s m a (due (hk_mints h) H s i) <= 0); [|lia]. apply told_nonpos. intros c I. split; [eapply due_amount; eassumption|].
  intros M D. destruct (answers_all _ _ _ _ _ A I) as (w1 & w2 & C). rewrite Q in C by assumption. discriminate.
Qed.
Lemma barred_source s w sg i s' w' l m a : reachable H s -> h_step h H s w (Call sg i) = Ok (s', w', l) -> of_program i = true ->
  has_hook (hk_mints h) s m -> not_burnt_from s a ->
  (forall s w c, hc_mint c = m -> hc_source c = a -> hk_execute h s w c = None) -> held s m a <= held s' m a.
Proof.
  intros Hr E Op Hh Hb Q. pose proof (h_step_plain h H _ _ _ _ _ _ E) as P.
  rewrite (step_told _ H _ _ _ _ _ _ Hr P Hh Hb), (program_elsewhere _ _ _ Op).
  destruct (h_step_answers _ _ _ _ _ _ Hr E) as (mid & A). rewrite (h_step_due _ _ _ _ _ _ Hr E) in A. cbn [ins] in A.
  assert (0 <= told s m a (due (hk_mints h) H s i)); [|lia]. apply told_nonneg; [apply inv_ledger, (reachable_inv _ _ Hr)|].
  intros c I. split; [eapply due_amount; eassumption|].
  intros M D. destruct (answers_all _ _ _ _ _ A I) as (w1 & w2 & C). rewrite Q in C by assumption. discriminate.
Qed.

(** ** The calls of transfers and releases, spelt out. *)
Lemma owed_one hooked s src mnt dst auth x : has_hook hooked s mnt -> src <> dst -> owed hooked s src mnt dst auth x = [HookCall src mnt dst auth x].
Proof.
  intros (Hh & m & Em & Hp) N. unfold owed. rewrite Em, Hp, Hh. apply addr_eqb_neq in N. rewrite N. reflexivity.
Qed.

Lemma outbound_call s w sg i s' w' l md x ar cf : reachable H s -> h_step h H s w (Call sg i) = Ok (s', w', l) ->
  transfer_of i = Some (md, x, ar) -> config_at s pda_config cf -> has_hook (hk_mints h) s (cf_mint cf) ->
  exists f o v, st_toks s (xa_from x) = Some f /\ xa_from x <> cf_custody cf /\ outbox_at s' (xa_outbox_item x) o /\ ob_sender o = tk_owner f /\
    v = deposit_value s x ar /\ held s (cf_mint cf) (xa_from x) - held s' (cf_mint cf) (xa_from x) = v /\
    l = [HookCall (xa_from x) (cf_mint cf) (cf_custody cf) (pda_session (tk_owner f) (h_args H ar)) v].
Proof.
  intros Hr Hs Et C Hh. pose proof (reachable_inv _ _ Hr) as Hi. pose proof (h_step_plain h H _ _ _ _ _ _ Hs) as P.
  pose proof (step_inv _ _ _ _ P) as (_ & Ty & E). cbn [signers ins] in Ty, E.
  assert (Tu : is_u64 (ar_amount ar)).
  { destruct i; try discriminate Et; inversion Et; subst; cbn [typed] in Ty; apply andb_prop in Ty; apply u64b_is; tauto. }
  assert (Q : exists mt f pe am t orl irl orl' irl' ts s1, transfer_facts s sg x ar md cf mt f pe am t orl irl orl' irl' ts /\
    tok_transfer s (xa_tp x) (xa_from x) (cf_mint cf) (cf_custody cf) (pda_session (tk_owner f) (h_args H ar)) am (xa_hook_ok x) = Ok s1 /\
    outbox_at s' (xa_outbox_item x) (out_item f ar pe t ts)).
  { destruct i; try discriminate Et; inversion Et; subst; cbn [exec] in E.
    - apply transfer_lock_ok in E. destruct E as (c & mt & f & pe & am & t & orl & irl & orl' & irl' & ts & s1 & cu & cu' & F & HT & _ & _ & _ & ->).
      assert (c = cf). { pose proof (tf_config _ _ _ _ _ _ _ _ _ _ _ _ _ _ _ _ F) as C'. rewrite (config_addr _ _ _ Hi C') in C'. unfold has in C'. unfold config_at in C. congruence. }
      subst c. do 11 eexists. split; [exact F|]. split; [exact HT|]. unfold outbox_at, out_puts. apply get_put_same.
    - apply transfer_burn_ok in E. destruct E as (c & mt & f & pe & am & t & orl & irl & orl' & irl' & ts & s1 & s2 & cu & cu' & F & HT & HB & _ & _ & _ & ->).
      assert (c = cf). { pose proof (tf_config _ _ _ _ _ _ _ _ _ _ _ _ _ _ _ _ F) as C'. rewrite (config_addr _ _ _ Hi C') in C'. unfold has in C'. unfold config_at in C. congruence. }
      subst c. do 11 eexists. split; [exact F|]. split; [exact HT|]. unfold outbox_at, out_puts. apply get_put_same. }
  destruct Q as (mt & f & pe & am & t & orl & irl & orl' & irl' & ts & s1 & F & HT & O).
  pose proof (tf_from _ _ _ _ _ _ _ _ _ _ _ _ _ _ _ _ F) as Ef.
  assert (N : xa_from x <> cf_custody cf).
  { intros N. apply tok_transfer_ok in HT. destruct HT as (t0 & d & m0 & t' & E1 & _ & _ & _ & _ & _ & _ & _ & _ & Sp & _).
    destruct (custody_tok _ _ Hi (inv_config _ Hi _ C)) as (tc & Ec & Oc & _). rewrite N in E1.
    assert (tc = t0) by congruence. subst tc. eapply no_spend; [apply inv_ledger; exact Hi|exact E1|exact Oc| |exact Sp]. apply session_neq. }
  pose proof (due_transfer (hk_mints h) H _ _ _ _ _ _ _ _ _ _ _ _ _ _ _ _ _ Hi Tu Et F) as D.
  rewrite (owed_one _ _ _ _ _ _ _ Hh N) in D.
  assert (V : am = deposit_value s x ar).
  { pose proof (mint_dec _ _ _ Hi (tf_mint _ _ _ _ _ _ _ _ _ _ _ _ _ _ _ _ F)) as Hf.
    pose proof (peer_dec _ _ _ Hi (tf_peer _ _ _ _ _ _ _ _ _ _ _ _ _ _ _ _ F)) as Ht.
    destruct (dust_value _ _ _ _ _ Tu Hf Ht (tf_dust _ _ _ _ _ _ _ _ _ _ _ _ _ _ _ _ F)) as (-> & _).
    pose proof (tf_config _ _ _ _ _ _ _ _ _ _ _ _ _ _ _ _ F) as C1. pose proof (tf_peer _ _ _ _ _ _ _ _ _ _ _ _ _ _ _ _ F) as P1. unfold has in C1, P1.
    unfold deposit_value. rewrite C1, P1, (tf_mint _ _ _ _ _ _ _ _ _ _ _ _ _ _ _ _ F). reflexivity. }
  exists f, (out_item f ar pe t ts), am. split; [exact Ef|]. split; [exact N|]. split; [exact O|]. split; [reflexivity|]. split; [exact V|].
  split; [|rewrite (h_step_due _ _ _ _ _ _ Hr Hs); exact D].
  rewrite (step_told (hk_mints h) H _ _ _ _ _ (xa_from x) Hr P Hh).
  2: { intros c C' _ Q. apply N. unfold config_at in C, C'. congruence. }
  rewrite D. replace (elsewhere (cf_mint cf) (xa_from x) i) with 0 by (destruct i; try discriminate Et; reflexivity).
  cbn [told fold_right]. unfold told_one. cbn [hc_mint hc_dest hc_source hc_amount]. rewrite !addr_eqb_refl.
  assert (N' : addr_eqb (cf_custody cf) (xa_from x) = false) by (apply addr_eqb_neq; congruence). rewrite N'. lia.
Qed.

Lemma inbound_call s w sg i s' w' l x cf it : reachable H s -> h_step h H s w (Call sg i) = Ok (s', w', l) ->
  release_of i = Some x -> inbox_at s (la_item x) it -> ib_status it <> Released -> released s' (la_item x) = true ->
  config_at s pda_config cf -> has_hook (hk_mints h) s (cf_mint cf) ->
  let to := ata PToken22 (ib_recipient it) (cf_mint cf) in
  l = if addr_eqb (ib_recipient it) token_authority then []
      else [HookCall (cf_custody cf) (cf_mint cf) to token_authority (ib_amount it)].
Proof.
  intros Hr Hs El I Nr Rl C Hh to. pose proof (reachable_inv _ _ Hr) as Hi. pose proof (h_step_plain h H _ _ _ _ _ _ Hs) as P.
  pose proof (step_inv _ _ _ _ P) as (_ & Ty & E). cbn [signers ins] in Ty, E.
  assert (Q : exists md mt rt ts, release_facts s x md cf it mt rt /\ ib_status it = ReleaseAfter ts /\ ts <= st_now s /\ la_tp x = PToken22).
  { assert (K : forall md c it' mt rt, release_facts s x md c it' mt rt -> c = cf /\ it' = it /\ la_tp x = PToken22).
    { intros md c it' mt rt F. pose proof (lf_config _ _ _ _ _ _ _ F) as C'. rewrite (config_addr _ _ _ Hi C') in C'. unfold has in C'. unfold config_at in C.
      assert (c = cf) by congruence. subst c. split; [reflexivity|]. split.
      - pose proof (lf_item _ _ _ _ _ _ _ F) as I'. unfold has in I'. unfold inbox_at in I. congruence.
      - destruct Hh as (_ & m & Em & Hp).
        destruct (proj1 (inv_ledger _ Hi) _ _ (lf_rcpt _ _ _ _ _ _ _ F)) as (_ & _ & _ & _ & (m' & Em' & Hp') & _).
        rewrite (lf_rmint _ _ _ _ _ _ _ F) in Em'. rewrite (lf_rprog _ _ _ _ _ _ _ F) in Hp'. congruence. }
    assert (Rs : released s (la_item x) = false).
    { unfold released, status_at. unfold inbox_at in I. rewrite I. destruct (ib_status it); congruence || reflexivity. }
    destruct i; try discriminate El; inversion El; subst; cbn [exec] in E.
    - apply release_mint_ok in E. destruct E as (c & it' & mt & rt & F & [(-> & _ & Q)|(ts & s1 & s2 & Q & Hts & HM & HT & ->)]); [congruence|].
      destruct (K _ _ _ _ _ F) as (-> & -> & Tp). eauto 10.
    - apply release_unlock_ok in E. destruct E as (c & it' & mt & rt & F & [(-> & _ & Q)|(ts & s1 & Q & Hts & HT & ->)]); [congruence|].
      destruct (K _ _ _ _ _ F) as (-> & -> & Tp). eauto 10. }
  destruct Q as (md & mt & rt & ts & F & St & Hts & Tp).
  rewrite (h_step_due _ _ _ _ _ _ Hr Hs). cbn [ins]. rewrite (due_pays (hk_mints h) H _ _ _ _ _ _ _ _ _ El F St Hts), Tp. fold to.
  assert (Cu : cf_custody cf = ata PToken22 token_authority (cf_mint cf)).
  { destruct (co_prog _ _ (inv_config _ Hi _ C)) as (tp & m & t & _ & _ & Ec & Em & Hmp & _). destruct Hh as (_ & m' & Em' & Hp). rewrite Ec. congruence. }
  destruct (addr_eqb (ib_recipient it) token_authority) eqn:A.
  - apply addr_eqb_eq in A. unfold to. rewrite A, Cu. unfold owed. rewrite addr_eqb_refl. rewrite andb_false_r.
    destruct (st_mints s (cf_mint cf)) as [m|]; [|reflexivity]. destruct (mt_prog m); reflexivity.
  - apply owed_one; [exact Hh|]. rewrite Cu. unfold to. intros Q. apply addr_eqb_neq in A. apply A. unfold ata in Q. congruence.
Qed.
End Runs.

(** ** The hook of the tests *)
Lemma dummy_call_ok s w src mnt dst w' : dummy_transfer_hook s w src mnt dst = Ok w' ->
  exists n, du_count w = Some n /\ n < u64_max /\ w' = Dummy (Some (n + 1)) (du_metas w).
Proof.
  unfold dummy_transfer_hook. intros E. destruct (du_count w) as [n|] eqn:D; cbn [ok_or bind] in E; [|binds E; discriminate].
  binds E. apply Ok_inj in E. subst w'. exists n. split; [reflexivity|].
  match goal with Q : plain _ _ = Ok _ |- _ => apply ChainFacts.plain_ok in Q; destruct Q as [-> ?] end. split; [ilia|reflexivity].
Qed.
Lemma dummy_init_ok s w m w' : dummy_initialize s w m = Ok w' -> du_count w = None /\ du_metas w m = false /\
  w' = Dummy (Some 0) (fun m' => addr_eqb m' m || du_metas w m').
Proof.
  unfold dummy_initialize. intros E. binds E. unfold require in *. destruct (du_count w); [discriminate|]. destruct (du_metas w m); [discriminate|].
  apply Ok_inj in E. auto.
Qed.

Lemma dummy_execute_ok mints s w c w' : hk_execute (dummy_hook mints) s w c = Some w' ->
  du_metas w (hc_mint c) = true /\ exists n, du_count w = Some n /\ n < u64_max /\ w' = Dummy (Some (n + 1)) (du_metas w).
Proof.
  cbn. destruct (du_metas w (hc_mint c)); [|discriminate]. destruct (dummy_transfer_hook _ _ _ _ _) eqn:E; [|discriminate]. intros Q. apply Some_inj in Q. subst.
  split; [reflexivity|]. eapply dummy_call_ok. exact E.
Qed.

Lemma dummy_answers mints s : forall l w w' m n, answers (dummy_hook mints) s w l = Some w' -> du_count w = Some n ->
  (forall m', du_metas w m' = true <-> m' = m) ->
  du_count w' = Some (n + Z.of_nat (length l)) /\ du_metas w' = du_metas w /\ forall c, In c l -> hc_mint c = m.
Proof.
  induction l as [|c l IH]; intros w w' m n A C M; cbn [answers] in A.
  - apply Some_inj in A. subst. rewrite Z.add_0_r. split; [exact C|]. split; [reflexivity|]. contradiction.
  - destruct (hk_execute (dummy_hook mints) s w c) as [w1|] eqn:X; [|discriminate].
    apply dummy_execute_ok in X. destruct X as (Mc & n' & C' & _ & ->). assert (n' = n) by congruence. subst n'.
    destruct (IH _ _ m (n + 1) A) as (I1 & I2 & I3); [reflexivity|exact M|]. cbn [du_metas] in I2.
    split; [rewrite I1; f_equal; cbn [length]; lia|]. split; [exact I2|]. intros c' [<-|I]; [apply M; exact Mc|auto].
Qed.
Lemma dummy_silent mints s l w w' : answers (dummy_hook mints) s w l = Some w' -> (forall m, du_metas w m = false) -> l = [] /\ w' = w.
Proof.
  destruct l as [|c l]; cbn [answers]; intros A M; [apply Some_inj in A; auto|].
  destruct (hk_execute (dummy_hook mints) s w c) as [w1|] eqn:X; [|discriminate]. apply dummy_execute_ok in X. destruct X as (Mc & _). congruence.
Qed.

Lemma d_run_reach H mints s0 k s w : reachable H s0 -> d_run H mints s0 k s w -> reachable H s.
Proof.
  intros Hr. induction 1 as [|k s w c s' w' l R IH E|k s w m w' R IH E|k s w c w' R IH E]; try assumption.
  eapply step_reachable; [exact IH|]. eapply h_step_plain. exact E.
Qed.

Lemma d_run_count H mints s0 k s w : reachable H s0 -> d_run H mints s0 k s w ->
  (du_count w = None /\ k = [] /\ forall m, du_metas w m = false) \/
  (exists m, du_count w = Some (Z.of_nat (length k)) /\ forall m', du_metas w m' = true <-> m' = m).
Proof.
  intros Hr. induction 1 as [|k s w c s' w' l R IH E|k s w m w' R IH E|k s w c w' R IH E].
  - left. split; [reflexivity|]. split; [reflexivity|]. reflexivity.
  - pose proof (d_run_reach _ _ _ _ _ _ Hr R) as Hs. destruct (h_step_answers _ _ _ _ _ _ _ _ Hs E) as (mid & A).
    destruct IH as [(C & -> & M)|(m & C & M)].
    + destruct (dummy_silent _ _ _ _ _ A M) as (-> & ->). left. auto.
    + destruct (dummy_answers _ _ _ _ _ _ _ A C M) as (C' & M' & _). right. exists m. split.
      * rewrite C'. f_equal. rewrite app_length. lia.
      * rewrite M'. exact M.
  - apply dummy_init_ok in E. destruct E as (C & M & ->). destruct IH as [(_ & -> & Q)|(m0 & C' & _)]; [|congruence].
    right. exists m. cbn. split; [reflexivity|]. intros m'. rewrite (Q m'), orb_false_r. apply addr_eqb_eq.
  - apply dummy_call_ok in E. destruct E as (n & C & _ & ->). destruct IH as [(C' & _)|(m & C' & M)]; [congruence|].
    right. exists m. cbn [du_count du_metas]. split; [|exact M]. rewrite C in C'. apply Some_inj in C'. subst n. f_equal. cbn [length]. lia.
Qed.

Lemma told_other s m a l : (forall c, In c l -> hc_mint c <> m) -> told s m a l = 0.
Proof.
  induction l as [|c l IH]; intros Q; cbn [told fold_right]; [reflexivity|]. fold (told s m a l). rewrite IH by (intros; apply Q; now right).
  unfold told_one. destruct (addr_eqb (hc_mint c) m) eqn:E; [|reflexivity]. apply addr_eqb_eq in E. exfalso. exact (Q c (or_introl eq_refl) E).
Qed.

Lemma d_stuck H mints s0 k s w m sg i s' w' l a : reachable H s0 -> d_run H mints s0 k s w -> du_metas w m = false ->
  has_hook mints s m -> not_burnt_from s a -> h_step (dummy_hook mints) H s w (Call sg i) = Ok (s', w', l) ->
  held s' m a = held s m a + elsewhere m a i.
Proof.
  intros Hr R Hm Hh Hb E. pose proof (d_run_reach _ _ _ _ _ _ Hr R) as Hs. pose proof (h_step_plain _ _ _ _ _ _ _ _ E) as P.
  rewrite (step_told mints H _ _ _ _ _ _ Hs P Hh Hb). pose proof (h_step_due _ _ _ _ _ _ _ _ Hs E) as D. cbn [hk_mints dummy_hook ins] in D. rewrite <- D.
  destruct (h_step_answers _ _ _ _ _ _ _ _ Hs E) as (mid & A).
  rewrite told_other; [lia|]. intros c I Q. subst m.
  destruct (d_run_count _ _ _ _ _ _ Hr R) as [(_ & _ & M)|(m1 & C & M)].
  - destruct (dummy_silent _ _ _ _ _ A M) as (-> & _). contradiction.
  - destruct (dummy_answers _ _ _ _ _ _ _ A C M) as (_ & _ & Q). specialize (Q c I). apply M in Q. congruence.
Qed.

Lemma dummy_accepts s w src mnt dst w' : dummy_transfer_hook s w src mnt dst = Ok w' <->
  (exists t, st_toks s src = Some t /\ tk_mint t = mnt) /\ (exists m, st_mints s mnt = Some m) /\ (exists d, st_toks s dst = Some d /\ tk_mint d = mnt) /\
  exists n, du_count w = Some n /\ -1 <= n < u64_max /\ du_count w' = Some (n + 1) /\ du_metas w' = du_metas w.
Proof.
  unfold dummy_transfer_hook. split.
  - intros E. binds E. gets. bools. match goal with Q : plain _ _ = Ok _ |- _ => apply ChainFacts.plain_ok in Q; destruct Q as [-> ?] end. subst w'. cbn [du_count du_metas].
    split; [eauto|]. split; [eauto|]. split; [eauto|]. eexists. split; [eassumption|]. split; [lia|]. split; reflexivity.
  - intros ((t & -> & E1) & (m & ->) & (d & -> & E2) & n & -> & R & C & D). cbn [ok_or bind]. rewrite E1, E2, !addr_eqb_refl. cbn [andb require bind].
    rewrite RateLimitFacts.plain_ok by lia. cbn [bind]. destruct w' as [c f]. cbn [du_count du_metas] in C, D. subst c f. reflexivity.
Qed.

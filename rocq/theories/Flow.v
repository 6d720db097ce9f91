(** * How balances and supply can move. *)
From Verif Require Export Transact SpecAdmin.
Local Open Scope Z_scope.

Notation bal := balance (only parsing).
Notation supply := supply_of (only parsing).

Lemma bal_nonneg s a : ledger_ok s -> 0 <= bal s a.
Proof. intros [Ht _]. unfold bal. destruct (st_toks s a) eqn:E; [|lia]. destruct (Ht _ _ E) as (_&_&?&_). ilia. Qed.

(** The manager's own accounts have no delegate. *)
Lemma no_spend s a t auth x t' : ledger_ok s -> st_toks s a = Some t -> tk_owner t = token_authority -> auth <> token_authority ->
  spend t auth x = Ok t' -> False.
Proof.
  intros [Ht _] E Ho Hn Hs. destruct (Ht _ _ E) as (_&_&_&_&_&_&_&Hd). specialize (Hd Ho).
  apply spend_ok in Hs. destruct Hs as (_&_&_&_&[(Q&_)|(_&Q&_)]); congruence.
Qed.

Lemma op_amount s o s' a t : ledger_ok s -> op_ok o -> op_auth o <> Some token_authority -> run_op s o = Ok s' ->
  st_toks s a = Some t -> tk_owner t = token_authority -> bal s a <= bal s' a.
Proof.
  intros Hl Hok Hau E Ea Ho. pose proof Hl as [Ht Hm]. unfold bal. rewrite Ea.
  destruct o; cbn [run_op op_ok op_auth] in *.
  - apply tok_transfer_ok in E. destruct E as (t0 & d & m & t' & E1 & E2 & E3 & _ & _ & _ & _ & _ & _ & Hsp & _ & _ & [(_ & ->)|(Hne & _ & _ & _ & ->)]).
    + rewrite Ea. lia.
    + rewrite !upd_eq. destruct (addr_eq_dec a dst) as [->|].
      * cbn. assert (d = t) by congruence. subst. pose proof (fee_range _ _ _ (Hm _ _ E3) Hok). lia.
      * destruct (addr_eq_dec a src) as [->|]; [|rewrite Ea; lia].
        assert (t0 = t) by congruence. subst. exfalso. eapply (no_spend s); try eassumption. congruence.
  - apply tok_mint_to_ok in E. destruct E as (d & m & E1 & E2 & _ & _ & _ & _ & _ & _ & _ & -> & _).
    rewrite upd_eq. destruct (addr_eq_dec a dst) as [->|]; [|rewrite Ea; lia]. cbn. assert (d = t) by congruence. subst. lia.
  - apply tok_burn_ok in E. destruct E as (t0 & m & t' & E1 & E2 & _ & _ & _ & _ & Hsp & _ & _ & -> & _).
    rewrite upd_eq. destruct (addr_eq_dec a src) as [->|]; [|rewrite Ea; lia].
    assert (t0 = t) by congruence. subst. exfalso. eapply (no_spend s); try eassumption. congruence.
  - apply tok_init_ok in E. destruct E as (m & _ & _ & _ & E2 & _ & ->). cbn. rewrite upd_other by congruence. rewrite Ea. lia.
  - binds E. gets. bools. subst. cbn. rewrite upd_eq. destruct (addr_eq_dec a a0) as [->|]; [|rewrite Ea; lia].
    cbn. assert (v = t) by congruence. subst. lia.
  - binds E. gets. bools. subst. cbn. rewrite upd_eq. destruct (addr_eq_dec a a0) as [->|]; [|rewrite Ea; lia].
    cbn. assert (v = t) by congruence. subst. lia.
  - binds E. gets. bools. subst. cbn. rewrite Ea. lia.
  - binds E. gets. bools. subst. cbn. rewrite upd_eq. destruct (addr_eq_dec a a0) as [->|]; [|rewrite Ea; lia].
    cbn. assert (v = t) by congruence. subst. lia.
  - binds E. gets. bools. subst. cbn. rewrite upd_eq. destruct (addr_eq_dec a a0) as [->|]; [|rewrite Ea; lia].
    assert (v = t) by congruence. subst. congruence.
  - binds E. gets. bools. subst. cbn. rewrite Ea. lia.
  - binds E. gets. bools. subst. cbn. rewrite Ea. lia.
  - binds E. gets. bools. subst. cbn. rewrite upd_eq. destruct (addr_eq_dec a dst) as [->|]; [|rewrite Ea; lia].
    cbn. assert (v0 = t) by congruence. subst. lia.
Qed.

Definition burned_by_op (o : tokop) (m : addr) : Z := match o with OBurn _ _ mnt _ x => if addr_eq_dec mnt m then x else 0 | _ => 0 end.
Definition minted_by_op (o : tokop) (m : addr) : Z := match o with OMint _ mnt _ _ x => if addr_eq_dec mnt m then x else 0 | _ => 0 end.

Lemma op_supply s o s' a m : run_op s o = Ok s' -> st_mints s a = Some m ->
  supply s' a = supply s a + minted_by_op o a - burned_by_op o a.
Proof.
  intros E Ea. unfold supply. rewrite Ea. destruct o; cbn [run_op minted_by_op burned_by_op] in *.
  - apply tok_transfer_ok in E. destruct E as (t0 & d & mm & t' & E1 & E2 & E3 & _ & _ & _ & _ & _ & _ & Hsp & _ & _ & [(_ & ->)|(Hne & _ & _ & -> & _)]).
    + rewrite Ea. lia.
    + rewrite upd_eq. destruct (addr_eq_dec a mnt) as [->|]; [|rewrite Ea; lia]. cbn. assert (mm = m) by congruence. subst. lia.
  - apply tok_mint_to_ok in E. destruct E as (d & mm & E1 & E2 & _ & _ & _ & _ & _ & _ & _ & _ & ->).
    rewrite upd_eq. destruct (addr_eq_dec a mnt) as [Q|Q], (addr_eq_dec mnt a) as [Q'|Q']; try congruence; [subst a|rewrite Ea; lia].
    cbn. assert (mm = m) by congruence. subst. lia.
  - apply tok_burn_ok in E. destruct E as (t0 & mm & t' & E1 & E2 & _ & _ & _ & _ & Hsp & _ & _ & _ & ->).
    rewrite upd_eq. destruct (addr_eq_dec a mnt) as [Q|Q], (addr_eq_dec mnt a) as [Q'|Q']; try congruence; [subst a|rewrite Ea; lia].
    cbn. assert (mm = m) by congruence. subst. lia.
  - apply tok_init_ok in E. destruct E as (mm & _ & _ & _ & E2 & _ & ->). cbn. rewrite Ea. lia.
  - binds E. gets. bools. subst. cbn. rewrite Ea. lia.
  - binds E. gets. bools. subst. cbn. rewrite Ea. lia.
  - binds E. gets. bools. subst. cbn. rewrite upd_eq. destruct (addr_eq_dec a mnt) as [->|]; [|rewrite Ea; lia]. cbn. assert (v = m) by congruence. subst. lia.
  - binds E. gets. bools. subst. cbn. rewrite Ea. lia.
  - binds E. gets. bools. subst. cbn. rewrite Ea. lia.
  - binds E. frees. bools. frees. subst. cbn. rewrite upd_eq. destruct (addr_eq_dec a a0) as [->|]; [congruence|rewrite Ea; lia].
  - binds E. gets. bools. subst. cbn. rewrite upd_eq. destruct (addr_eq_dec a mnt) as [->|]; [|rewrite Ea; lia]. cbn. assert (v = m) by congruence. subst. lia.
  - binds E. gets. bools. subst s'. cbn. rewrite upd_eq. destruct (addr_eq_dec a mnt) as [->|]; [|rewrite Ea; lia]. cbn. assert (v = m) by congruence. subst. lia.
Qed.

(** Third parties cannot act as the token authority. *)
Lemma env_no_authority sg i o : forallb can_sign sg = true -> (forall a, op_auth o = Some a -> signed sg a = true) ->
  env_op i = Some o -> op_auth o <> Some token_authority.
Proof. intros Hsg Q _ C. apply Q in C. apply (signed_can _ _ Hsg) in C. discriminate. Qed.

Lemma env_mint s o s' a m : op_auth o <> Some token_authority -> run_op s o = Ok s' -> st_mints s a = Some m ->
  mt_auth m = Some token_authority -> minted_by_op o a = 0.
Proof.
  intros Hau E Ea Hm. destruct o; cbn; try reflexivity. cbn in *. destruct (addr_eq_dec mnt a) as [->|]; [|reflexivity].
  apply tok_mint_to_ok in E. destruct E as (d & mm & _ & E2 & _ & _ & _ & Ha & _). congruence.
Qed.

(** ** Balances after single operations, exactly. *)
Lemma bal_same s s' a : same_ledger s s' -> bal s' a = bal s a.
Proof. intros [E _]. unfold bal. now rewrite E. Qed.
Lemma supply_same s s' a : same_ledger s s' -> supply s' a = supply s a.
Proof. intros [_ E]. unfold supply. now rewrite E. Qed.

(** A transfer between two accounts. *)
Lemma transfer_bal s p src mnt dst auth x ok s' : ledger_ok s -> tok_transfer s p src mnt dst auth x ok = Ok s' -> 0 <= x ->
  exists m, st_mints s mnt = Some m /\ 0 <= fee_of m x <= x /\ (forall b, supply s' b = supply s b) /\ x <= bal s src /\
    ((src = dst /\ s' = s) \/
     (src <> dst /\ bal s' src = bal s src - x /\ bal s' dst = bal s dst + (x - fee_of m x) /\
      forall b, b <> src -> b <> dst -> st_toks s' b = st_toks s b)).
Proof.
  intros [Ht Hm] E Hx. apply tok_transfer_ok in E.
  destruct E as (t0 & d & m & t' & E1 & E2 & E3 & _ & _ & _ & _ & _ & Hle & Hsp & _ & _ & Q).
  exists m. split; [exact E3|]. split; [exact (fee_range _ _ _ (Hm _ _ E3) Hx)|].
  assert (Hb : x <= bal s src) by (unfold bal; rewrite E1; exact Hle).
  destruct Q as [(-> & ->)|(Hne & _ & _ & Qm & Qt)]; [auto|].
  assert (Hs : forall b, supply s' b = supply s b).
  { intros b. unfold supply. rewrite Qm. rewrite upd_eq. destruct (addr_eq_dec b mnt) as [->|]; [|reflexivity]. rewrite E3. reflexivity. }
  split; [exact Hs|]. split; [exact Hb|]. right. split; [exact Hne|]. unfold bal. rewrite Qt.
  rewrite upd_other, upd_same, upd_same by assumption. rewrite E1, E2. cbn. split; [reflexivity|]. split; [reflexivity|].
  intros b B1 B2. rewrite !upd_other by assumption. reflexivity.
Qed.

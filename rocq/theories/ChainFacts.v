(** * Facts about the platform model: maps, account access, token operations. *)
From Verif Require Export Exec.
Local Open Scope Z_scope.

(** ** Reflection *)
Lemma prog_eqb_eq p q : prog_eqb p q = true <-> p = q.
Proof. unfold prog_eqb; destruct (prog_eq_dec p q); intuition congruence. Qed.
Lemma addr_eqb_eq a b : addr_eqb a b = true <-> a = b.
Proof. unfold addr_eqb; destruct (addr_eq_dec a b); intuition congruence. Qed.
Lemma addr_eqb_refl a : addr_eqb a a = true.
Proof. now apply addr_eqb_eq. Qed.
Lemma addr_eqb_neq a b : addr_eqb a b = false <-> a <> b.
Proof. unfold addr_eqb; destruct (addr_eq_dec a b); intuition congruence. Qed.
Lemma oaddr_eqb_eq o a : oaddr_eqb o a = true <-> o = Some a.
Proof. destruct o; cbn; [rewrite addr_eqb_eq|]; intuition congruence. Qed.
Lemma mode_eqb_eq a b : mode_eqb a b = true <-> a = b.
Proof. destruct a, b; cbn; intuition congruence. Qed.
Lemma signed_In sg a : signed sg a = true <-> In a sg.
Proof.
  unfold signed. rewrite existsb_exists. split.
  - intros (x & Hx & He). apply addr_eqb_eq in He. now subst.
  - intros; exists a. split; [assumption|apply addr_eqb_refl].
Qed.
Lemma signed_can sg a : forallb can_sign sg = true -> signed sg a = true -> can_sign a = true.
Proof. rewrite forallb_forall, signed_In. auto. Qed.

Lemma upd_same {A} (m : addr -> option A) a v : upd m a v a = v.
Proof. unfold upd. now rewrite addr_eqb_refl. Qed.
Lemma upd_other {A} (m : addr -> option A) a v b : b <> a -> upd m a v b = m b.
Proof. unfold upd. intros Hn. apply addr_eqb_neq in Hn. now rewrite Hn. Qed.
Lemma upd_eq {A} (m : addr -> option A) a v b : upd m a v b = if addr_eq_dec b a then v else m b.
Proof. unfold upd, addr_eqb. destruct (addr_eq_dec b a); reflexivity. Qed.

Lemma bool_true (b : bool) : b = true -> b = true. Proof. auto. Qed.

(** ** Inversion of successful computations *)
Lemma bind_ok {A B} (x : result A) (f : A -> result B) b : bind x f = Ok b -> exists a, x = Ok a /\ f a = Ok b.
Proof. destruct x; cbn; [eauto|discriminate]. Qed.
Lemma require_ok b e u : require b e = Ok u -> b = true.
Proof. unfold require; destruct b; congruence. Qed.
Lemma ok_or_ok {A} (o : option A) e a : ok_or o e = Ok a -> o = Some a.
Proof. destruct o; cbn; congruence. Qed.
Lemma checked_ok m z x : checked m z = Some x -> x = z /\ 0 <= z <= m.
Proof. unfold checked; destruct (_ && _) eqn:E; [|discriminate]. intros [= <-]. lia. Qed.
Lemma plain_ok m z x : plain m z = Ok x -> x = z /\ 0 <= z <= m.
Proof. unfold plain. intros E. apply ok_or_ok, checked_ok in E. assumption. Qed.
Lemma plain_i64_ok z x : plain_i64 z = Ok x -> x = z /\ is_i64 z.
Proof. unfold plain_i64. destruct (_ && _) eqn:E; [|discriminate]. intros [= <-]. ilia. Qed.
Lemma Ok_inj {A} (a b : A) : Ok a = Ok b -> a = b. Proof. congruence. Qed.

(** Destruct every bind of [H : ... = Ok _]. *)
Ltac binds H :=
  repeat first
   [ match type of H with
     | bind _ _ = Ok _ =>
       let x := fresh "v" in let E := fresh "E" in
       apply bind_ok in H; destruct H as (x & E & H); cbv beta in H
     | (let (_, _) := ?p in _) = Ok _ => destruct p; cbv iota beta in H
     | (match ?p with (_, _) => _ end) = Ok _ => destruct p; cbv iota beta in H
     end ].
Ltac bools :=
  repeat match goal with
  | E : require _ _ = Ok _ |- _ => apply require_ok in E
  | E : ok_or _ _ = Ok _ |- _ => apply ok_or_ok in E
  | E : checked _ _ = Some _ |- _ => apply checked_ok in E; destruct E as [? ?]; subst
  | E : _ && _ = true |- _ => apply andb_true_iff in E; destruct E as [? ?]
  | E : negb _ = true |- _ => apply negb_true_iff in E
  | E : addr_eqb _ _ = true |- _ => apply addr_eqb_eq in E
  | E : prog_eqb _ _ = true |- _ => apply prog_eqb_eq in E
  | E : oaddr_eqb _ _ = true |- _ => apply oaddr_eqb_eq in E
  | E : mode_eqb _ _ = true |- _ => apply mode_eqb_eq in E
  | E : Ok _ = Ok _ |- _ => apply Ok_inj in E
  | v : unit |- _ => destruct v
  end.

(** ** Account access *)
Definition has (s : state) (a : addr) (p : prog) (d : data) : Prop := st_accts s a = Some (Acct p d).

Lemma get_ok s p a d : get s p a = Ok d <-> has s a p d.
Proof.
  unfold get, has. destruct (st_accts s a) as [[o x]|]; cbn; [|split; discriminate].
  destruct (prog_eqb o p) eqn:E.
  - apply prog_eqb_eq in E. subst. split; congruence.
  - split; [discriminate|]. intros [= -> ->]. unfold prog_eqb in E. destruct (prog_eq_dec p p); congruence.
Qed.

Ltac get_tac :=
  let E := fresh "E" in let E0 := fresh "E" in let d := fresh "d" in
  split; [intros E; apply bind_ok in E; destruct E as (d & E0 & E); apply get_ok in E0;
          destruct d; try discriminate E; apply Ok_inj in E; subst; assumption
         |intros E; apply get_ok in E; unfold get_config, get_peer, get_outbox_item, get_outbox_rl, get_inbox_item,
            get_inbox_rl, get_reg, get_xpeer, get_vtm; rewrite E; reflexivity].
Lemma get_config_ok s a c : get_config s a = Ok c <-> has s a PManager (DConfig c). Proof. get_tac. Qed.
Lemma get_peer_ok s a c : get_peer s a = Ok c <-> has s a PManager (DPeer c). Proof. get_tac. Qed.
Lemma get_outbox_item_ok s a c : get_outbox_item s a = Ok c <-> has s a PManager (DOutboxItem c). Proof. get_tac. Qed.
Lemma get_outbox_rl_ok s a c : get_outbox_rl s a = Ok c <-> has s a PManager (DOutboxRL c). Proof. get_tac. Qed.
Lemma get_inbox_item_ok s a c : get_inbox_item s a = Ok c <-> has s a PManager (DInboxItem c). Proof. get_tac. Qed.
Lemma get_inbox_rl_ok s a c : get_inbox_rl s a = Ok c <-> has s a PManager (DInboxRL c). Proof. get_tac. Qed.
Lemma get_reg_ok s a c : get_reg s a = Ok c <-> has s a PManager (DReg c). Proof. get_tac. Qed.
Lemma get_xpeer_ok s p a c : get_xpeer s p a = Ok c <-> has s a p (DXPeer c). Proof. get_tac. Qed.

Lemma get_message_ok s a o c m : get_message s a o = Ok (c, m) <-> exists p, o = AProg p /\ has s a p (DVtm c m).
Proof.
  unfold get_message, has. destruct (st_accts s a) as [[p d]|]; [|split; [discriminate|intros (?&_&?); discriminate]].
  destruct d; try (split; [discriminate|intros (?&_&[=])]).
  destruct (addr_eqb (AProg p) o) eqn:E.
  - apply addr_eqb_eq in E. subst. split.
    + intros [= <- <-]. eauto.
    + intros (q & _ & [= -> -> ->]). reflexivity.
  - apply addr_eqb_neq in E. split; [discriminate|]. intros (q & -> & [= -> -> ->]). congruence.
Qed.

Lemma get_tok_ok s p a t : get_tok s p a = Ok t <-> st_toks s a = Some t /\ tk_prog t = p.
Proof.
  unfold get_tok. destruct (st_toks s a) as [u|]; [|split; [discriminate|intros [? _]; discriminate]].
  destruct (prog_eqb (tk_prog u) p) eqn:E.
  - apply prog_eqb_eq in E. split; [intros [= <-]; auto|intros [[= ->] _]; auto].
  - split; [discriminate|]. intros [[= ->] <-]. unfold prog_eqb in E. destruct (prog_eq_dec (tk_prog t) (tk_prog t)); congruence.
Qed.
Lemma get_mint_ok s p a t : get_mint s p a = Ok t <-> st_mints s a = Some t /\ mt_prog t = p.
Proof.
  unfold get_mint. destruct (st_mints s a) as [u|]; [|split; [discriminate|intros [? _]; discriminate]].
  destruct (prog_eqb (mt_prog u) p) eqn:E.
  - apply prog_eqb_eq in E. split; [intros [= <-]; auto|intros [[= ->] _]; auto].
  - split; [discriminate|]. intros [[= ->] <-]. unfold prog_eqb in E. destruct (prog_eq_dec (mt_prog t) (mt_prog t)); congruence.
Qed.
Lemma any_tok_ok s a t : any_tok s a = Ok t <-> st_toks s a = Some t.
Proof. unfold any_tok, ok_or. destruct (st_toks s a); intuition congruence. Qed.
Lemma any_mint_ok s a t : any_mint s a = Ok t <-> st_mints s a = Some t.
Proof. unfold any_mint, ok_or. destruct (st_mints s a); intuition congruence. Qed.

Lemma free_ok s a : free s a = true -> st_accts s a = None /\ st_toks s a = None /\ st_mints s a = None.
Proof. unfold free. destruct a, (st_accts s _), (st_toks s _), (st_mints s _); try discriminate; auto. Qed.

Lemma get_not_paused_ok s a c : get_not_paused s a = Ok c <-> has s a PManager (DConfig c) /\ cf_paused c = false.
Proof.
  unfold get_not_paused. split.
  - intros E. binds E. bools. apply get_config_ok in E0. subst. auto.
  - intros [E Hp]. apply get_config_ok in E. rewrite E; cbn. now rewrite Hp.
Qed.
Lemma get_owned_ok s sg a o c : get_owned s sg a o = Ok c <-> has s a PManager (DConfig c) /\ cf_owner c = o /\ signed sg o = true.
Proof.
  unfold get_owned. split.
  - intros E. binds E. bools. apply get_config_ok in E0. subst. auto.
  - intros (E & <- & Hs). apply get_config_ok in E. rewrite E; cbn. now rewrite addr_eqb_refl, Hs.
Qed.

Ltac gets :=
  repeat match goal with
  | E : get _ _ _ = Ok _ |- _ => apply get_ok in E
  | E : get_config _ _ = Ok _ |- _ => apply get_config_ok in E
  | E : get_peer _ _ = Ok _ |- _ => apply get_peer_ok in E
  | E : get_outbox_item _ _ = Ok _ |- _ => apply get_outbox_item_ok in E
  | E : get_outbox_rl _ _ = Ok _ |- _ => apply get_outbox_rl_ok in E
  | E : get_inbox_item _ _ = Ok _ |- _ => apply get_inbox_item_ok in E
  | E : get_inbox_rl _ _ = Ok _ |- _ => apply get_inbox_rl_ok in E
  | E : get_reg _ _ = Ok _ |- _ => apply get_reg_ok in E
  | E : get_xpeer _ _ _ = Ok _ |- _ => apply get_xpeer_ok in E
  | E : get_message _ _ _ = Ok _ |- _ => apply get_message_ok in E; destruct E as (? & ? & E)
  | E : get_not_paused _ _ = Ok _ |- _ => apply get_not_paused_ok in E; destruct E as [E ?]
  | E : get_owned _ _ _ _ = Ok _ |- _ => apply get_owned_ok in E; destruct E as (E & ? & ?)
  | E : get_tok _ _ _ = Ok _ |- _ => apply get_tok_ok in E; destruct E as [E ?]
  | E : get_mint _ _ _ = Ok _ |- _ => apply get_mint_ok in E; destruct E as [E ?]
  | E : any_tok _ _ = Ok _ |- _ => apply any_tok_ok in E
  | E : any_mint _ _ = Ok _ |- _ => apply any_mint_ok in E
  end.
Ltac frees := repeat match goal with E : free _ _ = true |- _ => apply free_ok in E; destruct E as (? & ? & ?) end.

(** ** Token operations touch only token accounts and mints. *)
Definition same_prog (s s' : state) : Prop :=
  st_accts s' = st_accts s /\ st_now s' = st_now s /\ st_uauth s' = st_uauth s /\ st_posted s' = st_posted s.
Lemma same_prog_refl s : same_prog s s. Proof. repeat split. Qed.
Lemma same_prog_trans a b c : same_prog a b -> same_prog b c -> same_prog a c.
Proof. unfold same_prog; intuition congruence. Qed.

Lemma spend_ok t auth x t' : spend t auth x = Ok t' ->
  tk_prog t' = tk_prog t /\ tk_mint t' = tk_mint t /\ tk_owner t' = tk_owner t /\ tk_amount t' = tk_amount t /\
  ((tk_delegate t = Some auth /\ x <= tk_delegated t /\ tk_delegated t' = tk_delegated t - x /\
    (tk_delegate t' = if tk_delegated t - x =? 0 then None else Some auth)) \/
   (tk_delegate t <> Some auth /\ tk_owner t = auth /\ t' = t)).
Proof.
  unfold spend. destruct (oaddr_eqb (tk_delegate t) auth) eqn:D; intros E; binds E; bools.
  - subst. cbn. repeat split; try reflexivity. left. rewrite D. repeat split; try lia. 
  - subst. repeat split; try reflexivity. right. repeat split. intros C. apply oaddr_eqb_eq in C. congruence.
Qed.

(** [TransferChecked] *)
Lemma tok_transfer_ok s p src mnt dst auth x ok s' : tok_transfer s p src mnt dst auth x ok = Ok s' ->
  exists t d m t', st_toks s src = Some t /\ st_toks s dst = Some d /\ st_mints s mnt = Some m /\
    tk_prog t = p /\ tk_prog d = p /\ mt_prog m = p /\ tk_mint t = mnt /\ tk_mint d = mnt /\ x <= tk_amount t /\
    spend t auth x = Ok t' /\ same_prog s s' /\ ok = true /\
    ((src = dst /\ s' = s) \/
     (src <> dst /\ is_u64 (tk_amount d + (x - fee_of m x)) /\ is_u64 (mt_withheld m + fee_of m x) /\
      st_mints s' = upd (st_mints s) mnt (Some (with_withheld m (mt_withheld m + fee_of m x))) /\
      st_toks s' = upd (upd (st_toks s) src (Some (with_amount t' (tk_amount t - x)))) dst
                       (Some (with_amount d (tk_amount d + (x - fee_of m x)))))).
Proof.
  unfold tok_transfer. intros E. binds E. gets. bools.
  exists v, v0, v1, v4. repeat (split; [first [assumption|lia|congruence]|]).
  destruct (addr_eqb src dst) eqn:D.
  - bools. subst. split; [apply same_prog_refl|]. split; [reflexivity|]. left; auto.
  - apply addr_eqb_neq in D. binds E. bools. subst. split; [repeat split|]. split; [reflexivity|].
    right. repeat split; try assumption; ilia.
Qed.

Lemma tok_mint_to_ok s p mnt dst auth x s' : tok_mint_to s p mnt dst auth x = Ok s' ->
  exists d m, st_toks s dst = Some d /\ st_mints s mnt = Some m /\ tk_prog d = p /\ mt_prog m = p /\ tk_mint d = mnt /\
    mt_auth m = Some auth /\ is_u64 (tk_amount d + x) /\ is_u64 (mt_supply m + x) /\ same_prog s s' /\
    st_toks s' = upd (st_toks s) dst (Some (with_amount d (tk_amount d + x))) /\
    st_mints s' = upd (st_mints s) mnt (Some (with_supply m (mt_supply m + x))).
Proof.
  unfold tok_mint_to. intros E. binds E. gets. bools. subst.
  exists v0, v. repeat (split; [first [assumption|reflexivity|ilia]|]). repeat split.
Qed.

Lemma tok_burn_ok s p src mnt auth x s' : tok_burn s p src mnt auth x = Ok s' ->
  exists t m t', st_toks s src = Some t /\ st_mints s mnt = Some m /\ tk_prog t = p /\ mt_prog m = p /\ tk_mint t = mnt /\
    x <= tk_amount t /\ spend t auth x = Ok t' /\ is_u64 (mt_supply m - x) /\ same_prog s s' /\
    st_toks s' = upd (st_toks s) src (Some (with_amount t' (tk_amount t - x))) /\
    st_mints s' = upd (st_mints s) mnt (Some (with_supply m (mt_supply m - x))).
Proof.
  unfold tok_burn. intros E. binds E. gets. bools. subst.
  exists v, v0, v3. repeat (split; [first [assumption|reflexivity|ilia|congruence]|]). repeat split.
Qed.

Lemma tok_init_ok s p a mnt owner s' : tok_init s p a mnt owner = Ok s' ->
  exists m, st_mints s mnt = Some m /\ mt_prog m = p /\ st_accts s a = None /\ st_toks s a = None /\ st_mints s a = None /\
    s' = put_tok a (Tok p mnt owner 0 None 0) s.
Proof. unfold tok_init. intros E. binds E. bools. gets. frees. subst. eauto 10. Qed.

Lemma init_custody_ok s tp mnt s' : init_custody s tp mnt = Ok s' ->
  same_prog s s' /\ st_mints s' = st_mints s /\
  ((exists t, st_toks s (ata tp token_authority mnt) = Some t /\ tk_prog t = tp /\ tk_mint t = mnt /\ tk_owner t = token_authority /\ s' = s) \/
   (exists m, st_mints s mnt = Some m /\ mt_prog m = tp /\ st_toks s (ata tp token_authority mnt) = None /\
      s' = put_tok (ata tp token_authority mnt) (Tok tp mnt token_authority 0 None 0) s)).
Proof.
  unfold init_custody. destruct (st_toks s (ata tp token_authority mnt)) as [t|] eqn:T; intros E.
  - binds E. bools. subst. split; [apply same_prog_refl|]. split; [reflexivity|]. left. eauto 10.
  - apply tok_init_ok in E. destruct E as (m & ? & ? & ? & ? & ? & ->). split; [repeat split|]. split; [reflexivity|].
    right. eauto 10.
Qed.

Lemma loader_ok s cur new s' : loader_set_authority s cur new = Ok s' -> st_uauth s = Some cur /\ s' = set_uauth new s.
Proof. unfold loader_set_authority. intros E. binds E. bools. auto. Qed.

Lemma bridge_post_ok s m e pl ok s' : bridge_post s m e pl ok = Ok s' ->
  ok = true /\ st_accts s m = None /\ st_toks s m = None /\ st_mints s m = None /\
  s' = set_posted (Post e pl :: st_posted s) (put m PWormhole DPosted s).
Proof. unfold bridge_post. intros E. binds E. bools. frees. auto 10. Qed.

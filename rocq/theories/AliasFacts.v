(** * Proofs about one account in two places (C91). *)
From Coq Require Import String.
From Verif Require Export SpecAlias IdlFacts QEntryFacts.
From Verif Require Import TokOps Inv Flow DispatchFacts ChainFacts QuoterFacts.
Import ListNotations.
Local Open Scope Z_scope.
Local Open Scope list_scope.
Local Strategy 1000 [sha256].

(** ** An address holds one kind of account. *)
Definition apart3 (x : option acct) (y : option tok) (z : option mint) : Prop := (x <> None -> y = None /\ z = None) /\ (y <> None -> z = None).
Lemma one_kind_at s : one_kind s <-> forall a, apart3 (st_accts s a) (st_toks s a) (st_mints s a).
Proof. reflexivity. Qed.
Definition still (s s' : state) : Prop :=
  st_accts s' = st_accts s /\ (forall a, st_toks s' a = None <-> st_toks s a = None) /\ (forall a, st_mints s' a = None <-> st_mints s a = None).
Lemma still_kind s s' : still s s' -> one_kind s -> one_kind s'.
Proof.
  intros (A & B & C) K a. destruct (K a) as [K1 K2]. specialize (B a). specialize (C a). rewrite A. split; intros X.
  - destruct (K1 X). tauto.
  - apply C, K2. tauto.
Qed.
Lemma still_trans s t u : still s t -> still t u -> still s u.
Proof. intros (A & B & C) (A' & B' & C'). split; [congruence|]. split; intros a; [rewrite B', B|rewrite C', C]; reflexivity. Qed.
Lemma upd_none {A} (f : addr -> option A) a x : f a <> None -> x <> None -> forall b, upd f a x b = None <-> f b = None.
Proof. intros Fa X b. rewrite upd_eq. destruct (addr_eq_dec b a); [subst; tauto|tauto]. Qed.
Lemma none_upd {A} (f g : addr -> option A) a y : f a = Some y -> (forall b, g b = None <-> f b = None) -> g a <> None.
Proof. intros E G X. apply G in X. congruence. Qed.
Lemma transfer_still s p src mnt dst auth x ok s' : tok_transfer s p src mnt dst auth x ok = Ok s' -> still s s'.
Proof.
  intros E. apply tok_transfer_ok in E. destruct E as (t & d & m & t' & Et & Ed & Em & _ & _ & _ & _ & _ & _ & _ & (A & _) & _ & [(_ & ->)|(_ & _ & _ & Q1 & Q2)]).
  { repeat split; auto. }
  split; [exact A|]. split; intros a; [rewrite Q2|rewrite Q1].
  - rewrite upd_none; [apply upd_none; congruence| |discriminate]. rewrite upd_eq. destruct (addr_eq_dec dst src); congruence.
  - apply upd_none; congruence.
Qed.
Lemma mint_still s p mnt dst auth x s' : tok_mint_to s p mnt dst auth x = Ok s' -> still s s'.
Proof.
  intros E. apply tok_mint_to_ok in E. destruct E as (d & m & Ed & Em & _ & _ & _ & _ & _ & _ & (A & _) & Q1 & Q2).
  split; [exact A|]. split; intros a; [rewrite Q1|rewrite Q2]; apply upd_none; congruence.
Qed.
Lemma burn_still s p src mnt auth x s' : tok_burn s p src mnt auth x = Ok s' -> still s s'.
Proof.
  intros E. apply tok_burn_ok in E. destruct E as (d & m & t' & Ed & Em & _ & _ & _ & _ & _ & _ & (A & _) & Q1 & Q2).
  split; [exact A|]. split; intros a; [rewrite Q1|rewrite Q2]; apply upd_none; congruence.
Qed.
Lemma put_kind a p d s : (st_accts s a <> None \/ st_toks s a = None /\ st_mints s a = None) -> one_kind s -> one_kind (put a p d s).
Proof.
  intros F K b. cbn [put set_accts st_accts st_toks st_mints]. rewrite upd_eq. destruct (K b) as [K1 K2]. split; [|exact K2].
  destruct (addr_eq_dec b a); [subst b|exact K1]. intros _. destruct F as [F|F]; [apply K1, F|exact F].
Qed.
Lemma put_tok_kind a t s : (st_toks s a <> None \/ st_accts s a = None /\ st_mints s a = None) -> one_kind s -> one_kind (put_tok a t s).
Proof.
  intros F K b. cbn [put_tok set_toks st_accts st_toks st_mints]. rewrite upd_eq. destruct (K b) as [K1 K2].
  destruct (addr_eq_dec b a); [subst b|split; assumption]. split; [|intros _; destruct F as [F|F]; [apply K2, F|apply F]].
  intros X. destruct F as [F|[F _]]; [|contradiction]. destruct (K1 X). contradiction.
Qed.
Lemma put_mint_kind a t s : (st_mints s a <> None \/ st_accts s a = None /\ st_toks s a = None) -> one_kind s -> one_kind (put_mint a t s).
Proof.
  intros F K b. cbn [put_mint set_mints st_accts st_toks st_mints]. rewrite upd_eq. destruct (K b) as [K1 K2].
  destruct (addr_eq_dec b a); [subst b|split; assumption]. split; intros X; exfalso; destruct F as [F|[F F']]; try contradiction; [destruct (K1 X); contradiction|apply F, K2, X].
Qed.
Lemma reserved_bare s a : inv s -> reserved a -> st_toks s a = None /\ st_mints s a = None.
Proof.
  intros I R. destruct (inv_ledger s I) as [T M]. split.
  - destruct (st_toks s a) as [t|] eqn:E; [|reflexivity]. destruct (T _ _ E) as (C & _). contradiction.
  - destruct (st_mints s a) as [t|] eqn:E; [|reflexivity]. destruct (M _ _ E) as (C & _). contradiction.
Qed.
Lemma posted_kind l s : one_kind s -> one_kind (set_posted l s). Proof. exact (fun x => x). Qed.
Lemma uauth_kind l s : one_kind s -> one_kind (set_uauth l s). Proof. exact (fun x => x). Qed.
Lemma get_tok_some s p a t : get_tok s p a = Ok t -> st_toks s a <> None.
Proof. unfold get_tok. destruct (st_toks s a); discriminate || congruence. Qed.
Lemma get_mint_some s p a t : get_mint s p a = Ok t -> st_mints s a <> None.
Proof. unfold get_mint. destruct (st_mints s a); discriminate || congruence. Qed.
Lemma has_some s a p d : has s a p d -> st_accts s a <> None.
Proof. unfold has. congruence. Qed.

Lemma out_kind s s1 x a f pe t orl irl orl' irl' ts : one_kind s -> still s s1 -> free s (xa_outbox_item x) = true ->
  has s (xa_outbox_rl x) PManager (DOutboxRL orl) -> has s (pda_inbox_rl (ar_chain a)) PManager (DInboxRL irl) -> one_kind (out_puts s1 x a f pe t orl' irl' ts).
Proof.
  intros K S F O I. destruct (free_ok _ _ F) as (F1 & F2 & F3). pose proof S as (A & B & C). unfold out_puts.
  apply put_kind; [|apply put_kind; [|apply put_kind; [|exact (still_kind _ _ S K)]]].
  - right. split; [apply B, F2|apply C, F3].
  - left. cbn [put set_accts st_accts]. rewrite upd_eq. destruct (addr_eq_dec _ _); [discriminate|]. rewrite A. exact (has_some _ _ _ _ I).
  - left. rewrite A. exact (has_some _ _ _ _ O).
Qed.

Ltac free3 := match goal with F : free ?s ?a = true |- _ => let F1 := fresh "Fa" in let F2 := fresh "Ft" in let F3 := fresh "Fm" in destruct (free_ok s a F) as (F1 & F2 & F3) end.
Lemma one_kind_step H s c s' : inv s -> one_kind s -> step H s c = Ok s' -> one_kind s'.
Proof.
  intros Hi K Hs. apply step_inv in Hs. destruct Hs as (Hcs & Hty & He). destruct c as [sg i]; cbn [signers ins] in *.
  assert (R : forall a p d t, reserved a -> st_toks t a = st_toks s a -> st_mints t a = st_mints s a -> one_kind t -> one_kind (put a p d t)).
  { intros a p d t Ra T M Kt. apply put_kind; [|exact Kt]. right. rewrite T, M. apply reserved_bare; assumption. }
  destruct i; cbn [exec typed] in He, Hty.
  - unfold initialize in He. binds He. bools. subst s'. rename v6 into t, E6 into Ec.
    assert (Kt : one_kind t /\ forall a, reserved a -> st_toks t a = st_toks s a /\ st_mints t a = st_mints s a).
    { unfold init_custody in Ec. destruct (st_toks s (ata tp token_authority mnt)) as [u|] eqn:Et; [binds Ec; bools; subst t; auto|].
      apply tok_init_ok in Ec. destruct Ec as (m0 & _ & _ & A & B & C & ->). split; [apply put_tok_kind; auto|].
      intros a Ra. cbn [put_tok set_toks st_toks st_mints]. rewrite upd_eq. destruct (addr_eq_dec a _); [|auto]. subst a. destruct Ra. }
    destruct Kt as [Kt Rt]. apply put_kind; [|apply put_kind; [|exact Kt]]; right; cbn [put set_accts st_toks st_mints].
    + destruct (Rt pda_outbox_rl I) as [-> ->]. apply reserved_bare; [assumption|exact I].
    + destruct (Rt pda_config I) as [-> ->]. apply reserved_bare; [assumption|exact I].
  - unfold initialize_lut in He. binds He. bools. subst s'. apply R; auto. exact I.
  - apply transfer_lock_ok in He. destruct He as (cf & mt & f & pe & am & t & orl & irl & orl' & irl' & ts & s1 & cu & cu' & HF & HT & _ & _ & _ & ->).
    apply transfer_still in HT. destruct HF. eapply out_kind; eassumption.
  - apply transfer_burn_ok in He. destruct He as (cf & mt & f & pe & am & t & orl & irl & orl' & irl' & ts & s1 & s2 & cu & cu' & HF & HT & HB & _ & _ & _ & ->).
    apply transfer_still in HT. apply burn_still in HB. pose proof (still_trans _ _ _ HT HB). destruct HF. eapply out_kind; eassumption.
  - apply redeem_ok in He.
    destruct He as (cf & rt & p & chain & tm & pe & mt & old & new & irl & orl & am & n & HF & [(Hn & ->)|(Hn & Hst & irl' & orl' & ts & HL & ->)]).
    + apply R; auto. exact I.
    + apply R; [exact I|reflexivity|reflexivity|]. apply put_kind; [|apply R; auto; exact I]. left. cbn [put set_accts st_accts].
      rewrite upd_eq. destruct (addr_eq_dec _ _); [discriminate|]. exact (has_some _ _ _ _ (rf_orl _ _ _ _ _ _ _ _ _ _ _ _ _ _ _ _ HF)).
  - apply release_mint_ok in He. destruct He as (cf & it & mt & rt & HF & [(-> & _)|(ts & s1 & s2 & Hst & Ht & HM & HT & ->)]); [exact K|].
    apply transfer_still in HT. apply mint_still in HM. pose proof (still_trans _ _ _ HM HT) as S. apply put_kind; [|exact (still_kind _ _ S K)].
    left. destruct S as (-> & _). exact (has_some _ _ _ _ (lf_item _ _ _ _ _ _ _ HF)).
  - apply release_unlock_ok in He. destruct He as (cf & it & mt & rt & HF & [(-> & _)|(ts & s1 & Hst & Ht & HT & ->)]); [exact K|].
    apply transfer_still in HT. apply put_kind; [|exact (still_kind _ _ HT K)]. left. destruct HT as (-> & _). exact (has_some _ _ _ _ (lf_item _ _ _ _ _ _ _ HF)).
  - unfold transfer_ownership in He. binds He. gets. apply loader_ok in He. destruct He as (Hu & ->). apply uauth_kind, put_kind; [|exact K]. left. congruence.
  - unfold transfer_ownership_one_step_unchecked in He. binds He. gets. apply loader_ok in He. destruct He as (Hu & ->). apply uauth_kind, put_kind; [|exact K]. left. congruence.
  - unfold claim_ownership in He. binds He. gets. bools. apply loader_ok in He. destruct He as (Hu & ->). apply uauth_kind, put_kind; [|exact K]. left. congruence.
  - unfold set_paused in He. binds He. gets. bools. subst s'. apply put_kind; [|exact K]. left. congruence.
  - unfold set_peer in He. binds He. bools. subst s'. apply R; [exact I|reflexivity|reflexivity|]. apply R; auto. exact I.
  - unfold register_transceiver in He. binds He. gets. bools. subst s'. apply put_kind; [|apply R; auto; exact I].
    left. cbn [put set_accts st_accts]. rewrite upd_eq. destruct (addr_eq_dec _ _); [discriminate|]. congruence.
  - unfold set_outbound_limit in He. binds He. gets. bools. subst s'. apply put_kind; [|exact K]. left. congruence.
  - unfold set_inbound_limit in He. binds He. gets. bools. subst s'. apply R; auto. exact I.
  - binds He. bools. subst s0. apply mark_ok in E. destruct E as (cf & o & rt & p & HF & _ & _ & _ & [(_ & _ & ->)|(_ & _ & r & _ & ->)]);
      (apply put_kind; [left; exact (has_some _ _ _ _ (of_item _ _ _ _ _ _ _ HF))|exact K]).
  - unfold x_set_peer in He. binds He. bools. subst s'. apply R; auto. destruct p; try discriminate; exact I.
  - unfold x_receive in He. binds He. destruct v0; try discriminate. destruct m; try discriminate. binds He. bools. subst s'. apply R; auto. destruct p; try discriminate; exact I.
  - apply x_release_ok in He; [|assumption]. destruct He as (cf & o & rt & HF & Hra & [(-> & _)|(Ht & -> & r & Hr & Hm & Hn & ->)]); [exact K|].
    apply posted_kind, R; [destruct p; try discriminate; exact I|reflexivity|reflexivity|]. apply put_kind; [|exact K]. left. exact (has_some _ _ _ _ (of_item _ _ _ _ _ _ _ HF)).
  - unfold x_broadcast_id, bridge_post in He. binds He. bools. subst s'. free3. apply posted_kind, put_kind; auto.
  - unfold x_broadcast_peer, bridge_post in He. binds He. bools. subst s'. free3. apply posted_kind, put_kind; auto.
  - bools. subst. exact K.
  - binds He. apply transfer_still in He. exact (still_kind _ _ He K).
  - binds He. bools. subst. apply put_tok_kind; [|exact K]. left. eapply get_tok_some; eassumption.
  - binds He. bools. subst. apply put_tok_kind; [|exact K]. left. eapply get_tok_some; eassumption.
  - binds He. apply mint_still in He. exact (still_kind _ _ He K).
  - binds He. apply burn_still in He. exact (still_kind _ _ He K).
  - binds He. bools. subst. apply put_mint_kind; [|exact K]. left. eapply get_mint_some; eassumption.
  - binds He. bools. subst. apply put_tok_kind; [|exact K]. left. eapply get_tok_some; eassumption.
  - binds He. bools. subst. intros b. cbn [set_toks st_accts st_toks st_mints]. rewrite upd_eq. destruct (K b) as [K1 K2]. destruct (addr_eq_dec b a); [|split; assumption].
    split; [|congruence]. intros X. split; [reflexivity|apply K1, X].
  - binds He. apply tok_init_ok in He. destruct He as (m0 & _ & _ & A & B & C & ->). apply put_tok_kind; auto.
  - apply tok_init_ok in He. destruct He as (m0 & _ & _ & A & B & C & ->). apply put_tok_kind; auto.
  - binds He. bools. subst. free3. apply put_mint_kind; auto.
  - binds He. bools. subst. apply put_mint_kind; [|exact K]. left. eapply get_mint_some; eassumption.
  - binds He. bools. subst. apply put_mint_kind; [left; eapply get_mint_some; eassumption|]. apply put_tok_kind; [|exact K]. left. eapply get_tok_some; eassumption.
  - binds He. bools. subst. free3. apply put_kind; auto.
  - unfold bridge_post in He. binds He. bools. subst s'. free3. apply posted_kind, put_kind; auto.
  - destruct (st_uauth s); [|discriminate]. binds He. apply loader_ok in He. destruct He as (_ & ->). exact K.
  - binds He. bools. destruct (st_accts s a) as [[o d0]|] eqn:Ea; binds He; bools; subst; (apply put_kind; [|exact K]); [left; congruence|free3; auto].
  - destruct (st_accts s a) as [[o d0]|] eqn:Ea; [|discriminate]. binds He. bools. subst. intros b. cbn [set_accts st_accts st_toks st_mints]. rewrite upd_eq.
    destruct (K b) as [K1 K2]. destruct (addr_eq_dec b a); [|split; assumption]. split; [congruence|exact K2].
Qed.
Lemma one_kind_run H s0 tr s : initial s0 -> one_kind s0 -> run H s0 tr s -> one_kind s.
Proof.
  intros Ini K R. induction R as [|tr s c s' R IH S]; [exact K|]. eapply one_kind_step; [|exact IH|exact S].
  apply (reachable_inv H). exists s0, tr. auto.
Qed.

(** ** Where a name stands, and the account pinned there. *)
Fixpoint place (n : string) (fs : list field) : option nat :=
  match fs with [] => None | f :: fs => if String.eqb (fl_name f) n then Some O else option_map S (place n fs) end.
Definition pinned (p : program) (g : gcall) (ns : list need) (n : string) : option handle :=
  match place n (interface p g) with Some k => match nth_error ns k with Some d => ne_key d | None => None end | None => None end.
Lemma place_at n fs k : place n fs = Some k -> exists f, nth_error fs k = Some f /\ fl_name f = n.
Proof.
  revert k. induction fs as [|f fs IH]; intros k E; [discriminate E|]. cbn [place] in E. destruct (String.eqb (fl_name f) n) eqn:Q.
  - injection E as <-. exists f. split; [reflexivity|apply String.eqb_eq, Q].
  - destruct (place n fs) as [j|]; [|discriminate E]. injection E as <-. destruct (IH j eq_refl) as (f' & A & B). exists f'. auto.
Qed.
Lemma pinned_passed p g ns ms n h : meet ns ms = true -> passed p g ms n h -> pinned p g ns n <> None -> pinned p g ns n = Some h.
Proof.
  intros M P Q. unfold pinned in *. destruct (place n (interface p g)) as [k|] eqn:E; [|contradiction]. destruct (place_at _ _ _ E) as (f & F & N).
  destruct (passed_here _ _ _ _ _ _ _ P F N) as (m & Mk & <-). destruct (nth_error ns k) as [d|] eqn:D; [|contradiction].
  destruct (meet_at _ _ _ _ M D) as (m' & Mk' & X). assert (m' = m) by congruence. subst m'. apply meets_spec in X. destruct X as (X & _).
  destruct (ne_key d) as [key|] eqn:Kd; [|contradiction]. f_equal. symmetry. apply X. reflexivity.
Qed.
Lemma no_dup_names {A} (f : string -> option A) l : NoDup (map f l) -> forall n n' h, In n l -> In n' l -> f n = Some h -> f n' = Some h -> n = n'.
Proof.
  induction l as [|x l IH]; intros D n n' h I I' E E'; [destruct I|]. cbn [map] in D. inversion D as [|? ? X Y]; subst.
  destruct I as [->|I], I' as [->|I']; [reflexivity| | |exact (IH Y n n' h I I' E E')].
  - exfalso. apply X. rewrite E, <- E'. apply in_map, I'.
  - exfalso. apply X. rewrite E', <- E. apply in_map, I.
Qed.

(** Every copy is pinned to an account by the demands. *)
Lemma all_pinned nm ok H s p q g ms i ns : prog_of p = Some q -> instr_of nm ok q g ms = Some i -> layout H s i = Ok ns -> Forall (fun n => pinned p g ns n <> None) (loaded g).
Proof.
  intros P I Y. destruct p; try discriminate P; injection P as <-; call_cases I; layout_cases Y.
  all: cbn [loaded]; repeat (apply Forall_cons; [lazy; discriminate|]); apply Forall_nil.
Qed.

(** The pinned accounts are distinct. *)
Lemma tok_apart s a t : one_kind s -> st_toks s a = Some t -> st_accts s a = None /\ st_mints s a = None.
Proof. intros K E. destruct (K a) as [K1 K2]. split; [destruct (st_accts s a); [destruct K1; congruence|reflexivity]|apply K2; congruence]. Qed.
Lemma mint_apart s a t : one_kind s -> st_mints s a = Some t -> st_accts s a = None /\ st_toks s a = None.
Proof. intros K E. destruct (K a) as [K1 K2]. split; [destruct (st_accts s a); [destruct K1; congruence|reflexivity]|destruct (st_toks s a); [rewrite K2 in E; congruence|reflexivity]]. Qed.
Lemma custody_mint s tp mnt s' : one_kind s -> init_custody s tp mnt = Ok s' -> st_mints s (ata tp token_authority mnt) = None.
Proof.
  intros K E. unfold init_custody in E. destruct (st_toks s (ata tp token_authority mnt)) as [t|] eqn:T; [exact (proj2 (tok_apart _ _ _ K T))|].
  apply tok_init_ok in E. decompose [ex and] E. assumption.
Qed.
Lemma from_custody H s x c f amount h s1 cu : inv s -> has s (xa_config x) PManager (DConfig c) -> st_toks s (xa_from x) = Some f -> st_toks s (cf_custody c) = Some cu ->
  tok_transfer s (xa_tp x) (xa_from x) (cf_mint c) (cf_custody c) (pda_session (tk_owner f) (h_args H h)) amount (xa_hook_ok x) = Ok s1 -> xa_from x <> cf_custody c.
Proof.
  intros I C F Cu T E. pose proof (config_addr _ _ _ I C) as Ea. pose proof C as C'. rewrite Ea in C'. pose proof (co_prog s c (inv_config s I c C')) as P. destruct P as (tp & m & t & Tp & _ & Cc & _).
  apply tok_transfer_ok in T. destruct T as (t0 & d & m0 & t' & Et & _ & _ & _ & _ & _ & _ & _ & _ & Sp & _). assert (t0 = f) by congruence. subst t0.
  refine (no_spend s (xa_from x) f _ _ t' (inv_ledger s I) F _ _ Sp); [|intros Q; discriminate Q].
  destruct (inv_ledger s I) as [W _]. destruct (W _ _ F) as (_ & _ & _ & _ & _ & _ & Ow & _). apply (Ow tp (cf_mint c) Tp). congruence.
Qed.

Ltac addrs := cbv [pda_config pda_outbox_rl token_authority pda_lut ata pda_peer pda_inbox pda_inbox_rl pda_reg pda_xpeer pda_vtm] in *.
Ltac alone K := repeat match goal with
  | E : st_toks ?s ?a = Some ?t |- _ => lazymatch goal with _ : st_accts s a = None |- _ => fail | _ => destruct (tok_apart s a t K E) end
  | E : st_mints ?s ?a = Some ?t |- _ => lazymatch goal with _ : st_toks s a = None |- _ => fail | _ => destruct (mint_apart s a t K E) end
  | E : free ?s ?a = true |- _ => lazymatch goal with _ : st_accts s a = None |- _ => fail | _ => destruct (free_ok s a E) as (? & ? & ?) end end.
Ltac nodup := repeat (apply NoDup_cons; [cbn [In]; intros Dup; repeat (destruct Dup as [Dup|Dup]; [try congruence|]); try contradiction|]); try apply NoDup_nil.

Ltac merge := repeat match goal with
  | A : st_accts ?s ?a = Some ?x, B : st_accts ?s ?a = Some ?y |- _ => lazymatch x with y => clear B | _ => rewrite A in B; injection B; clear B; intros; subst end
  | A : st_toks ?s ?a = Some ?x, B : st_toks ?s ?a = Some ?y |- _ => lazymatch x with y => clear B | _ => rewrite A in B; injection B; clear B; intros; subst end
  | A : st_mints ?s ?a = Some ?x, B : st_mints ?s ?a = Some ?y |- _ => lazymatch x with y => clear B | _ => rewrite A in B; injection B; clear B; intros; subst end end.
Ltac show := lazy -[pda_config pda_outbox_rl token_authority pda_lut ata pda_peer pda_inbox pda_inbox_rl pda_reg pda_xpeer pda_vtm cf_mint cf_custody nm_id tm_msg h_msg ib_recipient tk_prog].

Definition aliased (s : state) (g : gcall) (i : instr) : Prop :=
  exists x it, has s (la_item x) PManager (DInboxItem it) /\ ib_recipient it = token_authority /\ (exists r, g = GReleaseMint r /\ i = IReleaseMint x r \/ g = GReleaseUnlock r /\ i = IReleaseUnlock x r).
Definition without (x : string) (l : list string) : list string := filter (fun n => negb (String.eqb n x)) l.
Lemma keys_distinct nm ok H s p q g ms i ns s' : inv s -> one_kind s -> prog_of p = Some q -> instr_of nm ok q g ms = Some i -> layout H s i = Ok ns ->
  step H s (Call (signers_of ms) i) = Ok s' ->
  NoDup (map (pinned p g ns) (loaded g)) \/
  aliased s g i /\ NoDup (map (pinned p g ns) (without "common.recipient" (loaded g))) /\ NoDup (map (pinned p g ns) (without "common.custody" (loaded g))).
Proof.
  intros Hi K P I Y S. apply step_inv in S. destruct S as (Hcs & Hty & He). cbn [signers ins] in *.
  assert (Hc : forall a c, st_accts s a = Some (Acct PManager (DConfig c)) -> a = pda_config) by (intros a c; apply config_addr; exact Hi).
  destruct p; try discriminate P; injection P as <-; call_cases I; layout_cases Y; cbn [exec typed] in He, Hty.
  all: cbn [xa_config xa_from xa_tp xa_outbox_item xa_outbox_rl xa_hook_ok ra_config ra_message ra_transceiver ra_outbox_rl la_config la_item la_tp la_hook_ok ar_chain] in *.
  all: match goal with
    | He : initialize _ _ _ _ _ _ _ _ = _ |- _ => left; unfold initialize in He; binds He; bools; frees
    | He : initialize_lut _ _ _ _ _ = _ |- _ => left; unfold initialize_lut in He; binds He; bools; gets
    | He : transfer_lock _ _ _ _ _ = _ |- _ => left; apply transfer_lock_ok in He; destruct He as (cf & mt & f & pe & am & t0 & orl & irl & orl' & irl' & ts & s1 & cu & cu' & HF & HT & HC & _); pose proof (fun A B => from_custody H s _ cf f am _ s1 cu Hi A B HC HT) as NE; destruct HF; specialize (NE ltac:(assumption) ltac:(assumption))
    | He : transfer_burn _ _ _ _ _ = _ |- _ => left; apply transfer_burn_ok in He; destruct He as (cf & mt & f & pe & am & t0 & orl & irl & orl' & irl' & ts & s1 & s2 & cu & cu' & HF & HT & _ & HC & _); pose proof (fun A B => from_custody H s _ cf f am _ s1 cu Hi A B HC HT) as NE; destruct HF; specialize (NE ltac:(assumption) ltac:(assumption))
    | He : redeem _ _ _ = _ |- _ => left; apply redeem_ok in He; destruct He as (cf & rt & p & chain & tm & pe & mt & old & new & irl & orl & am & n & HF & _); destruct HF
    | He : release_inbound_mint _ _ _ = _ |- _ => apply release_mint_ok in He; destruct He as (cf & it & mt & rt & HF & _); destruct HF
    | He : release_inbound_unlock _ _ _ = _ |- _ => apply release_unlock_ok in He; destruct He as (cf & it & mt & rt & HF & _); destruct HF
    | He : transfer_ownership _ _ _ _ _ = _ |- _ => left
    | He : transfer_ownership_one_step_unchecked _ _ _ _ _ = _ |- _ => left
    | He : claim_ownership _ _ _ _ = _ |- _ => left
    | He : set_paused _ _ _ _ _ = _ |- _ => left
    | He : set_peer _ _ _ _ _ _ _ _ = _ |- _ => left; unfold set_peer in He; binds He; gets
    | He : register_transceiver _ _ _ _ _ = _ |- _ => left; unfold register_transceiver in He; binds He; gets
    | He : set_outbound_limit _ _ _ _ _ _ = _ |- _ => left; unfold set_outbound_limit in He; binds He; gets
    | He : set_inbound_limit _ _ _ _ _ _ = _ |- _ => left; unfold set_inbound_limit in He; binds He; gets
    | He : bind (mark_outbox_item_as_released _ _ _ _ _ _) _ = _ |- _ => left; binds He; apply mark_ok in E; destruct E as (cf & o & rt & p & HF & _); destruct HF
    | He : x_set_peer _ _ _ _ _ _ _ = _ |- _ => left; unfold x_set_peer in He; binds He; gets
    | He : x_receive _ _ _ _ = _ |- _ => left; unfold x_receive in He; binds He; gets; unfold has in *; merge; binds He; gets; bools
    | He : x_release _ _ _ _ _ _ _ = _ |- _ => left; apply x_release_ok in He; [|reflexivity]; destruct He as (cf & o & rt & HF & _); destruct HF
    | He : x_broadcast_id _ _ _ _ _ _ = _ |- _ => left; unfold x_broadcast_id in He; binds He; gets
    | He : x_broadcast_peer _ _ _ _ _ _ _ = _ |- _ => left; unfold x_broadcast_peer in He; binds He; gets
    end.
  all: cbn [xa_config xa_from xa_tp xa_outbox_item xa_outbox_rl xa_hook_ok ra_config ra_message ra_transceiver ra_outbox_rl la_config la_item la_tp la_hook_ok ar_chain] in *.
  all: gets; unfold has in *; merge.
  all: repeat match goal with Hc : (forall a c, _ -> a = pda_config), E : st_accts ?s ?a = Some (Acct PManager (DConfig ?c)) |- _ => lazymatch goal with _ : a = pda_config |- _ => fail | _ => pose proof (Hc a c E) end end.
  all: try match goal with Hi : inv ?s, E : st_accts ?s (pda_inbox ?x) = None /\ _ \/ _ |- _ => destruct (reserved_bare s (pda_inbox x) Hi I); destruct E as [[E _]|E] end.
  all: try match goal with K : one_kind ?s, E : init_custody ?s ?tp ?m = Ok _ |- _ => pose proof (custody_mint s tp m _ K E) end.
  all: match goal with K : one_kind _ |- _ => alone K end.
  all: try (show; addrs; nodup; fail).
  1, 4: match goal with Hi : inv ?s, E : st_accts ?s ?a = Some (Acct PManager (DOutboxRL ?r)) |- _ => destruct (inv_mgr s a _ Hi E) as [Eq _] end; show; addrs; nodup.
  all: match goal with Hi : inv ?s, E : st_accts ?s ?a = Some (Acct PManager (DConfig ?c)), Ea : ?a = pda_config |- _ =>
         pose proof E as C'; rewrite Ea in C'; destruct (co_prog s c (inv_config s Hi c C')) as (tp & m0 & t0 & _ & _ & Cc & _ & _ & _ & Ct) end; match goal with K : one_kind _ |- _ => alone K end.
  all: match goal with it : inbox_item addr |- _ => destruct (addr_eq_dec (ib_recipient it) token_authority) as [Er|Er] end; [right|left; show; addrs; nodup].
  all: split; [match goal with |- aliased _ _ (IReleaseMint ?x ?r) => exists x | |- aliased _ _ (IReleaseUnlock ?x ?r) => exists x end; eexists; split; [eassumption|split; [exact Er|]]; eexists; first [left; split; reflexivity | right; split; reflexivity]|].
  all: split; show; addrs; nodup.
Qed.

(** Two names of one account. *)
Theorem two_names nm ok H s p ms data s' g n n' h : inv s -> one_kind s -> entry nm ok H s p ms data = Ok s' -> offered p g -> wf_call g -> data_of g data ->
  In n (loaded g) -> In n' (loaded g) -> passed p g ms n h -> passed p g ms n' h -> n = n' \/ to_custody s p g ms n n'.
Proof.
  intros Hi K E O Wf Da N N' P P'. assert (D : dispatch p data = Some g) by (apply dispatch_exact; auto).
  destruct (entry_call _ _ _ _ _ _ _ _ _ E D) as [[C _]|(q & i & ns & Pq & I & Y & M & S & _)]; [destruct C as [->| ->]; destruct N|].
  pose proof (all_pinned _ _ _ _ _ _ _ _ _ _ Pq I Y) as Al. rewrite Forall_forall in Al.
  pose proof (pinned_passed _ _ _ _ _ _ M P (Al n N)) as F. pose proof (pinned_passed _ _ _ _ _ _ M P' (Al n' N')) as F'.
  destruct (keys_distinct _ _ _ _ _ _ _ _ _ _ _ Hi K Pq I Y S) as [X|((x & it & Hit & Er & r & G) & X & X')].
  { left. exact (no_dup_names _ _ X n n' h N N' F F'). }
  destruct (string_dec n n') as [Eq|Ne]; [left; exact Eq|right].
  assert (T : forall m, m <> "common.recipient"%string -> In m (loaded g) -> In m (without "common.recipient" (loaded g))).
  { intros m Q Im. apply filter_In. split; [exact Im|]. apply negb_true_iff, String.eqb_neq, Q. }
  assert (T' : forall m, m <> "common.custody"%string -> In m (loaded g) -> In m (without "common.custody" (loaded g))).
  { intros m Q Im. apply filter_In. split; [exact Im|]. apply negb_true_iff, String.eqb_neq, Q. }
  split; [exists r; destruct G as [[G _]|[G _]]; auto|]. split.
  - destruct (string_dec n "common.recipient") as [->|A].
    + destruct (string_dec n' "common.custody") as [->|B]; [left; auto|]. exfalso. apply Ne. apply (no_dup_names _ _ X' _ _ h); auto; apply T'; auto; discriminate.
    + destruct (string_dec n "common.custody") as [->|B].
      * destruct (string_dec n' "common.recipient") as [->|C]; [right; auto|]. exfalso. apply Ne. apply (no_dup_names _ _ X _ _ h); auto.
      * exfalso. apply Ne. destruct (string_dec n' "common.recipient") as [->|C]; [apply (no_dup_names _ _ X' _ _ h); auto; apply T'; auto; discriminate|apply (no_dup_names _ _ X _ _ h); auto].
  - exists (la_item x), it. split; [|split; [exact Hit|exact Er]].
    pose proof (instr_asked _ _ _ _ _ _ _ Pq I) as As. destruct G as [[-> ->]|[-> ->]]; cbn [asked] in As; decompose [ex and] As; match goal with Q : _ = _ ?y r |- _ => match y with ReleaseAccts _ _ _ _ => injection Q as -> end end; assumption.
Qed.

(** An account that is rewritten has one copy. *)
Theorem rewritten_once nm ok H s p ms data s' g n n' a : inv s -> one_kind s -> entry nm ok H s p ms data = Ok s' -> offered p g -> wf_call g -> data_of g data ->
  st_accts s' a <> st_accts s a -> In n (loaded g) -> In n' (loaded g) -> passed p g ms n (HA a) -> passed p g ms n' (HA a) -> n = n'.
Proof.
  intros Hi K E O Wf Da Ch N N' P P'. pose proof (fun m m' => two_names nm ok H s p ms data s' g m m' (HA a) Hi K E O Wf Da) as Tw.
  destruct (Tw n n' N N' P P') as [Q|((r & G) & Nn & _)]; [exact Q|exfalso].
  assert (D : dispatch p data = Some g) by (apply dispatch_exact; auto).
  destruct (entry_call _ _ _ _ _ _ _ _ _ E D) as [[C _]|(q & i & ns & Pq & I & Y & M & S & _)]; [destruct G as [->| ->]; destruct C; discriminate|].
  pose proof (instr_asked _ _ _ _ _ _ _ Pq I) as As.
  assert (X : passed p g ms "common.inboxItem" (HA a) /\ In "common.inboxItem"%string (loaded g)).
  { destruct (step_change _ _ _ _ S a) as [Q|Q]; [contradiction|]. cbn [signers ins] in Q.
    remember (st_accts s a) as o1 eqn:O1. remember (st_accts s' a) as o2 eqn:O2. clear O1 O2. remember i as j eqn:J in Q.
    destruct G as [->| ->]; (split; [|cbn [loaded In]; auto]); cbn [asked] in As; destruct As as (cfg & it & tp & _ & Pi & _ & Ei); rewrite Ei in J; clear Ei; destruct Q; try discriminate J.
    all: match goal with F : is_release _ _ _ |- _ => destruct F as (r' & F); destruct md; try (rewrite J in F); try discriminate; injection F as <- <-; exact Pi | F : is_transfer _ _ _ ?md |- _ => destruct md; cbn [is_transfer] in F; rewrite J in F; discriminate F end. }
  destruct X as [X1 X2]. destruct (Tw _ _ X2 N X1 P) as [Q|(_ & [[Q _]|[Q _]] & _)]; [|discriminate Q|discriminate Q]. subst n. destruct Nn as [[Q _]|[Q _]]; discriminate Q.
Qed.

(** The exception is exact. *)
Theorem custody_alias nm ok H s p ms data s' g r a it h h' : inv s -> entry nm ok H s p ms data = Ok s' -> offered p g -> wf_call g -> data_of g data ->
  g = GReleaseMint r \/ g = GReleaseUnlock r -> passed p g ms "common.inboxItem" (HA a) -> st_accts s a = Some (Acct PManager (DInboxItem it)) ->
  passed p g ms "common.recipient" h -> passed p g ms "common.custody" h' -> (h = h' <-> ib_recipient it = token_authority).
Proof.
  intros Hi E O Wf Da G Pa Ha Pr Pc. assert (D : dispatch p data = Some g) by (apply dispatch_exact; auto).
  destruct (entry_call _ _ _ _ _ _ _ _ _ E D) as [[C _]|(q & i & ns & Pq & I & Y & M & S & _)]; [destruct G as [->| ->]; destruct C; discriminate|].
  pose proof (all_pinned _ _ _ _ _ _ _ _ _ _ Pq I Y) as Al. rewrite Forall_forall in Al.
  assert (L1 : In "common.inboxItem"%string (loaded g)) by (destruct G as [->| ->]; cbn [loaded In]; auto).
  assert (L2 : In "common.recipient"%string (loaded g)) by (destruct G as [->| ->]; cbn [loaded In]; auto).
  assert (L3 : In "common.custody"%string (loaded g)) by (destruct G as [->| ->]; cbn [loaded In]; auto 10).
  pose proof (pinned_passed _ _ _ _ _ _ M Pa (Al _ L1)) as Fa. pose proof (pinned_passed _ _ _ _ _ _ M Pr (Al _ L2)) as Fr. pose proof (pinned_passed _ _ _ _ _ _ M Pc (Al _ L3)) as Fc. clear L1 L2 L3 Al.
  apply step_inv in S. cbn [signers ins] in S. destruct S as (_ & _ & He).
  assert (X : exists x c, has s (la_config x) PManager (DConfig c) /\ a = la_item x /\ h = HA (ata (la_tp x) (ib_recipient it) (cf_mint c)) /\ h' = HA (cf_custody c) /\
    exists rt, st_toks s (ata (la_tp x) (ib_recipient it) (cf_mint c)) = Some rt /\ tk_prog rt = la_tp x /\ tk_mint rt = cf_mint c).
  { assert (Y2 : exists x, (i = IReleaseMint x r \/ i = IReleaseUnlock x r)).
    { pose proof (instr_asked _ _ _ _ _ _ _ Pq I) as As. destruct G as [->| ->]; cbn [asked] in As; destruct As as (cfg & it0 & tp & _ & _ & _ & ->); eauto. }
    destruct Y2 as (x & Hx). exists x.
    assert (Y3 : exists c it0, get_config s (la_config x) = Ok c /\ get_inbox_item s (la_item x) = Ok it0 /\
       ns = [payer; ro (la_config x); mu (la_item x); mu (ata (la_tp x) (ib_recipient it0) (cf_mint c)); ro token_authority; mu (cf_mint c); ro (AProg (la_tp x)); mu (cf_custody c)]).
    { destruct Hx as [->| ->]; cbn [layout] in Y; destruct (get_config s (la_config x)) as [c|] eqn:Q1; cbn [bind] in Y; try discriminate Y;
      destruct (get_inbox_item s (la_item x)) as [i0|] eqn:Q2; cbn [bind] in Y; try discriminate Y; injection Y as <-; exists c, i0; auto. }
    destruct Y3 as (c & it0 & Q1 & Q2 & ->). gets. exists c.
    assert (Pn : pinned p g [payer; ro (la_config x); mu (la_item x); mu (ata (la_tp x) (ib_recipient it0) (cf_mint c)); ro token_authority; mu (cf_mint c); ro (AProg (la_tp x)); mu (cf_custody c)] "common.inboxItem" = Some (HA (la_item x)) /\
      pinned p g [payer; ro (la_config x); mu (la_item x); mu (ata (la_tp x) (ib_recipient it0) (cf_mint c)); ro token_authority; mu (cf_mint c); ro (AProg (la_tp x)); mu (cf_custody c)] "common.recipient" = Some (HA (ata (la_tp x) (ib_recipient it0) (cf_mint c))) /\
      pinned p g [payer; ro (la_config x); mu (la_item x); mu (ata (la_tp x) (ib_recipient it0) (cf_mint c)); ro token_authority; mu (cf_mint c); ro (AProg (la_tp x)); mu (cf_custody c)] "common.custody" = Some (HA (cf_custody c))).
    { destruct G as [->| ->]; repeat split. }
    destruct Pn as (P1 & P2 & P3). assert (Ea : a = la_item x) by congruence. subst a. unfold has in *. assert (it0 = it) by congruence. subst it0.
    split; [exact Q1|]. split; [reflexivity|]. split; [congruence|]. split; [congruence|].
    destruct Hx as [->| ->]; cbn [exec] in He; [apply release_mint_ok in He|apply release_unlock_ok in He]; destruct He as (c0 & i0 & mt & rt & HF & _); destruct HF; unfold has in *;
      (assert (c0 = c) by congruence); subst c0; (assert (i0 = it) by congruence); subst i0; exists rt; auto. }
  destruct X as (x & c & Hc & -> & -> & -> & rt & Rt & Rp & Rm). pose proof (config_addr _ _ _ Hi Hc) as Ec. rewrite Ec in Hc.
  destruct (co_prog s c (inv_config s Hi c Hc)) as (tp & m0 & t0 & Tp & _ & Cc & Hm & Mp & _ & Ct).
  destruct (inv_ledger s Hi) as [W _]. destruct (W _ _ Rt) as (_ & _ & _ & _ & (m1 & Hm1 & Mp1) & _). assert (Etp : la_tp x = tp) by congruence. rewrite Cc, Etp. split.
  - intros Q. unfold ata in Q. congruence.
  - intros ->. reflexivity.
Qed.

(** ** The quoter. *)
Fixpoint q_place (n : string) (fs : list q_field) : option nat :=
  match fs with [] => None | f :: fs => if String.eqb (qf_name f) n then Some O else option_map S (q_place n fs) end.
Definition q_pinned (g : gcall) (ns : list qmeta) (n : string) : option qaddr :=
  match q_place n (q_interface g) with Some k => option_map qm_key (nth_error ns k) | None => None end.
Lemma q_place_at n fs k : q_place n fs = Some k -> exists f, nth_error fs k = Some f /\ qf_name f = n.
Proof.
  revert k. induction fs as [|f fs IH]; intros k E; [discriminate E|]. cbn [q_place] in E. destruct (String.eqb (qf_name f) n) eqn:Q.
  - injection E as <-. exists f. split; [reflexivity|apply String.eqb_eq, Q].
  - destruct (q_place n fs) as [j|]; [|discriminate E]. injection E as <-. destruct (IH j eq_refl) as (f' & A & B). exists f'. auto.
Qed.
Lemma q_pinned_passed g ns ms n h x : q_meet ns ms = true -> q_passed g ms n h -> q_pinned g ns n = Some x -> x = h.
Proof.
  intros M P Q. unfold q_pinned in Q. destruct (q_place n (q_interface g)) as [k|] eqn:E; [|discriminate Q]. destruct (q_place_at _ _ _ E) as (f & F & N).
  destruct (nth_error ns k) as [d|] eqn:D; [|discriminate Q]. injection Q as <-. destruct (q_meet_at _ _ _ _ M D) as (m' & Mk' & X). apply q_meets_spec in X. destruct X as (X & _).
  rewrite <- X. apply (q_passed_once g ms n); [|exact P]. exists k, f, m'. auto.
Qed.
Lemma q_keys_distinct I nm E q g ms i ns q' : q_reachable E q -> q_instr_of I nm g ms = Some i -> q_layout I q i = Ok ns -> q_step E q (QCall (q_signers_of ms) i) = Ok q' ->
  NoDup (map (q_pinned g ns) (q_loaded g)) /\ Forall (fun n => q_pinned g ns n <> None) (q_loaded g).
Proof.
  intros Hr J Y S.
  assert (Ci : forall a, inst_of i = Some a -> a = QInst) by (intros a; apply (step_inst E q (q_signers_of ms) i q' a Hr S)).
  apply q_step_inv in S. cbn [q_signers q_ins] in S. destruct S as (_ & _ & X).
  q_cases J Y; cbn [inst_of] in Ci; try (rewrite (Ci _ eq_refl) in *); cbn [q_exec] in X.
  all: try match type of X with
    | qi_update_chain_prices _ _ _ _ ?a _ _ = _ => unfold qi_update_chain_prices in X; binds X; assert (a <> QInst) by (intros ->; unfold q_chain, authorized, q_instance in *; destruct (q_accts q QInst) as [[]|]; discriminate)
    | qi_update_chain_params _ _ _ _ ?a _ _ = _ => unfold qi_update_chain_params in X; binds X; assert (a <> QInst) by (intros ->; unfold q_chain, authorized, q_instance in *; destruct (q_accts q QInst) as [[]|]; discriminate)
    | qi_close_relay _ _ _ _ _ ?a = _ => unfold qi_close_relay in X; binds X; assert (a <> QInst) by (intros ->; unfold q_request, authorized, q_instance in *; destruct (q_accts q QInst) as [[]|]; discriminate)
    end.
  all: split; [lazy -[ob_chain fst snd]; nodup|cbn [q_loaded]; repeat (apply Forall_cons; [lazy; discriminate|]); apply Forall_nil].
Qed.
Theorem q_two_names I nm E q ms data q' g n n' a : q_reachable E q -> q_entry I nm E q ms data = Ok q' -> offered AQuoter g -> wf_call g -> data_of g data ->
  In n (q_loaded g) -> In n' (q_loaded g) -> q_passed g ms n a -> q_passed g ms n' a -> n = n'.
Proof.
  intros Hr Q O Wf Da N N' P P'. destruct (q_entry_call _ _ _ _ _ _ _ _ Q O Wf Da) as (i & ns & J & Y & M & S & _).
  destruct (q_keys_distinct _ _ _ _ _ _ _ _ _ Hr J Y S) as [D F]. rewrite Forall_forall in F.
  pose proof (F n N) as Fn. pose proof (F n' N') as Fn'. destruct (q_pinned g ns n) as [x|] eqn:X; [|contradiction]. destruct (q_pinned g ns n') as [y|] eqn:Z; [|contradiction].
  pose proof (q_pinned_passed _ _ _ _ _ _ M P X). pose proof (q_pinned_passed _ _ _ _ _ _ M P' Z). subst. exact (no_dup_names _ _ D n n' a N N' X Z).
Qed.

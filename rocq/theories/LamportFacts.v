(** * Lamports: payments, bills, balances over histories. *)
From Verif Require Export MoveFacts SpecLamport.

Import ListNotations.
Local Open Scope Z_scope.

(** ** Purses *)
Lemma handle_eqb_eq h k : handle_eqb h k = true <-> h = k.
Proof. unfold handle_eqb. destruct (handle_eq_dec h k); split; congruence. Qed.
Lemma handle_eqb_neq h k : h <> k -> handle_eqb h k = false.
Proof. unfold handle_eqb. destruct (handle_eq_dec h k); congruence. Qed.
Lemma handle_eqb_refl h : handle_eqb h h = true.
Proof. now apply handle_eqb_eq. Qed.
Lemma pset_at h x p k : pset h x p k = if handle_eqb k h then x else p k.
Proof. reflexivity. Qed.

Lemma sound_pos p h : sound p -> 0 <= p h.
Proof. intros [S _]. apply S. Qed.
Lemma sound_one p h : sound p -> p h <= u64_max.
Proof. intros [_ S]. specialize (S [h] (NoDup_cons _ (@in_nil _ _) (NoDup_nil _))). cbn [worth fold_right] in S. lia. Qed.
Lemma sound_two p h k : sound p -> h <> k -> p h + p k <= u64_max.
Proof.
  intros [_ S] N. assert (D : NoDup [h; k]). { constructor; [|constructor; [apply in_nil|constructor]]. cbn. intuition congruence. }
  specialize (S _ D). cbn [worth fold_right] in S. lia.
Qed.

(** Lamports moved from one address to another. *)
Definition shifted (p p' : purse) (src dst : handle) (x : Z) : Prop :=
  forall h, p' h = p h + (if handle_eqb h dst then x else 0) - (if handle_eqb h src then x else 0).
Lemma shifted_set p src dst x y : y = pset src (p src - x) p dst + x -> shifted p (pset dst y (pset src (p src - x) p)) src dst x.
Proof.
  intros -> h. rewrite !pset_at. destruct (handle_eqb h dst) eqn:A; [apply handle_eqb_eq in A; subst h|];
  destruct (handle_eqb _ src) eqn:B; try (apply handle_eqb_eq in B; subst); lia.
Qed.
Lemma worth_shifted p p' src dst x hs : shifted p p' src dst x -> NoDup hs ->
  worth p' hs = worth p hs + (if in_dec handle_eq_dec dst hs then x else 0) - (if in_dec handle_eq_dec src hs then x else 0).
Proof.
  intros S. induction hs as [|h r IH]; intros N; [cbn; lia|]. inversion N; subst. cbn [worth fold_right]. fold (worth p r) (worth p' r).
  rewrite (IH H2), (S h). destruct (handle_eqb h dst) eqn:A; [apply handle_eqb_eq in A|]; destruct (handle_eqb h src) eqn:B; [apply handle_eqb_eq in B| |apply handle_eqb_eq in B|];
  destruct (in_dec handle_eq_dec dst r), (in_dec handle_eq_dec src r), (in_dec handle_eq_dec dst (h :: r)), (in_dec handle_eq_dec src (h :: r));
  cbn in *; subst; try lia; exfalso; intuition (subst; try congruence);
  repeat match goal with A : handle_eqb ?x ?x = false |- _ => rewrite handle_eqb_refl in A; discriminate end.
Qed.
Lemma sound_shifted p p' src dst x : sound p -> shifted p p' src dst x -> 0 <= x <= p src -> sound p'.
Proof.
  intros S M X. split.
  - intros h. rewrite (M h). pose proof (sound_pos p h S). destruct (handle_eqb h dst), (handle_eqb h src) eqn:B; try lia.
    + apply handle_eqb_eq in B. subst. lia.
  - intros hs N. rewrite (worth_shifted _ _ _ _ _ _ M N). destruct (in_dec handle_eq_dec src hs) as [I|I].
    + destruct (in_dec handle_eq_dec dst hs); pose proof (proj2 S hs N); lia.
    + pose proof (proj2 S (src :: hs) (NoDup_cons _ I N)) as B. cbn [worth fold_right] in B. fold (worth p hs) in B. destruct (in_dec handle_eq_dec dst hs); lia.
Qed.

Lemma move_ok p src dst x p' : sound p -> move p src dst x = Ok p' -> 0 <= x <= p src /\ shifted p p' src dst x /\ sound p'.
Proof.
  intros S E. unfold move in E. binds E. unfold u64b in *. bools. subst p'.
  assert (X : 0 <= x <= p src) by lia. pose proof (shifted_set p src dst x _ eq_refl) as M. split; [exact X|]. split; [exact M|]. eapply sound_shifted; eassumption.
Qed.

Lemma free_bare s a : free s a = true <-> bare s a.
Proof.
  unfold free, bare. destruct a; try (split; [discriminate|]; intros (_ & _ & _ & A & B); exfalso; eauto; congruence).
  all: destruct (st_accts s _), (st_toks s _), (st_mints s _); split; try discriminate; try (intros (? & ? & ? & _); discriminate); try reflexivity; repeat split; congruence.
Qed.

(** ** Payments *)
Definition billed (s : state) (p p' : purse) (payer : addr) (b : list (handle * Z)) : Prop :=
  (total_of b = 0 \/ bare s payer) /\ total_of b <= p (HA payer) /\ settled p p' payer b.
Definition positive (b : list (handle * Z)) : Prop := forall h x, In (h, x) b -> 0 <= x.
Lemma positive_total b : positive b -> 0 <= total_of b.
Proof.
  induction b as [|[h x] b IH]; intros P; cbn; [lia|]. assert (0 <= x) by (eapply P; left; reflexivity). enough (0 <= total_of b) by (unfold total_of in *; lia).
  apply IH. intros k y I. eapply P. right. exact I.
Qed.
Lemma positive_cons h x b : positive ((h, x) :: b) <-> 0 <= x /\ positive b.
Proof. split; [intros P; split; [eapply P; left; reflexivity|intros k y I; eapply P; right; exact I]|intros [A B] k y [[= <- <-]|I]; eauto]. Qed.
Lemma positive_app b c : positive (b ++ c) <-> positive b /\ positive c.
Proof.
  split; [intros P; split; intros h x I; eapply P; apply in_app_iff; eauto|]. intros [A B] h x I. apply in_app_iff in I. destruct I; eauto.
Qed.
Lemma total_app b c : total_of (b ++ c) = total_of b + total_of c.
Proof. induction b as [|[h x] b IH]; cbn; [reflexivity|]. fold (total_of (b ++ c)) (total_of b). rewrite IH. lia. Qed.
Lemma share_app b c h : share (b ++ c) h = share b h + share c h.
Proof. induction b as [|[k x] b IH]; cbn; [reflexivity|]. fold (share (b ++ c) h) (share b h). rewrite IH. lia. Qed.
Lemma share_none b h : ~ In h (map fst b) -> share b h = 0.
Proof.
  induction b as [|[k x] b IH]; cbn; intros N; [reflexivity|]. fold (share b h). rewrite IH, handle_eqb_neq; intuition (subst; auto).
Qed.
Lemma share_range b h : positive b -> 0 <= share b h <= total_of b.
Proof.
  induction b as [|[k x] b IH]; cbn; intros P; [lia|]. apply positive_cons in P. destruct P as [X P]. specialize (IH P). fold (share b h) (total_of b).
  destruct (handle_eqb k h); lia.
Qed.

Lemma settled_shift p p' payer d x : shifted p p' (HA payer) d x <-> settled p p' payer [(d, x)].
Proof.
  unfold shifted, settled, share, total_of. cbn. split; intros S h; rewrite (S h); destruct (handle_eqb d h) eqn:A;
  [apply handle_eqb_eq in A; subst; rewrite handle_eqb_refl| |apply handle_eqb_eq in A; subst; rewrite handle_eqb_refl|];
  destruct (handle_eqb _ (HA payer)); try lia; destruct (handle_eqb h d) eqn:B; try (apply handle_eqb_eq in B; subst; rewrite handle_eqb_refl in A; discriminate); lia.
Qed.
Lemma settled_nil p payer : settled p p payer [].
Proof. intros h. cbn. destruct (handle_eqb _ _); lia. Qed.
Lemma settled_app p p1 p2 payer b c : settled p p1 payer b -> settled p1 p2 payer c -> settled p p2 payer (b ++ c).
Proof. intros A B h. rewrite (B h), (A h), share_app, total_app. destruct (handle_eqb _ _); lia. Qed.

Lemma take_run s p payer d x : sound p -> 0 <= x -> x = 0 \/ bare s payer -> x <= p (HA payer) -> exists p', f_take s p payer d x = Ok p'.
Proof.
  intros S X F B. unfold f_take. destruct (x =? 0) eqn:E0; [eauto|]. destruct F as [->|F]; [rewrite Z.eqb_refl in E0; discriminate|]. unfold f_pay.
  apply free_bare in F. rewrite F. cbn [require bind]. replace (x <=? p (HA payer)) with true by lia. cbn [require bind].
  unfold checked. rewrite pset_at. replace (_ && _) with true; [cbn; eauto|]. symmetry. apply andb_true_iff.
  destruct (handle_eqb d (HA payer)) eqn:D.
  - apply handle_eqb_eq in D. subst d. pose proof (sound_one p (HA payer) S). split; lia.
  - pose proof (sound_pos p d S). assert (N : d <> HA payer) by (intros ->; rewrite handle_eqb_refl in D; discriminate). pose proof (sound_two p d (HA payer) S N). split; lia.
Qed.
Lemma take_ok s p payer d x p' : sound p -> 0 <= x -> f_take s p payer d x = Ok p' -> billed s p p' payer [(d, x)] /\ sound p'.
Proof.
  intros S X E. unfold f_take in E. destruct (x =? 0) eqn:E0.
  - apply Ok_inj in E. subst p'. assert (x = 0) by lia. subst x. split; [|exact S]. split; [left; reflexivity|]. split; [cbn; apply (sound_pos p _ S)|].
    apply settled_shift. intros h. destruct (handle_eqb h d), (handle_eqb h (HA payer)); lia.
  - unfold f_pay in E. binds E. bools. subst p'.
    pose proof (shifted_set p (HA payer) d x _ eq_refl) as M. split; [|eapply sound_shifted; [exact S|exact M|lia]].
    split; [right; apply free_bare; assumption|]. split; [cbn; lia|]. apply settled_shift. exact M.
Qed.

Lemma billed_app s p p1 p2 payer b c : billed s p p1 payer b -> billed s p1 p2 payer c -> positive b -> positive c -> ~ In (HA payer) (map fst b) ->
  billed s p p2 payer (b ++ c).
Proof.
  intros (F1 & T1 & S1) (F2 & T2 & S2) P1 P2 N. pose proof (positive_total _ P1). pose proof (positive_total _ P2). rewrite (S1 (HA payer)), handle_eqb_refl, (share_none b _ N) in T2.
  split; [|split; [rewrite total_app; lia|eapply settled_app; eassumption]]. rewrite total_app.
  destruct F1 as [F1|F1]; [|now right]. destruct F2 as [F2|F2]; [left; lia|now right].
Qed.
Lemma billed_nil s p payer : sound p -> billed s p p payer [].
Proof. intros S. split; [left; reflexivity|]. split; [cbn; apply (sound_pos _ _ S)|apply settled_nil]. Qed.

Lemma lacking_pos E p a n : 0 <= lacking E p a n.
Proof. unfold lacking. lia. Qed.
Lemma init_amount E p a n : sound p -> (forall n, 0 < le_rent E n) ->
  (if p (HA a) =? 0 then le_rent E n else sat_sub (Z.max (le_rent E n) 1) (p (HA a))) = lacking E p a n.
Proof.
  intros S R. specialize (R n). pose proof (sound_pos p (HA a) S). unfold lacking, sat_sub. destruct (p (HA a) =? 0) eqn:Q; lia.
Qed.
Lemma init_ok E s p payer a n p' : sound p -> (forall n, 0 < le_rent E n) -> f_init E s p payer a n = Ok p' ->
  payer <> a /\ billed s p p' payer [(HA a, lacking E p a n)] /\ sound p'.
Proof.
  intros S R Q. unfold f_init in Q. binds Q. bools. rewrite init_amount in Q by assumption. split; [intros ->; rewrite (proj2 (addr_eqb_eq a a) eq_refl) in *; discriminate|]. eapply take_ok; [exact S|apply lacking_pos|exact Q].
Qed.
Lemma init_run E s p payer a n : sound p -> (forall n, 0 < le_rent E n) -> payer <> a ->
  lacking E p a n = 0 \/ bare s payer -> lacking E p a n <= p (HA payer) -> exists p', f_init E s p payer a n = Ok p'.
Proof.
  intros S R N F B. unfold f_init. destruct (addr_eqb payer a) eqn:Q; [apply addr_eqb_eq in Q; congruence|]. cbn [negb require bind].
  rewrite init_amount by assumption. apply take_run; auto. apply lacking_pos.
Qed.

(** ** Sequences of payments *)
Fixpoint pay_all (s : state) (p : purse) (payer : addr) (b : list (handle * Z)) : result purse :=
  match b with [] => Ok p | (h, x) :: r => let? p := f_take s p payer h x in pay_all s p payer r end.
(** The payer is paid last, if at all. *)
Fixpoint lastly (payer : addr) (b : list (handle * Z)) : Prop :=
  match b with [] => True | (h, _) :: r => (r = [] \/ h <> HA payer) /\ lastly payer r end.
Lemma lastly_app payer b c : (forall h x, In (h, x) b -> h <> HA payer) -> lastly payer c -> lastly payer (b ++ c).
Proof.
  induction b as [|[h x] b IH]; intros N L; [exact L|]. cbn. split; [right; eapply N; left; reflexivity|]. apply IH; [|exact L]. intros k y I. eapply N. right. exact I.
Qed.
Lemma billed_nil_app s p p2 payer h x : billed s p p2 payer [(h, x)] -> billed s p p2 payer ([(h, x)] ++ []).
Proof. now rewrite app_nil_r. Qed.
Lemma pay_all_ok s payer b : forall p p', sound p -> positive b -> lastly payer b -> pay_all s p payer b = Ok p' -> billed s p p' payer b /\ sound p'.
Proof.
  induction b as [|[h x] b IH]; intros p p' S P L E; cbn [pay_all] in E.
  - apply Ok_inj in E. subst. split; [now apply billed_nil|exact S].
  - binds E. apply positive_cons in P. destruct P as [X P], L as [L1 L2]. destruct (take_ok _ _ _ _ _ _ S X E0) as [B S1].
    destruct (IH _ _ S1 P L2 E) as [B2 S2]. split; [|exact S2]. destruct L1 as [->|L1].
    + cbn in E. apply Ok_inj in E. subst. exact B.
    + change ((h, x) :: b) with ([(h, x)] ++ b). eapply billed_app; [exact B|exact B2| |exact P|].
      * apply positive_cons. split; [exact X|]. intros ? ? [].
      * cbn. intuition congruence.
Qed.
Lemma pay_all_run s payer b : forall p, sound p -> positive b -> lastly payer b -> total_of b = 0 \/ bare s payer -> total_of b <= p (HA payer) ->
  exists p', pay_all s p payer b = Ok p'.
Proof.
  induction b as [|[h x] b IH]; intros p S P L F T; cbn [pay_all]; [eauto|]. apply positive_cons in P. destruct P as [X P], L as [L1 L2].
  pose proof (positive_total _ P) as T0. cbn [total_of fold_right snd] in F, T. fold (total_of b) in F, T.
  destruct (take_run s p payer h x S X) as [p1 E1]; [destruct F; [left; lia|now right]|lia|]. rewrite E1. cbn [bind].
  destruct (take_ok _ _ _ _ _ _ S X E1) as [(_ & _ & B) S1]. destruct L1 as [->|L1]; [cbn; eauto|].
  apply IH; auto.
  - destruct F; [left; lia|now right].
  - rewrite (B (HA payer)), handle_eqb_refl, share_none by (cbn; intuition congruence). cbn. lia.
Qed.
Lemma pay_all_app s payer b c p : pay_all s p payer (b ++ c) = let? p1 := pay_all s p payer b in pay_all s p1 payer c.
Proof. revert p. induction b as [|[h x] b IH]; intros p; cbn; [reflexivity|]. destruct (f_take s p payer h x); cbn; [apply IH|reflexivity]. Qed.
Lemma pay_all_ext s s1 payer b : free s payer = free s1 payer -> forall p, pay_all s p payer b = pay_all s1 p payer b.
Proof.
  intros F. induction b as [|[h x] b IH]; intros p; cbn; [reflexivity|]. unfold f_take, f_pay. rewrite F. destruct (x =? 0); cbn [bind]; [apply IH|].
  destruct (require _ _); cbn [bind]; [|reflexivity]. destruct (require _ _); cbn [bind]; [|reflexivity]. destruct (ok_or _ _); cbn [bind]; [apply IH|reflexivity].
Qed.

(** ** The accounts an instruction creates *)
Definition miss (s : state) (a : addr) (k : kind) : list (addr * Z) := match st_accts s a with None => [(a, bytes_of k)] | Some _ => [] end.
Definition miss_tok (E : lenv) (s : state) (a m : addr) : list (addr * Z) := match st_toks s a with None => [(a, le_tok_size E m)] | Some _ => [] end.
Definition news (E : lenv) (s : state) (i : instr) : list (addr * Z) :=
  match i with
  | IInitialize _ m tp _ _ _ => [(pda_config, bytes_of KConfig); (pda_outbox_rl, bytes_of KOutboxRateLimit)] ++ miss_tok E s (ata tp token_authority m) m
  | IInitializeLut _ _ _ _ => miss s pda_lut KLut
  | ITransferLock x _ | ITransferBurn x _ => [(xa_outbox_item x, bytes_of KOutboxItem)]
  | IRedeem x =>
      match get_reg s (ra_transceiver x) with
      | Ok rt => match get_message s (ra_message x) (rt_address rt) with
                 | Ok (chain, tm) => miss s (pda_inbox (h_msg (le_hashes E) chain (tm_msg tm))) KInboxItem | Err _ => [] end
      | Err _ => []
      end
  | ISetPeer _ _ ch _ _ _ => miss s (pda_peer ch) KPeer ++ miss s (pda_inbox_rl ch) KInboxRateLimit
  | IRegisterTransceiver _ _ t => [(pda_reg t, bytes_of KRegistered)]
  | IXSetPeer q _ _ ch _ => [(pda_xpeer q ch, bytes_of KXPeer)]
  | IXReceive q _ v => match get s PWormhole v with Ok (DVaa chain _ (Some tm)) => [(pda_vtm q chain (nm_id (tm_msg tm)), bytes_of KVtm)] | _ => [] end
  | _ => []
  end.

Lemma news_nodup E s i : NoDup (map fst (news E s i)).
Proof.
  destruct i; cbn [news]; unfold miss, miss_tok; try apply NoDup_nil;
  repeat match goal with
         | |- context [match st_accts s ?a with _ => _ end] => destruct (st_accts s a)
         | |- context [match st_toks s ?a with _ => _ end] => destruct (st_toks s a)
         | |- context [match get_reg s ?a with _ => _ end] => destruct (get_reg s a)
         | |- context [match get_message s ?a ?b with _ => _ end] => destruct (get_message s a b) as [[? ?]|?]
         | |- context [match get s ?a ?b with _ => _ end] => destruct (get s a b) as [[]|?]
         | |- context [match ?o with Some _ => _ | None => _ end] => destruct o
         end; cbn [map fst app]; repeat (apply NoDup_cons; [cbn; intuition discriminate|]); apply NoDup_nil.
Qed.

(** Token operations other than [init] create no account. *)
Lemma spent_none s p src mnt dst auth x ok s' a : tok_transfer s p src mnt dst auth x ok = Ok s' -> st_toks s a = None -> st_toks s' a = None.
Proof.
  intros E N. apply tok_transfer_ok in E. destruct E as (t & d & m & t' & T & D & _ & _ & _ & _ & _ & _ & _ & _ & _ & _ & [(-> & ->)|E]); [exact N|].
  decompose [and] E. match goal with Q : st_toks s' = _ |- _ => rewrite Q end. rewrite !upd_eq. repeat destruct (addr_eq_dec _ _); subst; congruence.
Qed.
Lemma minted_none s p mnt dst auth x s' a : tok_mint_to s p mnt dst auth x = Ok s' -> st_toks s a = None -> st_toks s' a = None.
Proof.
  intros E N. apply tok_mint_to_ok in E. decompose [ex and] E. subst. cbn. try match goal with Q : st_toks s' = _ |- _ => rewrite Q end.
  rewrite ?upd_eq. repeat destruct (addr_eq_dec _ _); subst; congruence.
Qed.
Lemma burned_none s p src mnt auth x s' a : tok_burn s p src mnt auth x = Ok s' -> st_toks s a = None -> st_toks s' a = None.
Proof.
  intros E N. apply tok_burn_ok in E. decompose [ex and] E. subst. cbn. try match goal with Q : st_toks s' = _ |- _ => rewrite Q end.
  rewrite ?upd_eq. repeat destruct (addr_eq_dec _ _); subst; congruence.
Qed.

Lemma size_of d k n : kind_of d = Some k -> n = 8 + Z.of_nat (c_space (codec_of k)) -> n = bytes_of k.
Proof. intros _ ->. unfold bytes_of, space. rewrite Nat2Z.inj_add. reflexivity. Qed.
Lemma account_at s a p d k : st_accts s a = Some (Acct p d) -> is_ntt_prog p = true -> kind_of d = Some k -> program_account s a (bytes_of k).
Proof.
  intros A P K. exists p, d, k. split; [exact A|]. split; [destruct p; try discriminate; auto|]. split; [exact K|].
  unfold bytes_of, space. rewrite Nat2Z.inj_add. reflexivity.
Qed.

Lemma new_tok H s c s' a t : step H s c = Ok s' -> of_program (ins c) = true -> st_toks s a = None -> st_toks s' a = Some t ->
  exists d m tp ch l md, ins c = IInitialize d m tp ch l md /\ a = ata tp token_authority m /\ tk_mint t = m.
Proof.
  intros Hs Hp N T. destruct (step_ops _ _ _ _ Hs) as (os & s1 & R & (Q & _) & W). rewrite Q in T. clear Q.
  destruct W; cbn [run_ops run_op] in R; binds R; apply Ok_inj in R; subst.
  - destruct i; discriminate.
  - congruence.
  - apply tok_init_ok in E. destruct E as (m & _ & _ & _ & _ & _ & ->). cbn in T. rewrite upd_eq in T. destruct (addr_eq_dec _ _) as [->|]; [|congruence].
    apply Some_inj in T. subst t. repeat eexists.
  - rewrite (spent_none _ _ _ _ _ _ _ _ _ _ E N) in T. discriminate.
  - rewrite (burned_none _ _ _ _ _ _ _ _ E0 (spent_none _ _ _ _ _ _ _ _ _ _ E N)) in T. discriminate.
  - rewrite (spent_none _ _ _ _ _ _ _ _ _ _ E N) in T. discriminate.
  - rewrite (spent_none _ _ _ _ _ _ _ _ _ _ E0 (minted_none _ _ _ _ _ _ _ _ E N)) in T. discriminate.
Qed.

Lemma redeem_news E s x c rt p chain tm pe mt old new irl orl am n : redeem_facts (le_hashes E) s x c rt p chain tm pe mt old new irl orl am n ->
  news E s (IRedeem x) = miss s (pda_inbox (h_msg (le_hashes E) chain (tm_msg tm))) KInboxItem.
Proof.
  intros [_ _ A B C _ _ _ _ _ _ _ _ _ _ _ _]. cbn [news]. rewrite (proj2 (get_reg_ok _ _ _) A), (proj2 (get_message_ok _ _ _ _ _) (ex_intro _ _ (conj B C))). reflexivity.
Qed.
Lemma new_account E s c s' a n : step (le_hashes E) s c = Ok s' -> of_program (ins c) = true -> st_accts s a = None -> program_account s' a n ->
  In (a, n) (news E s (ins c)).
Proof.
  intros Hs Hp N (p & d & k & A & P & K & Z). apply (size_of _ _ _ K) in Z. subst n. destruct (step_change _ _ _ _ Hs a) as [Q|Q]; [congruence|].
  rewrite A, N in Q. clear Hs A. remember (@None acct) as old. remember (Some (Acct p d)) as new. remember (ins c) as i. clear Heqi.
  destruct Q; try discriminate; cbn [of_program] in Hp; try discriminate; apply Some_inj in Heqnew; inversion Heqnew; subst; cbn [kind_of] in K; try discriminate; try (apply Some_inj in K; subst k); cbn [news].
  - left. reflexivity.
  - right. left. reflexivity.
  - unfold miss. rewrite N. left. reflexivity.
  - destruct md; match goal with Q : is_transfer _ _ _ _ |- _ => cbn in Q; subst i end; left; reflexivity.
  - match goal with R : redeem_facts _ _ _ _ _ _ _ _ _ _ _ _ _ _ _ _ |- _ => change (In (pda_inbox (h_msg (le_hashes E) chain (tm_msg tm)), bytes_of KInboxItem) (news E s (IRedeem x))); rewrite (redeem_news _ _ _ _ _ _ _ _ _ _ _ _ _ _ _ _ R) end.
    unfold miss. rewrite N. left. reflexivity.
  - match goal with R : redeem_facts _ _ _ _ _ _ _ _ _ _ _ _ _ _ _ _ |- _ => change (In (pda_inbox (h_msg (le_hashes E) chain (tm_msg tm)), bytes_of KInboxItem) (news E s (IRedeem x))); rewrite (redeem_news _ _ _ _ _ _ _ _ _ _ _ _ _ _ _ _ R) end.
    unfold miss. rewrite N. left. reflexivity.
  - apply in_app_iff. left. unfold miss. rewrite N. left. reflexivity.
  - apply in_app_iff. right. unfold miss. rewrite N. left. reflexivity.
  - left. reflexivity.
  - left. reflexivity.
  - match goal with R : has s v PWormhole _ |- _ => rewrite (proj2 (get_ok _ _ _ _) R) end. left. reflexivity.
Qed.

Ltac look := cbn; rewrite ?upd_eq; repeat (destruct (addr_eq_dec _ _); try congruence); try reflexivity.
Lemma new_made E s c s' a n : step (le_hashes E) s c = Ok s' -> In (a, n) (news E s (ins c)) -> opened E s s' a n.
Proof.
  intros Hs I. pose proof (step_inv _ _ _ _ Hs) as (_ & Ty & He). destruct c as [sg i]. cbn [ins signers] in *. clear Hs.
  destruct i; cbn [news] in I; try contradiction; cbn [exec] in He.
  - unfold initialize in He. binds He. apply init_custody_ok in E7. destruct E7 as ((A & _) & _ & C). bools. subst s'.
    destruct I as [[= <- <-]|[[= <- <-]|I]].
    + left. split; [frees; assumption|]. eapply account_at with (p := PManager); [look|reflexivity|reflexivity].
    + left. split; [frees; assumption|]. eapply account_at with (p := PManager); [look|reflexivity|reflexivity].
    + unfold miss_tok in I. destruct (st_toks s _) eqn:T in I; [destruct I|]. destruct I as [[= <- <-]|[]]. right. split; [exact T|].
      destruct C as [(t & C & _)|(m' & _ & _ & _ & ->)]; [congruence|]. eexists. split; [look|reflexivity].
  - unfold initialize_lut in He. unfold miss in I. destruct (st_accts s pda_lut) eqn:N; [destruct I|]. destruct I as [[= <- <-]|[]].
    binds He. bools. subst. left. split; [exact N|]. eapply account_at with (p := PManager); [look|reflexivity|reflexivity].
  - destruct I as [[= <- <-]|[]]. apply transfer_lock_ok in He. destruct He as (c & mt & f & pe & am & t & orl & irl & orl' & irl' & ts & s1 & cu & cu' & F & _ & _ & _ & _ & ->).
    left. pose proof (free_ok _ _ (tf_free _ _ _ _ _ _ _ _ _ _ _ _ _ _ _ _ F)) as (Hfr & _). split; [exact Hfr|]. eapply account_at with (p := PManager); [unfold out_puts; look|reflexivity|reflexivity].
  - destruct I as [[= <- <-]|[]]. apply transfer_burn_ok in He. destruct He as (c & mt & f & pe & am & t & orl & irl & orl' & irl' & ts & s1 & s2 & He). 
    decompose [ex and] He. subst s'. match goal with F : transfer_facts _ _ _ _ _ _ _ _ _ _ _ _ _ _ _ _ |- _ =>
    left; pose proof (free_ok _ _ (tf_free _ _ _ _ _ _ _ _ _ _ _ _ _ _ _ _ F)) as (Hfr & _) end. split; [exact Hfr|]. eapply account_at with (p := PManager); [unfold out_puts; look|reflexivity|reflexivity].
  - apply redeem_ok in He. destruct He as (c & rt & p & chain & tm & pe & mt & old & new & irl & orl & am & m & R & He).
    fold (news E s (IRedeem x)) in I. rewrite (redeem_news _ _ _ _ _ _ _ _ _ _ _ _ _ _ _ _ R) in I. unfold miss in I.
    destruct (st_accts s _) eqn:N in I; [destruct I|]. destruct I as [[= <- <-]|[]]. left. split; [exact N|].
    destruct He as [(_ & ->)|(_ & _ & irl' & orl' & ts & _ & ->)]; (eapply account_at with (p := PManager); [look|reflexivity|reflexivity]).
  - unfold set_peer in He. binds He. bools. subst s'. apply in_app_iff in I. unfold miss in I.
    destruct I as [I|I]; (destruct (st_accts s _) eqn:N in I; [destruct I|]; destruct I as [[= <- <-]|[]]; left; split; [exact N|];
    eapply account_at with (p := PManager); [look|reflexivity|reflexivity]).
  - unfold register_transceiver in He. binds He. bools. subst s'. destruct I as [[= <- <-]|[]]. gets. frees. left. split; [assumption|].
    assert (pda_reg transceiver <> cfg) by (intros Q; unfold has in *; congruence). eapply account_at with (p := PManager); [look|reflexivity|reflexivity].
  - unfold x_set_peer in He. binds He. bools. subst s'. destruct I as [[= <- <-]|[]]. left. split; [frees; assumption|].
    eapply account_at; [look| |reflexivity]. cbn in Ty. bools. assumption.
  - unfold x_receive in He. binds He. match goal with Q : get s PWormhole _ = _ |- _ => rewrite Q in I end.
    match type of I with context [match ?d with _ => _ end] => destruct d as [| | | | | | | | | |? ? [tm|]| |] end; try contradiction.
    binds He. bools. subst s'. destruct I as [[= <- <-]|[]]. left. split; [frees; assumption|].
    eapply account_at; [look| |reflexivity]. cbn in Ty. assumption.
Qed.

Lemma news_opened E s c s' a n : step (le_hashes E) s c = Ok s' -> of_program (ins c) = true -> In (a, n) (news E s (ins c)) <-> opened E s s' a n.
Proof.
  intros Hs Hp. split; [now apply new_made|]. intros [(N & P)|(N & t & T & ->)]; [eapply new_account; eassumption|].
  destruct (new_tok _ _ _ _ _ _ Hs Hp N T) as (d & m & tp & ch & l & md & -> & -> & ->). cbn [news]. unfold miss_tok. rewrite N. right. right. left. reflexivity.
Qed.

(** ** Initialisations as payments *)
Fixpoint inits (E : lenv) (s : state) (p : purse) (payer : addr) (ns : list (addr * Z)) : result purse :=
  match ns with [] => Ok p | (a, n) :: r => let? p := f_init E s p payer a n in inits E s p payer r end.
Definition lacks (E : lenv) (p : purse) (ns : list (addr * Z)) : list (handle * Z) := map (fun an => (HA (fst an), lacking E p (fst an) (snd an))) ns.

Lemma inits_pay E s payer p0 ns : (forall n, 0 < le_rent E n) -> forall p p', sound p -> NoDup (map fst ns) -> (forall a, In a (map fst ns) -> p (HA a) = p0 (HA a)) ->
  inits E s p payer ns = Ok p' <-> ~ In payer (map fst ns) /\ pay_all s p payer (lacks E p0 ns) = Ok p'.
Proof.
  intros R. induction ns as [|[a n] ns IH]; intros p p' S D G; cbn [inits lacks map fst snd pay_all].
  - split; [auto|now intros [_ ?]].
  - inversion D as [|? ? Na D']; subst. assert (G0 : p (HA a) = p0 (HA a)) by (apply G; left; reflexivity).
    assert (L : lacking E p0 a n = lacking E p a n) by (unfold lacking; now rewrite G0). rewrite L. unfold f_init. rewrite init_amount by assumption.
    destruct (addr_eqb payer a) eqn:Q; cbn [negb require bind].
    + apply addr_eqb_eq in Q. subst. split; [discriminate|]. intros [N _]. exfalso. apply N. left. reflexivity.
    + assert (Np : payer <> a) by (intros ->; rewrite (proj2 (addr_eqb_eq a a) eq_refl) in Q; discriminate).
      destruct (f_take s p payer (HA a) (lacking E p a n)) as [p1|] eqn:T; cbn [bind]; [|split; [discriminate|intros [_ ?]; discriminate]].
      destruct (take_ok _ _ _ _ _ _ S (lacking_pos _ _ _ _) T) as [(_ & _ & B) S1].
      destruct (in_dec addr_eq_dec payer (map fst ns)) as [I|I].
      * split; [|intros [N _]; exfalso; apply N; right; exact I]. intros X. exfalso.
        enough (~ In payer (map fst ns)) by contradiction. clear - X. revert p1 X. induction ns as [|[b m] ns IH]; intros p1 X; [auto|]. cbn [inits] in X. binds X.
        unfold f_init in E0. binds E0. bools. cbn. intros [->|I]; [rewrite (proj2 (addr_eqb_eq payer payer) eq_refl) in *; discriminate|]. eapply IH; eassumption.
      * rewrite (IH p1 p' S1 D').
        -- split; intros [_ X]; split; auto. cbn. intros [->|?]; contradiction.
        -- intros b Hb. rewrite (B (HA b)), share_none.
           ++ rewrite handle_eqb_neq; [|intros [= ->]; contradiction]. rewrite G by (right; exact Hb). lia.
           ++ cbn. intros [[= ->]|[]]. contradiction.
Qed.

(** ** Posting *)
Lemma post_pay l payer take msg em sq pl ok l' : sound (f_purse l) -> 0 <= f_fee l -> f_last l <= f_purse l HFeeCollector -> u64b (fst take) = true ->
  u64b (snd take) = true -> (forall a, sq <> HA a) -> sq <> HFeeCollector ->
  f_post l payer take msg em sq pl ok = Ok l' <->
  exists p' s', pay_all (f_world l) (f_purse l) payer [(HFeeCollector, f_fee l); (sq, fst take); (HA msg, snd take)] = Ok p' /\
    bridge_post (f_world l) msg em pl ok = Ok s' /\ l' = FState s' p' (f_fee l) (p' HFeeCollector).
Proof.
  intros S F L U1 U2 N1 N2. unfold u64b in *. bools. unfold f_post. cbn [pay_all].
  replace (if 0 <? f_fee l then f_pay (f_world l) (f_purse l) payer HFeeCollector (f_fee l) else Ok (f_purse l)) with (f_take (f_world l) (f_purse l) payer HFeeCollector (f_fee l)).
  2:{ unfold f_take. destruct (f_fee l =? 0) eqn:A, (0 <? f_fee l) eqn:B; try reflexivity; lia. }
  destruct (f_take _ _ payer HFeeCollector _) as [p1|] eqn:T1; cbn [bind]; [|split; [discriminate|intros (? & ? & ? & _); discriminate]].
  destruct (take_ok _ _ _ _ _ _ S F T1) as [(_ & _ & B1) S1].
  assert (C1 : p1 HFeeCollector = f_purse l HFeeCollector + f_fee l).
  { rewrite (B1 HFeeCollector). cbn [share total_of fold_right fst snd]. rewrite handle_eqb_refl, handle_eqb_neq by discriminate. lia. }
  replace (f_last l + f_fee l <=? p1 HFeeCollector) with true by lia. cbn [require bind].
  destruct (f_take _ p1 payer sq _) as [p2|] eqn:T2; cbn [bind]; [|split; [discriminate|intros (? & ? & ? & _); discriminate]].
  assert (X1 : 0 <= fst take) by lia. destruct (take_ok _ _ _ _ _ _ S1 X1 T2) as [(_ & _ & B2) S2].
  assert (C2 : p2 HFeeCollector = p1 HFeeCollector).
  { rewrite (B2 HFeeCollector), share_none, handle_eqb_neq by (try discriminate; cbn; intuition congruence). lia. }
  destruct (f_take _ p2 payer (HA msg) _) as [p3|] eqn:T3; cbn [bind]; [|split; [discriminate|intros (? & ? & ? & _); discriminate]].
  assert (X2 : 0 <= snd take) by lia. destruct (take_ok _ _ _ _ _ _ S2 X2 T3) as [(_ & _ & B3) S3].
  assert (C3 : p3 HFeeCollector = p2 HFeeCollector).
  { rewrite (B3 HFeeCollector), share_none, handle_eqb_neq by (try discriminate; cbn; intuition congruence). lia. }
  destruct (bridge_post _ _ _ _ _) as [s'|] eqn:Bp; cbn [bind].
  - split; [intros Q; apply Ok_inj in Q; subst; exists p3, s'; repeat split; congruence|]. intros (p' & s2 & Q1 & Q2 & ->).
    apply Ok_inj in Q1. apply Ok_inj in Q2. subst. rewrite C3, C2. reflexivity.
  - split; [discriminate|intros (? & ? & _ & ? & _); discriminate].
Qed.

(** ** Instructions of the programs *)
Record fund_ok (E : lenv) (l : fstate) : Prop := {
  fo_sound : sound (f_purse l);
  fo_fee : 0 <= f_fee l;
  fo_last : 0 <= f_last l <= f_purse l HFeeCollector;
  fo_rent : forall n, 0 < le_rent E n }.
Definition dues (E : lenv) (l : fstate) (s' : state) (i : instr) (take : Z * Z) : list (handle * Z) :=
  lacks E (f_purse l) (news E (f_world l) i) ++ (if posted (f_world l) s' then [(HFeeCollector, f_fee l)] else []) ++ extras (f_world l) s' i take.

Lemma posted_same s s' : st_posted s' = st_posted s -> posted s s' = false.
Proof. intros E. unfold posted. rewrite E, Nat.eqb_refl. reflexivity. Qed.
Lemma posted_one s s' x : st_posted s' = x :: st_posted s -> posted s s' = true.
Proof. intros E. unfold posted. rewrite E. cbn [length]. replace (Nat.eqb _ _) with false; [reflexivity|]. symmetry. apply Nat.eqb_neq. lia. Qed.
Definition posts (i : instr) : bool := match i with IXRelease _ _ _ _ _ _ | IXBroadcastId _ _ _ _ | IXBroadcastPeer _ _ _ _ _ => true | _ => false end.
Lemma posted_none H s c s' : step H s c = Ok s' -> of_program (ins c) = true -> posts (ins c) = false -> posted s s' = false.
Proof.
  intros Hs Hp Np. apply posted_same. pose proof (step_rest _ _ _ _ Hs) as R. remember (st_posted s') as q. remember (ins c) as i. clear Heqq Heqi. destruct R; try reflexivity; discriminate.
Qed.

Definition owed (E : lenv) (l : fstate) (sg : list addr) (payer : addr) (take : Z * Z) (i : instr) (s' : state) (l' : fstate) : Prop :=
  signed sg payer = true /\ ~ In payer (map fst (news E (f_world l) i)) /\
  exists p', pay_all (f_world l) (f_purse l) payer (dues E l s' i take) = Ok p' /\
    l' = FState s' p' (f_fee l) (if posted (f_world l) s' then p' HFeeCollector else f_last l).

Lemma inits_case E l sg payer take i s' l' f : fund_ok E l -> exec (le_hashes E) (f_world l) sg i = Ok s' -> posted (f_world l) s' = false ->
  (forall p, f p = pay_all (f_world l) p payer (extras (f_world l) s' i take)) ->
  (let? _ := require (signed sg payer) Constraint in
   let? p := inits E (f_world l) (f_purse l) payer (news E (f_world l) i) in let? p := f p in finish E l sg i p) = Ok l' <-> owed E l sg payer take i s' l'.
Proof.
  intros F Ex Np Hf. unfold owed, dues. rewrite Np. cbn [app]. destruct (signed sg payer); cbn [require bind]; [|split; [discriminate|intros [? _]; discriminate]].
  pose proof (fun p' => inits_pay E (f_world l) payer (f_purse l) (news E (f_world l) i) (fo_rent _ _ F) (f_purse l) p' (fo_sound _ _ F) (news_nodup _ _ _) (fun _ _ => eq_refl)) as Q.
  destruct (inits E _ _ _ _) as [p1|e] eqn:I1; cbn [bind].
  - destruct (proj1 (Q p1) eq_refl) as [N I2]. clear I1. rename I2 into I1. rewrite pay_all_app, I1. cbn [bind]. rewrite Hf. unfold finish. rewrite Ex. cbn [bind].
    destruct (pay_all _ p1 payer _) as [p2|]; cbn [bind].
    + split; [intros X; apply Ok_inj in X; subst; repeat split; auto; exists p2; split; reflexivity|]. intros (_ & _ & p' & X & ->). apply Ok_inj in X. subst. reflexivity.
    + split; [discriminate|]. intros (_ & _ & p' & X & _). discriminate.
  - split; [discriminate|]. intros (_ & N & p' & X & _). rewrite pay_all_app in X. destruct (pay_all _ (f_purse l) payer (lacks _ _ _)) as [p1|] eqn:I2; [|discriminate].
    assert (X2 : Err e = Ok p1) by (apply Q; auto). discriminate.
Qed.

Lemma free_put s a p d b : st_accts s a <> None -> free (put a p d s) b = free s b.
Proof.
  intros N. unfold free. destruct b; try reflexivity; cbn; rewrite upd_eq; destruct (addr_eq_dec _ a) as [->|]; try reflexivity; destruct (st_accts s a); congruence.
Qed.

Lemma exec_pay E l sg payer take i s' l' : fund_ok E l -> step (le_hashes E) (f_world l) (Call sg i) = Ok s' -> of_program i = true ->
  u64b (fst take) = true -> u64b (snd take) = true ->
  f_exec E l sg payer take i = Ok l' <-> if has_payer i then owed E l sg payer take i s' l' else l' = f_put l s' (f_purse l).
Proof.
  intros F Hs Hp U1 U2. pose proof (step_inv _ _ _ _ Hs) as (_ & _ & Ex). cbn [signers ins] in Ex.
  assert (Np : posts i = false -> posted (f_world l) s' = false) by (intros; eapply posted_none; [exact Hs|exact Hp|assumption]).
  destruct i; try discriminate Hp; cbn [has_payer]; cbn [posts] in Np;
  try (specialize (Np eq_refl); cbn [f_exec]; unfold finish; rewrite Ex; cbn [bind]; split; [intros Q; apply Ok_inj in Q; congruence|intros ->; reflexivity]);
  try (rewrite <- (inits_case E l sg payer take _ s' l' Ok F Ex (Np eq_refl) (fun p => eq_refl)); cbn [f_exec news inits]; unfold init1, init0, init_tok, miss, miss_tok;
    destruct (require (signed sg payer) Constraint); cbn [bind]; [|reflexivity];
    repeat match goal with
    | |- context [match st_accts ?s ?a with _ => _ end] => destruct (st_accts s a)
    | |- context [match st_toks ?s ?a with _ => _ end] => destruct (st_toks s a)
    end; cbn [app inits bind]; unfold init1;
    repeat match goal with |- context [f_init ?a ?b ?c ?d ?e ?f] => destruct (f_init a b c d e f); cbn [bind] end; reflexivity).
  - (* lookup table *)
    rewrite <- (inits_case E l sg payer take _ s' l' (fun p => f_take (f_world l) p payer (HA lut_address) (fst take)) F Ex (Np eq_refl)).
    2:{ intros p. cbn [extras pay_all]. destruct (f_take _ _ _ _ _); reflexivity. }
    cbn [f_exec news inits]. unfold init0, init1, miss. destruct (require (signed sg payer) Constraint); cbn [bind]; [|reflexivity].
    destruct (st_accts _ _); cbn [inits bind]; [reflexivity|]. destruct (f_init _ _ _ _ _ _); reflexivity.
  - (* redeem *)
    rewrite <- (inits_case E l sg payer take _ s' l' Ok F Ex (Np eq_refl) (fun p => eq_refl)).
    pose proof Ex as Ex2. cbn [exec] in Ex2. apply redeem_ok in Ex2. destruct Ex2 as (c & rt & q & chain & tm & pe & mt & old & new & irl & orl & am & m & R & _).
    rewrite (redeem_news _ _ _ _ _ _ _ _ _ _ _ _ _ _ _ _ R). destruct R as [_ _ A B C _ _ _ _ _ _ _ _ _ _ _ _]. cbn [f_exec].
    rewrite (proj2 (get_reg_ok _ _ _) A). cbn [bind]. rewrite (proj2 (get_message_ok _ _ _ _ _) (ex_intro _ _ (conj B C))). cbn [bind].
    unfold init0, init1, miss. destruct (require (signed sg payer) Constraint); cbn [bind]; [|reflexivity].
    destruct (st_accts _ _); cbn [inits bind]; [reflexivity|]. destruct (f_init _ _ _ _ _ _); reflexivity.
  - (* receive *)
    rewrite <- (inits_case E l sg payer take _ s' l' Ok F Ex (Np eq_refl) (fun p => eq_refl)).
    pose proof Ex as Ex2. cbn [exec] in Ex2. unfold x_receive in Ex2. binds Ex2. cbn [f_exec news]. destruct (require (signed sg payer) Constraint); cbn [bind]; [|reflexivity].
    match goal with Q : get _ PWormhole _ = _ |- _ => rewrite Q end. cbn [bind].
    match type of Ex2 with context [match ?d with _ => _ end] => destruct d as [| | | | | | | | | |? ? [tm|]| |] end; try discriminate.
    unfold init1. cbn [inits bind]. destruct (f_init _ _ _ _ _ _); reflexivity.
  - (* release *)
    clear Np. unfold owed, dues. cbn [f_exec news lacks map app exec extras] in *. destruct (signed sg payer); cbn [require bind]; [|split; [discriminate|intros [? _]; discriminate]].
    unfold f_release, x_release in *. binds Ex. match goal with Q : outbound_checks _ _ _ _ = _ |- _ => rewrite Q; cbn [bind]; pose proof (outbound_checks_ok _ _ _ _ _ _ _ Q) as OF end.
    match goal with Q : require _ _ = Ok _ |- _ => rewrite Q; cbn [bind] end.
    match goal with Q : @eq (result (state * bool)) ?m (Ok (?s1, ?b)) |- _ => rewrite Q; cbn [bind]; rename s1 into w, b into rel;
      assert (W : exists o', w = put item PManager (DOutboxItem o') (f_world l)) end.
    { match goal with Q : @eq (result (state * bool)) ?m (Ok (w, rel)) |- _ => destruct p; try (binds Q; apply Ok_inj in Q; inversion Q; subst; eauto; fail);
        apply mark_ok in Q; destruct Q as (? & ? & ? & ? & _ & _ & _ & _ & [(_ & _ & ->)|(_ & _ & ? & _ & ->)]); eauto end. }
    destruct W as [o2 ->]. destruct (negb rel).
    + destruct revert_on_delay; [discriminate|]. apply Ok_inj in Ex. subst s'. rewrite posted_same by reflexivity. cbn [app pay_all].
      split; [intros Q; apply Ok_inj in Q; subst l'; repeat split; auto; exists (f_purse l); destruct l; auto|]. intros (_ & _ & p' & Q & ->). apply Ok_inj in Q. subst p'. destruct l; reflexivity.
    + binds Ex. repeat match goal with Q : ?m = Ok _ |- context [bind ?m _] => rewrite Q; cbn [bind] end.
      pose proof Ex as Ex2. apply bridge_post_ok in Ex2. destruct Ex2 as (_ & _ & _ & _ & Es). assert (Po : posted (f_world l) s' = true) by (eapply posted_one; rewrite Es; reflexivity). rewrite Po. clear Es Po. cbn [app].
      rewrite post_pay; try assumption; try apply F; try discriminate; try (cbn; lia). cbn [f_put f_world f_purse f_fee f_last].
      assert (Fr : free (f_world l) payer = free (put item PManager (DOutboxItem o2) (f_world l)) payer).
      { symmetry. apply free_put. pose proof (of_item _ _ _ _ _ _ _ OF) as I. unfold has in I. congruence. }
      rewrite (pay_all_ext _ _ _ _ Fr). rewrite Ex. split.
      * intros (p' & s2 & A & B & ->). apply Ok_inj in B. subst s2. repeat split; auto. exists p'. split; [exact A|reflexivity].
      * intros (_ & _ & p' & A & ->). exists p', s'. repeat split; auto.
  - (* broadcasts *)
    clear Np. unfold owed, dues. cbn [f_exec news lacks map app exec extras] in *. destruct (signed sg payer); cbn [require bind]; [|split; [discriminate|intros [? _]; discriminate]].
    unfold f_broadcast_id, x_broadcast_id in *. binds Ex. repeat match goal with Q : ?m = Ok _ |- context [bind ?m _] => rewrite Q; cbn [bind] end.
    pose proof Ex as Ex2. apply bridge_post_ok in Ex2. destruct Ex2 as (_ & _ & _ & _ & Es). assert (Po : posted (f_world l) s' = true) by (eapply posted_one; rewrite Es; reflexivity). rewrite Po. clear Es Po. cbn [app].
    rewrite post_pay; try assumption; try apply F; try discriminate. rewrite Ex. split.
    + intros (p' & s2 & A & B & ->). apply Ok_inj in B. subst s2. repeat split; auto. exists p'. split; [exact A|reflexivity].
    + intros (_ & _ & p' & A & ->). exists p', s'. repeat split; auto.
  - clear Np. unfold owed, dues. cbn [f_exec news lacks map app exec extras] in *. destruct (signed sg payer); cbn [require bind]; [|split; [discriminate|intros [? _]; discriminate]].
    unfold f_broadcast_peer, x_broadcast_peer in *. binds Ex. repeat match goal with Q : ?m = Ok _ |- context [bind ?m _] => rewrite Q; cbn [bind] end.
    pose proof Ex as Ex2. apply bridge_post_ok in Ex2. destruct Ex2 as (_ & _ & _ & _ & Es). assert (Po : posted (f_world l) s' = true) by (eapply posted_one; rewrite Es; reflexivity). rewrite Po. clear Es Po. cbn [app].
    rewrite post_pay; try assumption; try apply F; try discriminate. rewrite Ex. split.
    + intros (p' & s2 & A & B & ->). apply Ok_inj in B. subst s2. repeat split; auto. exists p'. split; [exact A|reflexivity].
    + intros (_ & _ & p' & A & ->). exists p', s'. repeat split; auto.
Qed.

(** ** Refinement *)
Lemma post_world l payer take m e sq pl ok l' : f_post l payer take m e sq pl ok = Ok l' -> bridge_post (f_world l) m e pl ok = Ok (f_world l') /\ f_fee l' = f_fee l.
Proof. unfold f_post. intros Q. binds Q. apply Ok_inj in Q. subst l'. cbn. auto. Qed.
Lemma exec_world E l sg payer take i l' : f_exec E l sg payer take i = Ok l' -> exec (le_hashes E) (f_world l) sg i = Ok (f_world l') /\ f_fee l' = f_fee l.
Proof.
  intros Q. assert (Fin : forall p, finish E l sg i p = Ok l' -> exec (le_hashes E) (f_world l) sg i = Ok (f_world l') /\ f_fee l' = f_fee l).
  { intros p R. unfold finish in R. binds R. apply Ok_inj in R. subst l'. auto. }
  destruct i; cbn [f_exec] in Q; try (binds Q; eapply Fin; exact Q; fail).
  - binds Q. match type of Q with context [match ?d with _ => _ end] => destruct d as [| | | | | | | | | |? ? [tm|]| |] end; try discriminate. binds Q. eapply Fin; exact Q.
  - binds Q. unfold f_release in Q. binds Q. cbn [exec]. unfold x_release. repeat match goal with Q : ?m = Ok _ |- context [bind ?m _] => rewrite Q; cbn [bind] end.
    destruct (negb _).
    + destruct revert_on_delay; [discriminate|]. apply Ok_inj in Q. subst. auto.
    + binds Q. repeat match goal with Q : ?m = Ok _ |- context [bind ?m _] => rewrite Q; cbn [bind] end. apply post_world in Q. exact Q.
  - binds Q. unfold f_broadcast_id in Q. binds Q. cbn [exec]. unfold x_broadcast_id. repeat match goal with Q : ?m = Ok _ |- context [bind ?m _] => rewrite Q; cbn [bind] end. apply post_world in Q. exact Q.
  - binds Q. unfold f_broadcast_peer in Q. binds Q. cbn [exec]. unfold x_broadcast_peer. repeat match goal with Q : ?m = Ok _ |- context [bind ?m _] => rewrite Q; cbn [bind] end. apply post_world in Q. exact Q.
  - binds Q. apply post_world in Q. bools. cbn [exec]. repeat match goal with Q : signed _ _ = true |- _ => rewrite Q; clear Q end. exact Q.
Qed.
Lemma do_world E l c payer take l' : f_step E l (LDo c payer take) = Ok l' ->
  step (le_hashes E) (f_world l) c = Ok (f_world l') /\ f_fee l' = f_fee l /\ u64b (fst take) = true /\ u64b (snd take) = true.
Proof.
  cbn [f_step]. intros Q. binds Q. bools. apply exec_world in Q. destruct Q as [Q1 Q2]. split; [|auto]. destruct c. now apply step_ok.
Qed.
Lemma world_step E l e l' : f_step E l e = Ok l' -> (exists c payer take, e = LDo c payer take /\ step (le_hashes E) (f_world l) c = Ok (f_world l')) \/
  f_world l' = f_world l.
Proof.
  intros Q. destruct e; [left; apply do_world in Q; destruct Q as [Q _]; eauto|right|right|right]; cbn [f_step] in Q; binds Q; apply Ok_inj in Q; subst; reflexivity.
Qed.

(** ** Invariants *)
Lemma dues_positive E l s' i take : 0 <= f_fee l -> u64b (fst take) = true -> u64b (snd take) = true -> positive (dues E l s' i take).
Proof.
  intros F U1 U2. unfold u64b in *. bools. unfold dues. apply positive_app. split; [|apply positive_app; split].
  - intros h x I. unfold lacks in I. apply in_map_iff in I. destruct I as ([a n] & [= <- <-] & _). apply lacking_pos.
  - destruct (posted _ _); [|intros ? ? []]. intros h x [[= <- <-]|[]]. exact F.
  - assert (A : 0 <= fst take) by lia. assert (B : 0 <= snd take) by lia.
    destruct i; cbn [extras]; try (intros ? ? []; fail); try destruct (posted _ _); intros h x I; cbn in I; repeat (destruct I as [I|I]; [inversion I; subst; assumption|]); destruct I.
Qed.
Lemma dues_lastly E l s' i take payer : ~ In payer (map fst (news E (f_world l) i)) -> lastly payer (dues E l s' i take).
Proof.
  intros N. unfold dues. apply lastly_app.
  - intros h x I. unfold lacks in I. apply in_map_iff in I. destruct I as ([a n] & [= <- <-] & I). intros [= ->]. apply N. apply in_map_iff. exists (payer, n). auto.
  - apply lastly_app; [destruct (posted _ _); intros h x I; cbn in I; [destruct I as [[= <- <-]|[]]; discriminate|destruct I]|].
    destruct i; cbn [extras]; cbn; auto; try destruct (posted _ _); cbn; auto 6; repeat split; auto; right; discriminate.
Qed.

(** What a step of the programs does. *)
Record paid_step (E : lenv) (l : fstate) (sg : list addr) (i : instr) (payer : addr) (take : Z * Z) (l' : fstate) : Prop := {
  ps_bill : settled (f_purse l) (f_purse l') payer (if has_payer i then dues E l (f_world l') i take else []);
  ps_signed : has_payer i = true -> signed sg payer = true;
  ps_apart : has_payer i = true -> ~ In payer (map fst (news E (f_world l) i));
  ps_bare : has_payer i = true -> total_of (dues E l (f_world l') i take) = 0 \/ bare (f_world l) payer;
  ps_enough : has_payer i = true -> total_of (dues E l (f_world l') i take) <= f_purse l (HA payer);
  ps_last : f_last l' = if posted (f_world l) (f_world l') then f_purse l' HFeeCollector else f_last l;
  ps_sound : sound (f_purse l') }.
Lemma do_paid E l sg i payer take l' : fund_ok E l -> of_program i = true -> f_step E l (LDo (Call sg i) payer take) = Ok l' -> paid_step E l sg i payer take l'.
Proof.
  intros F Hp Q. destruct (do_world _ _ _ _ _ _ Q) as (Hs & _ & U1 & U2). cbn [f_step signers ins] in Q. binds Q.
  apply (exec_pay E l sg payer take i (f_world l') l' F Hs Hp U1 U2) in Q. destruct (has_payer i) eqn:P.
  - destruct Q as (Sg & N & p' & A & B). assert (f_purse l' = p') by (rewrite B; reflexivity). subst p'.
    destruct (pay_all_ok _ _ _ _ _ (fo_sound _ _ F) (dues_positive E l (f_world l') i take (fo_fee _ _ F) U1 U2) (dues_lastly E l (f_world l') i take payer N) A) as [(B1 & B2 & B3) S].
    constructor; rewrite ?P; auto. rewrite B at 1. reflexivity.
  - assert (Po : posted (f_world l) (f_world l') = false) by (apply (posted_none _ _ _ _ Hs Hp); destruct i; try reflexivity; discriminate).
    rewrite Q in *. constructor; rewrite ?P; try discriminate; cbn in *; [apply settled_nil|rewrite Po; reflexivity|apply F].
Qed.
Lemma epost_paid E l sg m e pl payer take l' : fund_ok E l -> f_step E l (LDo (Call sg (EPost m e pl)) payer take) = Ok l' ->
  let b := [(HFeeCollector, f_fee l); (HOther 0, fst take); (HA m, snd take)] in
  billed (f_world l) (f_purse l) (f_purse l') payer b /\ positive b /\ sound (f_purse l') /\ signed sg payer = true /\ f_last l' = f_purse l' HFeeCollector.
Proof.
  intros F Q b. destruct (do_world _ _ _ _ _ _ Q) as (_ & _ & U1 & U2). cbn [f_step signers ins] in Q. binds Q. cbn [f_exec] in Q. binds Q. bools.
  apply post_pay in Q; try assumption; try apply F; try discriminate. destruct Q as (p' & s' & A & _ & ->). cbn [f_purse f_last].
  assert (P : positive b). { unfold u64b in *. bools. intros h x [[= <- <-]|[[= <- <-]|[[= <- <-]|[]]]]; [apply F|lia|lia]. }
  assert (L : lastly payer b) by (cbn; repeat split; auto; right; discriminate).
  destruct (pay_all_ok _ _ _ _ _ (fo_sound _ _ F) P L A) as [B S]. auto.
Qed.
Definition is_post (i : instr) : bool := match i with EPost _ _ _ => true | _ => false end.
Lemma env_paid E l sg i payer take l' : of_program i = false -> is_post i = false -> f_step E l (LDo (Call sg i) payer take) = Ok l' ->
  f_purse l' = f_purse l /\ f_last l' = f_last l.
Proof.
  intros Hp N Q. cbn [f_step signers ins] in Q. binds Q. destruct i; try discriminate; cbn [f_exec] in Q; unfold finish in Q; binds Q; apply Ok_inj in Q; subst l'; auto.
Qed.

(** Any step, as a bill. *)
Lemma do_billed E l c payer take l' : fund_ok E l -> f_step E l (LDo c payer take) = Ok l' ->
  exists b, positive b /\ billed (f_world l) (f_purse l) (f_purse l') payer b /\ (b = [] \/ signed (signers c) payer = true) /\ sound (f_purse l').
Proof.
  intros F Q. destruct c as [sg i]. destruct (do_world _ _ _ _ _ _ Q) as (_ & _ & U1 & U2). destruct (of_program i) eqn:Hp.
  - apply do_paid in Q; [|exact F|exact Hp]. destruct Q as [A B _ C D _ S]. destruct (has_payer i).
    + exists (dues E l (f_world l') i take). split; [apply dues_positive; auto; apply F|]. split; [split; [now apply C|split; [now apply D|exact A]]|]. auto.
    + exists []. split; [intros ? ? []|]. split; [split; [left; reflexivity|split; [cbn; apply (sound_pos _ _ (fo_sound _ _ F))|exact A]]|]. auto.
  - destruct (is_post i) eqn:N.
    + destruct i; try discriminate. apply epost_paid in Q; [|exact F]. destruct Q as (A & B & S & D & _). eexists. split; [exact B|]. split; [exact A|]. auto.
    + apply env_paid in Q; auto. destruct Q as [A _]. exists []. rewrite A. split; [intros ? ? []|]. split; [apply billed_nil, F|]. split; [auto|apply F].
Qed.
Lemma fund_step E l e l' : fund_ok E l -> f_step E l e = Ok l' -> fund_ok E l'.
Proof.
  intros F Q. pose proof F as [S Fe La R]. destruct e as [c payer take|sg src dst x|x|dst x].
  - destruct (do_billed _ _ _ _ _ _ F Q) as (b & P & B & _ & S'). destruct (do_world _ _ _ _ _ _ Q) as (_ & Fe' & _).
    assert (C : f_purse l HFeeCollector <= f_purse l' HFeeCollector).
    { destruct B as (_ & _ & B). rewrite (B HFeeCollector), (handle_eqb_neq HFeeCollector) by discriminate. pose proof (share_range b HFeeCollector P). lia. }
    constructor; [exact S'|rewrite Fe'; exact Fe| |exact R]. pose proof (sound_pos _ HFeeCollector S').
    assert (f_last l' = f_last l \/ f_last l' = f_purse l' HFeeCollector) as [->| ->]; [|lia|lia].
    destruct c as [sg i]. destruct (of_program i) eqn:Hp; [|destruct (is_post i) eqn:N].
    + apply do_paid in Q; [|exact F|exact Hp]. pose proof (ps_last _ _ _ _ _ _ _ Q) as L. destruct (posted _ _); auto.
    + destruct i; try discriminate. apply epost_paid in Q; [|exact F]. right. apply Q.
    + apply env_paid in Q; auto. left. apply Q.
  - cbn [f_step] in Q. binds Q. apply Ok_inj in Q. subst l'. bools. destruct (move_ok _ _ _ _ _ S E1) as (X & M & S'). constructor; cbn; auto.
    split; [apply La|]. rewrite (M HFeeCollector). rewrite (handle_eqb_neq HFeeCollector src) by (intros <-; discriminate). destruct (handle_eqb _ _); lia.
  - cbn [f_step] in Q. binds Q. apply Ok_inj in Q. subst l'. unfold u64b in *. bools. constructor; cbn; auto. lia.
  - cbn [f_step] in Q. binds Q. apply Ok_inj in Q. subst l'. bools. destruct (move_ok _ _ _ _ _ S E0) as (X & M & S'). constructor; cbn; auto.
    pose proof (sound_pos _ HFeeCollector S'). lia.
Qed.
Lemma f_run_worlds E l0 tr l : f_run E l0 tr l -> exists tr', run (le_hashes E) (f_world l0) tr' (f_world l).
Proof.
  induction 1 as [|tr l e l' R [tr' IH] Q]; [exists []; constructor|]. destruct (world_step _ _ _ _ Q) as [(c & payer & take & _ & Hs)| ->]; [|eauto].
  exists (Ev (f_world l) c (f_world l') :: tr'). apply run_step; assumption.
Qed.
Lemma f_reach E l : f_reachable E l -> reachable (le_hashes E) (f_world l) /\ fund_ok E l.
Proof.
  intros (l0 & tr & I & R). destruct I as [I1 I2 I3 I4]. split.
  - destruct (f_run_worlds _ _ _ _ R) as [tr' R']. exists (f_world l0), tr'. auto.
  - induction R as [|tr l e l' R IH Q]; [constructor; auto; [apply I3|split; [apply I3|apply I3]]|]. eapply fund_step; eassumption.
Qed.
Lemma f_reach_run E l tr l' : f_reachable E l -> f_run E l tr l' -> f_reachable E l'.
Proof.
  intros (l0 & tr0 & I & R) R2. exists l0, (tr ++ tr0). split; [exact I|]. induction R2; cbn; [exact R|]. apply f_cons; auto.
Qed.
Lemma f_reach_step E l e l' : f_reachable E l -> f_step E l e = Ok l' -> f_reachable E l'.
Proof. intros R Q. eapply f_reach_run; [exact R|]. eapply f_cons; [constructor|exact Q]. Qed.

(** ** Bills *)
From Coq Require Import Permutation.
Lemma total_perm b c : Permutation b c -> total_of b = total_of c.
Proof. induction 1; cbn; unfold total_of in *; cbn in *; lia. Qed.
Lemma share_perm b c h : Permutation b c -> share b h = share c h.
Proof. induction 1; cbn; unfold share in *; cbn in *; lia. Qed.
Lemma settled_perm p p' payer b c : Permutation b c -> settled p p' payer b -> settled p p' payer c.
Proof. intros P S h. rewrite (S h), (share_perm _ _ h P), (total_perm _ _ P). reflexivity. Qed.
Lemma NoDup_fst {A B} (l : list (A * B)) : NoDup (map fst l) -> NoDup l.
Proof. apply NoDup_map_inv. Qed.

Section Bill.
Context (E : lenv) (l : fstate) (s' : state) (sg : list addr) (i : instr) (take : Z * Z).
Context (Hs : step (le_hashes E) (f_world l) (Call sg i) = Ok s').
Context (Hp : of_program i = true).
Lemma dues_bill : bill E l s' i take (dues E l s' i take).
Proof. exists (news E (f_world l) i). split; [apply news_nodup|]. split; [|reflexivity]. intros a n. exact (news_opened E _ _ _ a n Hs Hp). Qed.
Lemma bill_perm b : bill E l s' i take b -> Permutation b (dues E l s' i take).
Proof.
  intros (ns & D & O & ->). unfold dues. apply Permutation_app; [|reflexivity]. apply Permutation_map. apply NoDup_Permutation; [now apply NoDup_fst|apply NoDup_fst, news_nodup|].
  intros [a n]. rewrite (O a n). symmetry. exact (news_opened E _ _ _ a n Hs Hp).
Qed.
Lemma dues_none : has_payer i = false -> dues E l s' i take = [].
Proof.
  intros P. unfold dues. rewrite (posted_none _ _ _ _ Hs Hp) by (destruct i; try discriminate; reflexivity). destruct i; try discriminate; reflexivity.
Qed.
Lemma opened_news payer : (forall n, ~ opened E (f_world l) s' payer n) <-> ~ In payer (map fst (news E (f_world l) i)).
Proof.
  pose proof (fun a n => news_opened E _ _ _ a n Hs Hp) as O. cbn [ins] in O. split.
  - intros N I. apply in_map_iff in I. destruct I as ([a n] & <- & I). cbn in N. apply O in I. exact (N n I).
  - intros N n Q. apply O in Q. apply N. apply in_map_iff. exists (payer, n). auto.
Qed.
End Bill.

Lemma do_exact E l sg i payer take s' b : f_reachable E l -> step (le_hashes E) (f_world l) (Call sg i) = Ok s' -> of_program i = true ->
  is_u64 (fst take) -> is_u64 (snd take) -> bill E l s' i take b ->
  ((exists l', f_step E l (LDo (Call sg i) payer take) = Ok l') <-> pays E l s' sg i payer b) /\
  (forall l', f_step E l (LDo (Call sg i) payer take) = Ok l' -> f_world l' = s' /\ f_fee l' = f_fee l /\ settled (f_purse l) (f_purse l') payer b).
Proof.
  intros R Hs Hp U1 U2 B. destruct (f_reach _ _ R) as [_ F]. pose proof (bill_perm _ _ _ _ _ _ Hs Hp _ B) as P. apply u64b_ok in U1, U2.
  pose proof (step_inv _ _ _ _ Hs) as (Cs & Ty & _). cbn [signers ins] in Cs, Ty.
  assert (Out : forall l', f_step E l (LDo (Call sg i) payer take) = Ok l' -> f_world l' = s').
  { intros l' Q. apply do_world in Q. destruct Q as [Q _]. rewrite Hs in Q. apply Ok_inj in Q. auto. }
  split.
  - split.
    + intros [l' Q] Py. pose proof (Out _ Q) as W. apply do_paid in Q; auto. destruct Q as [_ A C D G _ _]. rewrite W in *. rewrite (total_perm _ _ P).
      split; [apply signed_In, A, Py|]. split; [now apply (opened_news E l s' sg i Hs Hp), C|]. auto.
    + intros Pa. cbn [f_step signers ins]. rewrite Cs, Ty, U1, U2. cbn [andb require bind].
      pose proof (fun l' => exec_pay E l sg payer take i s' l' F Hs Hp U1 U2) as X. destruct (has_payer i) eqn:Py.
      * destruct (Pa Py) as (A & C & D & G). rewrite (total_perm _ _ P) in D, G. apply (opened_news E l s' sg i Hs Hp) in C.
        destruct (pay_all_run (f_world l) payer _ _ (fo_sound _ _ F) (dues_positive E l s' i take (fo_fee _ _ F) U1 U2) (dues_lastly E l s' i take payer C) D G) as [p' Q].
        eexists. apply X. split; [now apply signed_In|]. split; [exact C|]. exists p'. split; [exact Q|reflexivity].
      * eexists. apply X. reflexivity.
  - intros l' Q. pose proof (Out _ Q) as W. split; [exact W|]. split; [now apply do_world in Q|].
    apply do_paid in Q; auto. destruct Q as [A _ _ _ _ _ _]. rewrite W in *. eapply settled_perm; [symmetry; exact P|]. destruct (has_payer i) eqn:Py; [exact A|].
    rewrite (dues_none E l s' sg i take Hs Hp Py). exact A.
Qed.

(** ** Balances over histories *)
Lemma ntt_user n : ~ (PUser n = PManager \/ PUser n = PTransceiver).
Proof. intros [?|?]; discriminate. Qed.
Lemma ntt_wormhole : ~ (PWormhole = PManager \/ PWormhole = PTransceiver).
Proof. intros [?|?]; discriminate. Qed.
Lemma kind_step H s c s' a p d : step H s c = Ok s' -> st_accts s a = Some (Acct p d) -> p = PManager \/ p = PTransceiver ->
  exists d', st_accts s' a = Some (Acct p d') /\ kind_of d' = kind_of d.
Proof.
  intros Hs A P. destruct (step_change _ _ _ _ Hs a) as [Q|Q]; [rewrite Q; eauto|]. rewrite A in Q. clear Hs. remember (Some (Acct p d)) as old eqn:O. remember (st_accts s' a) as new eqn:N. clear N.
  destruct Q; try discriminate; try (apply Some_inj in O; inversion O; subst; eauto; fail).
  - match goal with Q : _ = None \/ _ |- _ => destruct Q as [Q|[? Q]]; rewrite Q in O; [discriminate|]; apply Some_inj in O; inversion O; subst; eauto end.
  - match goal with R : redeem_facts _ _ _ _ _ _ _ _ _ _ _ _ _ _ _ _ |- _ => destruct (rf_item _ _ _ _ _ _ _ _ _ _ _ _ _ _ _ _ R) as [[? _]|I] end; [congruence|].
    unfold has in I. assert (X : Some (Acct p d) = Some (Acct PManager (DInboxItem old))) by congruence. apply Some_inj in X. inversion X; subst. eauto.
  - match goal with R : redeem_facts _ _ _ _ _ _ _ _ _ _ _ _ _ _ _ _ |- _ => destruct (rf_item _ _ _ _ _ _ _ _ _ _ _ _ _ _ _ _ R) as [[? _]|I] end; [congruence|].
    unfold has in I. assert (X : Some (Acct p d) = Some (Acct PManager (DInboxItem old))) by congruence. apply Some_inj in X. inversion X; subst. eauto.
  - match goal with Q : _ = None \/ _ |- _ => destruct Q as [Q|[? Q]]; rewrite Q in O; [discriminate|]; apply Some_inj in O; inversion O; subst; eauto end.
  - match goal with Q : _ = None \/ _ |- _ => destruct Q as [Q|[? Q]]; rewrite Q in O; [discriminate|]; apply Some_inj in O; inversion O; subst; eauto end.
  - match goal with Q : _ = None \/ _ |- _ => destruct Q as [Q|[? Q]]; rewrite Q in O; [discriminate|]; apply Some_inj in O; inversion O; subst end. destruct (ntt_user _ P).
  - apply Some_inj in O; inversion O; subst. destruct (ntt_user _ P).
Qed.
Lemma program_kept H s c s' a n : step H s c = Ok s' -> program_account s a n -> program_account s' a n.
Proof.
  intros Hs (p & d & k & A & P & K & Z). destruct (kind_step _ _ _ _ _ _ _ Hs A P) as (d' & A' & K'). exists p, d', k. rewrite K'. auto.
Qed.
Lemma program_old H s c s' a n : step H s c = Ok s' -> program_account s' a n -> program_account s a n \/ st_accts s a = None /\ of_program (ins c) = true.
Proof.
  intros Hs (p & d & k & A & P & K & Z). destruct (st_accts s a) as [[q e]|] eqn:O.
  - left. assert (Q : q = PManager \/ q = PTransceiver).
    { destruct (step_change _ _ _ _ Hs a) as [Q|Q]; [rewrite Q, O in A; inversion A; subst; exact P|]. rewrite A, O in Q. clear - Q P.
      remember (Some (Acct q e)) as old eqn:O. remember (Some (Acct p d)) as new eqn:N.
      destruct Q; try discriminate; try (apply Some_inj in O; inversion O; subst; auto; fail).
      all: try (apply Some_inj in N; inversion N; subst; destruct (ntt_user _ P)).
      all: try (match goal with Q : _ = None \/ _ |- _ => destruct Q as [Q|[? Q]]; rewrite Q in O; [discriminate|]; apply Some_inj in O; inversion O; subst; auto end).
      all: match goal with R : redeem_facts _ _ _ _ _ _ _ _ _ _ _ _ _ _ _ _ |- _ => destruct (rf_item _ _ _ _ _ _ _ _ _ _ _ _ _ _ _ _ R) as [[? _]|I] end; [congruence|];
        unfold has in I; assert (X : Some (Acct q e) = Some (Acct PManager (DInboxItem old))) by congruence; apply Some_inj in X; inversion X; auto. }
    destruct (kind_step _ _ _ _ _ _ _ Hs O Q) as (d' & A' & K'). rewrite A in A'. apply Some_inj in A'. inversion A'; subst. exists q, e, k. rewrite <- K'. auto.
  - right. split; [reflexivity|]. destruct (of_program (ins c)) eqn:Hp; [reflexivity|]. exfalso. destruct (step_change _ _ _ _ Hs a) as [Q|Q]; [congruence|].
    rewrite A, O in Q. clear - Q P Hp K. remember (@None acct) as old eqn:O. remember (Some (Acct p d)) as new eqn:N. remember (ins c) as i eqn:Hi. clear Hi.
    destruct Q; try discriminate; apply Some_inj in N; inversion N; subst; try (destruct (ntt_user _ P); fail); try (destruct (ntt_wormhole P); fail).
    destruct md; match goal with Q : is_transfer _ _ _ _ |- _ => cbn in Q; subst i end; discriminate.
Qed.

Lemma loses E l e l' h : f_reachable E l -> f_step E l e = Ok l' -> f_purse l' h < f_purse l h ->
  match e with
  | LDo c payer _ => h = HA payer /\ In payer (signers c) /\ bare (f_world l) payer
  | LMove sg src _ _ => h = src /\ movable (f_world l) sg src = true /\ forallb can_sign sg = true
  | LSetFee _ => False
  | LCollect _ _ => h = HFeeCollector
  end.
Proof.
  intros R Q L. destruct (f_reach _ _ R) as [_ F]. destruct e as [c payer take|sg src dst x|x|dst x].
  - destruct (do_billed _ _ _ _ _ _ F Q) as (b & P & (B1 & B2 & B3) & Sg & _). rewrite (B3 h) in L. pose proof (share_range b h P) as Sh.
    destruct (handle_eqb h (HA payer)) eqn:Hh; [apply handle_eqb_eq in Hh|lia]. split; [exact Hh|]. split; [|destruct B1; [lia|assumption]].
    destruct Sg as [->|Sg]; [cbn in L; lia|]. now apply signed_In.
  - cbn [f_step] in Q. binds Q. apply Ok_inj in Q. subst l'. bools. destruct (move_ok _ _ _ _ _ (fo_sound _ _ F) E1) as (X & M & _). cbn in L. rewrite (M h) in L.
    destruct (handle_eqb h src) eqn:Hh; [apply handle_eqb_eq in Hh; auto|]. destruct (handle_eqb h dst); lia.
  - cbn [f_step] in Q. binds Q. apply Ok_inj in Q. subst l'. cbn in L. lia.
  - cbn [f_step] in Q. binds Q. apply Ok_inj in Q. subst l'. destruct (move_ok _ _ _ _ _ (fo_sound _ _ F) E0) as (X & M & _). cbn in L. rewrite (M h) in L.
    destruct (handle_eqb h HFeeCollector) eqn:Hh; [apply handle_eqb_eq in Hh; auto|]. destruct (handle_eqb h dst); lia.
Qed.
Lemma account_step E l e l' a n : f_reachable E l -> f_step E l e = Ok l' -> program_account (f_world l) a n ->
  program_account (f_world l') a n /\ f_purse l (HA a) <= f_purse l' (HA a).
Proof.
  intros R Q A. split; [destruct (world_step _ _ _ _ Q) as [(c & payer & take & _ & Hs)| ->]; [eapply program_kept; eassumption|exact A]|].
  destruct (Z.le_gt_cases (f_purse l (HA a)) (f_purse l' (HA a))) as [|L]; [assumption|exfalso].
  pose proof (loses _ _ _ _ (HA a) R Q ltac:(lia)) as X. destruct A as (p & d & k & A & P & _). destruct e.
  - destruct X as ([= <-] & _ & (N & _)). congruence.
  - destruct X as (<- & M & _). cbn in M. rewrite A in M. destruct P; subst; discriminate.
  - exact X.
  - discriminate.
Qed.
Lemma account_run E l tr l' a n : f_reachable E l -> f_run E l tr l' -> program_account (f_world l) a n ->
  program_account (f_world l') a n /\ f_purse l (HA a) <= f_purse l' (HA a).
Proof.
  intros R. induction 1 as [|tr l1 e l' R1 IH Q]; intros A; [split; [exact A|lia]|]. destruct (IH A) as [A1 L1].
  destruct (account_step _ _ _ _ _ _ (f_reach_run _ _ _ _ R R1) Q A1). split; [assumption|lia].
Qed.
Lemma custody_step E l e l' c : f_reachable E l -> f_step E l e = Ok l' -> config_at (f_world l) pda_config c -> f_purse l (HA (cf_custody c)) <= f_purse l' (HA (cf_custody c)).
Proof.
  intros R Q A. destruct (Z.le_gt_cases (f_purse l (HA (cf_custody c))) (f_purse l' (HA (cf_custody c)))) as [|L]; [assumption|exfalso].
  pose proof (loses _ _ _ _ (HA (cf_custody c)) R Q ltac:(lia)) as X. destruct (f_reach _ _ R) as [Rw _]. pose proof (reachable_inv _ _ Rw) as I.
  destruct (custody_tok _ _ I (inv_config _ I _ A)) as (t & T & Ow & _). destruct e.
  - destruct X as ([= <-] & _ & (_ & N & _)). congruence.
  - destruct X as (<- & M & Cs). cbn in M. rewrite T in M. bools. match goal with M : signed _ (tk_owner t) = true |- _ => rewrite Ow in M; pose proof (signed_can _ _ Cs M) end. discriminate.
  - exact X.
  - discriminate.
Qed.

Lemma custody_run E l tr l' c : f_reachable E l -> f_run E l tr l' -> config_at (f_world l) pda_config c ->
  exists c', config_at (f_world l') pda_config c' /\ cf_custody c' = cf_custody c /\ f_purse l (HA (cf_custody c)) <= f_purse l' (HA (cf_custody c)).
Proof.
  intros R. induction 1 as [|tr l1 e l' R1 IH Q]; intros A; [exists c; split; [exact A|]; split; [reflexivity|lia]|].
  destruct (IH A) as (c1 & A1 & K1 & L1). pose proof (f_reach_run _ _ _ _ R R1) as Rl. pose proof (custody_step _ _ _ _ _ Rl Q A1) as L. rewrite K1 in L.
  destruct (world_step _ _ _ _ Q) as [(k & payer & take & _ & Hs)| ->]; [|exists c1; split; [exact A1|]; split; [exact K1|lia]].
  destruct (config_step _ _ _ _ _ (reachable_inv _ _ (proj1 (f_reach _ _ Rl))) Hs A1) as (c2 & A2 & S). exists c2. split; [exact A2|]. split; [|lia].
  destruct S as [->|S]; [exact K1|]. apply cfg_change_same in S. unfold cfg_same in S. intuition congruence.
Qed.

Lemma share_lacks E p ns a : NoDup (map fst ns) -> forall n, In (a, n) ns -> share (lacks E p ns) (HA a) = lacking E p a n.
Proof.
  induction ns as [|[b m] ns IH]; intros D n I; [destruct I|]. inversion D; subst. cbn [lacks map share fold_right fst snd]. fold (lacks E p ns). fold (share (lacks E p ns) (HA a)).
  destruct I as [[= -> ->]|I].
  - rewrite handle_eqb_refl, share_none; [lia|]. intros I. apply in_map_iff in I. destruct I as ([h x] & Q & I). cbn in Q. subst h. unfold lacks in I. apply in_map_iff in I.
    destruct I as ([b k] & [= -> _] & I). match goal with N : ~ In _ _ |- _ => apply N end. apply in_map_iff. exists (a, k). auto.
  - rewrite handle_eqb_neq.
    + rewrite (IH ltac:(assumption) n I). lia.
    + intros [= ->]. match goal with N : ~ In _ _ |- _ => apply N end. apply in_map_iff. exists (a, n). auto.
Qed.
Lemma share_out E p ns h : (forall a, h = HA a -> ~ In a (map fst ns)) -> share (lacks E p ns) h = 0.
Proof.
  intros N. apply share_none. intros I. apply in_map_iff in I. destruct I as ([k x] & Q & I). cbn in Q. subst k. unfold lacks in I. apply in_map_iff in I.
  destruct I as ([b k] & [= <- _] & I). apply (N b eq_refl). apply in_map_iff. exists (b, k). auto.
Qed.

Definition exempt (E : lenv) (l : fstate) : Prop := forall a n, program_account (f_world l) a n -> le_rent E n <= f_purse l (HA a).
Lemma exempt_step E l e l' : f_reachable E l -> exempt E l -> f_step E l e = Ok l' -> exempt E l'.
Proof.
  intros R X Q a n A. destruct (f_reach _ _ R) as [_ F]. destruct (world_step _ _ _ _ Q) as [(c & payer & take & -> & Hs)|W].
  - destruct (program_old _ _ _ _ _ _ Hs A) as [A0|(N & Hp)].
    + destruct (account_step _ _ _ _ _ _ R Q A0) as [_ L]. specialize (X _ _ A0). lia.
    + destruct c as [sg i]. cbn [ins] in Hp. pose proof (new_account E _ _ _ _ _ Hs Hp N A) as I. cbn [ins] in I.
      destruct (do_world _ _ _ _ _ _ Q) as (_ & _ & U1 & U2). pose proof (dues_positive E l (f_world l') i take (fo_fee _ _ F) U1 U2) as P.
      apply do_paid in Q; auto. destruct Q as [B _ Ap _ _ _ _].
      assert (Py : has_payer i = true). { destruct i; try reflexivity; try discriminate; destruct I. }
      rewrite Py in B. rewrite (B (HA a)). rewrite (handle_eqb_neq (HA a)).
      * unfold dues in P |- *. rewrite share_app, (share_lacks _ _ _ _ (news_nodup _ _ _) _ I). apply positive_app in P. destruct P as [_ P]. pose proof (share_range _ (HA a) P). unfold lacking. lia.
      * intros [= ->]. apply (Ap Py). apply in_map_iff. exists (payer, n). auto.
  - rewrite W in A. destruct (account_step _ _ _ _ _ _ R Q A) as [_ L]. specialize (X _ _ A). lia.
Qed.
Lemma initial_program s a n : initial s -> ~ program_account s a n.
Proof.
  intros I (p & d & k & A & P & _). pose proof (ini_accts _ I _ _ A) as W. destruct W as (_ & W & _). cbn in W. destruct P; subst; discriminate.
Qed.
Lemma all_exempt E l : f_reachable E l -> exempt E l.
Proof.
  intros (l0 & tr & I & R). induction R as [|tr l e l' R IH Q].
  - intros a n A. destruct (initial_program _ _ _ (li_world _ _ I) A).
  - eapply exempt_step; [|exact IH|exact Q]. exists l0, tr. auto.
Qed.

(** ** Conservation *)
Definition sums (f : handle -> Z) (hs : list handle) : Z := fold_right (fun h n => f h + n) 0 hs.
Lemma sums_ext f g hs : (forall h, In h hs -> f h = g h) -> sums f hs = sums g hs.
Proof. induction hs as [|h hs IH]; intros E; cbn; [reflexivity|]. fold (sums f hs) (sums g hs). rewrite (E h), IH; [reflexivity| |left; reflexivity]. intros k I. apply E. right. exact I. Qed.
Lemma sums_add f g hs : sums (fun h => f h + g h) hs = sums f hs + sums g hs.
Proof. induction hs as [|h hs IH]; cbn; [reflexivity|]. fold (sums f hs) (sums g hs) (sums (fun h => f h + g h) hs). rewrite IH. lia. Qed.
Lemma sums_app f a b : sums f (a ++ b) = sums f a + sums f b.
Proof. induction a as [|h a IH]; cbn; [reflexivity|]. fold (sums f a) (sums f b) (sums f (a ++ b)). rewrite IH. lia. Qed.
Lemma sums_perm f a b : Permutation a b -> sums f a = sums f b.
Proof. induction 1; cbn; unfold sums in *; cbn in *; lia. Qed.
Lemma sums_zero f hs : (forall h, In h hs -> f h = 0) -> sums f hs = 0.
Proof. intros Z. rewrite (sums_ext f (fun _ => 0) hs Z). induction hs as [|h hs IH]; cbn; [reflexivity|]. apply IH. intros k I. apply Z. right. exact I. Qed.
Lemma sums_one k x hs : NoDup hs -> sums (fun h => if handle_eqb k h then x else 0) hs = if in_dec handle_eq_dec k hs then x else 0.
Proof.
  induction hs as [|h hs IH]; intros D; [reflexivity|]. inversion D; subst. cbn [sums fold_right]. fold (sums (fun h => if handle_eqb k h then x else 0) hs). rewrite IH by assumption.
  destruct (handle_eqb k h) eqn:Q; [apply handle_eqb_eq in Q; subst|];
  destruct (in_dec handle_eq_dec _ hs) as [I|I], (in_dec handle_eq_dec _ (_ :: hs)) as [J|J]; cbn in J; try lia; exfalso; intuition (try contradiction).
  subst. rewrite handle_eqb_refl in Q. discriminate.
Qed.
Lemma sums_share b hs : NoDup hs -> (forall h x, In (h, x) b -> In h hs) -> sums (share b) hs = total_of b.
Proof.
  intros D. induction b as [|[k x] b IH]; intros C; [apply sums_zero; reflexivity|].
  rewrite (sums_ext _ (fun h => (if handle_eqb k h then x else 0) + share b h)) by reflexivity. rewrite (sums_add (fun h => if handle_eqb k h then x else 0) (share b)), IH, sums_one by (auto; intros h y I; eapply C; right; exact I).
  cbn [total_of fold_right snd]. fold (total_of b). destruct (in_dec _ _ _) as [|N]; [reflexivity|]. exfalso. apply N. eapply C. left. reflexivity.
Qed.
Lemma NoDup_app_in {A} (a b : list A) : NoDup a -> NoDup b -> (forall x, In x a -> In x b -> False) -> NoDup (a ++ b).
Proof.
  induction a as [|x a IH]; intros Da Db N; [exact Db|]. inversion Da; subst. cbn. constructor.
  - intros I. apply in_app_iff in I. destruct I as [I|I]; [contradiction|]. apply (N x); [left; reflexivity|exact I].
  - apply IH; auto. intros y I J. apply (N y); [right; exact I|exact J].
Qed.
Lemma settled_conserved p p' payer b hs : settled p p' payer b -> NoDup hs -> (forall h, p' h <> p h -> In h hs) -> worth p' hs = worth p hs.
Proof.
  intros S D C. set (gap := fun h => share b h + (if handle_eqb (HA payer) h then - total_of b else 0)).
  assert (G : forall h, p' h = p h + gap h).
  { intros h. rewrite (S h). unfold gap. destruct (handle_eqb h (HA payer)) eqn:A; [apply handle_eqb_eq in A; subst; rewrite handle_eqb_refl; lia|].
    rewrite handle_eqb_neq; [lia|]. intros <-. rewrite handle_eqb_refl in A. discriminate. }
  set (big := nodup handle_eq_dec (HA payer :: map fst b ++ hs)).
  assert (Z : sums gap big = 0).
  { unfold gap. rewrite (sums_add (share b)), sums_share, sums_one by (try apply NoDup_nodup; intros h x I; apply nodup_In; right; apply in_app_iff; left; apply in_map_iff; exists (h, x); auto).
    destruct (in_dec _ _ _) as [|N]; [lia|]. exfalso. apply N. apply nodup_In. left. reflexivity. }
  assert (P : Permutation big (hs ++ filter (fun h => if in_dec handle_eq_dec h hs then false else true) big)).
  { apply NoDup_Permutation; [apply NoDup_nodup| |].
    - apply NoDup_app_in; [exact D|apply NoDup_filter, NoDup_nodup|]. intros h I J. apply filter_In in J. destruct J as [_ J]. destruct (in_dec _ _ _); [discriminate|contradiction].
    - intros h. rewrite in_app_iff, filter_In. unfold big. rewrite nodup_In. split.
      + intros I. destruct (in_dec handle_eq_dec h hs); auto.
      + intros [I|[I _]]; [right; apply in_app_iff; auto|exact I]. }
  rewrite (sums_perm _ _ _ P), sums_app in Z. rewrite (sums_zero gap (filter _ _)) in Z.
  - change (worth p' hs) with (sums p' hs). change (worth p hs) with (sums p hs). rewrite (sums_ext p' (fun h => p h + gap h) hs) by (intros; apply G). rewrite sums_add. lia.
  - intros h I. apply filter_In in I. destruct I as [_ I]. destruct (in_dec _ _ _) as [|N]; [discriminate|]. destruct (Z.eq_dec (gap h) 0) as [|X]; [assumption|].
    exfalso. apply N, C. rewrite G. lia.
Qed.
Lemma conserved E l e l' hs : f_reachable E l -> f_step E l e = Ok l' -> NoDup hs -> (forall h, f_purse l' h <> f_purse l h -> In h hs) ->
  worth (f_purse l') hs = worth (f_purse l) hs.
Proof.
  intros R Q D C. destruct (f_reach _ _ R) as [_ F].
  assert (Mv : forall p' src dst x, move (f_purse l) src dst x = Ok p' -> (forall h, p' h <> f_purse l h -> In h hs) -> worth p' hs = worth (f_purse l) hs).
  { intros p' src dst x M C'. destruct (move_ok _ _ _ _ _ (fo_sound _ _ F) M) as (X & S & _). rewrite (worth_shifted _ _ _ _ _ _ S D).
    destruct (handle_eq_dec src dst) as [->|N]; [destruct (in_dec _ _ _); lia|]. destruct (Z.eq_dec x 0) as [->|X0]; [repeat destruct (in_dec _ _ _); lia|].
    assert (In src hs). { apply C'. rewrite (S src), handle_eqb_refl, handle_eqb_neq by exact N. lia. }
    assert (In dst hs). { apply C'. rewrite (S dst), handle_eqb_refl, handle_eqb_neq by congruence. lia. }
    repeat destruct (in_dec _ _ _); try contradiction. lia. }
  destruct e as [c payer take|sg src dst x|x|dst x].
  - destruct (do_billed _ _ _ _ _ _ F Q) as (b & _ & (_ & _ & B) & _). eapply settled_conserved; eassumption.
  - cbn [f_step] in Q. binds Q. apply Ok_inj in Q. subst l'. eapply Mv; eassumption.
  - cbn [f_step] in Q. binds Q. apply Ok_inj in Q. subst l'. reflexivity.
  - cbn [f_step] in Q. binds Q. apply Ok_inj in Q. subst l'. eapply Mv; eassumption.
Qed.

(** ** Prefunding *)
Lemma lacking_mono E p p2 a n : p (HA a) <= p2 (HA a) -> lacking E p2 a n <= lacking E p a n.
Proof. unfold lacking. lia. Qed.
Lemma total_lacks E p p2 ns : (forall h, p h <= p2 h) -> total_of (lacks E p2 ns) <= total_of (lacks E p ns).
Proof.
  intros M. induction ns as [|[a n] ns IH]; [cbn; lia|]. cbn [lacks map total_of fold_right fst snd]. fold (lacks E p ns) (lacks E p2 ns). fold (total_of (lacks E p ns)) (total_of (lacks E p2 ns)).
  pose proof (lacking_mono E p p2 a n (M _)). lia.
Qed.
Lemma prefunded E l l2 sg i payer take l' : f_reachable E l -> f_reachable E l2 -> richer l l2 -> of_program i = true ->
  f_step E l (LDo (Call sg i) payer take) = Ok l' ->
  exists l2', f_step E l2 (LDo (Call sg i) payer take) = Ok l2' /\ f_world l2' = f_world l' /\ (forall h, f_purse l' h <= f_purse l2' h) /\
    f_purse l2 (HA payer) - f_purse l2' (HA payer) <= f_purse l (HA payer) - f_purse l' (HA payer).
Proof.
  intros R R2 (W & Fe & M) Hp Q. destruct (f_reach _ _ R) as [_ F]. destruct (f_reach _ _ R2) as [_ F2]. destruct (do_world _ _ _ _ _ _ Q) as (Hs & _ & U1 & U2).
  pose proof (do_paid _ _ _ _ _ _ _ F Hp Q) as [B1 B2 B3 B4 B5 _ _]. set (s' := f_world l') in *. assert (Hs2 : step (le_hashes E) (f_world l2) (Call sg i) = Ok s') by (rewrite W; exact Hs).
  assert (U1' : is_u64 (fst take)) by (unfold u64b in U1; ints; bools; lia). assert (U2' : is_u64 (snd take)) by (unfold u64b in U2; ints; bools; lia).
  assert (T : total_of (dues E l2 s' i take) <= total_of (dues E l s' i take)).
  { unfold dues. rewrite W, Fe, !total_app. pose proof (total_lacks E _ _ (news E (f_world l) i) M). lia. }
  pose proof (positive_total _ (dues_positive E l2 s' i take (fo_fee _ _ F2) U1 U2)) as T0.
  destruct (do_exact E l2 sg i payer take s' (dues E l2 s' i take) R2 Hs2 Hp U1' U2' (dues_bill _ _ _ _ _ _ Hs2 Hp)) as [X Y].
  destruct (proj2 X) as [l2' Q2].
  { intros Py. split; [apply signed_In, B2, Py|]. split; [apply (opened_news E l2 s' sg i Hs2 Hp); rewrite W; now apply B3|]. split.
    - destruct (B4 Py) as [Z|Z]; [left; lia|right; rewrite W; exact Z].
    - specialize (B5 Py). specialize (M (HA payer)). lia. }
  exists l2'. destruct (Y _ Q2) as (W2 & _ & S2). split; [exact Q2|]. split; [exact W2|].
  assert (S1 : settled (f_purse l) (f_purse l') payer (dues E l s' i take)).
  { destruct (has_payer i) eqn:Py; [exact B1|]. rewrite (dues_none E l s' sg i take Hs Hp Py). exact B1. }
  assert (Sh : forall h, f_purse l h + share (dues E l s' i take) h <= f_purse l2 h + share (dues E l2 s' i take) h).
  { intros h. unfold dues. rewrite W, Fe, !share_app. specialize (M h). set (ns := news E (f_world l) i).
    assert (f_purse l h + share (lacks E (f_purse l) ns) h <= f_purse l2 h + share (lacks E (f_purse l2) ns) h); [|lia].
    destruct h as [a| | | | | |]; try (rewrite !share_out by (intros; discriminate); lia).
    destruct (in_dec addr_eq_dec a (map fst ns)) as [I|I].
    - apply in_map_iff in I. destruct I as ([b n] & Q0 & I). cbn in Q0. subst b. rewrite !(share_lacks _ _ _ _ (news_nodup _ _ _) _ I). unfold lacking. lia.
    - rewrite !share_out by (intros b [= <-]; exact I). lia. }
  assert (Sp : has_payer i = true -> share (dues E l s' i take) (HA payer) = share (dues E l2 s' i take) (HA payer)).
  { intros Py. unfold dues. rewrite W, Fe, !share_app, !share_out by (intros b [= <-]; now apply B3). reflexivity. }
  split.
  - intros h. rewrite (S1 h), (S2 h). specialize (Sh h). destruct (handle_eqb h (HA payer)); lia.
  - rewrite (S1 (HA payer)), (S2 (HA payer)), handle_eqb_refl. destruct (has_payer i) eqn:Py; [rewrite (Sp eq_refl); lia|].
    rewrite (dues_none E l s' sg i take Hs Hp Py), (dues_none E l2 s' sg i take Hs2 Hp Py). cbn. lia.
Qed.

(** ** Costs of particular instructions *)
Lemma transfer_cost E l sg i x payer take l' : f_reachable E l -> i = ITransferLock (fst x) (snd x) \/ i = ITransferBurn (fst x) (snd x) ->
  f_step E l (LDo (Call sg i) payer take) = Ok l' ->
  let a := xa_outbox_item (fst x) in let c := Z.max 0 (le_rent E 139 - f_purse l (HA a)) in
  payer <> a /\ f_purse l' (HA a) = f_purse l (HA a) + c /\ f_purse l' (HA payer) = f_purse l (HA payer) - c /\
  (forall h, h <> HA a -> h <> HA payer -> f_purse l' h = f_purse l h).
Proof.
  intros R Hi Q a c. destruct (f_reach _ _ R) as [_ F]. assert (Hp : of_program i = true) by (destruct Hi; subst; reflexivity). destruct (do_world _ _ _ _ _ _ Q) as (Hs & _).
  apply do_paid in Q; auto. destruct Q as [B _ Ap _ _ _ _]. assert (Py : has_payer i = true) by (destruct Hi; subst; reflexivity). specialize (Ap Py). rewrite Py in B.
  assert (D : dues E l (f_world l') i take = [(HA a, c)]).
  { unfold dues. rewrite (posted_none _ _ _ _ Hs Hp) by (destruct Hi; subst; reflexivity). destruct Hi; subst i; reflexivity. }
  assert (N : payer <> a) by (intros ->; apply Ap; unfold a; destruct Hi; subst i; left; reflexivity). rewrite D in B. unfold settled in B. cbn [share total_of fold_right fst snd] in B.
  split; [exact N|]. split; [|split].
  - rewrite (B (HA a)), handle_eqb_refl, handle_eqb_neq by congruence. lia.
  - rewrite (B (HA payer)), handle_eqb_refl, handle_eqb_neq by congruence. lia.
  - intros h N1 N2. rewrite (B h), !handle_eqb_neq by congruence. lia.
Qed.
Lemma no_cost E l sg i payer take l' : f_reachable E l -> costs_nothing i = true -> f_step E l (LDo (Call sg i) payer take) = Ok l' -> forall h, f_purse l' h = f_purse l h.
Proof.
  intros R Hc Q h. destruct (f_reach _ _ R) as [_ F]. assert (Hp : of_program i = true) by (destruct i; try discriminate; reflexivity). destruct (do_world _ _ _ _ _ _ Q) as (Hs & _).
  apply do_paid in Q; auto. destruct Q as [B _ _ _ _ _ _]. assert (D : dues E l (f_world l') i take = []).
  { unfold dues. rewrite (posted_none _ _ _ _ Hs Hp) by (destruct i; try discriminate; reflexivity). destruct i; try discriminate; reflexivity. }
  rewrite D in B. rewrite (B h). destruct (has_payer i); cbn; destruct (handle_eqb _ _); lia.
Qed.

(** ** Lamports moved by others *)
Lemma movable_iff s sg h : movable s sg h = true <-> may_draw s sg h.
Proof.
  destruct h as [a| | | | | |n]; cbn; try (split; [auto|reflexivity]); try (split; [discriminate|contradiction]).
  rewrite !andb_true_iff. split.
  - intros ((A & B) & C). repeat match goal with |- _ /\ _ => split end.
    + intros ac Q. rewrite Q in A. destruct (ac_owner ac); cbn in A; split; try discriminate; congruence.
    + intros t Q. rewrite Q in B. now apply signed_In.
    + intros Q1 Q2 Q3. rewrite Q1, Q2, Q3 in C. now apply signed_In.
  - intros (A & B & C). repeat match goal with |- _ /\ _ => split end.
    + destruct (st_accts s a) as [ac|]; [|reflexivity]. destruct (A ac eq_refl) as (N1 & N2). destruct (ac_owner ac); try reflexivity; exfalso; auto.
    + destruct (st_toks s a) as [t|]; [|reflexivity]. apply signed_In. auto.
    + destruct (st_accts s a), (st_toks s a), (st_mints s a); try reflexivity. apply signed_In. auto.
Qed.
Lemma move_exact E l sg src dst x : f_reachable E l ->
  ((exists l', f_step E l (LMove sg src dst x) = Ok l') <-> (forall a, In a sg -> can_sign a = true) /\ 0 <= x <= f_purse l src /\ may_draw (f_world l) sg src) /\
  (forall l', f_step E l (LMove sg src dst x) = Ok l' -> f_world l' = f_world l /\ f_fee l' = f_fee l /\
     forall h, f_purse l' h = f_purse l h + (if handle_eqb h dst then x else 0) - (if handle_eqb h src then x else 0)).
Proof.
  intros R. destruct (f_reach _ _ R) as [_ F]. pose proof (fo_sound _ _ F) as S. split.
  - split.
    + intros (l' & Q). cbn [f_step] in Q. binds Q. bools. destruct (move_ok _ _ _ _ _ S E1) as (X & _).
      split; [now apply forallb_forall|]. split; [exact X|]. now apply movable_iff.
    + intros (A & X & M). apply movable_iff in M. apply forallb_forall in A. eexists. cbn [f_step]. rewrite A, M. cbn [andb require bind]. unfold move.
      pose proof (sound_one _ src S) as U. assert (Ux : u64b x = true) by (unfold u64b; apply andb_true_intro; split; apply Z.leb_le; lia). rewrite Ux.
      assert (Le : x <=? f_purse l src = true) by (apply Z.leb_le; lia). rewrite Le. cbn [andb require bind].
      assert (Rm : 0 <= pset src (f_purse l src - x) (f_purse l) dst + x <= u64_max).
      { unfold pset. destruct (handle_eqb dst src) eqn:D; [lia|]. assert (N : dst <> src) by (intros ->; rewrite handle_eqb_refl in D; discriminate).
        pose proof (sound_two _ dst src S N). pose proof (sound_pos _ dst S). lia. }
      unfold checked. assert (K : pset src (f_purse l src - x) (f_purse l) dst + x <=? u64_max = true) by (apply Z.leb_le; lia). rewrite K.
      assert (K0 : 0 <=? pset src (f_purse l src - x) (f_purse l) dst + x = true) by (apply Z.leb_le; lia). rewrite K0. cbn [andb ok_or bind]. reflexivity.
  - intros l' Q. cbn [f_step] in Q. binds Q. apply Ok_inj in Q. subst l'. destruct (move_ok _ _ _ _ _ S E1) as (X & M & _). split; [reflexivity|]. split; [reflexivity|]. exact M.
Qed.

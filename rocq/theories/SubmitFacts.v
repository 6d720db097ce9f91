(** * Facts on transactions as bytes (C109). *)
From Verif Require Export Submit TxWireFacts DelegateFacts Upkeep.
From Verif Require Import EntryFacts AdminFacts AuthorityFacts.
From Verif Require UpkeepFacts CompressFacts.
From Coq Require Import List Lia.
Import ListNotations.

(** ** What is loaded as a signature has been checked *)
Lemma all_some_in {A B} (f : A -> option B) l r y : Compress.all_some (map f l) = Some r -> In y r -> exists x, In x l /\ f x = Some y.
Proof.
  revert r. induction l as [|x l IH]; cbn; intros r E Hin; [injection E as <-; contradiction|].
  destruct (f x) as [z|] eqn:F; [|discriminate]. destruct (Compress.all_some (map f l)) as [r'|]; [|discriminate]. cbn in E. injection E as <-.
  destruct Hin as [->|Hin]; [exists x; auto|]. destruct (IH _ eq_refl Hin) as (x' & ? & ?). exists x'. auto.
Qed.

Lemma loaded_signer g tables payer ixs x a : Compress.load bytes_dec g tables = Some (payer, ixs) -> In x ixs -> In a (cx_accounts x) -> ac_signer a = true ->
  exists n, n < mg_signatures g /\ nth_error (mg_static g) n = Some (ac_key a).
Proof.
  unfold Compress.load. destruct (_ && _ && _)%bool eqn:C; [|discriminate]. apply andb_prop in C as (C & _). apply andb_prop in C as (_ & C). apply Nat.leb_le in C.
  unfold Compress.load_keys. destruct (Compress.all_some (map _ (mg_lookups g))) as [ws|]; [|discriminate].
  destruct (Compress.all_some (map _ (mg_lookups g))) as [rs|]; [|discriminate].
  destruct (_ && _)%bool; [|discriminate]. destruct (nth_error _ 0) as [k0|]; [|discriminate].
  destruct (Compress.all_some (map _ (mg_ixs g))) as [l|] eqn:L; [|discriminate]. intros E. injection E as _ ->. intros Hx Ha Hs.
  destruct (all_some_in _ _ _ _ L Hx) as (((p & is) & d) & _ & F). unfold Compress.load_ix in F. destruct (_ && _)%bool; [|discriminate].
  destruct (nth_error _ p) as [k|]; [|discriminate]. destruct (Compress.all_some (map _ is)) as [al|] eqn:A; [|discriminate]. injection F as <-. cbn [cx_accounts] in Ha.
  destruct (all_some_in _ _ _ _ A Ha) as (i & _ & G). unfold Compress.load_account in G. destruct (nth_error _ i) as [ki|] eqn:N; [|discriminate].
  injection G as <-. cbn [ac_signer ac_key] in *. apply Nat.ltb_lt in Hs. exists i. split; [exact Hs|]. rewrite nth_error_app1 in N by lia. exact N.
Qed.

Lemma combine_nth_error {A B} (l : list A) (r : list B) n a b : nth_error l n = Some a -> nth_error r n = Some b -> In (a, b) (combine l r).
Proof.
  revert l r. induction n as [|n IH]; intros [|x l] [|y r]; cbn; try discriminate.
  - intros E F. injection E as ->. injection F as ->. now left.
  - intros E F. right. eauto.
Qed.

Lemma w_all_concat l b : w_all (w_blob 64) l = Some b -> b = concat l /\ Forall (fun s => length s = 64) l.
Proof.
  revert b. induction l as [|x l IH]; cbn [w_all concat]; intros b E.
  - injection E as <-. auto.
  - unfold w_blob at 1 in E. destruct (Nat.eqb_spec (length x) 64); [|discriminate E]. cbn in E.
    destruct (w_all (w_blob 64) l) as [c|] eqn:F; [|discriminate E]. injection E as <-. destruct (IH _ eq_refl) as (-> & ?). auto.
Qed.

Lemma genuine_signed ed t b n k : receive b = Some t -> genuine ed t = true -> n < mg_signatures (tx_message t) -> nth_error (mg_static (tx_message t)) n = Some k ->
  signed_by ed b k.
Proof.
  intros R G Hn Hk. destruct (receive_serialize b t R) as (E & (N & _) & _). destruct (serialize_inv _ _ E) as (sg & m & Em & Es & Q).
  unfold genuine in G. rewrite Em in G. assert (Hb : b = sg ++ m) by (decompose [and] Q; congruence).
  destruct (vec_inv _ _ _ Es) as (c & Ec & ->). destruct (w_all_concat _ _ Ec) as (-> & S64).
  destruct (nth_error (tx_signatures t) n) as [s|] eqn:Hs; [|apply nth_error_None in Hs; lia].
  exists (tx_signatures t), m, s. rewrite Hb, <- app_assoc. repeat split; [exact S64|eapply nth_error_In; exact Hs|].
  exact (proj1 (forallb_forall _ _) G _ (combine_nth_error _ _ _ _ _ Hk Hs)).
Qed.

Section Facts.
Context (ed : bytes -> bytes -> bytes -> bool) (hn : bytes -> handle) (nm : bytes -> addr) (H : hashes).
Local Open Scope Z_scope.

(** An instruction is a history of steps, each signed by what it was given. *)
Lemma ix_history x s s' : ix_run hn nm H x s s' -> exists tr, run H s tr s' /\ Forall (fun e => permitted (metas_in hn x) (e_call e)) tr /\
  (program_at hn (cx_program x) <> None -> forall e a, In e tr -> In a (signers (e_call e)) -> given_signer (metas_in hn x) a).
Proof.
  intros [p ok P E|tr P R F].
  - destruct (entry_step _ _ _ _ _ _ _ _ E) as [->|(i & sg & C & G & S)].
    + exists []. split; [constructor|]. split; [constructor|]. intros _ e a [].
    + exists [Ev s (Call sg i) s']. split; [apply run_step; [constructor|exact S]|]. split.
      * constructor; [|constructor]. split; cbn [ins signers e_call]; [|intros a Ha; left; apply G, Ha]. intros t ->. exact C.
      * intros _ e a [<-|[]] Ha. apply G, Ha.
  - exists tr. split; [exact R|]. split; [exact F|]. intros C. contradiction.
Qed.

(** A packet is one: every step belongs to an instruction of the packet, and whoever signed the step has signed the packet. *)
Definition backed (b : bytes) (c : call) : Prop := (forall t, ins c <> EClock t) /\ forall a, In a (signers c) -> agreed ed hn b a \/ third_party a.
Lemma lands_history tables b s s' : lands ed hn nm H tables b s s' -> exists tr, run H s tr s' /\ Forall (fun e => backed b (e_call e)) tr.
Proof.
  intros (t & payer & ixs & R & G & L & X).
  assert (Hs : forall x a, In x ixs -> given_signer (metas_in hn x) a -> agreed ed hn b a).
  { intros x a Hx (m & Hm & Hk & Hsg). unfold metas_in in Hm. apply in_map_iff in Hm as (ac & <- & Hac). cbn [me_key me_signer] in *.
    destruct (loaded_signer _ _ _ _ _ _ L Hx Hac Hsg) as (n & Hn & Hnth). exists (ac_key ac). split; [exact Hk|]. eapply genuine_signed; eassumption. }
  clear R G L. induction X as [s|x l s s1 s' X1 X2 IH].
  - exists []. split; constructor.
  - destruct IH as (tr2 & R2 & F2); [intros y a Hy; apply Hs; right; exact Hy|].
    destruct (ix_history _ _ _ X1) as (tr1 & R1 & F1 & _). exists (tr2 ++ tr1). split; [eapply run_app; eassumption|].
    apply Forall_app. split; [exact F2|]. eapply Forall_impl; [|exact F1]. intros e (NC & P). split; [exact NC|].
    intros a Ha. destruct (P a Ha) as [Q|Q]; [left; apply (Hs x); [left; reflexivity|exact Q]|right; exact Q].
Qed.

Lemma chain_history s0 l s : chain ed hn nm H s0 l s -> exists tr, run H s0 tr s /\
  Forall (fun e => (exists t, e_call e = Call [] (EClock t)) \/ exists b, In b l /\ backed b (e_call e)) tr.
Proof.
  intros C. induction C as [|l s t s' C (tr & R & F) E|l s tables b s' C (tr & R & F) L].
  - exists []. split; constructor.
  - exists (Ev s (Call [] (EClock t)) s' :: tr). split; [apply run_step; assumption|]. constructor; [left; exists t; reflexivity|exact F].
  - destruct (lands_history _ _ _ _ L) as (tr2 & R2 & F2). exists (tr2 ++ tr). split; [eapply run_app; eassumption|]. apply Forall_app. split.
    + eapply Forall_impl; [|exact F2]. intros e B. right. exists b. split; [left; reflexivity|exact B].
    + eapply Forall_impl; [|exact F]. intros e [Q|(b' & Hb & B)]; [left; exact Q|right; exists b'; split; [right; exact Hb|exact B]].
Qed.
Lemma chain_reachable s0 l s : reachable H s0 -> chain ed hn nm H s0 l s -> reachable H s.
Proof. intros Hr C. destruct (chain_history _ _ _ C) as (tr & R & _). eapply run_reachable; eassumption. Qed.

(** ** Settings *)
Lemma settings_config s a c : config_at s a c -> settings (st_accts s a) = Some (SConfig (cf_owner c) (cf_pending c) (cf_paused c) (cf_next c) (cf_enabled c)).
Proof. unfold config_at, has. intros ->. reflexivity. Qed.

Definition setting_dec (x y : option setting) : {x = y} + {x <> y}.
Proof. repeat first [apply addr_eq_dec|apply Z.eq_dec|apply Bool.bool_dec|decide equality]. Defined.

(** In a history none of whose steps is signed by owner or named successor, no setting changes. *)
Lemma quiet_settings s tr s' a c : reachable H s -> run H s tr s' -> config_at s a c ->
  Forall (fun e => ~ In (cf_owner c) (signers (e_call e)) /\ forall n, cf_pending c = Some n -> ~ In n (signers (e_call e))) tr ->
  forall b, settings (st_accts s' b) = settings (st_accts s b).
Proof.
  intros Hr R Hc. induction R as [|tr s1 cl s2 R IH E]; intros F b; [reflexivity|]. inversion F as [|? ? (F1 & F2) F']; subst. cbn [e_call] in *. specialize (IH F').
  assert (Hr1 : reachable H s1) by (eapply run_reachable; eassumption).
  rewrite <- IH. destruct (setting_dec (settings (st_accts s2 b)) (settings (st_accts s1 b))) as [Q|Q]; [exact Q|exfalso].
  assert (K : exists c1, config_at s1 a c1 /\ cf_owner c1 = cf_owner c /\ cf_pending c1 = cf_pending c).
  { pose proof (IH a) as Ka. rewrite (settings_config _ _ _ Hc) in Ka. unfold config_at, has.
    destruct (st_accts s1 a) as [[[] []]|]; cbn in Ka; try discriminate; injection Ka; intros; eexists; (split; [reflexivity|]); auto. }
  destruct K as (c1 & Hc1 & O & P).
  destruct (AdminFacts.settings_owner _ _ _ _ _ Hr1 E Q) as [(b' & cf & o & Hcf & _ & Hin & Ho)|(d & m & tp & ch & l & md & NC & _)]; [|exact (NC _ _ Hc1)].
  assert (cf = c1) by (apply (config_one _ _ _ _ _ _ Hr1 Hcf Hc1)). subst cf.
  destruct Ho as [->|(_ & Hp)]; [apply F1; congruence|apply (F2 o); congruence].
Qed.

(** ** Tokens *)

(** Whose signature the operation takes as leave to lessen or change [a]. *)
Definition needs_from (o : tokop) (a : addr) : option addr :=
  match o with
  | OTransfer _ src _ _ auth _ | OBurn _ src _ auth _ => if addr_eq_dec src a then Some auth else None
  | OApprove _ b owner _ _ | ORevoke _ b owner | OSetOwner _ b owner _ | OClose _ b owner => if addr_eq_dec b a then Some owner else None
  | _ => None
  end.
Definition kept_tok (a : addr) (t : tok) (s : state) : Prop :=
  exists t', st_toks s a = Some t' /\ tk_owner t' = tk_owner t /\ tk_delegate t' = None /\ tk_mint t' = tk_mint t /\ tk_amount t <= tk_amount t'.
Lemma op_kept s o s' a t : ledger_ok s -> op_ok o -> run_op s o = Ok s' -> st_toks s a = Some t -> tk_delegate t = None -> needs_from o a <> Some (tk_owner t) -> kept_tok a t s'.
Proof.
  intros Hl Ho E Ea Hd Hn.
  assert (Hsame : st_toks s' a = st_toks s a -> kept_tok a t s').
  { intros Q. exists t. rewrite Q. repeat split; try assumption. lia. }
  destruct o; cbn [run_op op_ok needs_from] in *.
  - apply tok_transfer_ok in E. destruct E as (t0 & d0 & m & t1 & E1 & E2 & E3 & _ & _ & _ & _ & _ & Hx & Hsp & _ & _ & Q). apply spend_ok in Hsp. destruct Hsp as (_ & _ & _ & _ & Sp).
    destruct (addr_eq_dec src a) as [->|Hne].
    + exfalso. assert (t0 = t) by congruence. subst t0. destruct Sp as [(C & _)|(_ & C & _)]; congruence.
    + destruct Q as [(_ & ->)|(_ & Hu & _ & _ & Qt)]; [apply Hsame; reflexivity|]. destruct (addr_eq_dec a dst) as [->|]; [|apply Hsame; rewrite Qt, !upd_other by congruence; reflexivity].
      assert (d0 = t) by congruence. subst d0. exists (with_amount t (tk_amount t + (x - fee_of m x))). rewrite Qt, upd_eq. destruct (addr_eq_dec dst dst); [|contradiction].
      cbn. repeat split; try assumption. pose proof (fee_range _ _ x (proj2 Hl _ _ E3) Ho). lia.
  - apply tok_mint_to_ok in E. destruct E as (d0 & m & E1 & E2 & _ & _ & _ & _ & _ & _ & _ & Qt & _).
    destruct (addr_eq_dec a dst) as [->|]; [|apply Hsame; rewrite Qt, upd_other by assumption; reflexivity].
    assert (d0 = t) by congruence. subst d0. exists (with_amount t (tk_amount t + x)). rewrite Qt, upd_eq. destruct (addr_eq_dec dst dst); [|contradiction]. cbn. repeat split; try assumption. lia.
  - apply tok_burn_ok in E. destruct E as (t0 & m & t1 & E1 & E2 & _ & _ & _ & _ & Hsp & _ & _ & Qt & _). apply spend_ok in Hsp. destruct Hsp as (_ & _ & _ & _ & Sp).
    destruct (addr_eq_dec src a) as [->|Hne]; [|apply Hsame; rewrite Qt, upd_other by congruence; reflexivity].
    exfalso. assert (t0 = t) by congruence. subst t0. destruct Sp as [(C & _)|(_ & C & _)]; congruence.
  - apply tok_init_ok in E. destruct E as (m & _ & _ & _ & E2 & _ & ->). apply Hsame. cbn. rewrite upd_other; [reflexivity|congruence].
  - binds E. gets. bools. subst s'. destruct (addr_eq_dec a0 a) as [->|]; [exfalso; congruence|]. apply Hsame. cbn. rewrite upd_other; [reflexivity|congruence].
  - binds E. gets. bools. subst s'. destruct (addr_eq_dec a0 a) as [->|]; [exfalso; congruence|]. apply Hsame. cbn. rewrite upd_other; [reflexivity|congruence].
  - binds E. gets. bools. subst s'. apply Hsame. reflexivity.
  - binds E. gets. bools. subst s'. destruct (addr_eq_dec a0 a) as [->|]; [exfalso; congruence|]. apply Hsame. cbn. rewrite upd_other; [reflexivity|congruence].
  - binds E. gets. bools. subst s'. destruct (addr_eq_dec a0 a) as [->|]; [exfalso; congruence|]. apply Hsame. cbn. rewrite upd_other; [reflexivity|congruence].
  - binds E. bools. subst s'. apply Hsame. reflexivity.
  - binds E. bools. subst s'. apply Hsame. reflexivity.
  - binds E. gets. bools. subst s'. destruct (addr_eq_dec a dst) as [->|]; [|apply Hsame; cbn; rewrite upd_other by assumption; reflexivity].
    assert (v0 = t) by congruence. subst v0. exists (with_amount t (tk_amount t + x)). cbn. rewrite upd_eq. destruct (addr_eq_dec dst dst); [|contradiction].
    cbn. repeat split; try assumption; lia.
Qed.

Lemma kept_trans a t s : kept_tok a t s -> forall s', (forall t1, st_toks s a = Some t1 -> tk_owner t1 = tk_owner t -> tk_delegate t1 = None -> kept_tok a t1 s') -> kept_tok a t s'.
Proof.
  intros (t1 & E1 & O1 & D1 & M1 & A1) s' K. destruct (K t1 E1 O1 D1) as (t2 & E2 & O2 & D2 & M2 & A2). exists t2. repeat split; try congruence. lia.
Qed.
Lemma ops_kept os a o : forall s s' t, ledger_ok s -> Forall op_ok os -> run_ops s os = Ok s' -> st_toks s a = Some t -> tk_owner t = o -> tk_delegate t = None ->
  Forall (fun x => needs_from x a <> Some o) os -> kept_tok a t s'.
Proof.
  induction os as [|x os IH]; intros s s' t Hl Ho E Ea Eo Hd Hn; cbn [run_ops] in E.
  - apply Ok_inj in E. subst s'. exists t. repeat split; try assumption. lia.
  - apply bind_ok in E. destruct E as (s1 & E1 & E2). inversion Ho as [|? ? Ho1 Ho2]. inversion Hn as [|? ? Hn1 Hn2]. subst x0 l x1 l0. destruct (run_op_ok _ _ _ Hl Ho1 E1) as (Hl1 & _).
    eapply kept_trans; [apply (op_kept s x s1 a t Hl Ho1 E1 Ea Hd); rewrite Eo; exact Hn1|]. intros t1 Q1 Q2 Q3. apply (IH s1 s' t1); try assumption. congruence.
Qed.
Lemma session_not_owner o d : pda_session o d <> o.
Proof.
  assert (K : forall x y, pda_session x y <> x).
  { induction x as [| | | |p t z x1 IH1 x2 IH2]; intros y C; try discriminate C. unfold pda_session in C. injection C as Qp Qt Qz Q1 Q2. subst p t z x2. exact (IH1 _ Q1). }
  apply K.
Qed.
Lemma step_kept s cl s' a t : reachable H s -> step H s cl = Ok s' -> private a -> st_toks s a = Some t -> tk_delegate t = None -> ~ In (tk_owner t) (signers cl) -> kept_tok a t s'.
Proof.
  intros Hr Hs Hp Ea Hd Hn. pose proof (reachable_inv _ _ Hr) as Hi. pose proof (step_inv _ _ _ _ Hs) as (Hsg & Hty & _).
  destruct (step_ops _ _ _ _ Hs) as (os & s1 & Hops & Hl & Hw). pose proof (why_ok _ _ _ _ _ _ Hi Hsg Hty Hw) as Hok.
  assert (Hcust : forall c, config_ok s c -> cf_custody c <> a) by (intros c Hc C; exact (not_custody _ _ _ Hp Hc (eq_sym C))).
  assert (K : kept_tok a t s1).
  { eapply ops_kept; [exact (inv_ledger _ Hi)|exact Hok|exact Hops|exact Ea|reflexivity|exact Hd|].
    destruct Hw; repeat constructor; cbn [needs_from]; try discriminate; try (destruct (addr_eq_dec _ _) as [Q|Q]; [|discriminate]).
    - intros C. apply Hn. apply signed_In. match goal with A : forall b, op_auth o = Some b -> _ |- _ => apply A end.
      destruct o; cbn in C |- *; try discriminate; destruct (addr_eq_dec _ _); congruence.
    - match goal with F : transfer_facts _ _ _ _ _ _ _ _ _ _ _ _ _ _ _ _ |- _ => pose proof (tf_from _ _ _ _ _ _ _ _ _ _ _ _ _ _ _ _ F) as Ef end.
      rewrite Q in Ef. assert (f = t) by congruence. subst f. intros C. apply Some_inj in C. exact (session_not_owner _ _ C).
    - match goal with F : transfer_facts _ _ _ _ _ _ _ _ _ _ _ _ _ _ _ _ |- _ => pose proof (tf_from _ _ _ _ _ _ _ _ _ _ _ _ _ _ _ _ F) as Ef end.
      rewrite Q in Ef. assert (f = t) by congruence. subst f. intros C. apply Some_inj in C. exact (session_not_owner _ _ C).
    - exfalso. apply (Hcust c); [|exact Q]. eapply config_ok_at; [exact Hi|]. eapply tf_config; eassumption.
    - exfalso. apply (Hcust c); [|exact Q]. eapply config_ok_at; [exact Hi|]. eapply lf_config; eassumption.
    - exfalso. apply (Hcust c); [|exact Q]. eapply config_ok_at; [exact Hi|]. eapply lf_config; eassumption. }
  destruct K as (t' & K1 & K2). exists t'. rewrite (proj1 Hl). split; assumption.
Qed.

(** In a history none of whose steps is signed by the owner, a token account without delegate loses nothing. *)
Lemma quiet_tokens s tr s' a t : reachable H s -> run H s tr s' -> private a -> st_toks s a = Some t -> tk_delegate t = None ->
  Forall (fun e => ~ In (tk_owner t) (signers (e_call e))) tr -> kept_tok a t s'.
Proof.
  intros Hr R Hp Ea Hd. induction R as [|tr s1 cl s2 R IH E]; intros F.
  - exists t. repeat split; try assumption. lia.
  - inversion F as [|? ? F1 F2]. cbn [e_call] in F1. eapply kept_trans; [apply IH, F2|]. intros t1 Q1 Q2 Q3.
    apply (step_kept s1 cl s2 a t1); try assumption; [eapply run_reachable; eassumption|rewrite Q2; exact F1].
Qed.

(** ** Before deployment *)
Lemma authority_change s cl s' : step H s cl = Ok s' -> st_uauth s' = st_uauth s \/ (exists x, st_uauth s = Some x /\ In x (signers cl)) \/ exists b c, config_at s b c.
Proof.
  intros Hs. destruct cl as [sg i]. destruct (is_ownership i) eqn:Hi.
  - right. right. destruct i; try discriminate.
    + destruct (offer_exec _ _ _ _ _ _ _ Hs) as (c & E & _). eauto.
    + destruct (give_exec _ _ _ _ _ _ _ Hs) as (c & E & _). eauto.
    + destruct (claim_exec _ _ _ _ _ _ Hs) as (c & E & _). eauto.
  - pose proof (step_rest _ _ _ _ Hs) as R. cbn [signers ins] in R. inversion R; subst; try (left; reflexivity); try discriminate.
    right. left. eexists. split; [eassumption|]. cbn [signers]. apply signed_In. assumption.
Qed.
Lemma quiet_deployment s tr s' d : reachable H s -> run H s tr s' -> (forall b c, ~ config_at s b c) -> st_uauth s = Some d ->
  Forall (fun e => ~ In d (signers (e_call e))) tr -> (forall b c, ~ config_at s' b c) /\ st_uauth s' = Some d.
Proof.
  intros Hr R Hn Hu. induction R as [|tr s1 cl s2 R IH E]; intros F; [auto|]. inversion F as [|? ? F1 F2]. cbn [e_call] in F1. destruct (IH F2) as (N1 & U1).
  assert (Hr1 : reachable H s1) by (eapply run_reachable; eassumption). split.
  - intros b c Hc. destruct (config_made _ _ _ _ _ _ Hr1 E Hc) as [(c0 & Hc0)|(d' & m & tp & ch & lim & md & _ & _ & Hin & Hd & _)]; [exact (N1 _ _ Hc0)|].
    rewrite U1 in Hd. injection Hd as <-. contradiction.
  - destruct (authority_change _ _ _ E) as [Q|[(y & Hy & Hin)|(b & c & Hc)]]; [congruence| |exfalso; exact (N1 _ _ Hc)].
    rewrite U1 in Hy. injection Hy as <-. contradiction.
Qed.

(** ** Packets of the library *)
Definition at_bytes (key : handle -> bytes) (x : cix handle) : cix bytes :=
  Cix (key (cx_program x)) (map (fun a => Account (key (ac_key a)) (ac_signer a) (ac_writable a)) (cx_accounts x)) (cx_data x).
Definition named (key : handle -> bytes) (x : cix handle) : Prop := hn (key (cx_program x)) = cx_program x /\ forall a, In a (cx_accounts x) -> hn (key (ac_key a)) = ac_key a.
Lemma at_bytes_metas key x : named key x -> metas_in hn (at_bytes key x) = map as_meta (cx_accounts x).
Proof. intros (_ & K). unfold metas_in, at_bytes. cbn [cx_accounts]. rewrite map_map. apply map_ext_in. intros a Ha. cbn [ac_key ac_signer ac_writable]. rewrite K by exact Ha. reflexivity. Qed.
Lemma signers_given ms a : In a (signers_of ms) -> given_signer ms a.
Proof.
  unfold signers_of. intros Hin. apply in_flat_map in Hin as (m & Hm & Ha). destruct m as [k sg w]. cbn [me_key me_signer] in Ha. destruct k; try contradiction. destruct sg; [|contradiction].
  destruct Ha as [<-|[]]. eexists. split; [exact Hm|]. split; reflexivity.
Qed.
Lemma message_runs key items xs : Forall (named key) xs -> Forall2 (fun it x => cx_program x = cx_program (to_cix (fst it))) items xs ->
  forall s s', run_message nm H s items xs = Ok s' -> ixs_run hn nm H (map (at_bytes key) xs) s s'.
Proof.
  intros Ks F. induction F as [|(i & ok) x items xs P F IH]; intros s s' E; cbn [run_message map] in *.
  - apply Ok_inj in E. subst. constructor.
  - apply bind_ok in E as (s1 & E1 & E2). apply Forall_cons_iff in Ks as (K & Ks). econstructor; [|apply (IH Ks), E2]. cbn [fst] in P. destruct i as [[i|]|tp a d o n]; [|discriminate|].
    + cbn [to_cix cx_program] in P. unfold entry in E1. destruct (prog_of (ix_program i)) as [q|] eqn:Q; [|discriminate].
      assert (Hp : program_at hn (cx_program (at_bytes key x)) = Some (ix_program i)).
      { unfold at_bytes, program_at. cbn [cx_program]. rewrite (proj1 K), P. unfold program_key. rewrite Q. destruct (ix_program i); try discriminate; cbn in Q; injection Q as <-; reflexivity. }
      eapply ix_ours; [exact Hp|]. rewrite at_bytes_metas by exact K. unfold entry. rewrite Q. exact E1.
    + destruct tp as [| | |p|]; try discriminate. pose proof (step_inv _ _ _ _ E1) as (_ & Ty & _). cbn [ins typed] in Ty. apply andb_prop in Ty as (Tp & _).
      eapply (ix_other _ _ _ _ _ _ [Ev s _ s1]).
      * unfold at_bytes, program_at. cbn [cx_program]. rewrite (proj1 K), P. cbn [to_cix cx_program]. destruct p; try discriminate; reflexivity.
      * apply run_step; [constructor|exact E1].
      * constructor; [|constructor]. split; cbn [e_call ins signers]; [discriminate|]. intros b Hb. left. rewrite at_bytes_metas by exact K. apply signers_given, Hb.
Qed.

Definition accepts (m : bytes) (g : message bytes) (sigs : list bytes) : Prop := forall k sig, In (k, sig) (combine (mg_static g) sigs) -> ed k m sig = true.
Lemma library_lands key hl l payer items tables g sigs hash s' : (forall k, In k (keys_of (HA payer) (map to_cix (map fst items)) ++ map fst tables) -> hn (key k) = k) -> (forall k, length (key k) = 32%nat) ->
  Compress.compile handle_eq_dec (HA payer) (map to_cix (map fst items)) tables = Some g -> grown tables (tables_in hl l) ->
  (forall x, In x (map to_cix (map fst items)) -> cx_program x <> HA payer) -> (wire_size g <= 1232)%nat ->
  length sigs = mg_signatures g -> Forall (fun s => length s = 64%nat) sigs -> length hash = 32%nat ->
  (forall m, w_message hash true (render key g) = Some m -> accepts m (render key g) sigs) ->
  send nm H hl l items g = Ok s' ->
  exists b, serialize (Tx sigs hash true (render key g)) = Some b /\ lands ed hn nm H (fun k => option_map (map key) (tables_in hl l (hn k))) b (l_world l) s'.
Proof.
  intros K K32 C Gr Np Sz N S64 H32 Acc E.
  assert (NI : ~ invoked (map to_cix (map fst items)) (HA payer)) by (intros (x & Hx & Q); exact (Np x Hx Q)).
  assert (Inj : tells key (keys_of (HA payer) (map to_cix (map fst items)))) by (intros a b Ia Ib Q; rewrite <- (K a), <- (K b), Q by (apply in_or_app; auto); reflexivity).
  destruct (compile_sent handle_eq_dec key K32 _ _ _ _ sigs hash C N S64 H32) as (X & _). destruct (proj1 X Sz) as (b0 & E0 & _).
  destruct (sent_loaded handle_eq_dec bytes_dec key _ _ tables (tables_in hl l) (fun k => option_map (map key) (tables_in hl l (hn k))) g sigs hash K32 Inj Gr)
    as (b & t & Eb & _ & R & _ & _ & Ld); try assumption.
  { intros t It. rewrite K by (apply in_or_app; auto). reflexivity. }
  exists b. split; [exact Eb|]. pose proof (receive_serialize _ _ R) as (Et & _ & _).
  assert (t = Tx sigs hash true (render key g)).
  { assert (W : receive b = Some (Tx sigs hash true (render key g))).
    { destruct (compile_sent handle_eq_dec key K32 _ _ _ _ sigs hash C N S64 H32) as (_ & Y). exact (proj2 (Y b Eb) Sz). }
    congruence. }
  subst t. exists (Tx sigs hash true (render key g)), (key (HA payer)). eexists. split; [exact R|]. split.
  - unfold genuine. cbn [tx_hash tx_v0 tx_message tx_signatures]. destruct (serialize_inv _ _ Eb) as (sg & m & Em & _). cbn [tx_hash tx_v0 tx_message] in Em. rewrite Em.
    apply forallb_forall. intros (k & sig) Hin. exact (Acc m Em k sig Hin).
  - split; [exact Ld|]. unfold send in E. rewrite (CompressFacts.compile_load handle_eq_dec _ _ _ _ _ Gr NI C) in E.
    rewrite <- (map_map (merged handle_eq_dec (HA payer) (map to_cix (map fst items))) (lift_ix key)). change (lift_ix key) with (at_bytes key).
    apply (message_runs key items); [| |exact E].
    { apply Forall_forall. intros y Iy. apply in_map_iff in Iy as (x & <- & Ix).
      assert (Ky : forall k, In k (cx_program x :: map ac_key (cx_accounts x)) -> hn (key k) = k).
      { intros k Ik. apply K. apply in_or_app. left. right. apply in_flat_map. exists x. split; assumption. }
      split; [apply Ky; left; reflexivity|]. unfold merged. cbn [cx_accounts]. intros a Ia. apply in_map_iff in Ia as (a0 & <- & Ia). cbn [ac_key]. apply Ky. right. apply in_map. exact Ia. }
    set (f := merged handle_eq_dec (HA payer) (map to_cix (map fst items))).
    assert (P : forall x, cx_program (f x) = cx_program x) by reflexivity. clearbody f. clear - P. induction items as [|x r IH]; cbn [map]; constructor; [apply P|exact IH].
Qed.
End Facts.

Lemma transfer_apart nm H c tp sender amount chain to q item x items : cf_token_program c = AProg tp -> (forall p, sender <> AProg p) ->
  client_transfer nm H sender amount chain to q item c x = Some items -> forall y, In y (map to_cix items) -> cx_program y <> HA sender.
Proof.
  intros E NP. unfold client_transfer. destruct (cf_paused c); [discriminate|]. rewrite E. cbn [assoc]. intros Ei. injection Ei as <-. intros y Iy Q. cbn [map In] in Iy.
  assert (P : forall b, cx_program (to_cix (Ours b)) <> HA sender).
  { intros [i|]; [|discriminate]. cbn [to_cix cx_program]. unfold program_key. destruct (prog_of (ix_program i)); [|discriminate]. intros C. injection C as C. exact (NP _ (eq_sym C)). }
  destruct Iy as [<-|[<-|[<-|[]]]]; [|exact (P _ Q)|exact (P _ Q)]. cbn [to_cix cx_program] in Q. injection Q as Q. exact (NP _ (eq_sym Q)).
Qed.
Lemma redeem_apart H payer vaa ch msg c x items : (forall p, payer <> AProg p) ->
  client_redeem H payer vaa ch msg c x = Some items -> forall y, In y (map to_cix items) -> cx_program y <> HA payer.
Proof.
  intros NP. unfold client_redeem. destruct (cf_paused c); [discriminate|]. intros Ei. injection Ei as <-. intros y Iy Q. cbn [map In] in Iy.
  assert (P : forall b, cx_program (to_cix (Ours b)) <> HA payer).
  { intros [i|]; [|discriminate]. cbn [to_cix cx_program]. unfold program_key. destruct (prog_of (ix_program i)); [|discriminate]. intros C. injection C as C. exact (NP _ (eq_sym C)). }
  destruct Iy as [<-|[<-|[<-|[]]]]; exact (P _ Q).
Qed.

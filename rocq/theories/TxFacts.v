(** * Proofs about the client library's transactions (C97). *)
From Coq Require Import String Lia.
From Verif Require Export SpecTx BuilderFacts MoveFacts.
From Verif Require Import ChainFacts Inv Kept Transact.
Import ListNotations.
Local Open Scope Z_scope.
Local Open Scope list_scope.
Local Strategy 1000 [sha256].

(** ** Instructions within a transaction *)
Lemma raise_least all ms : incl ms all -> at_least ms (map (raise_ all) ms).
Proof.
  intros I. exists (map (raise_ all) ms), []. split; [now rewrite app_nil_r|].
  assert (G : forall m, In m ms -> me_key (raise_ all m) = me_key m /\ (me_signer m = true -> me_signer (raise_ all m) = true) /\ (me_writable m = true -> me_writable (raise_ all m) = true)).
  { intros m J. apply I in J. unfold raise_. cbn [me_key me_signer me_writable]. split; [reflexivity|].
    split; intros E; apply existsb_exists; exists m; (split; [exact J|]); rewrite handle_eqb_refl, E; reflexivity. }
  clear I. induction ms as [|m ms IH]; cbn [map]; [constructor|]. constructor; [apply G; left; reflexivity|]. apply IH. intros n J. apply G. right. exact J.
Qed.
Lemma raise_signer all ms a : In a (signers_of (map (raise_ all) ms)) -> In a (signers_of all).
Proof.
  rewrite !signers_of_in. intros (m & I & K & S). apply in_map_iff in I. destruct I as (n & <- & I). unfold raise_ in K, S. cbn [me_key me_signer] in K, S.
  apply existsb_exists in S. destruct S as (k & J & E). apply andb_true_iff in E. destruct E as [E F]. exists k. split; [exact J|]. split; [|exact F].
  unfold handle_eqb in E. destruct (handle_eq_dec _ _) as [Q|]; [congruence|discriminate E].
Qed.

Lemma submit_ours nm ok H s b i all : means nm ok H s b i -> incl (metas_of (Ours b)) all ->
  exists sg, (forall a, In a (signers_of (metas_of (Ours b))) -> In a sg) /\ (forall a, In a sg -> In a (signers_of all)) /\
    forall s', submit1 nm H all ok s (Ours b) = Ok s' <-> step H s (Call sg i) = Ok s'.
Proof.
  intros (x & -> & M) I. cbn [metas_of] in I |- *. exists (signers_of (map (raise_ all) (ix_metas x))).
  split; [|split; [intros a; apply raise_signer|intros s'; apply M, raise_least, I]].
  intros a. rewrite !signers_of_in. intros (m & J & K & S). exists (raise_ all m). split; [apply in_map, J|]. split; [exact K|].
  unfold raise_. cbn [me_signer]. apply existsb_exists. exists m. split; [apply I, J|]. rewrite handle_eqb_refl. exact S.
Qed.
Lemma wanted_in b l a : wants b l -> In a (signers_of (metas_of (Ours b))) <-> In a l.
Proof. intros (x & -> & W). cbn [metas_of]. rewrite signers_of_in. apply W. Qed.
Lemma can_signs (l l' : list addr) : (forall a, In a l -> In a l') -> forallb can_sign l' = true -> forallb can_sign l = true.
Proof. intros I F. rewrite forallb_forall in *. intros a J. apply F, I, J. Qed.
Lemma signers_app l l' : signers_of (l ++ l') = signers_of l ++ signers_of l'.
Proof. apply flat_map_app. Qed.

(** ** Approving *)
Lemma approve_iff H s sg p a o d x s' : forallb can_sign sg = true -> is_token_prog p = true -> is_u64 x -> In o sg ->
  step H s (Call sg (EApprove p a o d x)) = Ok s' <->
  exists t, st_toks s a = Some t /\ tk_prog t = p /\ tk_owner t = o /\ s' = put_tok a (set_delegate t (Some d) x) s.
Proof.
  intros C P X I. unfold step. cbn [signers ins typed exec]. rewrite C, P, (EffectFacts.u64b_ok _ X). cbn [andb require bind].
  assert (S : signed sg o = true) by (apply existsb_exists; exists o; split; [exact I|unfold addr_eqb; destruct (addr_eq_dec o o); congruence]).
  rewrite S. cbn [andb]. split.
  - intros E. binds E. apply get_tok_ok in E0. destruct E0 as [E0 Q]. injection E as <-. exists v. bools. repeat split; auto.
  - intros (t & T & Q & O & ->). rewrite (proj2 (get_tok_ok s p a t) (conj T Q)). cbn [bind]. rewrite O.
    unfold addr_eqb. destruct (addr_eq_dec o o); [reflexivity|congruence].
Qed.

(** ** A transfer *)
Section Transfer.
Context (H : hashes) (s : state) (c : config addr) (tp : prog) (sender item : addr) (a : targs) (x : prog).
Context (R : reachable H s) (F : fetched s c) (P : cf_paused c = false) (E : cf_token_program c = AProg tp) (CS : can_sign sender = true).
Context (X : is_ntt_prog x = true).
Let from := ata tp sender (cf_mint c).
Let session := pda_session sender (h_args H a).
Let accts ok := TransferAccts pda_config from tp item pda_outbox_rl ok.

Lemma from_custody : from <> cf_custody c.
Proof.
  destruct (fetched_ok _ _ _ R F) as (tp' & T & E' & K). rewrite E in E'. injection E' as <-. rewrite K. unfold from, ata, token_authority. intros Q. injection Q as Q. rewrite Q in CS. discriminate CS.
Qed.
Lemma from_mint f : st_toks s from = Some f -> tk_mint f = cf_mint c.
Proof.
  intros T. destruct (reachable_inv _ _ R) as [_ L _ _ _]. destruct (fetched_ok _ _ _ R F) as (tp' & TP & E' & _). rewrite E in E'. injection E' as <-.
  destruct L as [L _]. destruct (L _ _ T) as (_ & _ & _ & _ & _ & A & _). apply (A tp sender (cf_mint c) TP). reflexivity.
Qed.
Lemma from_prog f : st_toks s from = Some f -> tk_prog f = tp.
Proof.
  intros T. destruct (reachable_inv _ _ R) as [_ L _ _ _]. destruct (fetched_ok _ _ _ R F) as (tp' & TP & E' & _). rewrite E in E'. injection E' as <-.
  destruct L as [L _]. destruct (L _ _ T) as (_ & _ & _ & _ & _ & A & _). apply (A tp sender (cf_mint c) TP). reflexivity.
Qed.
Lemma config_prog m : st_mints s (cf_mint c) = Some m -> mt_prog m = tp.
Proof.
  intros M. destruct (reachable_inv _ _ R) as [_ _ _ C _]. destruct (co_prog _ _ (C c F)) as (tp' & m' & t & T & Q & K & M' & Mp & _). congruence.
Qed.

Let after f := put_tok from (set_delegate f (Some session) (ar_amount a)) s.
Lemma after_tok f b : st_toks (after f) b = if addr_eq_dec b from then Some (set_delegate f (Some session) (ar_amount a)) else st_toks s b.
Proof. unfold after, put_tok. cbn [set_toks st_toks]. apply upd_eq. Qed.

Lemma deposit_iff sg ok m pe f g cu orl irl v : st_toks s from = Some f -> tk_owner f = sender -> In item sg -> is_u64 (ar_amount a) -> cf_enabled c <> 0 ->
  (transferable H (after f) sg (accts ok) a (cf_mode c) c m pe g cu orl irl v /\ (cf_mode c = Burning -> v <= mt_supply m)) <->
  (g = set_delegate f (Some session) (ar_amount a) /\ depositable s c sender from item a ok m pe f cu orl irl v).
Proof.
  intros T O I U En.
  assert (N : from <> cf_custody c) by exact from_custody.
  split.
  - intros [[] Sup]. cbn [accts xa_config xa_from xa_tp xa_outbox_item xa_outbox_rl xa_hook_ok] in *.
    rewrite after_tok in ta_from. destruct (addr_eq_dec from from) as [_|Q]; [|congruence]. injection ta_from as <-. split; [reflexivity|].
    rewrite after_tok in ta_custody. destruct (addr_eq_dec (cf_custody c) from) as [Q|_]; [congruence|].
    destruct ta_fresh as (F1 & F2 & F3 & F4). rewrite after_tok in F3. destruct (addr_eq_dec item from) as [Q|_]; [discriminate F3|].
    destruct ta_orl as [_ Orl]. constructor; try assumption. repeat split; assumption.
  - intros [-> []]. split; [|assumption].
    constructor; cbn [accts xa_config xa_from xa_tp xa_outbox_item xa_outbox_rl xa_hook_ok set_delegate tk_mint tk_owner tk_delegate tk_delegated tk_amount]; try assumption; try reflexivity.
    + rewrite after_tok. destruct (addr_eq_dec from from); [reflexivity|congruence].
    + apply from_mint, T.
    + rewrite after_tok. destruct (addr_eq_dec (cf_custody c) from) as [Q|_]; [congruence|assumption].
    + symmetry. apply config_prog, dp_mint.
    + destruct dp_fresh as (F1 & F2 & F3 & F4). rewrite after_tok. destruct (addr_eq_dec item from) as [Q|_]; [congruence|]. repeat split; assumption.
    + split; [reflexivity|assumption].
    + rewrite O. reflexivity.
    + pose proof (reachable_inv _ _ R) as Hi.
      assert (D : remove_dust (ar_amount a) (mt_decimals m) (pe_decimals pe) = Ok (v, Trim (ar_amount a / 10 ^ (mt_decimals m - shared (mt_decimals m) (pe_decimals pe))) (shared (mt_decimals m) (pe_decimals pe)))).
      { apply dust_iff; [assumption|exact (mint_dec _ _ _ Hi dp_mint)|exact (peer_dec _ _ _ Hi dp_peer)|]. auto. }
      eapply dust_range in D; [|assumption|exact (mint_dec _ _ _ Hi dp_mint)|exact (peer_dec _ _ _ Hi dp_peer)]. tauto.
Qed.

Let unsent m pe t := let d := shared (mt_decimals m) (pe_decimals pe) in
  OutboxItem (Trim (ar_amount a / 10 ^ (mt_decimals m - d)) d) sender (ar_chain a) (pe_address pe) (ar_to a) t 0.
Lemma kept_config ok f m pe cu orl irl v s2 : depositable s c sender from item a ok m pe f cu orl irl v ->
  recorded (after f) s2 (accts ok) a m pe (set_delegate f (Some session) (ar_amount a)) orl irl v ->
  st_accts s2 pda_config = st_accts s pda_config /\ st_accts s2 (pda_reg (AProg x)) = (if addr_eq_dec (pda_reg (AProg x)) item then st_accts s2 item else st_accts s (pda_reg (AProg x))) /\
  outbox_at s2 item (unsent m pe (snd (metered (st_now s) v orl irl))).
Proof.
  intros D. unfold recorded. cbn [after put_tok set_toks st_now]. destruct (metered (st_now s) v orl irl) as [[o' i'] t].
  cbn [accts xa_outbox_item]. cbv zeta. intros (O & _ & _ & K & _). destruct D. destruct dp_fresh as (_ & F2 & _). split; [|split].
  - rewrite K; [reflexivity|intros Q; unfold fetched in F; congruence|discriminate|discriminate].
  - destruct (addr_eq_dec (pda_reg (AProg x)) item) as [->|Q]; [reflexivity|]. rewrite K; [reflexivity|exact Q|discriminate|discriminate].
  - cbn [set_delegate tk_owner] in O. rewrite dp_owner in O. exact O.
Qed.
Lemma pub_iff ok f m pe cu orl irl v s2 c' o rt : depositable s c sender from item a ok m pe f cu orl irl v ->
  recorded (after f) s2 (accts ok) a m pe (set_delegate f (Some session) (ar_amount a)) orl irl v ->
  publishable s2 pda_config item (pda_reg (AProg x)) x c' o rt <->
  c' = c /\ o = unsent m pe (snd (metered (st_now s) v orl irl)) /\ reg_at s (pda_reg (AProg x)) rt /\ Z.testbit (cf_enabled c) (rt_id rt) = true.
Proof.
  intros D Rc. destruct (kept_config _ _ _ _ _ _ _ _ _ D Rc) as (K & G & O). destruct D. destruct dp_fresh as (_ & F2 & _). split.
  - intros []. unfold config_at, outbox_at, reg_at, fetched in *.
    assert (C : c' = c) by congruence. subst c'. split; [reflexivity|]. split; [congruence|]. split; [|assumption].
    rewrite G in pu_reg. destruct (addr_eq_dec _ item) as [Q|_]; [congruence|exact pu_reg].
  - intros (-> & -> & G' & B). constructor; try assumption; try reflexivity.
    + unfold config_at. rewrite K. exact F.
    + unfold reg_at in *. rewrite G. destruct (addr_eq_dec _ item) as [Q|_]; [congruence|exact G'].
    + unfold unsent. cbn [ob_released]. apply Z.testbit_0_l.
Qed.
End Transfer.

Definition deposit_call (md : mode) (x : transfer_accts) (a : targs) : instr := match md with Locking => ITransferLock x a | Burning => ITransferBurn x a end.
Lemma deposit_step H s sg x a c : reachable H s -> forallb can_sign sg = true -> is_u64 (ar_amount a) -> is_u16 (ar_chain a) -> config_at s (xa_config x) c ->
  let ready m pe f cu orl irl v := transferable H s sg x a (cf_mode c) c m pe f cu orl irl v /\ (cf_mode c = Burning -> v <= mt_supply m) in
  (succeeds (step H s (Call sg (deposit_call (cf_mode c) x a))) <-> exists m pe f cu orl irl v, ready m pe f cu orl irl v) /\
  (forall s', step H s (Call sg (deposit_call (cf_mode c) x a)) = Ok s' -> exists m pe f cu orl irl v, ready m pe f cu orl irl v /\
     recorded s s' x a m pe f orl irl v /\ xa_from x <> cf_custody c /\ st_toks s' (xa_from x) = Some (debited f v) /\
     (forall b, b <> xa_from x -> b <> cf_custody c -> st_toks s' b = st_toks s b) /\
     (forall b, b <> cf_mint c -> st_mints s' b = st_mints s b) /\
     match cf_mode c with
     | Locking => st_toks s' (cf_custody c) = Some (given cu v) /\ st_mints s' (cf_mint c) = Some m
     | Burning => st_toks s' (cf_custody c) = Some cu /\ st_mints s' (cf_mint c) = Some (minted m (- v) 0)
     end).
Proof.
  intros R C U U' F. cbv zeta. destruct (cf_mode c) eqn:Md; cbn [deposit_call].
  - destruct (lock_effect H s sg x a R C U U') as [A B]. split.
    + rewrite A. split.
      * intros (c' & m & pe & f & cu & orl & irl & v & T). assert (c' = c) by (pose proof (ta_config _ _ _ _ _ _ _ _ _ _ _ _ _ _ T); unfold config_at in *; congruence). subst c'.
        exists m, pe, f, cu, orl, irl, v. split; [exact T|discriminate].
      * intros (m & pe & f & cu & orl & irl & v & T & _). exists c, m, pe, f, cu, orl, irl, v. exact T.
    + intros s' S. destruct (B s' S) as (c' & m & pe & f & cu & orl & irl & v & T & Rc & N & D & G & K & M).
      assert (c' = c) by (pose proof (ta_config _ _ _ _ _ _ _ _ _ _ _ _ _ _ T); unfold config_at in *; congruence). subst c'.
      exists m, pe, f, cu, orl, irl, v. split; [split; [exact T|discriminate]|]. repeat (split; [assumption|]). split; [intros; apply M|].
      split; [exact G|]. rewrite M. apply (ta_mint _ _ _ _ _ _ _ _ _ _ _ _ _ _ T).
  - destruct (burn_effect H s sg x a R C U U') as [A B]. split.
    + rewrite A. split.
      * intros (c' & m & pe & f & cu & orl & irl & v & T & V). assert (c' = c) by (pose proof (ta_config _ _ _ _ _ _ _ _ _ _ _ _ _ _ T); unfold config_at in *; congruence). subst c'.
        exists m, pe, f, cu, orl, irl, v. split; [exact T|intros _; exact V].
      * intros (m & pe & f & cu & orl & irl & v & T & V). exists c, m, pe, f, cu, orl, irl, v. split; [exact T|exact (V eq_refl)].
    + intros s' S. destruct (B s' S) as (c' & m & pe & f & cu & orl & irl & v & T & Rc & N & D & K & G & M).
      assert (c' = c) by (pose proof (ta_config _ _ _ _ _ _ _ _ _ _ _ _ _ _ T); unfold config_at in *; congruence). subst c'.
      destruct (proj1 A (ex_intro _ _ S)) as (c2 & m2 & pe2 & f2 & cu2 & orl2 & irl2 & v2 & T2 & V).
      assert (V2 : v <= mt_supply m).
      { destruct T, T2. unfold config_at, peer_at in *. assert (c2 = c) by congruence. subst c2. assert (m2 = m) by congruence. assert (pe2 = pe) by congruence. subst. exact V. }
      exists m, pe, f, cu, orl, irl, v. split; [split; [exact T|intros _; exact V2]|]. repeat (split; [assumption|]). split; [intros b Hb _; apply K, Hb|]. split; [exact M|].
      split; [|exact G]. rewrite K by congruence. apply (ta_custody _ _ _ _ _ _ _ _ _ _ _ _ _ _ T).
Qed.

Lemma metered_once now v a b : snd (metered now v a b) <= now <-> v <= capacity a now.
Proof. unfold metered. destruct (v <=? capacity a now) eqn:L; cbn [snd]; [apply Z.leb_le in L; lia|apply Z.leb_gt in L; unfold day; lia]. Qed.

Lemma transfer_tx nm H s c tp sender amount chain to q item x : reachable H s -> fetched s c -> cf_paused c = false -> cf_token_program c = AProg tp ->
  can_sign sender = true -> can_sign item = true -> is_ntt_prog x = true -> is_u64 amount -> is_u16 chain -> is32 to ->
  let a := TransferArgs amount chain (nm to) q in let from := ata tp sender (cf_mint c) in
  exists i1 i2 i3, client_transfer nm H sender amount chain to q item c x = Some [i1; i2; i3] /\ forall ok0 ok ok',
    let r := submit nm H sender s [(i1, ok0); (i2, ok); (i3, ok')] in
    (succeeds r <-> exists m pe f cu orl irl rt v, sendable s c x sender from item a ok ok' m pe f cu orl irl rt v) /\
    (forall s', r = Ok s' -> exists m pe f cu orl irl rt v, sendable s c x sender from item a ok ok' m pe f cu orl irl rt v /\
       sent H s s' c x sender from item a m pe f cu orl irl rt v).
Proof.
  intros R F P E CS CI X U16a U16 T32. cbv zeta.
  set (a := TransferArgs amount chain (nm to) q). set (from := ata tp sender (cf_mint c)).
  destruct (fetched_ok _ _ _ R F) as (tp' & TP & E' & K). assert (tp' = tp) by congruence. subst tp'. clear E'.
  unfold client_transfer. rewrite P. rewrite E. cbn [assoc]. fold a from.
  set (b2 := match cf_mode c with Locking => _ | Burning => _ end). set (b3 := createReleaseWormholeOutbound _ _ _ _).
  do 3 eexists. split; [reflexivity|]. intros ok0 ok ok'.
  assert (W2 : wants b2 [sender; item]) by (unfold b2; destruct (cf_mode c); [eapply w_lock|eapply w_burn]; eauto).
  assert (W3 : wants b3 [sender]) by apply w_release.
  unfold submit. cbn [flat_map fst]. rewrite app_nil_r. cbn [metas_of app].
  set (all := _ :: _ :: _ :: _ :: _).
  assert (SA : forall y, In y (signers_of all) -> y = sender \/ y = item).
  { intros y. unfold all. unfold signers_of at 1. cbn [flat_map me_key me_signer app]. fold (signers_of (metas_of (Ours b2) ++ metas_of (Ours b3))).
    rewrite signers_app. cbn [In]. rewrite in_app_iff, (wanted_in _ _ _ W2), (wanted_in _ _ _ W3). cbn [In]. intuition. }
  assert (CA : forallb can_sign (signers_of all) = true).
  { apply forallb_forall. intros y I. destruct (SA y I) as [->| ->]; assumption. }
  assert (IS : In sender (signers_of all)) by (left; reflexivity).
  assert (I2 : incl (metas_of (Ours b2)) all) by (intros y I; unfold all; do 4 right; apply in_or_app; left; exact I).
  assert (I3 : incl (metas_of (Ours b3)) all) by (intros y I; unfold all; do 4 right; apply in_or_app; right; exact I).
  clearbody all.
  cbn [submit_ submit1].
  set (ses := pda_session sender (h_args H a)).
  (* the second and third instruction, after an approval *)
  assert (Two : forall f, st_toks s from = Some f -> tk_owner f = sender -> let s1 := put_tok from (set_delegate f (Some ses) amount) s in reachable H s1 ->
    exists sg2, In item sg2 /\ forallb can_sign sg2 = true /\ forall s', submit1 nm H all ok s1 (Ours b2) = Ok s' <->
      step H s1 (Call sg2 (deposit_call (cf_mode c) (TransferAccts pda_config from tp item pda_outbox_rl ok) a)) = Ok s').
  { intros f T O s1 R1. assert (T1 : st_toks s1 from = Some (set_delegate f (Some ses) amount)) by apply upd_same.
    assert (M : means nm ok H s1 b2 (deposit_call (cf_mode c) (TransferAccts pda_config from tp item pda_outbox_rl ok) a)).
    { unfold b2, deposit_call. destruct (cf_mode c); [eapply m_lock|eapply m_burn]; eauto. }
    destruct (submit_ours _ _ _ _ _ _ _ M I2) as (sg2 & A & B & C). exists sg2. split; [apply A; rewrite (wanted_in _ _ _ W2); right; left; reflexivity|].
    split; [eapply can_signs; [exact B|exact CA]|exact C]. }
  assert (Three : forall s2, exists sg3, forallb can_sign sg3 = true /\ forall s', submit1 nm H all ok' s2 (Ours b3) = Ok s' <->
      step H s2 (Call sg3 (IXRelease x pda_config item (pda_reg (AProg x)) (negb q) ok')) = Ok s').
  { intros s2. destruct (submit_ours nm ok' H s2 b3 _ all (m_release nm ok' H s2 sender item x (negb q) X) I3) as (sg3 & A & B & C). exists sg3.
    split; [eapply can_signs; [exact B|exact CA]|exact C]. }
  set (r := bind _ _). cbv zeta.
  set (af := fun f => put_tok from (set_delegate f (Some ses) amount) s).
  assert (Rf : forall f, st_toks s from = Some f -> tk_owner f = sender -> step H s (Call (signers_of all) (EApprove tp from sender ses amount)) = Ok (af f)).
  { intros f T O. apply (approve_iff H s _ tp from sender ses amount (af f) CA TP U16a IS). exists f. split; [exact T|]. split; [eapply from_prog; eassumption|]. split; [exact O|reflexivity]. }
  assert (Sp : forall s', r = Ok s' <-> exists f s2, st_toks s from = Some f /\ tk_owner f = sender /\
      submit1 nm H all ok (af f) (Ours b2) = Ok s2 /\ submit1 nm H all ok' s2 (Ours b3) = Ok s').
  { intros s'. unfold r. split.
    - intros Q. apply bind_ok in Q. destruct Q as (s1 & Q1 & Q). apply bind_ok in Q. destruct Q as (s2 & Q2 & Q). apply bind_ok in Q. destruct Q as (s3 & Q3 & Q). injection Q as <-.
      apply (approve_iff H s _ tp from sender ses amount s1 CA TP U16a IS) in Q1. destruct Q1 as (f & T & _ & O & ->). exists f, s2. auto.
    - intros (f & s2 & T & O & Q2 & Q3). rewrite (Rf f T O). cbn [bind]. change (match b2 with Some i => _ | None => _ end) with (submit1 nm H all ok (af f) (Ours b2)).
      rewrite Q2. cbn [bind]. change (match b3 with Some i => _ | None => _ end) with (submit1 nm H all ok' s2 (Ours b3)). rewrite Q3. reflexivity. }
  clearbody r.
  assert (Fwd : forall s', r = Ok s' -> exists m pe f cu orl irl rt v, sendable s c x sender from item a ok ok' m pe f cu orl irl rt v /\
       sent H s s' c x sender from item a m pe f cu orl irl rt v).
  { intros s3 Q. apply Sp in Q. destruct Q as (f & s2 & T & O & Q2 & Q3).
    assert (R1 : reachable H (af f)) by (eapply step_reachable; [exact R|apply Rf; eassumption]).
    destruct (Two f T O R1) as (sg2 & In2 & C2 & E2). apply E2 in Q2. clear E2.
    destruct (deposit_step H (af f) sg2 (TransferAccts pda_config from tp item pda_outbox_rl ok) a c R1 C2 U16a U16 F) as [_ D]. cbv zeta in D.
    destruct (D s2 Q2) as (m & pe & g & cu & orl & irl & v & T2 & Rc & N & Df & Do & Dm & Dc). clear D.
    assert (En : cf_enabled c <> 0) by (destruct T2 as [T2 _]; exact (ta_enabled _ _ _ _ _ _ _ _ _ _ _ _ _ _ T2)).
    apply (deposit_iff H s c tp sender item a R F P E CS sg2 ok m pe f g cu orl irl v T O In2 U16a En) in T2. destruct T2 as [-> Dp]. fold ses from in Dp, Rc.
    assert (R2 : reachable H s2) by (eapply step_reachable; [exact R1|exact Q2]).
    destruct (Three s2) as (sg3 & C3 & E3). apply E3 in Q3. clear E3.
    destruct (publish_effect H s2 sg3 x pda_config item (pda_reg (AProg x)) (negb q) ok' R2 C3 X) as [Ps Pe].
    destruct (proj1 Ps (ex_intro _ _ Q3)) as (c1 & o1 & rt1 & Pb1 & Cd). destruct (Pe _ Q3) as (c2 & o2 & rt & Pb & Eff). clear Ps Pe.
    apply (pub_iff H s c tp sender item a x F P ok f m pe cu orl irl v s2 c1 o1 rt1 Dp Rc) in Pb1. destruct Pb1 as (-> & -> & _ & _).
    apply (pub_iff H s c tp sender item a x F P ok f m pe cu orl irl v s2 c2 o2 rt Dp Rc) in Pb. destruct Pb as (-> & -> & G & B).
    assert (N1 : st_now s2 = st_now s) by (unfold recorded in Rc; destruct (metered (st_now (af f)) v orl irl) as [[? ?] ?]; cbv zeta in Rc; apply Rc).
    cbn [ob_release] in Cd, Eff. rewrite N1 in Cd, Eff.
    exists m, pe, f, cu, orl, irl, rt, v. split.
    - split; [exact Dp|]. split; [exact G|]. split; [exact B|]. intros L. apply metered_once with (b := irl) in L. destruct Cd as [[Cd _]|[_ Cd]]; [lia|exact Cd].
    - pose proof (from_custody H s c tp sender R F E CS) as NC. fold from in NC.
      pose proof (reg_id _ _ _ (reachable_inv _ _ R) G) as Id.
      pose proof (dp_fresh _ _ _ _ _ _ _ _ _ _ _ _ _ _ Dp) as (_ & Fr & _). pose proof (dp_owner _ _ _ _ _ _ _ _ _ _ _ _ _ _ Dp) as Ow.
      unfold sent. unfold recorded in Rc. cbn [xa_outbox_item] in Rc. change (st_now (af f)) with (st_now s) in Rc.
      pose proof (metered_once (st_now s) v orl irl) as Mo.
      destruct (metered (st_now s) v orl irl) as [[o' i'] t]. cbv zeta in Rc |- *. cbn [snd] in Mo, Eff, Cd.
      destruct Rc as (R1' & R2' & R3' & R4' & R5' & R6' & R7'). cbn [xa_from] in N, Df, Do.
      assert (Tk : st_toks s2 from = Some (Tok (tk_prog f) (tk_mint f) sender (tk_amount f - v) (if v =? amount then None else Some ses) (amount - v))).
      { rewrite Df. unfold debited, set_delegate. cbn [tk_prog tk_mint tk_owner tk_amount tk_delegate tk_delegated]. rewrite Ow. reflexivity. }
      assert (To : forall b, b <> from -> b <> cf_custody c -> st_toks s2 b = st_toks s b).
      { intros b B1 B2. rewrite Do by assumption. unfold af, put_tok. cbn [set_toks st_toks]. apply upd_other. exact B1. }
      cbn [set_delegate tk_owner] in R1'. rewrite Ow in R1'.
      assert (Ni : forall b, st_accts s b <> None -> b <> item) by (intros b Hb ->; apply Hb, Fr).
      assert (Nm : item <> pda_message x item) by (intros Q; pose proof CI as CI'; rewrite Q in CI'; unfold pda_message in CI'; destruct x; discriminate).
      assert (Nr : item <> pda_outbox_rl) by (intros Q; pose proof CI as CI'; rewrite Q in CI'; discriminate CI').
      assert (Nn : item <> pda_inbox_rl chain) by (intros Q; pose proof CI as CI'; rewrite Q in CI'; discriminate CI').
      destruct Eff as [[Lt ->]|(Le & Ob & An1 & An2 & An3 & An4 & An5 & An6 & An7)].
      + assert (v <=? capacity orl (st_now s) = false) as -> by (apply Z.leb_gt; lia).
        split; [exact R1'|]. split; [exact R2'|]. split; [exact R3'|].
        split; [apply R4'; [congruence|discriminate|discriminate]|]. split; [intros b B1 B2 B3 _; apply R4'; assumption|].
        split; [exact R6'|]. split; [exact R5'|]. split; [exact R7'|]. split; [exact Tk|]. split; [exact NC|]. split; [exact To|]. split; [exact Dm|exact Dc].
      + assert (v <=? capacity orl (st_now s) = true) as -> by (apply Z.leb_le; lia).
        split; [rewrite <- setbit_pow by lia; exact Ob|].
        split; [unfold out_limiter; rewrite An3; [exact R2'|discriminate|intros [Q|[]]; congruence]|].
        split; [unfold in_limiter; rewrite An3; [exact R3'|discriminate|intros [Q|[]]; congruence]|].
        split; [exact An1|]. split; [intros b B1 B2 B3 B4; rewrite An3; [apply R4'; assumption|exact B4|intros [Q|[]]; congruence]|].
        split; [rewrite An2, R6'; reflexivity|]. split; [rewrite An6; exact R5'|]. split; [rewrite An7; exact R7'|]. rewrite An4, An5.
        split; [exact Tk|]. split; [exact NC|]. split; [exact To|]. split; [exact Dm|exact Dc]. }
  split; [|exact Fwd]. split.
  - intros (s' & Q). destruct (Fwd s' Q) as (m & pe & f & cu & orl & irl & rt & v & S & _). exists m, pe, f, cu, orl, irl, rt, v. exact S.
  - intros (m & pe & f & cu & orl & irl & rt & v & Dp & G & B & Ok').
    pose proof (dp_from _ _ _ _ _ _ _ _ _ _ _ _ _ _ Dp) as T. pose proof (dp_owner _ _ _ _ _ _ _ _ _ _ _ _ _ _ Dp) as O.
    assert (R1 : reachable H (af f)) by (eapply step_reachable; [exact R|apply Rf; eassumption]).
    destruct (Two f T O R1) as (sg2 & In2 & C2 & E2).
    destruct (deposit_step H (af f) sg2 (TransferAccts pda_config from tp item pda_outbox_rl ok) a c R1 C2 U16a U16 F) as [D1 D]. cbv zeta in D1, D.
    assert (En : cf_enabled c <> 0) by (intros Z0; rewrite Z0, Z.testbit_0_l in B; discriminate B).
    destruct (proj2 D1) as (s2 & Q2).
    { exists m, pe, (set_delegate f (Some ses) amount), cu, orl, irl, v. apply (deposit_iff H s c tp sender item a R F P E CS sg2 ok m pe f _ cu orl irl v T O In2 U16a En). split; [reflexivity|exact Dp]. }
    destruct (D s2 Q2) as (m2 & pe2 & g2 & cu2 & orl2 & irl2 & v2 & T2 & Rc & _). clear D.
    apply (deposit_iff H s c tp sender item a R F P E CS sg2 ok m2 pe2 f g2 cu2 orl2 irl2 v2 T O In2 U16a En) in T2. destruct T2 as [-> Dp2].
    assert (Q : m2 = m /\ pe2 = pe /\ orl2 = orl /\ irl2 = irl).
    { destruct Dp, Dp2. unfold peer_at, out_limiter, in_limiter in *. repeat split; congruence. }
    destruct Q as (-> & -> & -> & ->).
    assert (v2 = v) as -> by (destruct Dp, Dp2; congruence).
    assert (R2 : reachable H s2) by (eapply step_reachable; [exact R1|exact Q2]).
    destruct (Three s2) as (sg3 & C3 & E3).
    destruct (publish_effect H s2 sg3 x pda_config item (pda_reg (AProg x)) (negb q) ok' R2 C3 X) as [Ps _].
    assert (N1 : st_now s2 = st_now s) by (unfold recorded in Rc; destruct (metered (st_now (af f)) v orl irl) as [[? ?] ?]; cbv zeta in Rc; apply Rc).
    destruct (proj2 Ps) as (s3 & Q3).
    { do 3 eexists. split; [apply (pub_iff H s c tp sender item a x F P ok f m pe cu2 orl irl v s2 _ _ rt Dp2 Rc); repeat split; [exact G|exact B]|].
      cbn [ob_release]. rewrite N1. destruct (Z_le_gt_dec v (capacity orl (st_now s))) as [L|L].
      - right. split; [apply metered_once, L|apply Ok', L].
      - left. pose proof (metered_once (st_now s) v orl irl). split; [lia|].
        pose proof (dp_queue _ _ _ _ _ _ _ _ _ _ _ _ _ _ Dp) as Qu. cbn [ar_queue a] in Qu. rewrite Qu by lia. reflexivity. }
    exists s3. apply Sp. exists f, s2. split; [exact T|]. split; [exact O|]. split; [apply E2, Q2|apply E3, Q3].
Qed.

(** ** A redemption *)
Definition payout_call (md : mode) (x : release_accts) (r : bool) : instr := match md with Locking => IReleaseUnlock x r | Burning => IReleaseMint x r end.
Lemma payout_step H s sg x r c : reachable H s -> forallb can_sign sg = true -> config_at s (la_config x) c ->
  (succeeds (step H s (Call sg (payout_call (cf_mode c) x r))) <-> exists it m d cu, releasable s x (cf_mode c) c it m d cu /\
     (early it (st_now s) /\ r = false \/ due it (st_now s) /\ creditable x c it m d /\
      match cf_mode c with Locking => ib_amount it <= tk_amount cu | Burning => tk_amount cu + ib_amount it <= u64_max /\ mt_supply m + ib_amount it <= u64_max end)) /\
  (forall s', step H s (Call sg (payout_call (cf_mode c) x r)) = Ok s' -> exists it m d cu, releasable s x (cf_mode c) c it m d cu /\
     (early it (st_now s) /\ s' = s \/ due it (st_now s) /\ marked s s' x it /\
      match cf_mode c with Locking => unlocked s s' x c it m d cu | Burning => issued s s' x c it m d end)).
Proof.
  intros R C F. destruct (cf_mode c) eqn:Md; cbn [payout_call].
  - destruct (unlock_effect H s sg x r R C) as [A B]. split.
    + rewrite A. split.
      * intros (c' & it & m & d & cu & T & G). assert (c' = c) by (pose proof (re_config _ _ _ _ _ _ _ _ T); unfold config_at in *; congruence). subst c'. exists it, m, d, cu. split; assumption.
      * intros (it & m & d & cu & T & G). exists c, it, m, d, cu. split; assumption.
    + intros s' S. destruct (B s' S) as (c' & it & m & d & cu & T & G). assert (c' = c) by (pose proof (re_config _ _ _ _ _ _ _ _ T); unfold config_at in *; congruence). subst c'.
      exists it, m, d, cu. split; assumption.
  - destruct (mint_release_effect H s sg x r R C) as [A B]. split.
    + rewrite A. split.
      * intros (c' & it & m & d & cu & T & G). assert (c' = c) by (pose proof (re_config _ _ _ _ _ _ _ _ T); unfold config_at in *; congruence). subst c'. exists it, m, d, cu. split; assumption.
      * intros (it & m & d & cu & T & G). exists c, it, m, d, cu. split; assumption.
    + intros s' S. destruct (B s' S) as (c' & it & m & d & cu & T & G). assert (c' = c) by (pose proof (re_config _ _ _ _ _ _ _ _ T); unfold config_at in *; congruence). subst c'.
      exists it, m, d, cu. split; assumption.
Qed.

Section Redeem.
Context (nm : bytes -> addr) (H : hashes) (s : state) (c : config addr) (x tp : prog) (payer vaa : addr) (ch : Z) (msg : ntt_msg).
Context (R : reachable H s) (F : fetched s c) (P : cf_paused c = false) (E : cf_token_program c = AProg tp) (CS : can_sign payer = true) (X : is_ntt_prog x = true).
Context (V : forall ch' e tm, st_accts s vaa = Some (Acct PWormhole (DVaa ch' e (Some tm))) -> ch' = ch /\ tm_msg tm = msg).
Let vtm := pda_vtm x ch (nm_id msg).
Let item := item_of H ch msg.

(** Receiving. *)
Lemma receive_step sg : forallb can_sign sg = true ->
  let ready e tm xp := st_accts s vaa = Some (Acct PWormhole (DVaa ch e (Some tm))) /\ xpeer_at s x ch xp /\ xp_address xp = e /\
    nm_to_chain msg = cf_chain c /\ st_accts s vtm = None in
  (succeeds (step H s (Call sg (IXReceive x pda_config vaa))) <-> exists e tm xp, ready e tm xp) /\
  (forall s', step H s (Call sg (IXReceive x pda_config vaa)) = Ok s' -> exists e tm xp, ready e tm xp /\ tm_msg tm = msg /\
     st_accts s' vtm = Some (Acct x (DVtm ch tm)) /\ untouched [vtm] s s' /\ st_uauth s' = st_uauth s).
Proof.
  intros C. cbv zeta. destruct (receive_effect H s x sg pda_config vaa R C X) as [A B].
  assert (A' : succeeds (step H s (Call sg (IXReceive x pda_config vaa))) -> exists e tm xp, st_accts s vaa = Some (Acct PWormhole (DVaa ch e (Some tm))) /\ xpeer_at s x ch xp /\ xp_address xp = e /\
    nm_to_chain msg = cf_chain c /\ st_accts s vtm = None).
  { intros Q. apply A in Q. destruct Q as (c' & ch' & em & tm & xp & Hc & _ & Hv & Hx & Ha & Hch & Hn). destruct (V _ _ _ Hv) as [-> <-].
    assert (c' = c) by (unfold config_at, fetched in *; congruence). subst c'. exists em, tm, xp. split; [exact Hv|]. split; [exact Hx|]. split; [exact Ha|]. split; [exact Hch|exact Hn]. }
  split; [split; [exact A'|]|].
  - intros (e & tm & xp & Hv & Hx & Ha & Hch & Hn). destruct (V _ _ _ Hv) as [_ Em]. apply A. exists c, ch, e, tm, xp. rewrite Em. split; [exact F|]. split; [exact P|].
    split; [exact Hv|]. split; [exact Hx|]. split; [exact Ha|]. split; [exact Hch|exact Hn].
  - intros s' S. destruct (A' (ex_intro _ _ S)) as (e & tm & xp & Hr). destruct (B s' S) as (ch' & em & tm' & Hv & Hp & Hu & Hw).
    assert (Q : ch' = ch /\ em = e /\ tm' = tm) by (destruct Hr as [Hr _]; repeat split; congruence). destruct Q as (-> & -> & ->). destruct (V _ _ _ Hv) as [_ Em]. rewrite Em in Hp, Hu.
    exists e, tm, xp. split; [exact Hr|]. split; [exact Em|]. split; [exact Hp|]. split; [exact Hu|exact Hw].
Qed.

(** Redeeming after that. *)
Context (s1 : state) (tm : tr_msg) (Em : tm_msg tm = msg) (R1 : reachable H s1).
Context (V1 : st_accts s1 vtm = Some (Acct x (DVtm ch tm))) (U1 : untouched [vtm] s s1) (W1 : st_uauth s1 = st_uauth s).
Lemma kept1 b : (forall ch' id, b <> pda_vtm x ch' id) -> st_accts s1 b = st_accts s b.
Proof. intros N. apply U1. intros [Q|[]]. apply (N ch (nm_id msg)). symmetry. exact Q. Qed.
Let racc := RedeemAccts pda_config vtm (pda_reg (AProg x)) pda_outbox_rl.
Definition ready2 rt pe m irl orl : Prop :=
  (reg_at s (pda_reg (AProg x)) rt /\ Z.testbit (cf_enabled c) (rt_id rt) = true) /\ (peer_at s ch pe /\ pe_address pe = tm_source tm) /\
  tm_recipient tm = AProg PManager /\ st_mints s (cf_mint c) = Some m /\ st_accts s item = None /\
  representable (ta_amount (nm_amount msg)) (ta_decimals (nm_amount msg)) (mt_decimals m) /\
  (in_limiter s ch irl /\ out_limiter s orl /\ meterable (st_now s) (local_amount m msg) irl orl) /\ nm_to_chain msg = cf_chain c.
Lemma redeemable_iff p ch' tm' c' rt pe m irl orl : redeemable H s1 racc p ch' tm' c' rt pe m irl orl <->
  p = x /\ ch' = ch /\ tm' = tm /\ c' = c /\ ready2 rt pe m irl orl.
Proof.
  unfold ready2. destruct U1 as (_ & N1 & _ & M1 & _). unfold racc. split.
  - intros [[] ? ? ? ? [_ ?] ?]. cbn [ra_config ra_message ra_transceiver ra_outbox_rl] in *.
    unfold pda_reg in dl_used. injection dl_used as <-. fold (pda_reg (AProg x)) in *.
    assert (Q : ch' = ch /\ tm' = tm) by (split; congruence). destruct Q as [-> ->].
    assert (c' = c) by (unfold config_at in dl_config; rewrite kept1 in dl_config by discriminate; unfold fetched in F; congruence). subst c'.
    unfold reg_at, peer_at, in_limiter, out_limiter in *. rewrite kept1 in dl_reg, dl_peer, rb_irl, H0 by discriminate. rewrite Em in *. fold item in rb_new. rewrite kept1 in rb_new by discriminate.
    rewrite M1 in rb_mint. rewrite N1 in rb_limits. repeat match goal with |- _ /\ _ => split end; assumption || reflexivity.
  - intros (-> & -> & -> & -> & (G & B) & (Pe & Pa) & Rm & Mt & Nw & Rp & (Li & Lo & Me) & Chn).
    destruct (reg_addr _ _ _ (reachable_inv _ _ R) G) as (p' & Q & Ra). unfold pda_reg in Q. injection Q as <-.
    constructor; cbn [ra_config ra_message ra_transceiver ra_outbox_rl]; unfold config_at, reg_at, peer_at, in_limiter, out_limiter in *; rewrite ?Em; fold item; rewrite ?kept1 by discriminate; rewrite ?M1, ?N1; try assumption.
    + constructor; cbn [ra_config ra_message ra_transceiver ra_outbox_rl]; unfold config_at, reg_at, peer_at; rewrite ?kept1 by discriminate; rewrite ?Em; try assumption; reflexivity.
    + split; [reflexivity|assumption].
Qed.
Lemma redeem_step sg : forallb can_sign sg = true ->
  (succeeds (step H s1 (Call sg (IRedeem racc))) <-> exists rt pe m irl orl, ready2 rt pe m irl orl) /\
  (forall s', step H s1 (Call sg (IRedeem racc)) = Ok s' -> exists rt pe m irl orl, ready2 rt pe m irl orl /\
     let v := local_amount m msg in
     let '(irl', orl', t) := metered (st_now s) v irl orl in
     inbox_at s' item (InboxItem true 0 v (nm_to msg) (2 ^ rt_id rt) (ReleaseAfter t)) /\
     in_limiter s' ch irl' /\ out_limiter s' orl' /\ untouched [item; pda_outbox_rl; pda_inbox_rl ch] s1 s' /\ st_uauth s' = st_uauth s1).
Proof.
  intros C. destruct (redeem_effect H s1 sg racc R1 C) as [A B]. split.
  - rewrite A. split.
    + intros (p & ch' & tm' & c' & rt & pe & m & irl & orl & Q). apply redeemable_iff in Q. exists rt, pe, m, irl, orl. apply Q.
    + intros (rt & pe & m & irl & orl & Q). exists x, ch, tm, c, rt, pe, m, irl, orl. apply redeemable_iff. auto.
  - intros s' S. destruct (B s' S) as (p & ch' & tm' & c' & rt & pe & m & irl & orl & Q & Eff). apply redeemable_iff in Q. destruct Q as (-> & -> & -> & -> & Q).
    exists rt, pe, m, irl, orl. split; [exact Q|]. cbv zeta in Eff |- *. rewrite Em in Eff. destruct U1 as (_ & N1 & _). rewrite N1 in Eff. exact Eff.
Qed.
End Redeem.

Lemma redeem_tx nm H s c tp payer vaa ch msg x : reachable H s -> fetched s c -> cf_paused c = false -> cf_token_program c = AProg tp ->
  can_sign payer = true -> is_ntt_prog x = true ->
  (forall ch' e tm, st_accts s vaa = Some (Acct PWormhole (DVaa ch' e (Some tm))) -> ch' = ch /\ tm_msg tm = msg) ->
  exists i1 i2 i3, client_redeem H payer vaa ch msg c x = Some [i1; i2; i3] /\ forall ok1 ok2 ok,
    let r := submit nm H payer s [(i1, ok1); (i2, ok2); (i3, ok)] in
    (succeeds r <-> exists e tm xp rt pe m irl orl d cu, claimable H s c x tp vaa ch msg ok e tm xp rt pe m irl orl d cu) /\
    (forall s', r = Ok s' -> exists e tm xp rt pe m irl orl d cu, claimable H s c x tp vaa ch msg ok e tm xp rt pe m irl orl d cu /\
       claimed H s s' c x tp ch msg tm rt m irl orl d cu).
Proof.
  intros R F P E CS X V. unfold client_redeem. rewrite P.
  set (b1 := createReceive _ _ _ _ _). set (b2 := createRedeem _ _ _ _ _ _). set (b3 := match cf_mode c with Locking => _ | Burning => _ end).
  do 3 eexists. split; [reflexivity|]. intros ok1 ok2 ok. cbv zeta.
  assert (Wa : wants b1 [payer]) by apply w_receive. assert (Wb : wants b2 [payer]) by apply w_redeem.
  assert (Wc : wants b3 [payer]) by (unfold b3; destruct (cf_mode c); [eapply w_unlock|eapply w_mint]; eauto).
  unfold submit. cbn [flat_map fst]. rewrite app_nil_r.
  set (all := _ :: _).
  assert (CA : forallb can_sign (signers_of all) = true).
  { apply forallb_forall. intros y I. unfold all in I. change (_ :: ?l) with ([Meta (HA payer) true true] ++ l) in I. rewrite !signers_app in I. rewrite !in_app_iff, (wanted_in _ _ _ Wa), (wanted_in _ _ _ Wb), (wanted_in _ _ _ Wc) in I.
    cbn [signers_of flat_map me_key me_signer app In] in I. assert (y = payer) by (intuition congruence). subst y. exact CS. }
  assert (I1 : incl (metas_of (Ours b1)) all) by (intros y I; unfold all; right; apply in_or_app; left; exact I).
  assert (I2 : incl (metas_of (Ours b2)) all) by (intros y I; unfold all; right; apply in_or_app; right; apply in_or_app; left; exact I).
  assert (I3 : incl (metas_of (Ours b3)) all) by (intros y I; unfold all; right; apply in_or_app; right; apply in_or_app; right; exact I).
  clearbody all. cbn [submit_].
  set (vtm := pda_vtm x ch (nm_id msg)). set (racc := RedeemAccts pda_config vtm (pda_reg (AProg x)) pda_outbox_rl).
  set (lacc := ReleaseAccts pda_config (item_of H ch msg) tp ok).
  assert (One : exists sg, forallb can_sign sg = true /\ forall s', submit1 nm H all ok1 s (Ours b1) = Ok s' <-> step H s (Call sg (IXReceive x pda_config vaa)) = Ok s').
  { destruct (submit_ours nm ok1 H s b1 _ all (m_receive nm ok1 H s payer vaa x ch msg X V) I1) as (sg & A & B & C). exists sg. split; [eapply can_signs; [exact B|exact CA]|exact C]. }
  assert (Two : forall s1 tm, reachable H s1 -> fetched s1 c -> st_accts s1 vtm = Some (Acct x (DVtm ch tm)) -> tm_msg tm = msg ->
    exists sg, forallb can_sign sg = true /\ forall s', submit1 nm H all ok2 s1 (Ours b2) = Ok s' <-> step H s1 (Call sg (IRedeem racc)) = Ok s').
  { intros s1 tm R1 F1 V1 Em.
    destruct (submit_ours nm ok2 H s1 b2 (IRedeem racc) all) as (sg & A & B & C); [apply m_redeem; try assumption; intros tm'; fold vtm; rewrite V1; congruence|exact I2|].
    exists sg. split; [eapply can_signs; [exact B|exact CA]|exact C]. }
  assert (Three : forall s2 it, reachable H s2 -> fetched s2 c -> inbox_at s2 (item_of H ch msg) it -> ib_recipient it = nm_to msg ->
    exists sg, forallb can_sign sg = true /\ forall s', submit1 nm H all ok s2 (Ours b3) = Ok s' <-> step H s2 (Call sg (payout_call (cf_mode c) lacc false)) = Ok s').
  { intros s2 it R2 F2 In2 Rc.
    destruct (submit_ours nm ok H s2 b3 (payout_call (cf_mode c) lacc false) all) as (sg & A & B & C).
    { unfold b3, payout_call. destruct (cf_mode c); [apply m_unlock|apply m_mint]; try assumption; intros it' I'; unfold inbox_at in *; fold (item_of H ch msg) in I'; congruence. }
    { exact I3. }
    exists sg. split; [eapply can_signs; [exact B|exact CA]|exact C]. }
  destruct One as (sg1 & C1 & E1).
  assert (Fwd : forall s', (let? s1 := submit1 nm H all ok1 s (Ours b1) in let? s2 := submit1 nm H all ok2 s1 (Ours b2) in let? s3 := submit1 nm H all ok s2 (Ours b3) in Ok s3) = Ok s' ->
    exists e tm xp rt pe m irl orl d cu, claimable H s c x tp vaa ch msg ok e tm xp rt pe m irl orl d cu /\ claimed H s s' c x tp ch msg tm rt m irl orl d cu).
  { intros s3 Q. apply bind_ok in Q. destruct Q as (s1 & Q1 & Q). apply bind_ok in Q. destruct Q as (s2 & Q2 & Q). apply bind_ok in Q. destruct Q as (s3' & Q3 & Q). injection Q as ->.
    apply E1 in Q1. pose proof (step_reachable _ _ _ _ R Q1) as R1.
    destruct (receive_step H s c x vaa ch msg R F P X V sg1 C1) as [_ D1]. cbv zeta in D1. destruct (D1 _ Q1) as (e & tm & xp & Rdy & Em & V1 & U1 & W1). clear D1.
    assert (F1 : fetched s1 c) by (unfold fetched; rewrite (kept1 s x ch msg s1 U1) by discriminate; exact F).
    destruct (Two s1 tm R1 F1 V1 Em) as (sg2 & C2 & E2). apply E2 in Q2. pose proof (step_reachable _ _ _ _ R1 Q2) as R2.
    destruct (redeem_step H s c x ch msg R F s1 tm Em R1 V1 U1 sg2 C2) as [_ D2]. destruct (D2 _ Q2) as (rt & pe & m & irl & orl & Rdy2 & Eff2). clear D2.
    cbv zeta in Eff2. pose proof (metered_once (st_now s) (local_amount m msg) irl orl) as Mo. unfold claimed.
    destruct (metered (st_now s) (local_amount m msg) irl orl) as [[i' o'] t] eqn:Met. cbn [snd] in Mo.
    destruct Eff2 as (It & Li & Lo & U2 & W2).
    assert (F2 : fetched s2 c) by (unfold fetched; rewrite (proj1 U2) by (intros [Q|[Q|[Q|[]]]]; discriminate Q); exact F1).
    destruct (Three s2 _ R2 F2 It eq_refl) as (sg3 & C3 & E3). apply E3 in Q3.
    destruct (payout_step H s2 sg3 lacc false c R2 C3 F2) as [D3 D4].
    destruct (proj1 D3 (ex_intro _ _ Q3)) as (it1 & m1 & d & cu & Re & Cd). destruct (D4 _ Q3) as (it2 & m2 & d2 & cu2 & Re2 & Eff). clear D3 D4.
    destruct U1 as (K1 & N1 & T1 & M1 & P1). destruct U2 as (K2 & N2 & T2 & M2 & P2). rewrite N2, N1 in *. rewrite T1 in T2. rewrite M1 in M2. rewrite P1 in P2. rewrite W1 in W2.
    set (it := InboxItem true 0 (local_amount m msg) (nm_to msg) (2 ^ rt_id rt) (ReleaseAfter t)) in *.
    destruct Rdy2 as (G & Pe & Rm & Mt & Nw & Rp & (Lia & Loa & Me) & Chn).
    unfold lacc in Re, Re2, Cd, Eff. clear Three E3.
    assert (Q : it1 = it /\ m1 = m /\ it2 = it /\ m2 = m /\ d2 = d /\ cu2 = cu).
    { destruct Re, Re2. unfold inbox_at in *. cbn [lacc la_item] in *. rewrite M2 in *. assert (it1 = it) by congruence. assert (it2 = it) by congruence. subst it1 it2.
      repeat split; congruence. }
    destruct Q as (-> & -> & -> & -> & -> & ->).
    assert (Re' := Re). destruct Re'. cbn [lacc la_item la_config la_tp] in *. rewrite T2, M2 in *. unfold destination in re_dest. cbn [la_tp it ib_recipient] in re_dest, re_owner.
    exists e, tm, xp, rt, pe, m, irl, orl, d, cu. split.
    - destruct Rdy as (Hv & Hx & Ha & Hch & Hn). constructor; try assumption; try (split; assumption); try (split; [assumption|split; assumption]).
      intros L. cbv zeta. destruct Cd as [[(t' & Q & Lt) _]|[_ [[Ok Cr] Am]]]; [cbn [it ib_status] in Q; injection Q as <-; lia|].
      split; [exact Ok|]. split; [exact Cr|exact Am].
    - cbv zeta. rewrite Met. assert (Oth : forall b, b <> vtm -> b <> item_of H ch msg -> b <> pda_outbox_rl -> b <> pda_inbox_rl ch -> st_accts s2 b = st_accts s b).
      { intros b B1 B2 B3 B4. rewrite K2, K1; [reflexivity|intros [Q|[]]; apply B1; symmetry; exact Q|intros [Q|[Q|[Q|[]]]]; [apply B2|apply B3|apply B4]; symmetry; exact Q]. }
      assert (Vt : st_accts s2 vtm = Some (Acct x (DVtm ch tm))) by (rewrite K2; [exact V1|intros [Q|[Q|[Q|[]]]]; discriminate Q]).
      destruct Eff as [[(t' & Q & Lt) ->]|[(t' & Q & Le) [(Mi & Mk & Mn & Mp & Mu) Eff]]]; cbn [it ib_status] in Q; injection Q as <-.
      + assert (local_amount m msg <=? capacity irl (st_now s) = false) as -> by (apply Z.leb_gt; lia).
        split; [exact Vt|]. split; [exact It|]. split; [exact Li|]. split; [exact Lo|]. split; [exact Oth|]. split; [exact N2|]. split; [exact P2|]. split; [exact W2|].
        rewrite T2, M2. split; reflexivity.
      + assert (local_amount m msg <=? capacity irl (st_now s) = true) as -> by (apply Z.leb_le; lia).
        cbn [lacc la_item] in Mi, Mk. rewrite N2 in Mn.
        split; [rewrite Mk by discriminate; exact Vt|]. split; [exact Mi|].
        split; [unfold in_limiter; rewrite Mk by discriminate; exact Li|]. split; [unfold out_limiter; rewrite Mk by discriminate; exact Lo|].
        split; [intros b B1 B2 B3 B4; rewrite Mk by assumption; apply Oth; assumption|]. split; [exact Mn|]. split; [rewrite Mp; exact P2|]. split; [rewrite Mu; exact W2|].
        destruct (cf_mode c); [unfold unlocked in Eff |- *|unfold issued in Eff |- *]; cbv zeta in Eff |- *; unfold destination in Eff |- *; cbn [lacc la_tp it ib_amount ib_recipient] in Eff |- *; rewrite T2, M2 in Eff; exact Eff. }
  split; [|exact Fwd]. split.
  - intros (s' & Q). destruct (Fwd s' Q) as (e & tm & xp & rt & pe & m & irl & orl & d & cu & S & _). exists e, tm, xp, rt, pe, m, irl, orl, d, cu. exact S.
  - intros (e & tm & xp & rt & pe & m & irl & orl & d & cu & S).
    assert (Q : exists s1, step H s (Call sg1 (IXReceive x pda_config vaa)) = Ok s1).
    { apply (receive_step H s c x vaa ch msg R F P X V sg1 C1). destruct S. exists e, tm, xp. destruct cl_sender. split; [assumption|]. split; [assumption|]. split; [assumption|]. split; assumption. }
    destruct Q as (s1 & Q1). pose proof (step_reachable _ _ _ _ R Q1) as R1.
    destruct (receive_step H s c x vaa ch msg R F P X V sg1 C1) as [_ D1]. cbv zeta in D1. destruct (D1 _ Q1) as (e' & tm' & xp' & Rdy & Em & V1 & U1 & W1). clear D1.
    assert (tm' = tm) by (destruct S, Rdy; congruence). subst tm'.
    assert (F1 : fetched s1 c) by (unfold fetched; rewrite (kept1 s x ch msg s1 U1) by discriminate; exact F).
    destruct (Two s1 tm R1 F1 V1 Em) as (sg2 & C2 & E2).
    assert (Q : exists s2, step H s1 (Call sg2 (IRedeem racc)) = Ok s2).
    { apply (redeem_step H s c x ch msg R F s1 tm Em R1 V1 U1 sg2 C2). destruct S. exists rt, pe, m, irl, orl. unfold ready2. repeat match goal with |- _ /\ _ => split end; tauto || assumption. }
    destruct Q as (s2 & Q2). pose proof (step_reachable _ _ _ _ R1 Q2) as R2.
    destruct (redeem_step H s c x ch msg R F s1 tm Em R1 V1 U1 sg2 C2) as [_ D2]. destruct (D2 _ Q2) as (rt' & pe' & m' & irl' & orl' & Rdy2 & Eff2). clear D2.
    assert (Q : rt' = rt /\ m' = m /\ irl' = irl /\ orl' = orl).
    { destruct S. destruct Rdy2 as ((G & _) & _ & _ & Mt & _ & _ & (Li & Lo & _) & _). destruct cl_reg as [G' _]. destruct cl_limits as (Li' & Lo' & _).
      unfold reg_at, in_limiter, out_limiter in *. repeat split; congruence. }
    destruct Q as (-> & -> & -> & ->). cbv zeta in Eff2. pose proof (metered_once (st_now s) (local_amount m msg) irl orl) as Mo.
    destruct (metered (st_now s) (local_amount m msg) irl orl) as [[i' o'] t] eqn:Met. cbn [snd] in Mo.
    destruct Eff2 as (It & Li & Lo & U2 & W2).
    assert (F2 : fetched s2 c) by (unfold fetched; rewrite (proj1 U2) by (intros [Q|[Q|[Q|[]]]]; discriminate Q); exact F1).
    destruct (Three s2 _ R2 F2 It eq_refl) as (sg3 & C3 & E3).
    destruct U1 as (K1 & N1 & T1 & M1 & P1). destruct U2 as (K2 & N2 & T2 & M2 & P2). rewrite N1 in N2. rewrite T1 in T2. rewrite M1 in M2.
    assert (Q : exists s3, step H s2 (Call sg3 (payout_call (cf_mode c) lacc false)) = Ok s3).
    { apply (payout_step H s2 sg3 lacc false c R2 C3 F2). destruct S. destruct cl_dest as [De Ow].
      exists (InboxItem true 0 (local_amount m msg) (nm_to msg) (2 ^ rt_id rt) (ReleaseAfter t)), m, d, cu. split.
      - constructor; cbn [lacc la_config la_item la_tp]; rewrite ?T2, ?M2; try assumption; try reflexivity. symmetry. apply (config_prog H s c tp R F E m cl_mint).
      - rewrite N2. destruct (Z_le_gt_dec (local_amount m msg) (capacity irl (st_now s))) as [L|L].
        + right. split; [exists t; split; [reflexivity|lia]|]. destruct (cl_pays L) as (Ok & Cr & Am). split; [split; [exact Ok|exact Cr]|exact Am].
        + left. split; [exists t; split; [reflexivity|lia]|reflexivity]. }
    destruct Q as (s3 & Q3). exists s3. apply E1 in Q1. rewrite Q1. cbn [bind]. apply E2 in Q2. rewrite Q2. cbn [bind]. apply E3 in Q3. rewrite Q3. reflexivity.
Qed.

(** ** Two instructions *)
Lemma submit_two nm H payer s b1 b2 ok1 ok2 s' : let all := Meta (HA payer) true true :: metas_of (Ours b1) ++ metas_of (Ours b2) in
  submit nm H payer s [(Ours b1, ok1); (Ours b2, ok2)] = Ok s' <-> exists s1, submit1 nm H all ok1 s (Ours b1) = Ok s1 /\ submit1 nm H all ok2 s1 (Ours b2) = Ok s'.
Proof.
  intros all. unfold submit. cbn [flat_map fst]. rewrite app_nil_r. fold all. cbn [submit_]. split.
  - intros Q. apply bind_ok in Q. destruct Q as (s1 & Q1 & Q). apply bind_ok in Q. destruct Q as (s2 & Q2 & Q). injection Q as <-. exists s1. auto.
  - intros (s1 & Q1 & Q2). rewrite Q1. cbn [bind]. rewrite Q2. reflexivity.
Qed.
Lemma two_signers payer b1 b2 l1 l2 : can_sign payer = true -> wants b1 l1 -> wants b2 l2 -> forallb can_sign l1 = true -> forallb can_sign l2 = true ->
  forallb can_sign (signers_of (Meta (HA payer) true true :: metas_of (Ours b1) ++ metas_of (Ours b2))) = true.
Proof.
  intros C W1 W2 C1 C2. rewrite forallb_forall in *. intros y I. change (_ :: ?l) with ([Meta (HA payer) true true] ++ l) in I.
  rewrite !signers_app, !in_app_iff, (wanted_in _ _ _ W1), (wanted_in _ _ _ W2) in I. cbn [signers_of flat_map me_key me_signer app In] in I.
  destruct I as [[<-|[]]|[I|I]]; auto.
Qed.

Lemma register_tx nm H s c payer owner msg x : reachable H s -> fetched s c -> cf_paused c = false ->
  can_sign payer = true -> can_sign owner = true -> can_sign msg = true -> is_ntt_prog x = true ->
  exists i1 i2, registerWormholeTransceiver payer owner msg c x = Some [i1; i2] /\ forall ok1 ok,
    let r := submit nm H payer s [(i1, ok1); (i2, ok)] in
    (succeeds r <-> owner = cf_owner c /\ st_accts s (pda_reg (AProg x)) = None /\ cf_next c < 128 /\ blank s msg /\ ok = true) /\
    (forall s', r = Ok s' -> exists c' m, fetched s' c' /\ fixed c' = fixed c /\ cf_owner c' = cf_owner c /\ cf_pending c' = cf_pending c /\ cf_paused c' = false /\
       cf_next c' = cf_next c + 1 /\ (forall i, 0 <= i -> Z.testbit (cf_enabled c') i = (i =? cf_next c) || Z.testbit (cf_enabled c) i) /\
       reg_at s' (pda_reg (AProg x)) (Registered 0 (cf_next c) (AProg x)) /\ st_mints s (cf_mint c) = Some m /\
       published_with s s' x msg (PPInfo (AProg PManager) (cf_mode c) (cf_mint c) (mt_decimals m)) [pda_reg (AProg x); pda_config]).
Proof.
  intros R F P CP CO CM X. unfold registerWormholeTransceiver. rewrite P.
  set (b1 := createRegisterTransceiver _ _ _). set (b2 := createBroadcastWormholeId _ _ _ _). do 2 eexists. split; [reflexivity|]. intros ok1 ok. cbv zeta.
  assert (W1 : wants b1 [owner; payer]) by apply w_register. assert (W2 : wants b2 [payer; msg]) by apply w_id.
  assert (CA : forallb can_sign (signers_of (Meta (HA payer) true true :: metas_of (Ours b1) ++ metas_of (Ours b2))) = true).
  { eapply two_signers; eauto; cbn [forallb]; rewrite ?CP, ?CO, ?CM; reflexivity. }
  pose proof (submit_two nm H payer s b1 b2 ok1 ok) as Sp. cbv zeta in Sp. set (all := Meta (HA payer) true true :: _) in *.
  assert (I1 : incl (metas_of (Ours b1)) all) by (intros y I; right; apply in_or_app; left; exact I).
  assert (I2 : incl (metas_of (Ours b2)) all) by (intros y I; right; apply in_or_app; right; exact I).
  clearbody all. destruct (submit_ours nm ok1 H s b1 _ all (m_register nm ok1 H s payer owner x) I1) as (sg1 & A1 & B1 & E1).
  assert (C1 : forallb can_sign sg1 = true) by (eapply can_signs; [exact B1|exact CA]).
  destruct (register_effect H s sg1 pda_config owner (AProg x) R C1) as [D1 D2].
  assert (Nx : msg <> pda_config /\ msg <> pda_reg (AProg x)) by (split; intros Q; rewrite Q in CM; discriminate CM).
  assert (Two : forall s1, step H s (Call sg1 (IRegisterTransceiver pda_config owner (AProg x))) = Ok s1 -> exists c1 sg2,
      fetched s1 c1 /\ fixed c1 = fixed c /\ cf_owner c1 = cf_owner c /\ cf_pending c1 = cf_pending c /\ cf_paused c1 = false /\
       cf_next c1 = cf_next c + 1 /\ (forall i, 0 <= i -> Z.testbit (cf_enabled c1) i = (i =? cf_next c) || Z.testbit (cf_enabled c) i) /\
       reg_at s1 (pda_reg (AProg x)) (Registered 0 (cf_next c) (AProg x)) /\ untouched [pda_reg (AProg x); pda_config] s s1 /\ st_uauth s1 = st_uauth s /\
      In msg sg2 /\ forallb can_sign sg2 = true /\ reachable H s1 /\ (forall s', submit1 nm H all ok s1 (Ours b2) = Ok s' <-> step H s1 (Call sg2 (IXBroadcastId x pda_config msg ok)) = Ok s')).
  { intros s1 Q. destruct (D2 s1 Q) as (c0 & c1 & (Hc & _) & F1 & Hf & Ho & Hp & Hpa & Hn & He & Hr & Hu & Hw).
    assert (c0 = c) by (unfold config_at, fetched in *; congruence). subst c0.
    assert (M : means nm ok H s1 b2 (IXBroadcastId x pda_config msg ok)).
    { unfold b2. replace (createBroadcastWormholeId payer msg c x) with (createBroadcastWormholeId payer msg c1 x); [apply BuilderFacts.m_id; assumption|].
      unfold createBroadcastWormholeId. unfold fixed in Hf. injection Hf as _ Hm _ _ _ _ _. rewrite Hm. reflexivity. }
    destruct (submit_ours nm ok H s1 b2 _ all M I2) as (sg2 & A2 & B2 & E2). exists c1, sg2. rewrite P in Hpa.
    repeat (split; [assumption|]). split; [apply A2; rewrite (wanted_in _ _ _ W2); right; left; reflexivity|]. split; [eapply can_signs; [exact B2|exact CA]|].
    split; [eapply step_reachable; eassumption|exact E2]. }
  assert (Bl : forall s1 sg2, In msg sg2 -> untouched [pda_reg (AProg x); pda_config] s s1 -> fresh_signer s1 sg2 msg <-> blank s msg).
  { intros s1 sg2 I (K & _ & T & M & _). unfold fresh_signer, blank. rewrite T, M, K by (intros [Q|[Q|[]]]; destruct Nx; congruence). tauto. }
  split; [split|].
  - intros (s' & Q). apply Sp in Q. destruct Q as (s1 & Q1 & Q2). apply E1 in Q1. destruct (proj1 D1 (ex_intro _ _ Q1)) as (c0 & p & (Hc & Ho & _) & _ & Hn & Hl).
    assert (c0 = c) by (unfold config_at, fetched in *; congruence). subst c0.
    destruct (Two s1 Q1) as (c1 & sg2 & F1 & _ & _ & _ & _ & _ & _ & _ & U & _ & Im & C2 & R1 & E2). apply E2 in Q2.
    destruct (proj1 (proj1 (info_effect H s1 sg2 x pda_config msg ok R1 C2 X)) (ex_intro _ _ Q2)) as (_ & Fr & Ok). apply (Bl s1 sg2 Im U) in Fr. auto.
  - intros (Ho & Hn & Hl & Hb & Ok). destruct (proj2 D1) as (s1 & Q1).
    { exists c, x. split; [|auto]. split; [exact F|]. split; [exact Ho|]. apply A1. rewrite (wanted_in _ _ _ W1). left. reflexivity. }
    destruct (Two s1 Q1) as (c1 & sg2 & F1 & _ & _ & _ & _ & _ & _ & _ & U & _ & Im & C2 & R1 & E2).
    destruct (proj2 (proj1 (info_effect H s1 sg2 x pda_config msg ok R1 C2 X))) as (s' & Q2); [split; [exists c1; exact F1|]; split; [apply (Bl s1 sg2 Im U), Hb|exact Ok]|].
    exists s'. apply Sp. exists s1. split; [apply E1, Q1|apply E2, Q2].
  - intros s' Q. apply Sp in Q. destruct Q as (s1 & Q1 & Q2). apply E1 in Q1.
    destruct (Two s1 Q1) as (c1 & sg2 & F1 & Hf & Ho & Hp & Hpa & Hn & He & Hr & U & W & Im & C2 & R1 & E2). apply E2 in Q2.
    destruct (proj1 (proj1 (info_effect H s1 sg2 x pda_config msg ok R1 C2 X)) (ex_intro _ _ Q2)) as (_ & Fr & _). destruct Fr as (_ & _ & Fr & _).
    destruct (proj2 (info_effect H s1 sg2 x pda_config msg ok R1 C2 X) s' Q2) as (c2 & m & F2 & Hm & An1 & An2 & An3 & An4 & An5 & An6 & An7).
    assert (c2 = c1) by (unfold config_at, fetched in *; congruence). subst c2. assert (Hf' := Hf). unfold fixed in Hf'. injection Hf' as _ Em _ Emd _ _ _.
    destruct U as (K & Un & Ut & Um & Up). rewrite Um, Em in Hm. rewrite Em, Emd in An2.
    exists c1, m. split; [unfold fetched; rewrite An3; [exact F1|apply not_eq_sym, Nx|intros []]|]. repeat (split; [assumption|]).
    split; [unfold reg_at; rewrite An3; [exact Hr|apply not_eq_sym, Nx|intros []]|]. split; [exact Hm|].
    split; [exact An1|]. split; [rewrite An2, Up; reflexivity|]. split; [intros b B2' B3; rewrite An3, K; [reflexivity|exact B3|exact B2'|intros []]|].
    rewrite An4, An5, An6, An7, Ut, Um, Un, W. auto.
Qed.

Lemma xpeer_tx nm H s c sender msg x ch address : reachable H s -> fetched s c ->
  can_sign sender = true -> can_sign msg = true -> is_ntt_prog x = true -> is_u16 ch -> is32 address ->
  exists i1 i2, setTransceiverPeer sender msg x ch address = Some [i1; i2] /\ forall ok1 ok,
    let r := submit nm H sender s [(i1, ok1); (i2, ok)] in
    (succeeds r <-> sender = cf_owner c /\ st_accts s (pda_xpeer x ch) = None /\ blank s msg /\ ok = true) /\
    (forall s', r = Ok s' -> xpeer_at s' x ch (XPeer 0 (nm address)) /\ published_with s s' x msg (PPReg ch (nm address)) [pda_xpeer x ch]).
Proof.
  intros R F CP CM X U16 A32. unfold setTransceiverPeer.
  set (b1 := createSetWormholePeer _ _ _ _). set (b2 := createBroadcastWormholePeer _ _ _ _). do 2 eexists. split; [reflexivity|]. intros ok1 ok. cbv zeta.
  assert (W1 : wants b1 [sender; sender]) by apply w_x_set_peer. assert (W2 : wants b2 [sender; msg]) by apply w_peer.
  assert (CA : forallb can_sign (signers_of (Meta (HA sender) true true :: metas_of (Ours b1) ++ metas_of (Ours b2))) = true).
  { eapply two_signers; eauto; cbn [forallb]; rewrite ?CP, ?CM; reflexivity. }
  pose proof (submit_two nm H sender s b1 b2 ok1 ok) as Sp. cbv zeta in Sp. set (all := Meta (HA sender) true true :: _) in *.
  assert (I1 : incl (metas_of (Ours b1)) all) by (intros y I; right; apply in_or_app; left; exact I).
  assert (I2 : incl (metas_of (Ours b2)) all) by (intros y I; right; apply in_or_app; right; exact I).
  clearbody all. destruct (submit_ours nm ok1 H s b1 _ all (m_x_set_peer nm ok1 H s sender x ch address X U16 A32) I1) as (sg1 & A1 & B1 & E1).
  assert (C1 : forallb can_sign sg1 = true) by (eapply can_signs; [exact B1|exact CA]).
  destruct (x_peer_effect H s x sg1 pda_config sender ch (nm address) R C1 X U16) as [D1 D2].
  assert (Nx : msg <> pda_xpeer x ch) by (intros Q; rewrite Q in CM; unfold pda_xpeer in CM; destruct x; discriminate).
  assert (Two : forall s1, exists sg2, In msg sg2 /\ forallb can_sign sg2 = true /\
      (forall s', submit1 nm H all ok s1 (Ours b2) = Ok s' <-> step H s1 (Call sg2 (IXBroadcastPeer x pda_config ch msg ok)) = Ok s')).
  { intros s1. destruct (submit_ours nm ok H s1 b2 _ all (m_peer nm ok H s1 sender msg x ch X U16) I2) as (sg2 & A2 & B2 & E2). exists sg2.
    split; [apply A2; rewrite (wanted_in _ _ _ W2); right; left; reflexivity|]. split; [eapply can_signs; [exact B2|exact CA]|exact E2]. }
  assert (Bl : forall s1 sg2, In msg sg2 -> untouched [pda_xpeer x ch] s s1 -> fresh_signer s1 sg2 msg <-> blank s msg).
  { intros s1 sg2 I (K & _ & T & M & _). unfold fresh_signer, blank. rewrite T, M, K by (intros [Q|[]]; congruence). tauto. }
  assert (One : forall s1, step H s (Call sg1 (IXSetPeer x pda_config sender ch (nm address))) = Ok s1 -> reachable H s1 /\ fetched s1 c /\ sender = cf_owner c /\
      xpeer_at s1 x ch (XPeer 0 (nm address)) /\ untouched [pda_xpeer x ch] s s1 /\ st_uauth s1 = st_uauth s).
  { intros s1 Q. destruct (D2 s1 Q) as (c0 & (Hc & Ho & _) & Hx & Hu & Hw). assert (c0 = c) by (unfold config_at, fetched in *; congruence). subst c0.
    split; [eapply step_reachable; eassumption|]. split; [unfold fetched; rewrite (proj1 Hu) by (intros [Q'|[]]; unfold pda_xpeer, pda_config in Q'; discriminate Q'); exact F|]. auto. }
  split; [split|].
  - intros (s' & Q). apply Sp in Q. destruct Q as (s1 & Q1 & Q2). apply E1 in Q1. destruct (proj1 D1 (ex_intro _ _ Q1)) as (c0 & _ & Hn).
    destruct (One s1 Q1) as (R1 & F1 & Ho & Hx & U & W). destruct (Two s1) as (sg2 & Im & C2 & E2). apply E2 in Q2.
    destruct (proj1 (proj1 (peer_broadcast_effect H s1 sg2 x pda_config ch msg ok R1 C2 X U16)) (ex_intro _ _ Q2)) as (_ & _ & Fr & Ok). apply (Bl s1 sg2 Im U) in Fr. auto.
  - intros (Ho & Hn & Hb & Ok). destruct (proj2 D1) as (s1 & Q1).
    { exists c. split; [|exact Hn]. split; [exact F|]. split; [exact Ho|]. apply A1. rewrite (wanted_in _ _ _ W1). left. reflexivity. }
    destruct (One s1 Q1) as (R1 & F1 & _ & Hx & U & W). destruct (Two s1) as (sg2 & Im & C2 & E2).
    destruct (proj2 (proj1 (peer_broadcast_effect H s1 sg2 x pda_config ch msg ok R1 C2 X U16))) as (s' & Q2).
    { split; [exists c; exact F1|]. split; [eexists; exact Hx|]. split; [apply (Bl s1 sg2 Im U), Hb|exact Ok]. }
    exists s'. apply Sp. exists s1. split; [apply E1, Q1|apply E2, Q2].
  - intros s' Q. apply Sp in Q. destruct Q as (s1 & Q1 & Q2). apply E1 in Q1.
    destruct (One s1 Q1) as (R1 & F1 & Ho & Hx & U & W). destruct (Two s1) as (sg2 & Im & C2 & E2). apply E2 in Q2.
    destruct (proj2 (peer_broadcast_effect H s1 sg2 x pda_config ch msg ok R1 C2 X U16) s' Q2) as (xp & Hx' & An1 & An2 & An3 & An4 & An5 & An6 & An7).
    assert (xp = XPeer 0 (nm address)) by (unfold xpeer_at in *; congruence). subst xp. destruct U as (K & Un & Ut & Um & Up).
    split; [unfold xpeer_at; rewrite An3; [exact Hx|apply not_eq_sym, Nx|intros []]|].
    split; [exact An1|]. split; [rewrite An2, Up; reflexivity|]. split; [intros b B2' B3; rewrite An3, K; [reflexivity|exact B3|exact B2'|intros []]|].
    rewrite An4, An5, An6, An7, Ut, Um, Un, W. auto.
Qed.

Lemma complete_tx nm H s c tp payer ch msg : reachable H s -> fetched s c -> cf_paused c = false -> cf_token_program c = AProg tp -> can_sign payer = true ->
  (forall it, inbox_at s (item_of H ch msg) it -> ib_recipient it = nm_to msg) ->
  exists i, completeInboundQueuedTransfer H payer ch msg c = Some [i] /\ forall ok,
    let r := submit nm H payer s [(i, ok)] in let x := ReleaseAccts pda_config (item_of H ch msg) tp ok in
    (succeeds r <-> exists it m d cu, releasable s x (cf_mode c) c it m d cu /\
     (early it (st_now s) \/ due it (st_now s) /\ creditable x c it m d /\
      match cf_mode c with Locking => ib_amount it <= tk_amount cu | Burning => tk_amount cu + ib_amount it <= u64_max /\ mt_supply m + ib_amount it <= u64_max end)) /\
    (forall s', r = Ok s' -> exists it m d cu, releasable s x (cf_mode c) c it m d cu /\
     (early it (st_now s) /\ s' = s \/ due it (st_now s) /\ marked s s' x it /\
      match cf_mode c with Locking => unlocked s s' x c it m d cu | Burning => issued s s' x c it m d end)).
Proof.
  intros R F P E CS V. unfold completeInboundQueuedTransfer. rewrite P. set (b := match cf_mode c with Locking => _ | Burning => _ end).
  eexists. split; [reflexivity|]. intros ok. cbv zeta.
  assert (W : wants b [payer]) by (unfold b; destruct (cf_mode c); [eapply w_unlock|eapply w_mint]; eauto).
  unfold submit. cbn [flat_map fst]. rewrite app_nil_r. set (all := _ :: _). set (x := ReleaseAccts _ _ _ _).
  assert (CA : forallb can_sign (signers_of all) = true).
  { apply forallb_forall. intros y I. unfold all in I. change (_ :: ?l) with ([Meta (HA payer) true true] ++ l) in I. rewrite signers_app, in_app_iff, (wanted_in _ _ _ W) in I.
    cbn [signers_of flat_map me_key me_signer app In] in I. assert (y = payer) by (intuition congruence). subst y. exact CS. }
  assert (M : means nm ok H s b (payout_call (cf_mode c) x false)).
  { unfold b, payout_call. destruct (cf_mode c); [apply m_unlock|apply m_mint]; assumption. }
  destruct (submit_ours nm ok H s b _ all M) as (sg & A & B & E1); [intros y I; right; exact I|].
  assert (C1 : forallb can_sign sg = true) by (eapply can_signs; [exact B|exact CA]). clearbody all.
  cbn [submit_].
  assert (Sp : forall s', (let? s1 := submit1 nm H all ok s (Ours b) in Ok s1) = Ok s' <-> step H s (Call sg (payout_call (cf_mode c) x false)) = Ok s').
  { intros s'. rewrite <- E1. split; [intros Q; apply bind_ok in Q; destruct Q as (s1 & Q1 & Q); injection Q as <-; exact Q1|intros ->; reflexivity]. }
  destruct (payout_step H s sg x false c R C1 F) as [D1 D2]. split.
  - split.
    + intros (s' & Q). apply Sp in Q. destruct (proj1 D1 (ex_intro _ _ Q)) as (it & m & d & cu & Re & Cd). exists it, m, d, cu. split; [exact Re|]. destruct Cd as [[Cd _]|Cd]; [left|right]; exact Cd.
    + intros (it & m & d & cu & Re & Cd). destruct (proj2 D1) as (s' & Q).
      { exists it, m, d, cu. split; [exact Re|]. destruct Cd as [Cd|Cd]; [left; split; [exact Cd|reflexivity]|right; exact Cd]. }
      exists s'. apply Sp, Q.
  - intros s' Q. apply Sp in Q. apply D2, Q.
Qed.

Lemma redeem_needs nm H s c tp payer vaa ch msg x l oks : reachable H s -> fetched s c -> cf_token_program c = AProg tp ->
  can_sign payer = true -> is_ntt_prog x = true ->
  (forall ch' e tm, st_accts s vaa = Some (Acct PWormhole (DVaa ch' e (Some tm))) -> ch' = ch /\ tm_msg tm = msg) ->
  client_redeem H payer vaa ch msg c x = Some l -> List.length oks = 3%nat -> succeeds (submit nm H payer s (combine l oks)) ->
  (exists d, st_toks s (ata tp (nm_to msg) (cf_mint c)) = Some d) /\ st_accts s (pda_vtm x ch (nm_id msg)) = None /\ st_accts s (item_of H ch msg) = None.
Proof.
  intros R F E CS X V L N S. destruct (cf_paused c) eqn:P; [unfold client_redeem in L; rewrite P in L; discriminate L|].
  destruct (redeem_tx nm H s c tp payer vaa ch msg x R F P E CS X V) as (i1 & i2 & i3 & L' & Q). rewrite L' in L. injection L as <-.
  destruct oks as [|o1 [|o2 [|o3 [|]]]]; try discriminate N. cbn [combine] in S. apply (Q o1 o2 o3) in S.
  destruct S as (e & tm & xp & rt & pe & m & irl & orl & d & cu & []). destruct cl_dest. split; [exists d; assumption|]. split; assumption.
Qed.

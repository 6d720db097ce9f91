(** * Proofs about governance messages to the manager and the transceiver. *)
From Coq Require Import String.
From Verif Require Export SpecGovCall GovernedFacts IdlFacts.
From Verif Require Import LogFacts FlowFacts Transact SpecEffect EffectFacts DispatchFacts.
Import ListNotations.
Local Open Scope list_scope.
Local Open Scope Z_scope.
Local Strategy 1000 [sha256].

(** ** The accounts *)
Lemma metas_listed N pda payer m ix : call_of pda payer m ix -> listed N pda payer m (metas_of N (ix_accounts ix)).
Proof.
  intros (_ & _ & F). unfold listed, metas_of. cbv zeta. pose proof (merge_handed (ix_accounts ix)) as M. unfold handed in M.
  remember (ix_accounts ix) as l eqn:El. clear El.
  assert (X : forall k (f : acc -> bool), (f = ac_signer \/ f = ac_writable) ->
    (exists c, In c l /\ ac_key c = k /\ f c = true) <-> (exists b, In b (g_accounts m) /\ key_for pda payer (ac_key b) = k /\ f b = true)).
  { intros k f Hf. clear M. induction F as [|a b la lb (F1 & F2 & F3) F IH]; [split; intros (x & [] & _)|]. split; intros (x & [<-|Hx] & K).
    - exists a. split; [now left|]. rewrite <- F1. destruct Hf as [-> | ->]; [rewrite <- F2|rewrite <- F3]; exact K.
    - destruct (proj1 IH (ex_intro _ x (conj Hx K))) as (y & Hy & J). exists y. split; [now right|exact J].
    - exists b. split; [now left|]. rewrite F1. destruct Hf as [-> | ->]; [rewrite F2|rewrite F3]; exact K.
    - destruct (proj2 IH (ex_intro _ x (conj Hx K))) as (y & Hy & J). exists y. split; [now right|exact J]. }
  revert M. generalize (merge l) as l'.
  assert (Y : forall la lb, Forall2 (fun a b => ac_key b = key_for pda payer (ac_key a)) la lb -> forall l',
    Forall2 (fun a b => ac_key b = ac_key a /\ (ac_signer b = true <-> exists c, In c l /\ ac_key c = ac_key a /\ ac_signer c = true) /\
      (ac_writable b = true <-> exists c, In c l /\ ac_key c = ac_key a /\ ac_writable c = true)) lb l' ->
    Forall2 (fun a me => me_key me = gn_account N (key_for pda payer (ac_key a)) /\
      (me_signer me = true <-> exists b, In b (g_accounts m) /\ key_for pda payer (ac_key b) = key_for pda payer (ac_key a) /\ ac_signer b = true) /\
      (me_writable me = true <-> exists b, In b (g_accounts m) /\ key_for pda payer (ac_key b) = key_for pda payer (ac_key a) /\ ac_writable b = true)) la
      (map (fun a => Meta (gn_account N (ac_key a)) (ac_signer a) (ac_writable a)) l')).
  { intros la lb G. induction G as [|a b la lb G1 G IH]; intros l' M; inversion M as [|? c ? lc (M1 & M2 & M3) M']; subst; [constructor|]. cbn [map]. constructor; [|apply IH; exact M'].
    cbn [me_key me_signer me_writable]. rewrite M1, G1 in *. split; [reflexivity|]. rewrite M2, M3. split; apply X; auto. }
  intros l' M. eapply Y; [|exact M]. clear - F. induction F as [|a b la lb K F IH]; constructor; [apply K|exact IH].
Qed.
Lemma F2_unique {A B} (R : A -> B -> Prop) l : (forall x y z, R x y -> R x z -> y = z) -> forall ly lz, Forall2 R l ly -> Forall2 R l lz -> ly = lz.
Proof. intros U. induction l as [|x l IH]; intros ly lz F G; inversion F; inversion G; subst; [reflexivity|]. f_equal; eauto. Qed.
Lemma listed_once N pda payer m ms ms' : listed N pda payer m ms -> listed N pda payer m ms' -> ms = ms'.
Proof.
  unfold listed. cbv zeta. apply F2_unique. intros a x y (F1 & F2 & F3) (G1 & G2 & G3).
  destruct x as [xk xs xw], y as [yk ys yw]. cbn [me_key me_signer me_writable] in *. rewrite <- G2 in F2. rewrite <- G3 in F3. subst.
  clear - F2 F3. destruct xs, ys, xw, yw; intuition congruence.
Qed.
Lemma F2_right {A B} (R : A -> B -> Prop) l l' y : Forall2 R l l' -> In y l' -> exists x, In x l /\ R x y.
Proof. intros F. induction F as [|a b la lb K F IH]; intros Hin; [destruct Hin|]. destruct Hin as [<-|Hin]; [exists a; split; [now left|exact K]|]. destruct (IH Hin) as (x & X & Y). exists x. split; [now right|exact Y]. Qed.
Lemma F2_left {A B} (R : A -> B -> Prop) l l' x : Forall2 R l l' -> In x l -> exists y, In y l' /\ R x y.
Proof. intros F. induction F as [|a b la lb K F IH]; intros Hin; [destruct Hin|]. destruct Hin as [<-|Hin]; [exists b; split; [now left|exact K]|]. destruct (IH Hin) as (y & X & Y). exists y. split; [now right|exact Y]. Qed.
Lemma listed_signer N pda payer m ms a : listed N pda payer m ms -> given_signer ms a <->
  exists b, In b (g_accounts m) /\ ac_signer b = true /\ gn_account N (key_for pda payer (ac_key b)) = HA a.
Proof.
  unfold listed, given_signer. cbv zeta. intros F. split.
  - intros (me & Hin & Hk & Hs). destruct (F2_right _ _ _ _ F Hin) as (x & Hx & K1 & K2 & K3). destruct (proj1 K2 Hs) as (b & Hb & E & S). exists b. split; [exact Hb|]. split; [exact S|]. congruence.
  - intros (b & Hb & S & K). destruct (F2_left _ _ _ _ F Hb) as (me & Hm & K1 & K2 & K3). exists me. split; [exact Hm|]. split; [congruence|]. apply K2. exists b. auto.
Qed.

(** ** A submission makes one call of another program *)
Lemma one_call (E : genv state) n : forall st ctx data st', g_exec E n st ctx data = Ok st' ->
  exists e log, gs_log st' = e :: log /\ gv_world e = gs_world st /\ ix_program (gv_ix e) <> GOV_ID /\ ge_call E (gs_world st) (gv_ix e) = Ok (gs_world st') /\
    (exists payer m, says E e payer m).
Proof.
  induction n as [|n IH]; intros st ctx data st' X; [discriminate X|]. destruct (proj1 (g_submit_exact E n st ctx data) _ X) as (payer & v & m & ix & S & [(P & l & _ & K)|(P & C & L & _)]).
  - destruct (IH _ _ _ _ K) as (e & log & A & B & R). exists e, log. split; [exact A|]. split; [exact B|exact R].
  - exists (Gev (gs_world st) v ctx ix), (gs_log st). split; [exact L|]. split; [reflexivity|]. destruct S as [T (p & gov & va & prog & rep & sys & rest & Ec & Ep & Sp & _ & _ & _ & Pv & _) Src (r & M1 & M2 & _) Ad Un Cl _ _].
    split; [cbn [gv_ix]; rewrite (proj1 Cl); exact P|]. split; [exact C|]. exists payer, m. unfold says. cbn [gv_world gv_vaa gv_ctx gv_ix].
    split; [exists (ac_key va), r; auto|]. split; [apply Src|]. split; [apply Src|]. split; [exact M2|]. split; [exact Ad|]. split; [|exact Cl]. exists p. split; [rewrite Ec; now left|auto].
Qed.

(** ** What the call does *)
Section Env.
Context (N : gnames) (H : hashes) (ok : state -> gix -> bool) (others : state -> gix -> result state).
Context (address : purpose -> bytes) (posted : state -> bytes -> option vaa) (executable : state -> bytes -> bool).
Let E : genv state := world_env N H ok others address posted executable.
Let run_at (w : state) (ix : gix) (p : program) (payer : bytes) (m : gov_msg) (w' : state) : Prop :=
  exists ms, listed N (ge_addr E SGovernance) payer m ms /\ entry (gn_value N) (ok w ix) H w p ms (g_data m) = Ok w'.

Lemma call_entry G p w ix w' payer m : well_named N E G -> p = AManager \/ p = ATransceiver -> call_of (ge_addr E SGovernance) payer m ix -> g_program m = gn_id N p ->
  ge_call E w ix = Ok w' <-> run_at w ix p payer m w'.
Proof.
  intros Wn Hp Cl Pr. pose proof (metas_listed N _ _ _ _ Cl) as L. destruct Cl as (C1 & C2 & _). cbn [ge_call E world_env]. unfold world_call. cbv zeta. rewrite C1, C2, Pr.
  assert (R : forall r, entry (gn_value N) (ok w ix) H w p (metas_of N (ix_accounts ix)) (g_data m) = r -> r = Ok w' <-> run_at w ix p payer m w').
  { intros r <-. split; [intros K; exists (metas_of N (ix_accounts ix)); auto|]. intros (ms & L' & K). rewrite (listed_once _ _ _ _ _ _ L L'). exact K. }
  destruct Hp as [-> | ->].
  - rewrite bytes_eqb_refl. apply R. reflexivity.
  - destruct (bytes_eqb (gn_id N ATransceiver) (gn_id N AManager)) eqn:B; [apply bytes_eqb_eq in B; destruct (wn_ids _ _ _ Wn); auto|]. rewrite bytes_eqb_refl. apply R. reflexivity.
Qed.

Lemma message_meaning G n st ctx data st' : well_named N E G -> g_exec E n st ctx data = Ok st' ->
  exists e log payer m, gs_log st' = e :: log /\ says E e payer m /\ g_program m <> GOV_ID /\
    (forall p, p = AManager \/ p = ATransceiver -> g_program m = gn_id N p ->
      exists ms g, listed N (ge_addr E SGovernance) payer m ms /\ offered p g /\ wf_call g /\ data_of g (g_data m) /\ changes_within ms (gs_world st) (gs_world st') /\
        (constant g /\ gs_world st' = gs_world st \/
         exists b i sg, asked (gn_value N) b p g ms i /\
           (forall a, In a sg <-> exists x, In x (g_accounts m) /\ ac_signer x = true /\ gn_account N (key_for (ge_addr E SGovernance) payer (ac_key x)) = HA a) /\
           step H (gs_world st) (Call sg i) = Ok (gs_world st'))).
Proof.
  intros Wn X. destruct (one_call _ _ _ _ _ _ X) as (e & log & L & We & P & C & payer & m & S). exists e, log, payer, m. split; [exact L|]. split; [exact S|].
  destruct S as (S1 & S2 & S3 & S4 & S5 & S6 & Cl). split; [rewrite <- (proj1 Cl); exact P|]. intros p Hp Pr.
  destruct (proj1 (call_entry _ _ _ _ _ _ _ Wn Hp Cl Pr) C) as (ms & Ls & En). destruct (entry_meaning _ _ _ _ _ _ _ _ En) as (g & O & Wf & D & K).
  exists ms, g. split; [exact Ls|]. split; [exact O|]. split; [exact Wf|]. split; [exact D|]. split; [eapply entry_writes; exact En|].
  destruct K as [K|(i & sg & A & Sg & St)]; [left; exact K|right]. exists (ok (gs_world st) (gv_ix e)), i, sg. split; [exact A|]. split; [|exact St].
  intros a. rewrite Sg. apply listed_signer. exact Ls.
Qed.

(** The governance signature reaches the two programs only from messages that mark it. *)
Lemma world_linked G : well_named N E G ->
  (forall w ix w', others w ix = Ok w' -> exists tr, run H w tr w' /\ (forall e, In e tr -> In G (signers (e_call e)) -> asks E ix)) -> linked H E G.
Proof.
  intros Wn Lo w ix w' C. cbn [ge_call E world_env] in C. unfold world_call in C. cbv zeta in C.
  assert (X : forall p b, entry (gn_value N) b H w p (metas_of N (ix_accounts ix)) (ix_data ix) = Ok w' -> exists tr, run H w tr w' /\ (forall e, In e tr -> In G (signers (e_call e)) -> asks E ix)).
  { intros p b En. destruct (entry_step _ _ _ _ _ _ _ _ En) as [->|(i & sg & _ & Sg & St)]; [exists []; split; [constructor|intros e []]|].
    exists [Ev w (Call sg i) w']. split; [econstructor; [constructor|exact St]|]. intros e [<-|[]] Hin. cbn [e_call signers] in Hin. destruct (proj1 (Sg _) Hin) as (me & Hm & Hk & Hs).
    unfold metas_of in Hm. apply in_map_iff in Hm as (a & <- & Ha). cbn [me_key me_signer] in Hk, Hs. unfold merge in Ha. apply in_map_iff in Ha as (c & <- & Hc). cbn [joined ac_key ac_signer] in Hk, Hs.
    apply existsb_key in Hs as (d & Hd & Kd & Sd). apply (wn_owner _ _ _ Wn) in Hk. exists d. split; [exact Hd|]. split; [exact Sd|]. congruence. }
  destruct (bytes_eqb (ix_program ix) (gn_id N AManager)); [eapply X; exact C|]. destruct (bytes_eqb (ix_program ix) (gn_id N ATransceiver)); [eapply X; exact C|]. eapply Lo. exact C.
Qed.

(** ** Settings *)
Lemma asked_owner nm b p g ms i o : asked nm b p g ms i -> admin_by i = Some o -> exists n, owner_name g = Some n /\ passed p g ms n (HA o).
Proof.
  intros A K. destruct g; cbn [asked] in A; try contradiction; cbv zeta in A;
  repeat match type of A with ex _ => destruct A as [? A] | _ /\ _ => let X := fresh "X" in destruct A as [X A] end; subst i; cbn [admin_by] in K; try discriminate K; injection K as <-;
  cbn [owner_name]; eexists; (split; [reflexivity|]); assumption.
Qed.

Lemma settings_message G st ctx data st' a n : well_named N E G -> reachable H (gs_world st) -> governed G (gs_world st) -> g_exec E n st ctx data = Ok st' ->
  settings (st_accts (gs_world st') a) <> settings (st_accts (gs_world st) a) ->
  exists e log payer m, gs_log st' = e :: log /\ says E e payer m /\
    (forall p, p = AManager \/ p = ATransceiver -> g_program m = gn_id N p ->
      exists ms g nme, listed N (ge_addr E SGovernance) payer m ms /\ offered p g /\ wf_call g /\ data_of g (g_data m) /\ owner_name g = Some nme /\ passed p g ms nme (HA G) /\
        exists x, In x (g_accounts m) /\ ac_signer x = true /\ key_for (ge_addr E SGovernance) payer (ac_key x) = ge_addr E SGovernance).
Proof.
  intros Wn Rw (ca & cf & Hc & Ho & Hp & Hu) X D. destruct (message_meaning G _ _ _ _ _ Wn X) as (e & log & payer & m & L & S & _ & K). exists e, log, payer, m. split; [exact L|]. split; [exact S|].
  intros p Hpp Pr. destruct (K p Hpp Pr) as (ms & g & Ls & O & Wf & Da & _ & [(_ & Q)|(b & i & sg & A & Sg & St)]); [rewrite Q in D; congruence|].
  assert (One : forall x d, config_at (gs_world st) x d -> d = cf).
  { intros x d Hx. apply (config_at_pda _ _ _ _ Rw) in Hx. pose proof (config_at_pda _ _ _ _ Rw Hc) as Ha. unfold config_at in *. congruence. }
  destruct (settings_owner _ _ _ _ _ Rw St D) as [(x & d & o & Hx & Ad & Hin & Q)|(d & mm & tp & ch & l & md & No & _)]; [|destruct (No _ _ Hc)].
  cbn [ins signers] in Ad, Hin, Q. apply One in Hx. subst d. assert (Eo : o = G) by (destruct Q as [->|(_ & Q)]; congruence). subst o.
  destruct (asked_owner _ _ _ _ _ _ _ A Ad) as (nme & On & Pn). exists ms, g, nme. repeat (split; [assumption|]). destruct (proj1 (Sg _) Hin) as (y & Hy & Sy & Ky). exists y. split; [exact Hy|]. split; [exact Sy|].
  apply (wn_owner _ _ _ Wn). exact Ky.
Qed.
End Env.

(** ** Everything an owner can do *)
(** More privileges do no harm, as long as they are signatures somebody can give. *)
Lemma more_privileges nm ok H s p ms ms' data s' :
  Forall2 (fun m m' => me_key m' = me_key m /\ (me_signer m = true -> me_signer m' = true) /\ (me_writable m = true -> me_writable m' = true)) ms ms' ->
  (forall a, given_signer ms' a -> can_sign a = true) -> entry nm ok H s p ms data = Ok s' -> entry nm ok H s p ms' data = Ok s'.
Proof.
  intros F Cs En. destruct (entry_inv _ _ _ _ _ _ _ _ En) as [[-> K]|(q & g & i & ns & P & D & I & Y & M & S & K)]; [apply K|].
  assert (A : forall n, at_key ms' n = at_key ms n).
  { clear - F. unfold at_key. induction F as [|m m' ms ms' (K & _) F IH]; intros [|n]; cbn [nth_error]; try reflexivity; [rewrite K; reflexivity|apply IH]. }
  rewrite K by (rewrite <- I; unfold instr_of, at_token_program; destruct g; cbv zeta; rewrite ?A; reflexivity). rewrite Y. cbn [bind].
  assert (M' : meet ns ms' = true).
  { clear - F M. revert ns M. induction F as [|m m' ms ms' (K1 & K2 & K3) F IH]; intros [|n ns] M; try reflexivity; [discriminate M|]. cbn [meet] in M |- *. apply andb_prop in M as [M1 M2]. rewrite (IH _ M2), andb_true_r.
    unfold meets in *. rewrite K1. apply andb_prop in M1 as [M1 Mw]. apply andb_prop in M1 as [Mk Ms]. rewrite Mk. cbn [andb].
    destruct (ne_signer n), (ne_writable n), (me_signer m), (me_writable m); cbn [implb] in *; try discriminate; rewrite ?K2, ?K3 by reflexivity; reflexivity. }
  rewrite M'. cbn [require bind]. unfold step in *. cbn [signers ins] in *. destruct (forallb can_sign (signers_of ms) && typed i) eqn:G; cbn [require bind] in S; [|discriminate S].
  apply andb_prop in G. destruct G as [_ T].
  replace (forallb can_sign (signers_of ms')) with true by (symmetry; apply forallb_forall; intros a Ha; apply Cs, signers_of_in, Ha).
  rewrite T. cbn [andb require bind]. rewrite <- S. eapply sig_exec; [exact Y|]. intros n a In_ Sn Kn.
  rewrite (demanded_signed _ _ _ _ M' In_ Sn Kn), (demanded_signed _ _ _ _ M In_ Sn Kn). reflexivity.
Qed.

(** The administrative instructions call no other program. *)
Lemma admin_any_answer nm ok ok' q g ms i o : instr_of nm ok q g ms = Some i -> admin_by i = Some o -> instr_of nm ok' q g ms = Some i.
Proof.
  intros I A. destruct g; try discriminate I; cbn [instr_of] in I |- *; cbv zeta in I |- *; try exact I.
  all: repeat match type of I with (match ?r with _ => _ end) = Some _ => let R := fresh "R" in destruct r eqn:R; try discriminate I end; injection I as <-; discriminate A.
Qed.
Lemma admin_callable i o : admin_by i = Some o -> callable i.
Proof. destruct i; try discriminate; intros _; exact Logic.I. Qed.
(** Its accounts: few; it needs no signatures but the owner's and a payer's. *)
Lemma admin_layout H s i o ns : admin_by i = Some o -> layout H s i = Ok ns ->
  (List.length ns <= 6)%nat /\ forall n, In n ns -> ne_signer n = true -> ne_key n = None \/ ne_key n = Some (HA o).
Proof.
  intros A Y. destruct i; try discriminate A; injection A as <-; cbn [layout] in Y; injection Y as <-; (split; [cbn; lia|]); intros n Hin Sn;
  cbn [In] in Hin; repeat match type of Hin with _ \/ _ => destruct Hin as [<-|Hin] end; try contradiction; try discriminate Sn; cbn; auto.
Qed.
Lemma admin_named H s i o ns n h : admin_by i = Some o -> layout H s i = Ok ns -> In n ns -> ne_key n = Some h -> h = HA o \/ In h (admin_accounts i).
Proof.
  intros A Y Hin K. destruct i; try discriminate A; injection A as <-; cbn [layout] in Y; injection Y as <-;
  cbn [In] in Hin; repeat match type of Hin with _ \/ _ => destruct Hin as [<-|Hin] end; try contradiction; cbn in K; try discriminate K; injection K as <-; cbn [admin_accounts In]; auto 8.
Qed.
Lemma admin_data nm ok q g ms i o : instr_of nm ok q g ms = Some i -> admin_by i = Some o -> wf_call g -> (List.length (ftag (name_of g) ++ args_of g ++ []) <= 100)%nat.
Proof.
  intros I A Wf. rewrite !app_length.
  assert (L8 : forall x, (List.length (ftag x) <= 8)%nat) by (intros x; unfold ftag; rewrite firstn_length; lia).
  specialize (L8 (name_of g)). cbn [List.length].
  assert (L : (List.length (args_of g) <= 90)%nat); [|lia].
  destruct g; try discriminate I; cbn [args_of wf_call] in *;
  try (exfalso; cbn [instr_of] in I; cbv zeta in I; repeat match type of I with (match ?r with _ => _ end) = Some _ => let R := fresh "R" in destruct r eqn:R; try discriminate I end; injection I as <-; discriminate A);
  rewrite ?app_length; unfold is32 in *; repeat match goal with K : _ /\ _ |- _ => destruct K end; try match goal with K : List.length _ = 32%nat |- _ => rewrite K end;
  rewrite ?le_enc_length; cbn; try lia.
  all: match goal with |- context [flag ?b] => destruct b; cbn; lia end.
Qed.

(** The message for an instruction: the owner and the payer as placeholders. *)
Definition entry_of (G : addr) (hb : handle -> bytes) (n : need) : acc :=
  Acc (match ne_key n with Some h => if handle_eqb h (HA G) then OWNER else hb h | None => PAYER end) (ne_signer n) (ne_writable n).
Lemma key_OWNER pda payer : key_for pda payer OWNER = pda.
Proof. unfold key_for. change (str "owner" ++ repeat x00 27) with OWNER. now rewrite bytes_eqb_refl. Qed.
Lemma key_PAYER pda payer : key_for pda payer PAYER = payer.
Proof. reflexivity. Qed.
Lemma key_plain pda payer b : b <> str "owner" ++ repeat x00 27 -> b <> str "payer" ++ repeat x00 27 -> key_for pda payer b = b.
Proof.
  intros A B. unfold key_for. destruct (bytes_eqb b (str "owner" ++ repeat x00 27)) eqn:X; [apply bytes_eqb_eq in X; contradiction|].
  destruct (bytes_eqb b (str "payer" ++ repeat x00 27)) eqn:Y; [apply bytes_eqb_eq in Y; contradiction|reflexivity].
Qed.

Section Able.
Context (N : gnames) (H : hashes) (ok : state -> gix -> bool) (others : state -> gix -> result state).
Context (address : purpose -> bytes) (posted : state -> bytes -> option vaa) (executable : state -> bytes -> bool).
Let E : genv state := world_env N H ok others address posted executable.

Lemma able G st i w' hb : well_named N E G -> can_sign G = true -> writable_names N hb (admin_accounts i) -> (forall p, List.length (gn_id N p) = 32%nat) -> named (gn_value N) i -> admin_by i = Some G ->
  step H (gs_world st) (Call [G] i) = Ok w' ->
  exists m, wf_gov m /\ Z.of_nat (List.length (g_accounts m)) <= 65535 /\ Z.of_nat (List.length (g_data m)) <= 65535 /\ g_gov m = GOV_ID /\
    (g_program m = gn_id N AManager \/ g_program m = gn_id N ATransceiver) /\
    (forall a, In a (g_accounts m) -> ac_signer a = true -> ac_key a = str "owner" ++ repeat x00 27 \/ ac_key a = str "payer" ++ repeat x00 27) /\
    forall ctx data payer x v ix, gn_account N payer = HA x -> can_sign x = true -> submittable E st ctx data payer v m ix ->
      exists st', g_exec E DEPTH st ctx data = Ok st' /\ gs_world st' = w'.
Proof.
  intros Wn Cg Wr Li Nm Ad St. set (w := gs_world st) in *.
  pose proof (admin_callable _ _ Ad) as Ca. unfold step in St. cbn [signers ins] in St.
  destruct (forallb can_sign [G] && typed i) eqn:Ty; cbn [require bind] in St; [|discriminate St]. apply andb_prop in Ty as [_ Ty].
  destruct (exec_layout _ _ _ _ _ Ca St) as (ns & Y). destruct (admin_layout _ _ _ _ _ Ad Y) as (Ln & Sn).
  destruct (typed_call (gn_value N) H w i ns ANull Nm Ca Ty Y) as (ok0 & p & q & g & P & O & Wf & G1 & G2 & I0).
  set (data := ftag (name_of g) ++ args_of g ++ []).
  assert (D : dispatch p data = Some g).
  { apply dispatch_exact. split; [exact O|]. split; [exact Wf|]. exists (ftag (name_of g)), []. split; [left; reflexivity|reflexivity]. }
  assert (Hp : p = AManager \/ p = ATransceiver) by (destruct p; try discriminate P; auto).
  set (m := Gov GOV_ID (gn_id N p) (map (entry_of G hb) ns) data). exists m.
  assert (Wk : forall n h, In n ns -> ne_key n = Some h -> handle_eqb h (HA G) = false ->
    gn_account N (hb h) = h /\ List.length (hb h) = 32%nat /\ hb h <> str "owner" ++ repeat x00 27 /\ hb h <> str "payer" ++ repeat x00 27).
  { intros n h Hn K Eh. destruct (admin_named _ _ _ _ _ _ _ Ad Y Hn K) as [->|Hin]; [|exact (proj1 (Forall_forall _ _) Wr h Hin)].
    replace (handle_eqb (HA G) (HA G)) with true in Eh by (symmetry; apply handle_eqb_eq; reflexivity). discriminate Eh. }
  assert (Lk : forall n, In n ns -> List.length (ac_key (entry_of G hb n)) = 32%nat).
  { intros n Hn. unfold entry_of. cbn [ac_key]. destruct (ne_key n) as [h|] eqn:K; [|reflexivity]. destruct (handle_eqb h (HA G)) eqn:Eh; [reflexivity|apply (Wk n h Hn K Eh)]. }
  split. { split; [reflexivity|]. split; [apply Li|]. apply Forall_forall. intros a Ha. cbn [m g_accounts] in Ha. apply in_map_iff in Ha as (n & <- & Hn). apply Lk, Hn. }
  split; [cbn [m g_accounts]; rewrite map_length; lia|]. split; [pose proof (admin_data _ _ _ _ _ _ _ I0 Ad Wf) as K; cbn [m g_data]; unfold data; lia|].
  split; [reflexivity|]. split; [cbn [m g_program]; destruct Hp as [-> | ->]; auto|].
  split. { intros a Ha Sa. cbn [m g_accounts] in Ha. apply in_map_iff in Ha as (n & <- & Hn). cbn [entry_of ac_signer ac_key] in *. destruct (Sn n Hn Sa) as [-> | ->]; [right; reflexivity|left].
    replace (handle_eqb (HA G) (HA G)) with true by (symmetry; apply handle_eqb_eq; reflexivity). reflexivity. }
  intros ctx dat payer x v ix Px Cx Sb. set (pda := ge_addr E SGovernance) in *.
  assert (Key : forall n, In n ns -> gn_account N (key_for pda payer (ac_key (entry_of G hb n))) = match ne_key n with Some h => h | None => HA x end).
  { intros n Hn. unfold entry_of. cbn [ac_key]. destruct (ne_key n) as [h|] eqn:K; [|rewrite key_PAYER; exact Px]. destruct (handle_eqb h (HA G)) eqn:Eh.
    - apply handle_eqb_eq in Eh. subst h. rewrite key_OWNER. apply (wn_owner _ _ _ Wn). reflexivity.
    - destruct (Wk n h Hn K Eh) as (W0 & _ & W1 & W2). rewrite key_plain by assumption. exact W0. }
  pose proof (sb_call _ _ _ _ _ _ _ _ Sb) as Cl. pose proof (metas_listed N _ _ _ _ Cl) as Ls. set (ms := metas_of N (ix_accounts ix)) in *.
  assert (En0 : entry (gn_value N) (ok w ix) H w p (map (meta_of x) ns) data = Ok w').
  { assert (I : instr_of (gn_value N) (ok w ix) q g (map (meta_of x) ns) = Some i).
    { apply (admin_any_answer _ ok0 _ _ _ _ _ G); [|exact Ad]. destruct (typed_call (gn_value N) H w i ns x Nm Ca Ty Y) as (ok1 & p1 & q1 & g1 & P1 & O1 & Wf1 & _ & _ & I1). clear - I0 I1 Ad Y.
      rewrite <- I0. destruct i; try discriminate Ad; cbn [layout] in Y; injection Y as <-; destruct g; try discriminate I0; reflexivity || (exfalso; cbn in I0; discriminate I0). }
    unfold entry. rewrite P. cbn [ok_or bind]. rewrite D. cbn [ok_or bind].
    assert (E' : (let? i := ok_or (instr_of (gn_value N) (ok w ix) q g (map (meta_of x) ns)) Constraint in
      let? ns' := layout H w i in let? _ := require (meet ns' (map (meta_of x) ns)) Constraint in step H w (Call (signers_of (map (meta_of x) ns)) i)) = Ok w').
    { rewrite I. cbn [ok_or bind]. rewrite Y. cbn [bind]. rewrite meet_metas. cbn [require bind]. unfold step. cbn [signers ins].
      replace (forallb can_sign (signers_of (map (meta_of x) ns))) with true.
      - rewrite Ty. cbn [andb require bind]. rewrite <- St. eapply sig_exec; [exact Y|]. intros n a In_ Ss Kn.
        rewrite (exec_signed _ _ _ _ _ _ _ _ St Y In_ Ss Kn). eapply demanded_signed; [apply meet_metas|exact In_|exact Ss|exact Kn].
      - symmetry. apply forallb_forall. intros a Ha. apply signers_of_in in Ha as (me & Hm & Hk & Hs). apply in_map_iff in Hm as (n & <- & Hn). cbn [meta_of me_key me_signer] in Hk, Hs.
        destruct (Sn n Hn Hs) as [K|K]; rewrite K in Hk; injection Hk as <-; assumption. }
    destruct g; try (exfalso; congruence); exact E'. }
  assert (En : entry (gn_value N) (ok w ix) H w p ms data = Ok w').
  { eapply more_privileges; [| |exact En0].
    - unfold listed in Ls. cbv zeta in Ls. cbn [m g_accounts] in Ls. fold pda in Ls.
      assert (Gn : forall all ks ms0, (forall n, In n ks -> In n ns /\ In (entry_of G hb n) all) ->
        Forall2 (fun a me => me_key me = gn_account N (key_for pda payer (ac_key a)) /\
          (me_signer me = true <-> exists b, In b all /\ key_for pda payer (ac_key b) = key_for pda payer (ac_key a) /\ ac_signer b = true) /\
          (me_writable me = true <-> exists b, In b all /\ key_for pda payer (ac_key b) = key_for pda payer (ac_key a) /\ ac_writable b = true)) (map (entry_of G hb) ks) ms0 ->
        Forall2 (fun m m' => me_key m' = me_key m /\ (me_signer m = true -> me_signer m' = true) /\ (me_writable m = true -> me_writable m' = true)) (map (meta_of x) ks) ms0).
      { intros all ks. induction ks as [|n ks IH]; intros ms0 Sub L; inversion L as [|? me ? lm (L1 & L2 & L3) L']; subst; [constructor|].
        cbn [map]. constructor; [|apply IH; [intros k Hk; apply Sub; now right|exact L']]. cbn [meta_of me_key me_signer me_writable]. rewrite Key in L1 by (apply Sub; now left). split; [exact L1|].
        split; intros K; [apply L2|apply L3]; exists (entry_of G hb n); (split; [apply Sub; now left|]); (split; [reflexivity|exact K]). }
      apply (Gn _ _ _ (fun n Hn => conj Hn (in_map _ _ _ Hn)) Ls).
    - intros a Ha. apply (listed_signer _ _ _ _ _ a Ls) in Ha as (b & Hb & Sb' & Kb). cbn [m g_accounts] in Hb. apply in_map_iff in Hb as (n & <- & Hn). fold pda in Kb. rewrite Key in Kb by exact Hn. cbn [entry_of ac_signer] in Sb'.
      destruct (Sn n Hn Sb') as [K|K]; rewrite K in Kb; injection Kb as <-; assumption. }
  assert (C : ge_call E w ix = Ok w').
  { apply (call_entry N H ok others address posted executable G p w ix w' payer m Wn Hp Cl eq_refl). exists ms. split; [exact Ls|exact En]. }
  unfold DEPTH. rewrite (g_exec_step E 4 _ _ _ _ _ _ _ Sb). cbn [m g_program]. destruct (bytes_eqb (gn_id N p) GOV_ID) eqn:EP; [apply bytes_eqb_eq in EP; destruct (wn_gov _ _ _ Wn p Hp EP)|].
  fold w. rewrite C. cbn [bind]. eexists. split; [reflexivity|reflexivity].
Qed.
End Able.

(** Anyone can submit a message that needs no signatures but governance's and the payer's. *)
Lemma anyone (E : genv state) st m v at_ payer args r : wf_gov m -> Z.of_nat (List.length (g_accounts m)) <= 65535 -> Z.of_nat (List.length (g_data m)) <= 65535 -> g_gov m = GOV_ID ->
  (forall a, In a (g_accounts m) -> ac_signer a = true -> ac_key a = str "owner" ++ repeat x00 27 \/ ac_key a = str "payer" ++ repeat x00 27) ->
  ge_posted E (gs_world st) at_ = Some v -> v_chain v = 1 -> v_emitter v = repeat x00 31 ++ [x04] -> v_payload v = gov_packet m ++ r ->
  ge_executable E (gs_world st) (g_program m) = true -> gs_replay st (replay_addr E v) = false ->
  exists ix, submittable E st (plain_ctx E payer at_ v m) (GOV_TAG ++ args) payer v m ix.
Proof.
  intros Wf La Ld Gv Sg Po Vc Ve Vp Ex Re. eexists. constructor.
  - exists args. reflexivity.
  - unfold plain_ctx. cbv zeta. cbn [app]. do 7 eexists. split; [reflexivity|]. cbn [ac_key ac_signer ac_writable]. repeat (split; [first [reflexivity|assumption]|]). reflexivity.
  - auto.
  - exists r. auto.
  - exact Gv.
  - exact Re.
  - apply map_call.
  - cbn [ix_accounts]. apply Forall_forall. intros a Ha. apply in_map_iff in Ha as (b & <- & Hb). destruct (subst_acc_key (ge_addr E SGovernance) payer b) as (K1 & K2 & K3). unfold may_hand_on. rewrite K1, K2, K3.
    assert (Hin : In (Acc (key_for (ge_addr E SGovernance) payer (ac_key b)) false (ac_writable b)) (plain_ctx E payer at_ v m)).
    { unfold plain_ctx. cbv zeta. apply in_or_app. right. apply in_map_iff. exists b. auto. }
    split; [eexists; split; [exact Hin|reflexivity]|]. split; [intros W; eexists; split; [exact Hin|auto]|].
    intros S. destruct (Sg _ Hb S) as [-> | ->].
    + left. apply key_OWNER.
    + right. exists (Acc payer true true). split; [left; reflexivity|auto].
  - exists (Acc (g_program m) false false). split; [unfold plain_ctx; cbv zeta; cbn [app In]; tauto|reflexivity].
Qed.

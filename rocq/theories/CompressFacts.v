(** * Facts about Compress.v *)
From Coq Require Import Arith Lia Permutation.
From Verif Require Export Compress.
Import ListNotations.

Lemma nodup_app {A} (l1 l2 : list A) : NoDup (l1 ++ l2) <-> NoDup l1 /\ NoDup l2 /\ (forall k, In k l1 -> ~ In k l2).
Proof.
  induction l1 as [|a l IH]; cbn [app].
  - split; [intros N; repeat split; [constructor|exact N|intros k []]|tauto].
  - split.
    + intros N. inversion_clear N as [|? ? N1 N2]. apply IH in N2. destruct N2 as (N2 & N3 & D). split; [constructor; [intros I; apply N1, in_or_app; auto|exact N2]|].
      split; [exact N3|]. intros k [<-|I]; [intros J; apply N1, in_or_app; auto|auto].
    + intros (N1 & N2 & D). inversion_clear N1 as [|? ? Na Nl]. constructor; [|apply IH; split; [exact Nl|split; [exact N2|intros k I; apply D; right; exact I]]].
      intros I. apply in_app_or in I. destruct I as [I|I]; [exact (Na I)|exact (D a (or_introl eq_refl) I)].
Qed.

Section Facts.
Context {K : Type} (eq_dec : forall a b : K, {a = b} + {a <> b}).
Notation touch := (touch eq_dec). Notation collect := (collect eq_dec). Notation index_of := (index_of eq_dec). Notation drain := (drain eq_dec).
Notation extract := (extract eq_dec). Notation compile := (compile eq_dec). Notation load := (load eq_dec).

Fixpoint get (k : K) (m : keymap) : option keymeta :=
  match m with [] => None | (k', f) :: m => if eq_dec k k' then Some f else get k m end.

Lemma get_touch k f m k' : get k' (touch k f m) = if eq_dec k' k then Some (match get k m with Some g => km_or g f | None => f end) else get k' m.
Proof.
  induction m as [|[k1 f1] m IH]; cbn [Compress.touch get].
  - destruct (eq_dec k' k); reflexivity.
  - destruct (eq_dec k k1) as [->|N]; cbn [get].
    + destruct (eq_dec k' k1); reflexivity.
    + rewrite IH. destruct (eq_dec k' k1) as [->|N1]; [destruct (eq_dec k1 k); [congruence|]|]; reflexivity.
Qed.
Lemma touch_keys k f m k' : In k' (map fst (touch k f m)) <-> k' = k \/ In k' (map fst m).
Proof.
  induction m as [|[k1 f1] m IH]; cbn [Compress.touch map fst In]; [intuition|]. destruct (eq_dec k k1) as [->|N]; cbn [map fst In]; [intuition|]. rewrite IH. intuition.
Qed.
Lemma touch_nodup k f m : NoDup (map fst m) -> NoDup (map fst (touch k f m)).
Proof.
  induction m as [|[k1 f1] m IH]; cbn [Compress.touch map fst]; intros N; [repeat constructor; intros []|]. inversion_clear N as [|? ? N1 N2].
  destruct (eq_dec k k1) as [->|N']; cbn [map fst]; constructor; auto. rewrite touch_keys. intuition.
Qed.

(** What [collect] yields. *)
Definition folded (l : keymap) (m : keymap) : keymap := fold_left (fun m u => touch (fst u) (snd u) m) l m.
Lemma folded_nodup l m : NoDup (map fst m) -> NoDup (map fst (folded l m)).
Proof. revert m. induction l as [|u l IH]; intros m N; [exact N|]. apply IH, touch_nodup, N. Qed.
Lemma folded_keys l m k : In k (map fst (folded l m)) <-> In k (map fst l) \/ In k (map fst m).
Proof. revert m. induction l as [|u l IH]; intros m; cbn [folded fold_left map In]; [intuition|]. fold (folded l (touch (fst u) (snd u) m)). rewrite IH, touch_keys. intuition. Qed.
Definition any (k : K) (p : keymeta -> bool) (l : keymap) : bool := existsb (fun u => (if eq_dec k (fst u) then true else false) && p (snd u)) l.
Lemma folded_get l m k (p : keymeta -> bool) (P : forall a b, p (km_or a b) = p a || p b) f : get k (folded l m) = Some f ->
  p f = any k p l || match get k m with Some g => p g | None => false end.
Proof.
  revert m. induction l as [|u l IH]; intros m E; cbn [folded fold_left any existsb] in *.
  - rewrite E. reflexivity.
  - fold (folded l (touch (fst u) (snd u) m)) in E. rewrite (IH _ E), get_touch. fold (any k p l). destruct (eq_dec k (fst u)) as [<-|N]; cbn [andb orb]; [|reflexivity].
    destruct (get k m); [rewrite P|]; destruct (any k p l), (p (snd u)); try destruct (p k0); reflexivity.
Qed.
Lemma get_in k m f : get k m = Some f -> In (k, f) m.
Proof. induction m as [|[k1 f1] m IH]; cbn [get In]; [discriminate|]. destruct (eq_dec k k1) as [->|]; intros E; [injection E as ->|]; auto. Qed.
Lemma in_get k m f : NoDup (map fst m) -> In (k, f) m -> get k m = Some f.
Proof.
  induction m as [|[k1 f1] m IH]; cbn [get In map fst]; intros N; [intros []|]. inversion_clear N as [|? ? N1 N2]. intros [E|I]; [injection E as -> ->; destruct (eq_dec k k); congruence|].
  destruct (eq_dec k k1) as [->|]; [|auto]. exfalso. apply N1. apply (in_map fst) in I. exact I.
Qed.

(** The first entry stays first. *)
Lemma folded_head l k f m : exists f' m', folded l ((k, f) :: m) = (k, f') :: m' /\ (km_signer f = true -> km_signer f' = true) /\ (km_writable f = true -> km_writable f' = true).
Proof.
  revert f m. induction l as [|u l IH]; intros f m; [cbn; eauto 6|]. cbn [folded fold_left]. fold (folded l (touch (fst u) (snd u) ((k, f) :: m))). cbn [Compress.touch].
  destruct (eq_dec (fst u) k).
  - destruct (IH (km_or f (snd u)) m) as (f' & m' & E & S & W). exists f', m'. split; [exact E|]. cbn [km_or km_signer km_writable] in S, W. split; intros X; [apply S|apply W]; rewrite X; reflexivity.
  - destruct (IH f (touch (fst u) (snd u) m)) as (f' & m' & E & S & W). eauto.
Qed.

(** [index_of] *)
Lemma index_nth k l i : index_of k l = Some i -> nth_error l i = Some k.
Proof.
  revert i. induction l as [|k' l IH]; intros i; cbn [Compress.index_of]; [discriminate|]. destruct (eq_dec k k') as [->|]; [intros E; injection E as <-; reflexivity|].
  destruct (index_of k l) as [j|]; cbn [option_map]; [|discriminate]. intros E. injection E as <-. cbn [nth_error]. auto.
Qed.
Lemma index_some k l : In k l -> exists i, index_of k l = Some i.
Proof.
  induction l as [|k' l IH]; cbn [Compress.index_of In]; [intros []|]. destruct (eq_dec k k') as [->|N]; [eauto|]. intros [E|I]; [congruence|]. destruct (IH I) as (i & ->). cbn. eauto.
Qed.
Lemma index_none k l : index_of k l = None <-> ~ In k l.
Proof.
  split; [|intros N; destruct (index_of k l) eqn:E; [|reflexivity]; elim N; apply index_nth in E; eapply nth_error_In; eauto].
  intros E I. destruct (index_some _ _ I). congruence.
Qed.

Lemma all_some_map {A B} (f : A -> option B) (g : A -> B) l : (forall a, In a l -> f a = Some (g a)) -> all_some (map f l) = Some (map g l).
Proof. induction l as [|a l IH]; intros P; [reflexivity|]. cbn [map all_some]. rewrite P by (left; reflexivity). rewrite IH by (intros; apply P; right; assumption). reflexivity. Qed.
Lemma all_some_inv {A B} (f : A -> option B) l r : all_some (map f l) = Some r -> length r = length l /\ forall a, In a l -> exists b, f a = Some b.
Proof.
  revert r. induction l as [|a l IH]; intros r; cbn [map all_some].
  - intros E. injection E as <-. split; [reflexivity|intros a []].
  - destruct (f a) as [b|] eqn:F; [|discriminate]. destruct (all_some (map f l)) as [r'|]; [|discriminate]. cbn [option_map]. intros E. injection E as <-.
    destruct (IH _ eq_refl) as (L & P). split; [cbn; congruence|]. intros x [<-|I]; eauto.
Qed.

(** [drain] *)
Lemma drain_spec p en m is ks rest : drain p en m = Some (is, ks, rest) ->
  (forall more, all_some (map (nth_error (en ++ more)) is) = Some ks) /\
  (forall k f, In (k, f) m <-> In (k, f) rest \/ (In k ks /\ In (k, f) m /\ p f = true /\ In k en)) /\
  (NoDup (map fst m) -> NoDup (map fst rest ++ ks)) /\
  (forall k, In k ks -> exists f, In (k, f) m /\ p f = true) /\
  length m = length rest + length ks /\
  (forall k f, In (k, f) rest -> p f = true -> ~ In k en) /\
  (match m, rest with (k, f) :: _, _ => p f = false -> exists r, rest = (k, f) :: r | [], _ => True end).
Proof.
  revert is ks rest. induction m as [|[k f] m IH]; intros is ks rest; cbn [Compress.drain].
  - intros E. injection E as <- <- <-. cbn. repeat split; try tauto; try (intros ? []); try constructor.
  - destruct (drain p en m) as [[[is1 ks1] rest1]|]; [|discriminate]. destruct (IH _ _ _ eq_refl) as (A & B & C & D & L & Q & _). clear IH.
    destruct (p f) eqn:Pf.
    + destruct (index_of k en) as [i|] eqn:X.
      * destruct (i <? 256); [|discriminate]. intros E. injection E as <- <- <-. pose proof (index_nth _ _ _ X) as Xn. repeat split.
        -- intros more. cbn [map all_some]. rewrite nth_error_app1 by (apply nth_error_Some; congruence). rewrite Xn, A. reflexivity.
        -- intros [E|I]; [injection E as <- <-; right; repeat split; auto; [left; reflexivity|left; reflexivity|eapply nth_error_In; eauto]|].
           apply B in I. destruct I as [I|(I1 & I2 & I3 & I4)]; [left; exact I|right; repeat split; auto; right; auto].
        -- intros [I|(I1 & I2 & I3 & I4)]; [right; apply B; left; exact I|exact I2].
        -- cbn [map fst]. intros N. inversion_clear N as [|? ? N1 N2]. specialize (C N2). apply NoDup_Add with (a := k) (l := map fst rest1 ++ ks1).
           ++ apply Add_app.
           ++ split; [exact C|]. intros I. apply N1. apply in_app_or in I. destruct I as [I|I].
              ** apply in_map_iff in I. destruct I as ([k1 f1] & E1 & I). cbn in E1. subst k1. apply (in_map fst) with (x := (k, f1)). apply B. left. exact I.
              ** destruct (D _ I) as (f1 & I1 & _). apply (in_map fst) in I1. exact I1.
        -- intros k1 [<-|I]; [exists f; split; [left; reflexivity|exact Pf]|]. destruct (D _ I) as (f1 & I1 & P1). exists f1. split; [right; exact I1|exact P1].
        -- cbn. rewrite L. lia.
        -- exact Q.
        -- discriminate.
      * intros E. injection E as <- <- <-. apply index_none in X. repeat split.
        -- exact A.
        -- intros [E|I]; [left; left; exact E|]. apply B in I. destruct I as [I|(I1 & I2 & I3 & I4)]; [left; right; exact I|right; repeat split; auto; right; auto].
        -- intros [[E|I]|(I1 & I2 & I3 & I4)]; [left; exact E|right; apply B; left; exact I|exact I2].
        -- cbn [map fst]. intros N. inversion_clear N as [|? ? N1 N2]. cbn [app]. constructor; [|auto]. intros I. apply N1. apply in_app_or in I. destruct I as [I|I].
           ** apply in_map_iff in I. destruct I as ([k1 f1] & E1 & I). cbn in E1. subst k1. apply (in_map fst) with (x := (k, f1)). apply B. left. exact I.
           ** destruct (D _ I) as (f1 & I1 & _). apply (in_map fst) in I1. exact I1.
        -- intros k1 I. destruct (D _ I) as (f1 & I1 & P1). exists f1. split; [right; exact I1|exact P1].
        -- cbn. rewrite L. lia.
        -- intros k1 f1 [E|I]; [injection E as <- <-; auto|eauto].
        -- discriminate.
    + intros E. injection E as <- <- <-. repeat split.
      * exact A.
      * intros [E|I]; [left; left; exact E|]. apply B in I. destruct I as [I|(I1 & I2 & I3 & I4)]; [left; right; exact I|right; repeat split; auto; right; auto].
      * intros [[E|I]|(I1 & I2 & I3 & I4)]; [left; exact E|right; apply B; left; exact I|exact I2].
      * cbn [map fst]. intros N. inversion_clear N as [|? ? N1 N2]. cbn [app]. constructor; [|auto]. intros I. apply N1. apply in_app_or in I. destruct I as [I|I].
        ** apply in_map_iff in I. destruct I as ([k1 f1] & E1 & I). cbn in E1. subst k1. apply (in_map fst) with (x := (k, f1)). apply B. left. exact I.
        ** destruct (D _ I) as (f1 & I1 & _). apply (in_map fst) in I1. exact I1.
      * intros k1 I. destruct (D _ I) as (f1 & I1 & P1). exists f1. split; [right; exact I1|exact P1].
      * cbn. rewrite L. lia.
      * intros k1 f1 [E|I]; [injection E as <- <-; congruence|eauto].
      * eauto.
Qed.
Lemma drain_total p en m : length en <= 256 -> exists r, drain p en m = Some r.
Proof.
  intros L. induction m as [|[k f] m (r & IH)]; cbn [Compress.drain]; [eauto|]. rewrite IH. destruct r as [[is ks] rest]. destruct (if p f then index_of k en else None) as [i|] eqn:X; [|eauto].
  destruct (p f); [|discriminate]. apply index_nth in X. assert (i < length en) by (apply nth_error_Some; congruence). replace (i <? 256) with true by (symmetry; apply Nat.ltb_lt; lia). eauto.
Qed.

Definition drainable (f : keymeta) : bool := negb (km_signer f) && negb (km_invoked f).

(** [extract] *)
Lemma extract_spec tables now m ls ws rs rest : grown tables now -> extract tables m = Some (ls, ws, rs, rest) ->
  (exists wl rl, all_some (map (load_table lk_writable now) ls) = Some wl /\ all_some (map (load_table lk_readonly now) ls) = Some rl /\ concat wl = ws /\ concat rl = rs) /\
  Forall (fun x => lk_writable x <> [] \/ lk_readonly x <> []) ls /\
  (forall k f, In (k, f) m -> In (k, f) rest \/ (drainable f = true /\ (km_writable f = true /\ In k ws \/ km_writable f = false /\ In k rs))) /\
  (forall k f, In (k, f) rest -> In (k, f) m) /\
  (NoDup (map fst m) -> NoDup (map fst rest ++ ws ++ rs)) /\
  (forall k, In k ws -> exists f, In (k, f) m /\ drainable f = true /\ km_writable f = true) /\
  (forall k, In k rs -> exists f, In (k, f) m /\ drainable f = true /\ km_writable f = false) /\
  length m = length rest + length ws + length rs /\
  (forall k f, In (k, f) rest -> drainable f = true -> forall t en, In (t, en) tables -> ~ In k en) /\
  (match m with (k, f) :: _ => km_signer f = true -> exists r, rest = (k, f) :: r | [] => True end).
Proof.
  revert m ls ws rs rest. induction tables as [|[t en] tables IH]; intros m ls ws rs rest La; cbn [Compress.extract].
  - intros E. injection E as <- <- <- <-. repeat split; auto; try (intros ? []).
    + exists [], []. auto.
    + rewrite app_nil_r. auto.
    + cbn. lia.
    + destruct m as [|[k f] m]; eauto.
  - destruct (drain _ en m) as [[[wi wk] m1]|] eqn:D1; [|discriminate]. destruct (drain _ en m1) as [[[ri rk] m2]|] eqn:D2; [|discriminate].
    destruct (extract tables m2) as [[[[ls' ws'] rs'] rest']|] eqn:X; [|discriminate]. intros E. injection E as <- <- <- <-.
    destruct (drain_spec _ _ _ _ _ _ D1) as (A1 & B1 & C1 & E1 & L1 & Q1 & H1). destruct (drain_spec _ _ _ _ _ _ D2) as (A2 & B2 & C2 & E2 & L2 & Q2 & H2).
    destruct (IH _ _ _ _ _ (fun t' en' I => La t' en' (or_intror I)) X) as ((wl & rl & F1 & F2 & F3 & F4) & G & B3 & I3 & C3 & E3 & E3' & L3 & Q3 & H3). clear IH.
    destruct (La t en (or_introl eq_refl)) as (more & Nw).
    assert (M1 : forall k f, In (k, f) m1 -> In (k, f) m) by (intros k f I; apply B1; left; exact I).
    assert (M2 : forall k f, In (k, f) m2 -> In (k, f) m1) by (intros k f I; apply B2; left; exact I).
    repeat match goal with |- _ /\ _ => split end.
    + assert (T2 : load_table lk_writable now (Lookup t wi ri) = Some wk) by (unfold load_table; cbn [lk_table lk_writable]; rewrite Nw; apply A1).
      assert (T3 : load_table lk_readonly now (Lookup t wi ri) = Some rk) by (unfold load_table; cbn [lk_table lk_readonly]; rewrite Nw; apply A2).
      destruct wi as [|i wi]; [destruct ri as [|j ri]|].
      * specialize (A1 more). specialize (A2 more). cbn in A1, A2. injection A1 as <-. injection A2 as <-. exists wl, rl. auto.
      * exists (wk :: wl), (rk :: rl). cbn [map all_some]. rewrite T2, T3, F1, F2. cbn [option_map concat]. rewrite F3, F4. auto.
      * exists (wk :: wl), (rk :: rl). cbn [map all_some]. rewrite T2, T3, F1, F2. cbn [option_map concat]. rewrite F3, F4. auto.
    + destruct wi as [|i wi]; [destruct ri as [|j ri]|]; [exact G|constructor; [right; discriminate|exact G]|constructor; [left; discriminate|exact G]].
    + intros k f I. apply B1 in I. destruct I as [I|(I1 & _ & P & _)].
      * apply B2 in I. destruct I as [I|(I1 & _ & P & _)].
        -- destruct (B3 _ _ I) as [I'|(Dr & [(W & I')|(W & I')])]; [left; exact I'|right; split; [exact Dr|left; split; [exact W|apply in_or_app; auto]]|
             right; split; [exact Dr|right; split; [exact W|apply in_or_app; auto]]].
        -- right. apply andb_prop in P. destruct P as (P & W). split; [exact P|]. right. split; [destruct (km_writable f); [discriminate|reflexivity]|apply in_or_app; auto].
      * right. apply andb_prop in P. destruct P as (P & W). split; [exact P|]. left. split; [exact W|apply in_or_app; auto].
    + intros k f I. auto.
    + intros N. specialize (C1 N). apply nodup_app in C1. destruct C1 as (N1 & Nw' & S1). specialize (C2 N1). apply nodup_app in C2. destruct C2 as (N2 & Nr' & S2). specialize (C3 N2).
      assert (K1 : forall k, In k (map fst rest' ++ ws' ++ rs') -> In k (map fst m2)).
      { intros k I. apply in_app_or in I. destruct I as [I|I]; [|apply in_app_or in I; destruct I as [I|I]].
        - apply in_map_iff in I. destruct I as ([k1 f1] & <- & I). apply (in_map fst) with (x := (k1, f1)). auto.
        - destruct (E3 _ I) as (f & If & _). apply (in_map fst) in If. exact If.
        - destruct (E3' _ I) as (f & If & _). apply (in_map fst) in If. exact If. }
      assert (K2 : forall k, In k (map fst m2) -> In k (map fst m1)).
      { intros k I. apply in_map_iff in I. destruct I as ([k1 f1] & <- & I). apply (in_map fst) with (x := (k1, f1)). auto. }
      assert (K3 : forall k, In k rk -> In k (map fst m1)).
      { intros k I. destruct (E2 _ I) as (f & If & _). apply (in_map fst) in If. exact If. }
      apply (Permutation_NoDup (l := wk ++ rk ++ (map fst rest' ++ ws' ++ rs'))).
      * transitivity (wk ++ (map fst rest' ++ ws' ++ rk ++ rs')).
        { apply Permutation_app_head. rewrite !app_assoc. apply Permutation_app_tail. rewrite <- app_assoc. apply Permutation_app_comm. }
        rewrite !app_assoc. do 2 apply Permutation_app_tail. rewrite <- !app_assoc. rewrite Permutation_app_comm. rewrite <- app_assoc. apply Permutation_app_head. apply Permutation_app_comm.
      * apply nodup_app. split; [exact Nw'|]. split; [apply nodup_app; split; [exact Nr'|split; [exact C3|]]|].
        -- intros k I J. exact (S2 _ (K1 _ J) I).
        -- intros k I J. apply in_app_or in J. destruct J as [J|J]; refine (S1 _ _ I); auto.
    + intros k I. apply in_app_or in I. destruct I as [I|I].
      * destruct (E1 _ I) as (f & If & P). apply andb_prop in P. exists f. intuition.
      * destruct (E3 _ I) as (f & If & P). exists f. intuition.
    + intros k I. apply in_app_or in I. destruct I as [I|I].
      * destruct (E2 _ I) as (f & If & P). apply andb_prop in P. destruct P as (P & W). exists f. split; [auto|]. split; [exact P|]. destruct (km_writable f); [discriminate|reflexivity].
      * destruct (E3' _ I) as (f & If & P). exists f. intuition.
    + rewrite !app_length. lia.
    + intros k f I Dr t' en' [E|J]; [injection E as <- <-|exact (Q3 _ _ I Dr _ _ J)]. pose proof (I3 _ _ I) as I2. destruct (km_writable f) eqn:W.
      * apply (Q1 k f (M2 _ _ I2)). unfold drainable in Dr. rewrite Dr, W. reflexivity.
      * apply (Q2 k f I2). unfold drainable in Dr. rewrite Dr, W. reflexivity.
    + destruct m as [|[k f] m]; [exact I|]. intros S. destruct H1 as (r1 & ->); [rewrite S; reflexivity|]. destruct H2 as (r2 & ->); [rewrite S; reflexivity|]. exact (H3 S).
Qed.
Lemma extract_total tables m : Forall (fun t => length (snd t) <= 256) tables -> exists r, extract tables m = Some r.
Proof.
  intros F. revert m. induction F as [|[t en] tables L F IH]; intros m; cbn [Compress.extract]; [eauto|]. cbn [snd] in L.
  destruct (drain_total (fun f => negb (km_signer f) && negb (km_invoked f) && km_writable f) en m L) as ([[wi wk] m1] & ->).
  destruct (drain_total (fun f => negb (km_signer f) && negb (km_invoked f) && negb (km_writable f)) en m1 L) as ([[ri rk] m2] & ->).
  destruct (IH m2) as ([[[ls ws] rs] rest] & ->). eauto.
Qed.

(** Drained keys are in some table. *)
Lemma extract_origin tables m ls ws rs rest : extract tables m = Some (ls, ws, rs, rest) -> forall k, In k ws \/ In k rs -> exists t en, In (t, en) tables /\ In k en.
Proof.
  revert m ls ws rs rest. induction tables as [|[t en] tables IH]; intros m ls ws rs rest; cbn [Compress.extract].
  - intros E. injection E as <- <- <- <-. intros k [[]|[]].
  - destruct (drain _ en m) as [[[wi wk] m1]|] eqn:D1; [|discriminate]. destruct (drain _ en m1) as [[[ri rk] m2]|] eqn:D2; [|discriminate].
    destruct (extract tables m2) as [[[[ls' ws'] rs'] rest']|] eqn:X; [|discriminate]. intros E. injection E as <- <- <- <-. intros k J.
    assert (Z : In k wk \/ In k rk \/ (In k ws' \/ In k rs')) by (destruct J as [J|J]; apply in_app_or in J; tauto).
    assert (En : forall is ks, all_some (map (nth_error (en ++ [])) is) = Some ks -> In k ks -> In k en).
    { clear. rewrite app_nil_r. induction is as [|i is IH]; intros ks; cbn [map all_some]; [intros E; injection E as <-; intros []|]. destruct (nth_error en i) as [k'|] eqn:N; [|discriminate].
      destruct (all_some _) as [ks'|]; [|discriminate]. cbn [option_map]. intros E. injection E as <-. intros [<-|I]; [eapply nth_error_In; eauto|eauto]. }
    destruct Z as [Z|[Z|Z]].
    + exists t, en. split; [left; reflexivity|]. destruct (drain_spec _ _ _ _ _ _ D1) as (A & _). exact (En _ _ (A []) Z).
    + exists t, en. split; [left; reflexivity|]. destruct (drain_spec _ _ _ _ _ _ D2) as (A & _). exact (En _ _ (A []) Z).
    + destruct (IH _ _ _ _ _ X k Z) as (t' & en' & I1 & I2). exists t', en'. split; [right; exact I1|exact I2].
Qed.

(** [part] *)
Lemma part_in s w (m : keymap) (k : K) : In k (part s w m) <-> exists f, In (k, f) m /\ km_signer f = s /\ km_writable f = w.
Proof.
  unfold part. rewrite in_map_iff. split.
  - intros ([k' f] & <- & I). apply filter_In in I. destruct I as (I & E). apply andb_prop in E. destruct E as (E1 & E2). apply Bool.eqb_prop in E1, E2. eauto.
  - intros (f & I & E1 & E2). exists (k, f). split; [reflexivity|]. apply filter_In. split; [exact I|]. cbn [snd]. rewrite E1, E2, !Bool.eqb_reflx. reflexivity.
Qed.
Definition static_of (m : keymap) : list K := part true true m ++ part true false m ++ part false true m ++ part false false m.
Lemma static_perm (m : keymap) : Permutation (static_of m) (map fst m).
Proof.
  unfold static_of. induction m as [|[k f] m IH]; [reflexivity|]. unfold part in *. cbn [filter snd map fst]. destruct (km_signer f), (km_writable f); cbn [Bool.eqb andb map fst].
  - cbn [app]. constructor. exact IH.
  - rewrite <- IH. cbn [app]. symmetry. apply Permutation_middle.
  - rewrite <- IH. generalize (map fst (filter (fun e => Bool.eqb (km_signer (snd e)) true && Bool.eqb (km_writable (snd e)) true) m)) as a. intros a.
    generalize (map fst (filter (fun e => Bool.eqb (km_signer (snd e)) true && Bool.eqb (km_writable (snd e)) false) m)) as b. intros b.
    rewrite (app_assoc a b), (app_assoc a b). cbn [app]. symmetry. apply Permutation_middle.
  - rewrite <- IH. generalize (map fst (filter (fun e => Bool.eqb (km_signer (snd e)) true && Bool.eqb (km_writable (snd e)) true) m)) as a. intros a.
    generalize (map fst (filter (fun e => Bool.eqb (km_signer (snd e)) true && Bool.eqb (km_writable (snd e)) false) m)) as b. intros b.
    generalize (map fst (filter (fun e => Bool.eqb (km_signer (snd e)) false && Bool.eqb (km_writable (snd e)) true) m)) as c. intros c.
    rewrite (app_assoc a b), (app_assoc a b), (app_assoc (a ++ b) c), (app_assoc (a ++ b) c). symmetry. apply Permutation_middle.
Qed.

Lemma nth_split_app {A} (a b : list A) i x : nth_error (a ++ b) i = Some x -> (i < length a /\ In x a) \/ (length a <= i /\ nth_error b (i - length a) = Some x).
Proof.
  intros E. destruct (Nat.lt_ge_cases i (length a)) as [L|L].
  - left. rewrite nth_error_app1 in E by exact L. split; [exact L|eapply nth_error_In; eauto].
  - right. rewrite nth_error_app2 in E by exact L. auto.
Qed.

Lemma distinct_nodup l : distinct eq_dec l = true <-> NoDup l.
Proof.
  induction l as [|k l IH]; cbn [distinct]; [split; [constructor|reflexivity]|]. rewrite andb_true_iff, IH, negb_true_iff. split.
  - intros (E & N). constructor; [|exact N]. intros I. rewrite <- not_true_iff_false in E. apply E. apply existsb_exists. exists k. split; [exact I|]. destruct (eq_dec k k); congruence.
  - intros N. inversion_clear N as [|? ? N1 N2]. split; [|exact N2]. apply not_true_iff_false. intros E. apply existsb_exists in E. destruct E as (k' & I & E). destruct (eq_dec k k'); [congruence|discriminate].
Qed.

(** What is collected for one transaction. *)
Lemma any_uses payer l k p g : p (KeyMeta true true false) = true -> p (KeyMeta false false true) = false ->
  (forall a, p (KeyMeta (ac_signer a) (ac_writable a) false) = g a) -> any k p (uses payer l) = privileged eq_dec payer l g k.
Proof.
  intros P1 P2 P3. unfold any, uses, privileged. cbn [existsb fst snd]. rewrite P1. rewrite andb_true_r. f_equal.
  induction l as [|x l IH]; [reflexivity|]. cbn [flat_map existsb fst snd]. rewrite existsb_app. cbn [existsb fst snd app]. rewrite IH, P2, andb_false_r. cbn [orb]. f_equal.
  induction (cx_accounts x) as [|a r IHr]; [reflexivity|]. cbn [map existsb fst snd]. rewrite IHr, P3. reflexivity.
Qed.
Lemma collect_spec payer l : NoDup (map fst (collect (uses payer l))) /\
  (forall k, In k (map fst (collect (uses payer l))) <-> In k (keys_of payer l)) /\
  (forall k f, In (k, f) (collect (uses payer l)) -> km_signer f = privileged eq_dec payer l ac_signer k /\ km_writable f = privileged eq_dec payer l ac_writable k /\
     (km_invoked f = true <-> invoked l k)) /\
  (exists f m, collect (uses payer l) = (payer, f) :: m /\ km_signer f = true /\ km_writable f = true).
Proof.
  assert (N : NoDup (map fst (collect (uses payer l)))) by (apply (folded_nodup (uses payer l) []); constructor).
  split; [exact N|]. split; [|split].
  - intros k. unfold Compress.collect. rewrite (folded_keys (uses payer l) [] k). cbn [map In]. replace (map fst (uses payer l)) with (keys_of payer l); [tauto|].
    unfold uses, keys_of. cbn [map fst]. f_equal. induction l as [|x l IH]; [reflexivity|]. cbn [flat_map map fst app]. rewrite map_app, map_map. cbn [fst]. f_equal.
    f_equal. apply IH. apply (folded_nodup (uses payer l) []). constructor.
  - intros k f I. pose proof (in_get _ _ _ N I) as G.
    assert (Pc : forall p : keymeta -> bool, (forall a b, p (km_or a b) = p a || p b) -> p f = any k p (uses payer l)).
    { intros p P. rewrite (folded_get (uses payer l) [] k p P f G). cbn [get]. apply orb_false_r. }
    rewrite (Pc km_signer), (Pc km_writable), (Pc km_invoked) by reflexivity. split; [apply any_uses; reflexivity|]. split; [apply any_uses; reflexivity|].
    unfold any, uses. cbn [existsb fst snd km_invoked]. rewrite andb_false_r. cbn [orb]. unfold invoked. clear. induction l as [|x l IH]; cbn [flat_map existsb].
    + split; [discriminate|intros (x & [] & _)].
    + cbn [app existsb fst snd km_invoked]. rewrite existsb_app, orb_true_iff, orb_true_iff, IH, andb_true_r. split.
      * intros [E|[E|(y & I & E)]]; [exists x; split; [left; reflexivity|destruct (eq_dec k (cx_program x)); congruence]| |exists y; split; [right; exact I|exact E]].
        exfalso. induction (cx_accounts x) as [|a r IHr]; [discriminate|]. cbn [map existsb fst snd km_invoked] in E. rewrite andb_false_r in E. exact (IHr E).
      * intros (y & [<-|I] & E); [left; destruct (eq_dec k (cx_program x)); congruence|eauto].
  - destruct (folded_head (flat_map (fun x => (cx_program x, KeyMeta false false true) :: map (fun a => (ac_key a, KeyMeta (ac_signer a) (ac_writable a) false)) (cx_accounts x)) l)
      payer (KeyMeta true true false) []) as (f & m & E & S & W). exists f, m. split; [exact E|]. auto.
Qed.

Lemma compile_load payer l tables now g : grown tables now -> ~ invoked l payer -> compile payer l tables = Some g -> load g now = Some (payer, map (merged eq_dec payer l) l).
Proof.
  intros La Np. unfold Compress.compile. destruct (collect_spec payer l) as (N0 & Ks & Fl & (f0 & m0 & Hd & S0 & W0)). set (M := collect (uses payer l)) in *.
  destruct (extract tables M) as [[[[ls ws] rs] m]|] eqn:X; [|discriminate].
  destruct (extract_spec tables now M ls ws rs m La X) as ((wl & rl & F1 & F2 & F3 & F4) & G & B & I & C & E1 & E2 & L & Q & H).
  destruct (length m <=? 256); [|discriminate]. destruct (part true true m) as [|first more] eqn:Pm; [discriminate|]. destruct (eq_dec first payer) as [->|]; [|discriminate]. rewrite <- Pm.
  set (static := part true true m ++ part true false m ++ part false true m ++ part false false m). set (keys := static ++ ws ++ rs).
  destruct (length keys <=? 256) eqn:Lk; [|discriminate]. destruct (all_some (map (compile_ix eq_dec keys) l)) as [is|] eqn:Is; [|discriminate]. intros E. injection E as <-.
  assert (Nk : NoDup keys).
  { unfold keys. apply (Permutation_NoDup (l := map fst m ++ ws ++ rs)); [|exact (C N0)]. apply Permutation_app_tail. symmetry. apply static_perm. }
  unfold Compress.load. cbn [mg_signatures mg_ro_signed mg_ro_unsigned mg_static mg_lookups mg_ixs].
  replace (length (part true false m) <? length (part true true m) + length (part true false m)) with true by (symmetry; apply Nat.ltb_lt; rewrite Pm; cbn [length]; lia).
  replace (length (part true true m) + length (part true false m) + length (part false false m) <=? length static) with true
    by (symmetry; apply Nat.leb_le; unfold static; rewrite !app_length; lia).
  replace (forallb _ ls) with true.
  2:{ symmetry. apply forallb_forall. intros x Ix. rewrite Forall_forall in G. destruct (G _ Ix) as [A|A]; destruct (lk_writable x), (lk_readonly x); try reflexivity; elim A; reflexivity. }
  unfold load_keys. cbn [mg_lookups mg_static]. rewrite F1, F2, F3, F4. fold keys. rewrite Lk. replace (distinct eq_dec keys) with true by (symmetry; apply distinct_nodup; exact Nk).
  cbn [andb]. replace (nth_error keys 0) with (Some payer) by (unfold keys, static; rewrite Pm; reflexivity).
  set (g := Message _ _ _ static is ls).
  (* the position of a key tells its privileges *)
  assert (Pos : forall k i, nth_error keys i = Some k -> load_account g keys (length static) (length ws) i =
            Some (Account k (privileged eq_dec payer l ac_signer k) (privileged eq_dec payer l ac_writable k)) /\ (invoked l k -> i < length static)).
  { intros k i E. unfold load_account. rewrite E. cbn [mg_signatures mg_ro_signed mg_ro_unsigned g].
    assert (Uq : forall f f', In (k, f) M -> In (k, f') M -> f = f').
    { intros f f' A A'. pose proof (in_get _ _ _ N0 A). pose proof (in_get _ _ _ N0 A'). congruence. }
    assert (Kn : forall f, In (k, f) M -> privileged eq_dec payer l ac_signer k = km_signer f /\ privileged eq_dec payer l ac_writable k = km_writable f).
    { intros f A. destruct (Fl _ _ A) as (-> & -> & _). auto. }
    pose proof E as E'. unfold keys, static in E'. rewrite <- !app_assoc in E'.
    assert (Ls : length static = length (part true true m) + length (part true false m) + length (part false true m) + length (part false false m)) by (unfold static; rewrite !app_length; lia).
    apply nth_split_app in E'. destruct E' as [(L1 & J)|(L1 & E')].
    { apply part_in in J. destruct J as (f & J & Sf & Wf). destruct (Kn _ (I _ _ J)) as (-> & ->). rewrite Sf, Wf. replace (i <? _ + _) with true by (symmetry; apply Nat.ltb_lt; lia).
      replace (i <? _ - _) with true by (symmetry; apply Nat.ltb_lt; lia). split; [reflexivity|lia]. }
    apply nth_split_app in E'. destruct E' as [(L2 & J)|(L2 & E')].
    { apply part_in in J. destruct J as (f & J & Sf & Wf). destruct (Kn _ (I _ _ J)) as (-> & ->). rewrite Sf, Wf. replace (i <? _ + _) with true by (symmetry; apply Nat.ltb_lt; lia).
      replace (i <? _ - _) with false by (symmetry; apply Nat.ltb_ge; lia). split; [reflexivity|lia]. }
    replace (i <? length (part true true m) + length (part true false m)) with false by (symmetry; apply Nat.ltb_ge; lia).
    apply nth_split_app in E'. destruct E' as [(L3 & J)|(L3 & E')].
    { apply part_in in J. destruct J as (f & J & Sf & Wf). destruct (Kn _ (I _ _ J)) as (-> & ->). rewrite Sf, Wf. replace (i <? length static) with true by (symmetry; apply Nat.ltb_lt; lia).
      replace (i <? _ - _) with true by (symmetry; apply Nat.ltb_lt; lia). split; [reflexivity|lia]. }
    apply nth_split_app in E'. destruct E' as [(L4 & J)|(L4 & E')].
    { apply part_in in J. destruct J as (f & J & Sf & Wf). destruct (Kn _ (I _ _ J)) as (-> & ->). rewrite Sf, Wf. replace (i <? length static) with true by (symmetry; apply Nat.ltb_lt; lia).
      replace (i <? _ - _) with false by (symmetry; apply Nat.ltb_ge; lia). split; [reflexivity|lia]. }
    replace (i <? length static) with false by (symmetry; apply Nat.ltb_ge; lia).
    assert (Ni : forall f, In (k, f) M -> drainable f = true -> invoked l k -> False).
    { intros f A D V. destruct (Fl _ _ A) as (_ & _ & V'). apply V' in V. unfold drainable in D. rewrite V in D. destruct (km_signer f); discriminate. }
    assert (Sg : forall f, drainable f = true -> km_signer f = false) by (intros f D; unfold drainable in D; destruct (km_signer f); [discriminate|reflexivity]).
    apply nth_split_app in E'. destruct E' as [(L5 & J)|(L5 & E')].
    { destruct (E1 _ J) as (f & Jf & Df & Wf). destruct (Kn _ Jf) as (-> & ->). rewrite (Sg _ Df), Wf. replace (i <? _ + _) with true by (symmetry; apply Nat.ltb_lt; lia). split; [reflexivity|intros V; destruct (Ni _ Jf Df V)]. }
    apply nth_error_In in E'. destruct (E2 _ E') as (f & Jf & Df & Wf). destruct (Kn _ Jf) as (-> & ->). rewrite (Sg _ Df), Wf. replace (i <? _ + _) with false by (symmetry; apply Nat.ltb_ge; lia).
    split; [reflexivity|intros V; destruct (Ni _ Jf Df V)]. }
  assert (One : forall x y, In x l -> compile_ix eq_dec keys x = Some y -> load_ix g keys (length static) (length ws) y = Some (merged eq_dec payer l x)).
  { intros x y Ix E. unfold compile_ix in E. destruct (index_of (cx_program x) keys) as [p|] eqn:Ep; [|discriminate]. destruct (all_some (map (fun a => index_of (ac_key a) keys) (cx_accounts x))) as [js|] eqn:Ej; [|discriminate]. injection E as <-.
    apply index_nth in Ep. unfold load_ix. assert (V : invoked l (cx_program x)) by (exists x; auto). pose proof (proj2 (Pos _ _ Ep) V) as Lp.
    assert (0 < p). { destruct p; [|lia]. exfalso. apply Np. unfold keys, static in Ep. rewrite Pm in Ep. cbn in Ep. replace payer with (cx_program x) by congruence. exact V. }
    replace (0 <? p) with true by (symmetry; apply Nat.ltb_lt; lia). replace (p <? length static) with true by (symmetry; apply Nat.ltb_lt; lia). cbn [andb]. rewrite Ep.
    replace (all_some (map (load_account g keys (length static) (length ws)) js)) with
      (Some (map (fun a => Account (ac_key a) (privileged eq_dec payer l ac_signer (ac_key a)) (privileged eq_dec payer l ac_writable (ac_key a))) (cx_accounts x))); [reflexivity|].
    symmetry. revert js Ej. induction (cx_accounts x) as [|a r IHr]; intros js; cbn [map all_some].
    - intros E. injection E as <-. reflexivity.
    - destruct (index_of (ac_key a) keys) as [i|] eqn:Ei; [|discriminate]. destruct (all_some (map (fun a => index_of (ac_key a) keys) r)) as [js'|]; [|discriminate]. cbn [option_map]. intros E. injection E as <-.
      cbn [map all_some]. apply index_nth in Ei. rewrite (proj1 (Pos _ _ Ei)), (IHr _ eq_refl). reflexivity. }
  replace (all_some (map (load_ix g keys (length static) (length ws)) is)) with (Some (map (merged eq_dec payer l) l)); [reflexivity|]. symmetry.
  revert One. generalize (load_ix g keys (length static) (length ws)) as ld. generalize (merged eq_dec payer l) as h. intros h ld One. clear - Is One. clearbody keys. revert is Is. induction l as [|x r IHr]; intros is; cbn [map all_some].
  - intros E. injection E as <-. reflexivity.
  - destruct (compile_ix eq_dec keys x) as [y|] eqn:Ey; [|discriminate]. destruct (all_some (map (compile_ix eq_dec keys) r)) as [is'|]; [|discriminate]. cbn [option_map]. intros E. injection E as <-.
    cbn [map all_some]. rewrite (One _ _ (or_introl eq_refl) Ey). rewrite (IHr (fun x y J => One x y (or_intror J)) _ eq_refl). reflexivity.
Qed.

(** It compiles exactly if there are at most 256 keys. *)
Lemma compile_iff payer l tables : Forall (fun t => length (snd t) <= 256) tables -> (compile payer l tables <> None <-> length (nodup eq_dec (keys_of payer l)) <= 256).
Proof.
  intros F. unfold Compress.compile. destruct (collect_spec payer l) as (N0 & Ks & Fl & (f0 & m0 & Hd & S0 & W0)). set (M := collect (uses payer l)) in *.
  assert (Lm : length M = length (nodup eq_dec (keys_of payer l))).
  { rewrite <- (map_length fst). apply Permutation_length. apply NoDup_Permutation; [exact N0|apply NoDup_nodup|]. intros k. rewrite nodup_In. apply Ks. }
  destruct (extract_total tables M F) as ([[[ls ws] rs] m] & X). rewrite X. set (now := fun t => option_map snd (find (fun e => if eq_dec t (fst e) then true else false) tables)).
  clear now. pose proof X as X'.
  assert (Sp : exists f r, m = (payer, f) :: r /\ km_signer f = true /\ km_writable f = true /\ length M = length m + length ws + length rs /\
            (forall k f, In (k, f) M -> In (k, f) m \/ (In k ws \/ In k rs))).
  { (* the tables' addresses play no role here *)
    assert (Rn : forall tabs m1 ls1 ws1 rs1 r1, extract tabs m1 = Some (ls1, ws1, rs1, r1) -> (match m1 with (k, f) :: _ => km_signer f = true -> exists r, r1 = (k, f) :: r | [] => True end) /\
        length m1 = length r1 + length ws1 + length rs1 /\ (forall k f, In (k, f) m1 -> In (k, f) r1 \/ (In k ws1 \/ In k rs1))).
    { clear. induction tabs as [|[t en] tabs IH]; intros m1 ls1 ws1 rs1 r1; cbn [Compress.extract].
      - intros E. injection E as <- <- <- <-. split; [destruct m1 as [|[]]; eauto|]. split; [cbn; lia|auto].
      - destruct (drain _ en m1) as [[[wi wk] m2]|] eqn:D1; [|discriminate]. destruct (drain _ en m2) as [[[ri rk] m3]|] eqn:D2; [|discriminate].
        destruct (extract tabs m3) as [[[[ls' ws'] rs'] rest']|] eqn:X; [|discriminate]. intros E. injection E as <- <- <- <-.
        destruct (drain_spec _ _ _ _ _ _ D1) as (_ & B1 & _ & _ & L1 & _ & H1). destruct (drain_spec _ _ _ _ _ _ D2) as (_ & B2 & _ & _ & L2 & _ & H2). destruct (IH _ _ _ _ _ X) as (H3 & L3 & B3).
        split; [|split].
        + destruct m1 as [|[k f] m1]; [exact I|]. intros S. destruct H1 as (q1 & ->); [rewrite S; reflexivity|]. destruct H2 as (q2 & ->); [rewrite S; reflexivity|]. exact (H3 S).
        + rewrite !app_length. lia.
        + intros k f J. apply B1 in J. destruct J as [J|(J & _)]; [|right; left; apply in_or_app; auto]. apply B2 in J. destruct J as [J|(J & _)]; [|right; right; apply in_or_app; auto].
          destruct (B3 _ _ J) as [J'|[J'|J']]; [auto|right; left; apply in_or_app; auto|right; right; apply in_or_app; auto]. }
    destruct (Rn _ _ _ _ _ _ X) as (R1 & R2 & R3). rewrite Hd in R1. destruct (R1 S0) as (r & ->). exists f0, r. auto. }
  destruct Sp as (f & r & -> & Sf & Wf & Lr & Al).
  set (m := (payer, f) :: r) in *. set (keys := (part true true m ++ part true false m ++ part false true m ++ part false false m) ++ ws ++ rs).
  assert (Lk : length keys = length M).
  { unfold keys. rewrite app_length, (app_length ws rs). pose proof (Permutation_length (static_perm m)) as Lp. unfold static_of in Lp. rewrite Lp, map_length. lia. }
  assert (Pm : exists more, part true true m = payer :: more) by (unfold part, m; cbn [filter snd]; rewrite Sf, Wf; cbn; eauto). destruct Pm as (more & Pm). rewrite Pm.
  destruct (eq_dec payer payer) as [_|]; [|congruence]. rewrite <- Pm. fold keys. rewrite Lk, Lm.
  destruct (length (nodup eq_dec (keys_of payer l)) <=? 256) eqn:Le.
  2:{ apply Nat.leb_gt in Le. split; [|lia]. destruct (length m <=? 256); congruence. }
  apply Nat.leb_le in Le. replace (length m <=? 256) with true by (symmetry; apply Nat.leb_le; lia). split; [auto|intros _].
  assert (Ik : forall k, In k (keys_of payer l) -> exists i, index_of k keys = Some i).
  { intros k J. apply index_some. apply Ks in J. apply in_map_iff in J. destruct J as ([k' f'] & <- & J). cbn [fst]. unfold keys. destruct (Al _ _ J) as [J'|J'].
    - apply in_or_app. left. apply (Permutation_in (l := map fst m)); [symmetry; apply static_perm|]. apply (in_map fst) in J'. exact J'.
    - apply in_or_app. right. apply in_or_app. exact J'. }
  destruct (all_some (map (compile_ix eq_dec keys) l)) as [is|] eqn:Is; [discriminate|]. exfalso. revert Is.
  assert (Cx : forall x, In x l -> exists y, compile_ix eq_dec keys x = Some y).
  { intros x J. unfold compile_ix. destruct (Ik (cx_program x)) as (p & ->). { right. apply in_flat_map. exists x. split; [exact J|left; reflexivity]. }
    assert (Ja : forall a, In a (cx_accounts x) -> exists i, index_of (ac_key a) keys = Some i).
    { intros a Ja. apply Ik. right. apply in_flat_map. exists x. split; [exact J|right; apply in_map; exact Ja]. }
    assert (exists js, all_some (map (fun a => index_of (ac_key a) keys) (cx_accounts x)) = Some js) as (js & ->); [|eauto].
    induction (cx_accounts x) as [|a q IHq]; cbn [map all_some]; [eauto|]. destruct (Ja a (or_introl eq_refl)) as (i & ->). destruct IHq as (js & ->); [intros; apply Ja; right; assumption|]. cbn. eauto. }
  clear - Cx. intros Is. assert (exists is, all_some (map (compile_ix eq_dec keys) l) = Some is) as (is & E); [|congruence]. clear Is.
  induction l as [|x q IHq]; cbn [map all_some]; [eauto|]. destruct (Cx x (or_introl eq_refl)) as (y & ->). destruct IHq as (js & ->); [intros; apply Cx; right; assumption|]. cbn. eauto.
Qed.

(** The keys that stay in the message. *)
Lemma compile_static payer l tables now g : grown tables now -> compile payer l tables = Some g -> NoDup (mg_static g) /\
  forall k, In k (mg_static g) <-> In k (keys_of payer l) /\
    (privileged eq_dec payer l ac_signer k = true \/ invoked l k \/ forall t en, In (t, en) tables -> ~ In k en).
Proof.
  intros La. unfold Compress.compile. destruct (collect_spec payer l) as (N0 & Ks & Fl & _). set (M := collect (uses payer l)) in *.
  destruct (extract tables M) as [[[[ls ws] rs] m]|] eqn:X; [|discriminate].
  destruct (extract_spec tables now M ls ws rs m La X) as (_ & _ & B & I & C & E1 & E2 & L & Q & H).
  destruct (length m <=? 256); [|discriminate]. destruct (part true true m) as [|first more] eqn:Pm; [discriminate|]. destruct (eq_dec first payer) as [->|]; [|discriminate]. rewrite <- Pm.
  set (static := part true true m ++ part true false m ++ part false true m ++ part false false m).
  destruct (length _ <=? 256); [|discriminate]. destruct (all_some _) as [is|]; [|discriminate]. intros E. injection E as <-. cbn [mg_static].
  assert (Sm : forall k, In k static <-> exists f, In (k, f) m).
  { intros k. split.
    - intros J. apply (Permutation_in _ (static_perm m)) in J. apply in_map_iff in J. destruct J as ([k' f] & <- & J). eauto.
    - intros (f & J). apply (Permutation_in (l := map fst m)); [symmetry; apply static_perm|]. apply (in_map fst) in J. exact J. }
  split.
  { apply (Permutation_NoDup (l := map fst m)); [symmetry; apply static_perm|]. specialize (C N0). apply nodup_app in C. tauto. }
  intros k. rewrite Sm. split.
  - intros (f & J). pose proof (I _ _ J) as JM. destruct (Fl _ _ JM) as (Es & _ & Ei). split; [apply Ks; apply (in_map fst) in JM; exact JM|].
    destruct (km_signer f) eqn:Sf; [left; congruence|]. destruct (km_invoked f) eqn:If; [right; left; apply Ei; reflexivity|]. right; right. apply (Q _ _ J). unfold drainable. rewrite Sf, If. reflexivity.
  - intros (J & P). apply Ks in J. apply in_map_iff in J. destruct J as ([k' f] & E & J). cbn in E. subst k'. destruct (B _ _ J) as [J'|(D & Dw)]; [eauto|]. exfalso.
    destruct (Fl _ _ J) as (Es & _ & Ei). unfold drainable in D. apply andb_prop in D. destruct D as (D1 & D2). destruct P as [P|[P|P]].
    + rewrite P in Es. rewrite Es in D1. discriminate.
    + apply Ei in P. rewrite P in D2. discriminate.
    + revert P. destruct (extract_origin tables M ls ws rs m X k) as (t & en & It & Ik); [tauto|]. intros P. exact (P _ _ It Ik).
Qed.

(** Its size. *)
Lemma extract_one tables m ls ws rs rest : length tables <= 1 -> extract tables m = Some (ls, ws, rs, rest) ->
  length m = length rest + length ws + length rs /\ length ls <= 1 /\
  list_sum (map (fun x : lookup_ K => 32 + shortvec (length (lk_writable x)) + length (lk_writable x) + shortvec (length (lk_readonly x)) + length (lk_readonly x)) ls) <=
    32 + shortvec (length ws) + length ws + shortvec (length rs) + length rs.
Proof.
  intros L. destruct tables as [|[t en] [|]]; [| |cbn in L; lia]; cbn [Compress.extract].
  - intros E. injection E as <- <- <- <-. cbn. lia.
  - destruct (drain _ en m) as [[[wi wk] m1]|] eqn:D1; [|discriminate]. destruct (drain _ en m1) as [[[ri rk] m2]|] eqn:D2; [|discriminate].
    intros E. rewrite !app_nil_r in E. injection E as <- <- <- <-.
    destruct (drain_spec _ _ _ _ _ _ D1) as (A1 & _ & _ & _ & L1 & _). destruct (drain_spec _ _ _ _ _ _ D2) as (A2 & _ & _ & _ & L2 & _).
    destruct (all_some_inv _ _ _ (A1 [])) as (Q1 & _). destruct (all_some_inv _ _ _ (A2 [])) as (Q2 & _). rewrite Q1, Q2. split; [lia|].
    destruct wi as [|i wi], ri as [|j ri]; cbn [length map list_sum fold_right lk_writable lk_readonly]; lia.
Qed.

Lemma compile_size payer l tables g : length tables <= 1 -> compile payer l tables = Some g ->
  length (nodup eq_dec (keys_of payer l)) < 128 -> length l < 128 -> (forall x, In x l -> length (cx_accounts x) < 128 /\ length (cx_data x) < 128) ->
  wire_size g <= 74 + 64 * mg_signatures g + 31 * length (mg_static g) + length (nodup eq_dec (keys_of payer l)) +
    list_sum (map (fun x => 3 + length (cx_accounts x) + length (cx_data x)) l) /\
  length (mg_static g) <= length (nodup eq_dec (keys_of payer l)) /\
  mg_signatures g = length (nodup eq_dec (filter (privileged eq_dec payer l ac_signer) (keys_of payer l))).
Proof.
  intros Lt C Dl Ll Lx. assert (La : exists now, grown tables now).
  { destruct tables as [|[t en] [|]]; [exists (fun _ => None); intros ? ? []| |cbn in Lt; lia]. exists (fun _ => Some en). intros t' en' [E|[]]. injection E as <- <-. exists []. rewrite app_nil_r. reflexivity. }
  destruct La as (now & La). revert C. unfold Compress.compile. destruct (collect_spec payer l) as (N0 & Ks & Fl & _). set (M := collect (uses payer l)) in *.
  assert (Lm : length M = length (nodup eq_dec (keys_of payer l))).
  { rewrite <- (map_length fst). apply Permutation_length. apply NoDup_Permutation; [exact N0|apply NoDup_nodup|]. intros k. rewrite nodup_In. apply Ks. }
  destruct (extract tables M) as [[[[ls ws] rs] m]|] eqn:X; [|discriminate].
  destruct (extract_spec tables now M ls ws rs m La X) as (_ & _ & B & I & Cn & _). destruct (extract_one _ _ _ _ _ _ Lt X) as (L1 & L2 & L3).
  destruct (length m <=? 256); [|discriminate]. destruct (part true true m) as [|first more] eqn:Pm; [discriminate|]. destruct (eq_dec first payer) as [->|]; [|discriminate]. rewrite <- Pm.
  set (static := part true true m ++ part true false m ++ part false true m ++ part false false m). set (keys := static ++ ws ++ rs).
  destruct (length keys <=? 256); [|discriminate]. destruct (all_some (map (compile_ix eq_dec keys) l)) as [is|] eqn:Is; [|discriminate]. intros E. injection E as <-.
  assert (Ls : length static = length m) by (rewrite <- (map_length fst m); apply Permutation_length, static_perm).
  assert (Nst : NoDup static).
  { apply (Permutation_NoDup (l := map fst m)); [symmetry; apply static_perm|]. specialize (Cn N0). apply nodup_app in Cn. tauto. }
  cbn [mg_signatures mg_static]. split; [|split; [lia|]].
  - unfold wire_size. cbn [mg_signatures mg_static mg_ixs mg_lookups].
    assert (Sg : length (part true true m) + length (part true false m) <= length static) by (unfold static; rewrite !app_length; lia).
    assert (Si : length is = length l /\ list_sum (map (fun x : nat * list nat * bytes => 1 + shortvec (length (snd (fst x))) + length (snd (fst x)) + shortvec (length (snd x)) + length (snd x)) is) =
                 list_sum (map (fun x : cix K => 3 + length (cx_accounts x) + length (cx_data x)) l)).
    { clear - Is Lx. clearbody keys. revert is Is. induction l as [|x r IHr]; intros is; cbn [map all_some]; [intros E; injection E as <-; auto|].
      destruct (compile_ix eq_dec keys x) as [y|] eqn:Ey; [|discriminate]. destruct (all_some (map (compile_ix eq_dec keys) r)) as [is'|]; [|discriminate]. cbn [option_map]. intros E. injection E as <-.
      destruct (IHr (fun x J => Lx x (or_intror J)) _ eq_refl) as (Q1 & Q2). cbn [length map list_sum fold_right]. fold (list_sum (map (fun x : nat * list nat * bytes => 1 + shortvec (length (snd (fst x))) + length (snd (fst x)) + shortvec (length (snd x)) + length (snd x)) is')).
      fold (list_sum (map (fun x : cix K => 3 + length (cx_accounts x) + length (cx_data x)) r)). rewrite Q1, Q2. split; [reflexivity|]. f_equal.
      unfold compile_ix in Ey. destruct (index_of (cx_program x) keys); [|discriminate]. destruct (all_some (map (fun a => index_of (ac_key a) keys) (cx_accounts x))) as [js|] eqn:Ej; [|discriminate]. injection Ey as <-. cbn [fst snd].
      destruct (all_some_inv _ _ _ Ej) as (Lj & _). rewrite Lj. destruct (Lx x (or_introl eq_refl)) as (La & Ld). unfold shortvec.
      rewrite (proj2 (Nat.ltb_lt _ _) La), (proj2 (Nat.ltb_lt _ _) Ld). lia. }
    destruct Si as (Si1 & Si2). rewrite Si1. match goal with |- context [list_sum (map ?f is)] => change (list_sum (map f is)) with (list_sum (map (fun x : nat * list nat * bytes => 1 + shortvec (length (snd (fst x))) + length (snd (fst x)) + shortvec (length (snd x)) + length (snd x)) is)) end. rewrite Si2.
    assert (Sv : forall n, n < 128 -> shortvec n = 1) by (intros n Hn; unfold shortvec; rewrite (proj2 (Nat.ltb_lt _ _) Hn); reflexivity).
    rewrite (Sv (length ws)), (Sv (length rs)) in L3 by lia.
    rewrite (Sv (length l)), (Sv (length static)), (Sv (length ls)), (Sv (length (part true true m) + length (part true false m))) by lia.
    lia.
  - rewrite <- app_length. apply Permutation_length. apply NoDup_Permutation; [|apply NoDup_nodup|].
    + unfold static in Nst. rewrite app_assoc in Nst. apply nodup_app in Nst. tauto.
    + intros k. rewrite nodup_In, filter_In, in_app_iff, !part_in. split.
      * intros D. assert (exists f, In (k, f) m /\ km_signer f = true) as (f & J & S) by (destruct D as [(f & ? & ? & ?)|(f & ? & ? & ?)]; eauto).
        apply I in J. destruct (Fl _ _ J) as (E & _). split; [|congruence]. apply Ks. apply (in_map fst) in J. exact J.
      * intros (J & P). apply Ks in J. apply in_map_iff in J. destruct J as ([k' f] & E & J). cbn in E. subst k'. destruct (Fl _ _ J) as (E & _).
        destruct (B _ _ J) as [J'|(D & _)]; [|exfalso; unfold drainable in D; apply andb_prop in D; destruct D as (D & _); rewrite E, P in D; discriminate].
        destruct (km_writable f) eqn:W; [left|right]; exists f; repeat split; congruence.
Qed.

(** What is accepted. *)
Lemma all_some_each {A B} (f : A -> option B) l r : all_some (map f l) = Some r -> forall x, In x l -> f x <> None.
Proof.
  revert r. induction l as [|y l IH]; intros r E x Hx; [contradiction|]. cbn [map all_some] in E. destruct (f y) eqn:F; [|discriminate].
  destruct (all_some (map f l)) eqn:G; [|discriminate]. destruct Hx as [->|Hx]; [congruence|exact (IH _ eq_refl x Hx)].
Qed.
Lemma load_accepts g now r : load g now = Some r ->
  (mg_ro_signed g < mg_signatures g)%nat /\ (mg_signatures g + mg_ro_unsigned g <= length (mg_static g))%nat /\
  (forall x, In x (mg_lookups g) -> (lk_writable x <> [] \/ lk_readonly x <> []) /\ now (lk_table x) <> None) /\
  exists keys n w, load_keys g now = Some (keys, n, w) /\ (length keys <= 256)%nat /\ NoDup keys /\ nth_error keys 0 = Some (fst r).
Proof.
  unfold load. destruct (_ && _ && _) eqn:C; [|discriminate]. apply andb_prop in C as (C & C3). apply andb_prop in C as (C1 & C2). apply Nat.ltb_lt in C1. apply Nat.leb_le in C2.
  destruct (load_keys g now) as [[[keys n] w]|] eqn:L; [|discriminate]. destruct (_ && _) eqn:D; [|discriminate]. apply andb_prop in D as (D1 & D2). apply Nat.leb_le in D1. apply distinct_nodup in D2.
  destruct (nth_error keys 0) as [p|] eqn:P; [|discriminate]. destruct (all_some _) as [l|]; [|discriminate]. intros E. injection E as <-. cbn [fst].
  split; [exact C1|]. split; [exact C2|]. split; [|exists keys, n, w; auto]. intros x Hx. split.
  - pose proof (proj1 (forallb_forall _ _) C3 x Hx) as Q. cbv beta in Q. destruct (lk_writable x); [|left; discriminate]. destruct (lk_readonly x); [discriminate|right; discriminate].
  - unfold load_keys in L. destruct (all_some (map (load_table lk_writable now) (mg_lookups g))) as [ws|] eqn:W; [|discriminate].
    pose proof (all_some_each _ _ _ W x Hx) as Q. unfold load_table in Q. destruct (now (lk_table x)); [discriminate|contradiction].
Qed.
End Facts.

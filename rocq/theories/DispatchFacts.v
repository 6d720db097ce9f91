(** * Proofs about instruction data. *)
From Coq Require Import String.
From Verif Require Export SpecDispatch.
From Verif Require Import BytesFacts AccountsFacts.
Import ListNotations.
Local Open Scope Z_scope.
Local Strategy 1000 [sha256].

(** A codec reads back exactly what it writes. *)
Definition exactc {A} (c : codec A) (wf : A -> Prop) : Prop := forall l a r, c_dec c l = Some (a, r) <-> wf a /\ l = c_enc c a ++ r.
Lemma law_exact {A} (c : codec A) P : law c P -> (forall l a r, c_dec c l = Some (a, r) -> P a /\ l = c_enc c a ++ r) -> exactc c P.
Proof. intros L I l a r. split; [apply I|]. intros (W & ->). apply L. exact W. Qed.
Lemma exact_u n : exactc (c_u n) (fun z => 0 <= z < 256 ^ Z.of_nat n).
Proof. apply law_exact; [apply law_u|]. intros l a r E. cbn [c_dec c_u] in E. apply le_u_inv in E. tauto. Qed.
Lemma exact_weaken {A} (c : codec A) (P Q : A -> Prop) : exactc c P -> (forall a, Q a <-> P a) -> exactc c Q.
Proof. intros E K l a r. rewrite K. apply E. Qed.
Lemma exact_u8 : exactc c_u8 is_u8. Proof. eapply exact_weaken; [apply exact_u|]. intros a. apply u8_pow. Qed.
Lemma exact_u16 : exactc c_u16 is_u16. Proof. eapply exact_weaken; [apply exact_u|]. intros a. apply u16_pow. Qed.
Lemma exact_u64 : exactc c_u64 is_u64. Proof. eapply exact_weaken; [apply exact_u|]. intros a. apply u64_pow. Qed.
Lemma exact_u32 : exactc c_u32 is_u32. Proof. eapply exact_weaken; [apply exact_u|]. intros a. rewrite pow256_4. unfold is_u32. lia. Qed.
Lemma exact_b32 : exactc c_b32 is32.
Proof. apply law_exact; [apply law_b32|]. intros l a r E. cbn [c_dec c_b32] in E. apply take_inv in E. unfold is32. cbn [c_enc c_b32]. tauto. Qed.
Lemma one_byte (l : bytes) : List.length l = 1%nat -> exists b, l = [b].
Proof. destruct l as [|b [|]]; try discriminate. eauto. Qed.
Lemma exact_bool : exactc c_bool (fun _ => True).
Proof.
  apply law_exact; [apply law_bool|]. intros l a r E. split; [exact I|]. cbn [c_dec c_bool] in E. apply rbind_Some in E as (t & l1 & E1 & E2).
  apply take_inv in E1 as (-> & L). apply one_byte in L as (b & ->). destruct b; try discriminate; apply Some_inj in E2; injection E2 as <- <-; reflexivity.
Qed.
Lemma exact_mode : exactc c_mode (fun _ => True).
Proof.
  apply law_exact; [apply law_mode|]. intros l a r E. split; [exact I|]. cbn [c_dec c_mode] in E. apply rbind_Some in E as (t & l1 & E1 & E2).
  apply take_inv in E1 as (-> & L). apply one_byte in L as (b & ->). destruct b; try discriminate; apply Some_inj in E2; injection E2 as <- <-; reflexivity.
Qed.
Lemma exact_pair {A B} (a : codec A) (b : codec B) P Q : exactc a P -> exactc b Q -> exactc (a ** b) (fun p => P (fst p) /\ Q (snd p)).
Proof.
  intros Ea Eb l [x y] r. cbn [c_dec c_enc c_pair fst snd]. rewrite rbind_Some. split.
  - intros (x' & l1 & E1 & E2). apply rbind_Some in E2 as (y' & l2 & E2 & E3). apply Some_inj in E3. injection E3 as -> -> ->.
    apply Ea in E1 as (Px & ->). apply Eb in E2 as (Qy & ->). rewrite <- app_assoc. auto.
  - intros ((Px & Qy) & ->). exists x, (c_enc b y ++ r). split; [apply Ea; rewrite <- app_assoc; auto|]. apply rbind_Some. exists y, r. split; [apply Eb; auto|reflexivity].
Qed.
Lemma rmap_exact {A} (f : A -> gcall) c P l g r : exactc c P -> rmap f c l = Some (g, r) <-> exists a, g = f a /\ P a /\ l = c_enc c a ++ r.
Proof.
  intros E. unfold rmap. rewrite rbind_Some. split.
  - intros (a & l1 & E1 & E2). apply Some_inj in E2. injection E2 as <- <-. apply E in E1 as (Pa & ->). eauto.
  - intros (a & -> & Pa & ->). exists a, r. split; [apply E; auto|reflexivity].
Qed.

(** ** Tags *)
Fixpoint nodupb (l : list bytes) : bool := match l with [] => true | x :: l => negb (existsb (bytes_eqb x) l) && nodupb l end.
Lemma nodupb_ok l : nodupb l = true -> NoDup l.
Proof.
  induction l as [|x l IH]; cbn [nodupb]; [constructor|]. intros H. apply andb_prop in H as [H1 H2]. constructor; [|auto].
  intros Hin. apply Bool.negb_true_iff in H1. assert (K : existsb (bytes_eqb x) l = true) by (apply existsb_exists; exists x; rewrite bytes_eqb_refl; auto). congruence.
Qed.
Definition tags (p : program) : list bytes := map (fun e => ftag (fst e)) (functions p).
Lemma tags_distinct p : NoDup (IDL_TAG :: tags p).
Proof. apply nodupb_ok. destruct p; vm_compute; reflexivity. Qed.
Lemma tags_length p n r : In (n, r) (functions p) -> List.length (ftag n) = 8%nat.
Proof.
  intros Hin. assert (K : forallb (fun t => Nat.eqb (List.length t) 8) (tags p) = true) by (destruct p; vm_compute; reflexivity).
  rewrite forallb_forall in K. apply Nat.eqb_eq, K. apply in_map_iff. exists (n, r). auto.
Qed.
Lemma execute_length : List.length EXECUTE_TAG = 8%nat. Proof. vm_compute. reflexivity. Qed.
Lemma execute_new : find_function (functions AHook) EXECUTE_TAG = None.
Proof. vm_compute. reflexivity. Qed.

Lemma find_In l tag r : find_function l tag = Some r -> exists n, In (n, r) l /\ ftag n = tag.
Proof.
  induction l as [|[n r0] l IH]; cbn [find_function]; [discriminate|]. destruct (bytes_eqb (ftag n) tag) eqn:E.
  - intros H. apply Some_inj in H. subst r0. apply bytes_eqb_eq in E. exists n. split; [now left|exact E].
  - intros H. apply IH in H as (n' & Hin & Ht). exists n'. split; [now right|exact Ht].
Qed.
Lemma find_nodup l n r : NoDup (map (fun e => ftag (fst e)) l) -> In (n, r) l -> find_function l (ftag n) = Some r.
Proof.
  induction l as [|[n0 r0] l IH]; cbn [find_function map fst]; [intros _ []|]. intros N Hin. inversion N as [|? ? N1 N2]; subst. destruct Hin as [Q|Hin].
  - injection Q as -> ->. now rewrite bytes_eqb_refl.
  - destruct (bytes_eqb (ftag n0) (ftag n)) eqn:E; [|auto]. apply bytes_eqb_eq in E. exfalso. apply N1. rewrite E. apply in_map_iff. exists (n, r). auto.
Qed.

(** ** Entries *)
Ltac exacts := first [apply exact_u8|apply exact_u16|apply exact_u32|apply exact_u64|apply exact_b32|apply exact_bool|apply exact_mode|apply exact_pair; exacts].
Ltac entry_inv H :=
  first [ apply Some_inj in H; injection H as <- <-
        | eapply rmap_exact in H; [|exacts]; destruct H as (a & -> & Wa & ->);
          repeat match goal with x : (_ * _)%type |- _ => destruct x end; cbn [fst snd] in Wa ].
Lemma reads p n r l g rest : In (n, r) (functions p) -> r l = Some (g, rest) -> offered p g /\ wf_call g /\ name_of g = n /\ l = args_of g ++ rest.
Proof.
  destruct p; cbn [functions wormhole_functions app In]; intros Hin H;
    repeat match type of Hin with _ \/ _ => destruct Hin as [Hin|Hin] end; try contradiction; injection Hin as <- <-; entry_inv H;
    cbn [offered wf_call name_of args_of c_enc c_pair c_u8 c_u16 c_u32 c_u64 c_u c_b32 c_bool c_mode fst snd app flag];
    rewrite <- ?app_assoc; cbn [app]; tauto.
Qed.
Ltac pick := first [left; reflexivity|right; pick].
Lemma written p g : offered p g -> wf_call g -> exists r, In (name_of g, r) (functions p) /\ forall rest, r (args_of g ++ rest) = Some (g, rest).
Proof.
  intros O W.
  assert (P : forall c, In (name_of g, plain_call c) (functions p) -> g = c -> args_of g = [] ->
    exists r, In (name_of g, r) (functions p) /\ forall rest, r (args_of g ++ rest) = Some (g, rest)).
  { intros c Hin -> Ha. exists (plain_call c). split; [exact Hin|]. intros rest. rewrite Ha. reflexivity. }
  assert (R : forall A (f : A -> gcall) c (Q : A -> Prop) a, In (name_of g, rmap f c) (functions p) -> exactc c Q -> g = f a -> Q a -> args_of g = c_enc c a ->
    exists r, In (name_of g, r) (functions p) /\ forall rest, r (args_of g ++ rest) = Some (g, rest)).
  { intros A f c Q a Hin E -> Qa Ha. exists (rmap f c). split; [exact Hin|]. intros rest. apply (rmap_exact _ _ _ _ _ _ E). exists a. rewrite Ha. auto. }
  destruct g; cbn [offered name_of wf_call] in *; repeat match goal with K : _ \/ _ |- _ => destruct K | K : _ = _ |- _ => subst p end;
  cbn [functions wormhole_functions app] in *;
  first [ eapply P; [cbn [In]; pick|reflexivity|reflexivity]
        | eapply R; [cbn [In]; pick|exacts| | |];
          first [ match goal with |- _ ?a ?b ?c ?d = _ => instantiate (1 := (a, (b, (c, d)))); reflexivity end
                | match goal with |- _ ?a ?b ?c = _ => instantiate (1 := (a, (b, c))); reflexivity end
                | match goal with |- _ ?a ?b = _ => instantiate (1 := (a, b)); reflexivity end
                | reflexivity
                | cbn [fst snd]; tauto ] ].
Qed.

Lemma split8 (h l : bytes) : List.length h = 8%nat -> firstn 8 (h ++ l) = h /\ skipn 8 (h ++ l) = l /\ (8 <=? List.length (h ++ l))%nat = true.
Proof.
  intros L. rewrite firstn_app, skipn_app, (firstn_all2 h), (skipn_all2 h), L, Nat.sub_diag by lia. cbn [firstn skipn app]. rewrite app_nil_r.
  rewrite app_length, L. auto.
Qed.

Lemma dispatch_exact p data g : dispatch p data = Some g <-> offered p g /\ wf_call g /\ data_of g data.
Proof.
  unfold dispatch. split.
  - intros H. destruct (8 <=? List.length data)%nat eqn:L; [|discriminate]. destruct (find_function _ _) as [r|] eqn:F.
    + apply find_In in F as (n & Hin & Ht). destruct (r (skipn 8 data)) as [[g' rest]|] eqn:R; [|discriminate]. cbn [option_map fst] in H. apply Some_inj in H. subst g'.
      destruct (reads _ _ _ _ _ _ Hin R) as (O & W & N & A). split; [exact O|]. split; [exact W|]. exists (ftag n), rest. split; [left; rewrite N; reflexivity|].
      rewrite <- A, Ht. symmetry. apply firstn_skipn.
    + clear F. destruct p; try discriminate H. cbn [fallback] in H. destruct (bytes_eqb (firstn 8 data) EXECUTE_TAG) eqn:Ex; [|discriminate]. apply bytes_eqb_eq in Ex.
      destruct (rmap HTransferHook c_u64 (skipn 8 data)) as [[g' rest]|] eqn:R; [|discriminate]. cbn [option_map fst] in H. apply Some_inj in H. subst g'.
      apply (rmap_exact _ _ _ _ _ _ exact_u64) in R as (a & -> & Wa & A). split; [reflexivity|]. split; [exact Wa|]. exists EXECUTE_TAG, rest.
      split; [right; split; [eauto|reflexivity]|]. change (args_of (HTransferHook a)) with (c_enc c_u64 a). rewrite <- A, <- Ex. symmetry. apply firstn_skipn.
  - intros (O & W & h & rest & Hh & ->). destruct (written _ _ O W) as (r & Hin & Hr). destruct Hh as [Hh|((a & ->) & Hh)].
    + change (h = ftag (name_of g)) in Hh. subst h. destruct (split8 (ftag (name_of g)) (args_of g ++ rest) (tags_length _ _ _ Hin)) as (S1 & S2 & S3).
      rewrite S1, S2, S3. rewrite (find_nodup _ _ _ (proj2 (proj1 (NoDup_cons_iff _ _) (tags_distinct p))) Hin), Hr. reflexivity.
    + change (h = EXECUTE_TAG) in Hh. cbn [offered] in O. subst h p. destruct (split8 EXECUTE_TAG (args_of (HTransferHook a) ++ rest) execute_length) as (S1 & S2 & S3).
      rewrite S1, S2, S3, execute_new. cbn [fallback]. rewrite S1, S2, bytes_eqb_refl.
      destruct (rmap HTransferHook c_u64 (args_of (HTransferHook a) ++ rest)) as [[g r0]|] eqn:R.
      * apply (rmap_exact _ _ _ _ _ _ exact_u64) in R as (b & -> & Wb & E). cbn [option_map fst].
        assert (K : rmap HTransferHook c_u64 (args_of (HTransferHook a) ++ rest) = Some (HTransferHook a, rest)) by (apply (rmap_exact _ _ _ _ _ _ exact_u64); exists a; auto).
        rewrite E in K. rewrite (proj2 (rmap_exact HTransferHook c_u64 _ _ (HTransferHook b) r0 exact_u64)) in K by eauto. apply Some_inj in K. congruence.
      * assert (K : rmap HTransferHook c_u64 (args_of (HTransferHook a) ++ rest) = Some (HTransferHook a, rest)) by (apply (rmap_exact _ _ _ _ _ _ exact_u64); exists a; auto). congruence.
Qed.

(** No two calls share their data. *)
Lemma dispatch_unique p g g' data : offered p g -> wf_call g -> data_of g data -> offered p g' -> wf_call g' -> data_of g' data -> g = g'.
Proof.
  intros O W D O' W' D'. assert (A : dispatch p data = Some g) by (apply dispatch_exact; auto). assert (B : dispatch p data = Some g') by (apply dispatch_exact; auto). congruence.
Qed.

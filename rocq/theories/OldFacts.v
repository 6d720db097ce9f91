(** * Clients of earlier generations: proofs (C106). *)
From Coq Require Import String.
From Verif Require Export SpecOld IdlFacts TypesFacts.
From Verif Require Import Dispatch DispatchFacts Lut.
Import ListNotations.
Local Open Scope string_scope.
Local Open Scope list_scope.
Local Open Scope Z_scope.
Local Strategy 1000 [sha256].

Lemma old_types_same n p : p <> ATransceiver -> old_types n p = types p.
Proof. destruct n, p; intros N; try reflexivity; congruence. Qed.
Lemma entry_in {A} s (l : list (string * A)) x : entry_for s l = Some x -> In (s, x) l.
Proof.
  induction l as [|(n, a) l IH]; cbn [entry_for]; [discriminate|]. destruct (String.eqb n s) eqn:E; [apply String.eqb_eq in E; subst; intros H; injection H as <-; left; reflexivity|].
  intros H. right. apply IH, H.
Qed.
(** Each entry of an old table is the entry of that name in the new one. *)
Fixpoint ity_eqb (a b : ity) : bool :=
  match a, b with
  | IU n, IU m | IRaw n, IRaw m => Nat.eqb n m
  | II64, II64 | IBool, IBool | IKey, IKey => true
  | IOpt a, IOpt b => ity_eqb a b
  | INamed s, INamed t => String.eqb s t
  | _, _ => false
  end.
Lemma ity_eqb_eq a : forall b, ity_eqb a b = true -> a = b.
Proof.
  induction a; intros []; cbn [ity_eqb]; intros H; try discriminate; try reflexivity; try (apply Nat.eqb_eq in H; congruence); [f_equal; apply IHa, H|apply String.eqb_eq in H; congruence].
Qed.
Fixpoint fields_eqb (a b : list (string * ity)) : bool :=
  match a, b with [], [] => true | (s, x) :: a, (t, y) :: b => String.eqb s t && ity_eqb x y && fields_eqb a b | _, _ => false end.
Lemma fields_eqb_eq a : forall b, fields_eqb a b = true -> a = b.
Proof.
  induction a as [|(s, x) a IH]; intros [|(t, y) b]; cbn [fields_eqb]; intros H; try discriminate; [reflexivity|]. apply andb_prop in H as (H & F). apply andb_prop in H as (E & T).
  apply String.eqb_eq in E. apply ity_eqb_eq in T. rewrite (IH _ F). congruence.
Qed.
Definition within (a b : list (string * list (string * ity))) : bool :=
  forallb (fun e => match entry_for (fst e) b with Some fs => fields_eqb (snd e) fs | None => false end) a.
Lemma within_entry a b s fs : within a b = true -> entry_for s a = Some fs -> entry_for s b = Some fs.
Proof.
  intros W E. apply entry_in in E. pose proof (proj1 (forallb_forall _ _) W _ E) as X. cbn [fst snd] in X. destruct (entry_for s b); [|discriminate]. apply fields_eqb_eq in X. congruence.
Qed.
Lemma accounts_within n p : within (old_accounts n p) (accounts p) = true.
Proof. destruct n, p; vm_compute; reflexivity. Qed.
Lemma arguments_within n p : within (old_arguments n p) (arguments p) = true.
Proof. destruct n, p; vm_compute; reflexivity. Qed.

Lemma old_account n p k fs data (a : contents k) : entry_for (struct_name k) (old_accounts n p) = Some fs ->
  load k data = Some a <-> exists b rest, data = account_header (struct_name k) ++ b ++ rest /\ encodes_fields (old_types n p) fs (fields_of k a) b.
Proof.
  intros E. assert (N : p <> ATransceiver) by (intros ->; destruct n; discriminate E). rewrite (old_types_same _ _ N). apply published_account.
  apply (within_entry _ _ _ _ (accounts_within n p) E).
Qed.
Lemma old_call n p g data : old_data n p g data -> dispatch p data = Some g.
Proof.
  intros (fs & b & E & X & ->). assert (N : p <> ATransceiver) by (intros ->; destruct n; discriminate E). rewrite (old_types_same _ _ N) in X.
  apply published_call. exists fs, b, []. split; [apply (within_entry _ _ _ _ (arguments_within n p) E)|]. split; [exact X|]. left. now rewrite app_nil_r.
Qed.

Lemma old_list n g l acc : entry_for (fst (published g)) (old_lists n AManager) = Some l -> offered AManager g -> ~ (n = Gen1 /\ rearranged g) ->
  made l acc = made (interface AManager g) (fun s => acc (old_name n s)).
Proof.
  intros E O N. destruct n, g; try discriminate O; vm_compute in E; try discriminate E; try (exfalso; apply N; split; [reflexivity|exact I]);
    apply (f_equal (fun o => match o with Some x => x | None => l end)) in E; cbv beta iota in E; subst l; reflexivity.
Qed.
Lemma old_q_list n g l acc : entry_for (fst (published g)) (old_lists n AQuoter) = Some l -> offered AQuoter g -> q_made l acc = q_made_now (q_interface g) acc.
Proof.
  intros E O. destruct n, g; try (destruct O; discriminate); try discriminate O; vm_compute in E; try discriminate E;
    apply (f_equal (fun o => match o with Some x => x | None => l end)) in E; cbv beta iota in E; subst l; reflexivity.
Qed.

(** A transfer with the accounts of the first generation has the inbox rate limit where the system program must be. *)
Lemma old_transfer_refused nm ok H s g l acc rest data s' : old_data Gen1 AManager g data -> entry_for (fst (published g)) (old_lists Gen1 AManager) = Some l ->
  (exists a ch to q, g = GTransferLock a ch to q \/ g = GTransferBurn a ch to q) -> acc "inboxRateLimit" <> HA system_program ->
  entry nm ok H s AManager (made l acc ++ rest) data <> Ok s'.
Proof.
  intros D L T N E. pose proof (old_call _ _ _ _ D) as X. apply dispatch_exact in X as (O & W & Y).
  apply N. apply (entry_fixed _ _ _ _ _ PManager _ _ _ _ "common.systemProgram" _ _ E O W Y eq_refl).
  - destruct T as (a & ch & to & q & [-> | ->]); vm_compute in L; apply (f_equal (fun o => match o with Some x => x | None => l end)) in L; cbv beta iota in L; subst l;
      exists 8%nat; eexists; eexists; repeat split.
  - cbn. tauto.
Qed.
(** Payouts in burning mode lack the custody, which comes last now. *)
Lemma old_mint_refused nm ok H s r l acc data s' : old_data Gen1 AManager (GReleaseMint r) data -> entry_for "releaseInboundMint" (old_lists Gen1 AManager) = Some l ->
  entry nm ok H s AManager (made l acc) data <> Ok s'.
Proof.
  intros D L E. pose proof (old_call _ _ _ _ D) as X. apply dispatch_exact in X as (O & W & Y).
  destruct (entry_privileges _ _ _ _ _ _ _ _ _ 7%nat _ E O W Y eq_refl) as (m & M & _).
  vm_compute in L; apply (f_equal (fun o => match o with Some x => x | None => l end)) in L; cbv beta iota in L; subst l. discriminate M.
Qed.
Lemma old_mint_completed r l acc : entry_for "releaseInboundMint" (old_lists Gen1 AManager) = Some l ->
  made l acc ++ [Meta (acc "custody") false true] = made (interface AManager (GReleaseMint r)) (fun s => acc (old_name Gen1 s)).
Proof. intros L. vm_compute in L; apply (f_equal (fun o => match o with Some x => x | None => l end)) in L; cbv beta iota in L; subst l. reflexivity. Qed.

(** What is new. *)
Lemma old_offered n p g : offered p g -> p <> ATransceiver ->
  (exists fs, entry_for (fst (published g)) (old_arguments n p) = Some fs) \/ g = GMark \/ g = GTransferOwnershipOneStep \/ (n = Gen1 /\ exists z, g = GInitializeLut z).
Proof.
  intros O N. destruct g; try (destruct O as [-> | ->]; [|congruence]); try (cbn in O; subst p; try congruence); destruct n;
    first [left; eexists; vm_compute; reflexivity|right; left; reflexivity|right; right; left; reflexivity|right; right; right; split; [reflexivity|eexists; reflexivity]].
Qed.

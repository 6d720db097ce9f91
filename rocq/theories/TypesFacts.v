(** * Proofs about the types of the published interfaces. *)
From Coq Require Import String.
From Verif Require Export SpecTypes.
From Verif Require Import BytesFacts AccountsFacts DispatchFacts.
Import ListNotations.
Local Open Scope list_scope.
Local Open Scope Z_scope.
Local Strategy 1000 [sha256].

(** A codec reads what a type describes. *)
Definition fit {A} (D : list (string * idef)) (t : ity) (c : codec A) (v : A -> ival) : Prop :=
  forall l a r, c_dec c l = Some (a, r) <-> exists b, encodes D t (v a) b /\ l = b ++ r.
Definition fits {A} (D : list (string * idef)) (fs : list (string * ity)) (c : codec A) (f : A -> list (string * ival)) : Prop :=
  forall l a r, c_dec c l = Some (a, r) <-> exists b, encodes_fields D fs (f a) b /\ l = b ++ r.

Lemma fit_of {A} D t (c : codec A) v P : exactc c P -> (forall a b, encodes D t (v a) b <-> P a /\ b = c_enc c a) -> fit D t c v.
Proof.
  intros E K l a r. rewrite (E l a r). split; [intros (W & ->); exists (c_enc c a); split; [apply K; auto|reflexivity]|].
  intros (b & Eb & ->). apply K in Eb as (W & ->). auto.
Qed.
Lemma fit_u D n : fit D (IU n) (c_u n) VInt.
Proof.
  apply (fit_of _ _ _ _ _ (exact_u n)). intros z b. split; [intros E; inversion E; subst; auto|]. intros (W & ->). constructor. exact W.
Qed.
Lemma exact_i64 : exactc c_i64 is_i64.
Proof.
  apply law_exact; [apply law_i64|]. intros l a r E. cbn [c_dec c_i64] in E. apply rbind_Some in E as (x & l1 & E1 & E2). apply le_u_inv in E1 as (-> & X).
  unfold rret in E2. assert (Ea : a = if x <? 2 ^ 63 then x else x - 2 ^ 64) by congruence. assert (Er : l1 = r) by congruence. subst r. clear E2. cbn [c_enc c_i64].
  assert (X' : 0 <= x < 2 ^ 64) by exact X. clear X.
  assert (P64 : 2 ^ 64 = 18446744073709551616) by reflexivity. assert (P63 : 2 ^ 63 = 9223372036854775808) by reflexivity.
  split.
  - destruct (x <? 2 ^ 63) eqn:C; subst a; [apply Z.ltb_lt in C|apply Z.ltb_ge in C]; rewrite ?P64, ?P63 in *; unfold is_i64, i64_min, i64_max; lia.
  - f_equal. f_equal. symmetry. destruct (x <? 2 ^ 63) eqn:C; subst a; [apply Z.mod_small; exact X'|].
    replace (x - 2 ^ 64) with (x + (-1) * 2 ^ 64) by lia. rewrite Z.mod_add by lia. apply Z.mod_small. exact X'.
Qed.
Lemma fit_i64 D : fit D II64 c_i64 VInt.
Proof.
  apply (fit_of _ _ _ _ _ exact_i64). intros z b. split; [intros E; inversion E; subst; split; [unfold is_i64; ilia|reflexivity]|]. intros (W & ->). apply en_i64. unfold is_i64 in W. ilia.
Qed.
Lemma fit_bool D : fit D IBool c_bool VBool.
Proof.
  apply (fit_of _ _ _ _ _ exact_bool). intros z b. split; [intros E; inversion E; subst; auto|]. intros (_ & ->). destruct z; constructor.
Qed.
Lemma fit_key D : fit D IKey c_b32 VBytes.
Proof. apply (fit_of _ _ _ _ _ exact_b32). intros z b. split; [intros E; inversion E; subst; auto|]. intros (W & ->). constructor. exact W. Qed.
Lemma fit_raw D : fit D (IRaw 32) c_b32 VBytes.
Proof. apply (fit_of _ _ _ _ _ exact_b32). intros z b. split; [intros E; inversion E; subst; auto|]. intros (W & ->). constructor. exact W. Qed.
Lemma fit_option {A} D t (c : codec A) v : fit D t c v -> fit D (IOpt t) (c_option c) (fun o => match o with Some a => VSome (v a) | None => VNone end).
Proof.
  intros F l o r. cbn [c_dec c_option]. rewrite rbind_Some. split.
  - intros (x & l1 & E1 & E2). apply take_inv in E1 as (-> & L). apply one_byte in L as (b & ->). destruct b; try discriminate E2.
    + apply Some_inj in E2. injection E2 as <- <-. exists [x00]. split; [constructor|reflexivity].
    + apply rbind_Some in E2 as (a & l2 & E2 & E3). apply Some_inj in E3. injection E3 as <- <-. apply F in E2 as (b & Eb & ->). exists (x01 :: b). split; [constructor; exact Eb|reflexivity].
  - intros (b & Eb & ->). destruct o as [a|]; inversion Eb; subst.
    + exists [x01], (b0 ++ r). split; [reflexivity|]. apply rbind_Some. exists a, r. split; [apply F; eauto|reflexivity].
    + exists [x00], r. split; reflexivity.
Qed.
Lemma fits_one {A} D n t (c : codec A) v : fit D t c v -> fits D [(n, t)] c (fun a => [(n, v a)]).
Proof.
  intros F l a r. rewrite (F l a r). split; intros (b & Eb & ->).
  - exists (b ++ []). rewrite app_nil_r. split; [|reflexivity]. rewrite <- (app_nil_r b). constructor; [exact Eb|constructor].
  - inversion Eb as [|n' t' v' fs' vs' b1 c1 E1 E2]; subst. inversion E2; subst. exists b1. rewrite app_nil_r. auto.
Qed.
Lemma fits_cons {A B} D n t fs (c : codec A) (d : codec B) v f : fit D t c v -> fits D fs d f -> fits D ((n, t) :: fs) (c ** d) (fun p => (n, v (fst p)) :: f (snd p)).
Proof.
  intros F Fs l [a a'] r. cbn [c_dec c_pair fst snd]. rewrite rbind_Some. split.
  - intros (x & l1 & E1 & E2). apply rbind_Some in E2 as (y & l2 & E2 & E3). apply Some_inj in E3. injection E3 as -> -> ->.
    apply F in E1 as (b1 & Eb1 & ->). apply Fs in E2 as (b2 & Eb2 & ->). exists (b1 ++ b2). rewrite <- app_assoc. split; [constructor; assumption|reflexivity].
  - intros (b & Eb & ->). inversion Eb as [|n' t' v' fs' vs' b1 c1 E1 E2]; subst. exists a, (c1 ++ r). rewrite <- app_assoc. split; [apply F; eauto|].
    apply rbind_Some. exists a', r. split; [apply Fs; eauto|reflexivity].
Qed.
Lemma fits_iso {A B} D fs (F : A -> B) (G : B -> A) (c : codec A) f : (forall a, G (F a) = a) -> (forall b, F (G b) = b) ->
  fits D fs c f -> fits D fs (c_iso F G c) (fun b => f (G b)).
Proof.
  intros GF FG Fs l b r. cbn [c_dec c_iso]. rewrite rbind_Some. split.
  - intros (a & l1 & E1 & E2). apply Some_inj in E2. injection E2 as <- <-. rewrite GF. apply Fs. exact E1.
  - intros E. exists (G b), r. split; [apply Fs; exact E|]. rewrite FG. reflexivity.
Qed.
Lemma fit_struct {A} D s fs (c : codec A) f : entry_for s D = Some (IStruct fs) -> fits D fs c f -> fit D (INamed s) c (fun a => VStruct (f a)).
Proof.
  intros E Fs l a r. rewrite (Fs l a r). split; intros (b & Eb & ->); exists b; (split; [|reflexivity]).
  - econstructor; eassumption.
  - inversion Eb; subst. replace fs with fs0 by congruence. assumption.
Qed.
Lemma fit_mode D : entry_for "Mode" D = Some (IEnum [("Locking", []); ("Burning", [])])%string -> fit D (INamed "Mode") c_mode val_mode.
Proof.
  intros E. apply (fit_of _ _ _ _ _ exact_mode). intros m b. split.
  - intros K. destruct m; cbn [val_mode] in K; inversion K as [| | | | | | | | |s l k n ts vs b' E1 E2 E3]; subst; rewrite E in E1; injection E1 as <-;
    inversion E3; subst; destruct k as [|[|k]]; cbn [nth_error] in E2; try discriminate E2; try (destruct k; discriminate E2); auto.
  - intros (_ & ->). destruct m.
    + apply (en_enum D "Mode" _ 0 "Locking" [] [] [] E eq_refl). constructor.
    + apply (en_enum D "Mode" _ 1 "Burning" [] [] [] E eq_refl). constructor.
Qed.
Lemma fit_status D : entry_for "ReleaseStatus" D = Some (IEnum [("NotApproved", []); ("ReleaseAfter", [II64]); ("Released", [])])%string ->
  fit D (INamed "ReleaseStatus") c_status val_status.
Proof.
  intros E l s r. cbn [c_dec c_status]. rewrite rbind_Some. split.
  - intros (x & l1 & E1 & E2). apply take_inv in E1 as (-> & L). apply one_byte in L as (b & ->). destruct b; try discriminate E2.
    + apply Some_inj in E2. injection E2 as <- <-. exists [x00]. split; [|reflexivity]. apply (en_enum D "ReleaseStatus" _ 0 "NotApproved" [] [] [] E eq_refl). constructor.
    + apply rbind_Some in E2 as (t & l2 & E2 & E3). apply Some_inj in E3. injection E3 as <- <-. apply (fit_i64 D) in E2 as (b & Eb & ->). exists (x01 :: b ++ []). split; [|now rewrite app_nil_r].
      apply (en_enum D "ReleaseStatus" _ 1 "ReleaseAfter" [II64] [VInt t] (b ++ []) E eq_refl). constructor; [exact Eb|constructor].
    + apply Some_inj in E2. injection E2 as <- <-. exists [x02]. split; [|reflexivity]. apply (en_enum D "ReleaseStatus" _ 2 "Released" [] [] [] E eq_refl). constructor.
  - intros (b & K & ->). destruct s as [|t|]; cbn [val_status] in K; inversion K as [| | | | | | | | |s l k n ts vs b' E1 E2 E3]; subst; rewrite E in E1; injection E1 as <-;
    destruct k as [|[|[|k]]]; cbn [nth_error] in E2; try discriminate E2; try (destruct k; discriminate E2); injection E2 as <-;
    inversion E3 as [|t' v' ts' vs' b1 c1 X Y]; subst.
    + exists [x00], r. auto.
    + inversion Y; subst. rewrite app_nil_r. exists [x01], (b1 ++ r). split; [reflexivity|]. apply rbind_Some. exists t, r. split; [apply (fit_i64 D); eauto|reflexivity].
    + exists [x02], r. auto.
Qed.

(** ** Accounts *)
Lemma fits_same {A} D fs (c : codec A) f g : (forall a, f a = g a) -> fits D fs c f -> fits D fs c g.
Proof. intros E F l a r. rewrite <- E. apply F. Qed.
Lemma fit_same {A} D t (c : codec A) f g : (forall a, f a = g a) -> fit D t c f -> fit D t c g.
Proof. intros E F l a r. rewrite <- E. apply F. Qed.
Lemma fit_chain D : entry_for "ChainId" D = Some (IStruct [("id", IU 2)])%string -> fit D (INamed "ChainId") c_u16 val_chain.
Proof. intros E. eapply (fit_struct D _ _ c_u16 (fun c => [("id"%string, VInt c)]) E). apply (fits_one D _ _ c_u16 VInt). apply fit_u. Qed.
Lemma fit_bitmap D : entry_for "Bitmap" D = Some (IStruct [("map", IU 16)])%string -> fit D (INamed "Bitmap") c_u128 val_bitmap.
Proof. intros E. eapply (fit_struct D _ _ c_u128 (fun c => [("map"%string, VInt c)]) E). apply (fits_one D _ _ c_u128 VInt). apply fit_u. Qed.
Lemma fit_trimmed D : entry_for "TrimmedAmount" D = Some (IStruct [("amount", IU 8); ("decimals", IU 1)])%string -> fit D (INamed "TrimmedAmount") c_trimmed val_trimmed.
Proof.
  intros E. eapply fit_same; [|eapply fit_struct; [exact E|]]; [|apply fits_iso; [| |apply fits_cons; [apply fit_u|apply fits_one; apply fit_u]]]; intros []; reflexivity.
Qed.
Lemma fit_limit D : entry_for "RateLimitState" D = Some (IStruct [("limit", IU 8); ("capacityAtLastTx", IU 8); ("lastTxTimestamp", II64)])%string ->
  fit D (INamed "RateLimitState") c_rl val_limit.
Proof.
  intros E. eapply fit_same; [|eapply fit_struct; [exact E|]]; [|apply fits_iso; [| |apply fits_cons; [apply fit_u|apply fits_cons; [apply fit_u|apply fits_one; apply fit_i64]]]].
  - intros []; reflexivity.
  - intros (a & b & c); reflexivity.
  - intros []; reflexivity.
Qed.

Ltac fit1 := first [apply fit_u | apply fit_i64 | apply fit_bool | apply fit_key | apply fit_raw | apply fit_option; fit1 | apply fit_mode; reflexivity | apply fit_chain; reflexivity
  | apply fit_bitmap; reflexivity | apply fit_trimmed; reflexivity | apply fit_limit; reflexivity | apply fit_status; reflexivity].
Ltac fits1 := first [apply fits_cons; [fit1|fits1] | apply fits_one; fit1].
Ltac tuples := intros; repeat match goal with x : (_ * _)%type |- _ => destruct x end; try match goal with x : _ |- _ => destruct x end; reflexivity.
Lemma kind_fits p k fs : entry_for (struct_name k) (accounts p) = Some fs -> fits (types p) fs (codec_of k) (fields_of k).
Proof.
  intros E. destruct p, k; vm_compute in E; try discriminate E; injection E as <-; cbn [codec_of fields_of contents];
  first [ fits1 | eapply fits_same; [|apply fits_iso; [| |fits1]]; tuples
        | eapply fits_same; [|fits1]; tuples ].
Qed.

Lemma published_account p k fs data (a : contents k) : entry_for (struct_name k) (accounts p) = Some fs ->
  load k data = Some a <-> exists b rest, data = account_header (struct_name k) ++ b ++ rest /\ encodes_fields (types p) fs (fields_of k a) b.
Proof.
  intros E. pose proof (kind_fits _ _ _ E) as F. change (account_header (struct_name k)) with (discriminator k). unfold load. split.
  - destruct ((8 <=? List.length data)%nat && bytes_eqb (firstn 8 data) (discriminator k)) eqn:H; [|discriminate]. apply andb_prop in H as [_ H]. apply bytes_eqb_eq in H.
    destruct (c_dec (codec_of k) (skipn 8 data)) as [[a' r]|] eqn:Dc; [|discriminate]. intros Q. apply Some_inj in Q. subst a'. apply F in Dc as (b & Eb & Es).
    exists b, r. split; [|exact Eb]. rewrite <- Es, <- H. symmetry. apply firstn_skipn.
  - intros (b & rest & -> & Eb). rewrite len8_disc, firstn_disc, skipn_disc, bytes_eqb_refl. cbn [andb]. rewrite (proj2 (F _ _ rest)) by eauto. reflexivity.
Qed.
Lemma which_published k : (k = KVtm /\ forall p, entry_for (struct_name k) (accounts p) = None) \/ (k <> KVtm /\ exists p fs, entry_for (struct_name k) (accounts p) = Some fs).
Proof.
  destruct k; try (right; split; [discriminate|]; first [exists AManager; eexists; vm_compute; reflexivity | exists AQuoter; eexists; vm_compute; reflexivity | exists AGovernance; eexists; vm_compute; reflexivity]).
  left. split; [reflexivity|]. intros []; reflexivity.
Qed.
Lemma published_kinds p nm fs : In (nm, fs) (accounts p) -> (exists k, nm = struct_name k /\ entry_for nm (accounts p) = Some fs) \/ nm = "BridgeData"%string \/ nm = "Counter"%string.
Proof.
  destruct p; cbn [accounts In]; intros K; repeat match type of K with _ \/ _ => destruct K as [K|K] end; try contradiction; injection K as <- <-; try (right; auto; fail); left;
  first [exists KConfig; split; reflexivity | exists KLut; split; reflexivity | exists KPeer; split; reflexivity | exists KInboxItem; split; reflexivity | exists KInboxRateLimit; split; reflexivity
    | exists KOutboxItem; split; reflexivity | exists KOutboxRateLimit; split; reflexivity | exists KRegistered; split; reflexivity | exists KXPeer; split; reflexivity
    | exists KInstance; split; reflexivity | exists KRegChain; split; reflexivity | exists KRegNtt; split; reflexivity | exists KRelayRequest; split; reflexivity | exists KReplay; split; reflexivity].
Qed.

(** ** Calls *)
Lemma snake_name g : snake (fst (published g)) = name_of g.
Proof. destruct g; reflexivity. Qed.
Lemma listed_call p g : offered p g -> exists fs, entry_for (fst (published g)) (arguments p) = Some fs.
Proof. destruct g; cbn [offered]; intros O; repeat match type of O with _ \/ _ => destruct O as [O|O] end; subst p; eexists; vm_compute; reflexivity. Qed.

Ltac defs := repeat match goal with
  | H : entry_for ?s (types ?p) = Some _ |- _ => let x := eval vm_compute in (entry_for s (types p)) in change (entry_for s (types p)) with x in H; injection H as <-
  | H : encodes_fields _ _ _ _ |- _ => inversion H; clear H; subst
  | H : encodes _ _ _ _ |- _ => inversion H; clear H; subst
  | H : encodes_all _ _ _ _ |- _ => inversion H; clear H; subst
  | H : nth_error [_; _] ?k = Some _ |- _ => is_var k; destruct k as [|[|[|]]]; cbn [nth_error] in H; try discriminate H
  end.
Ltac range := match goal with
  | H : 0 <= ?z < 256 ^ Z.of_nat 1 |- is_u8 ?z => apply u8_pow; exact H
  | H : 0 <= ?z < 256 ^ Z.of_nat 2 |- is_u16 ?z => apply u16_pow; exact H
  | H : 0 <= ?z < 256 ^ Z.of_nat 8 |- is_u64 ?z => apply u64_pow; exact H
  | H : 0 <= ?z < 256 ^ Z.of_nat 4 |- is_u32 ?z => exact H
  | H : is_u8 ?z |- 0 <= ?z < 256 ^ Z.of_nat 1 => apply u8_pow; exact H
  | H : is_u16 ?z |- 0 <= ?z < 256 ^ Z.of_nat 2 => apply u16_pow; exact H
  | H : is_u64 ?z |- 0 <= ?z < 256 ^ Z.of_nat 8 => apply u64_pow; exact H
  | H : is_u32 ?z |- 0 <= ?z < 256 ^ Z.of_nat 4 => exact H
  | |- True => exact Logic.I
  | |- is32 _ => assumption
  end.
Lemma args_sound p g fs b : entry_for (fst (published g)) (arguments p) = Some fs ->
  encodes_fields (types p) fs (snd (published g)) b -> offered p g /\ wf_call g /\ b = args_of g.
Proof.
  intros E K. destruct p, g; vm_compute in E; try discriminate E; injection E as <-; cbn [published snd] in K; unfold val_chain in K; try (destruct md; cbn [val_mode] in K); defs;
  (split; [cbn [offered]; auto|]); (split; [cbn [wf_call]; repeat match goal with |- _ /\ _ => split end; range|]);
  cbn [args_of]; rewrite ?app_nil_r; repeat match goal with b : bool |- _ => destruct b end; reflexivity.
Qed.

Ltac build := repeat match goal with
  | |- encodes_fields _ [] [] _ => apply ef_nil
  | |- encodes_fields _ (_ :: _) _ _ => apply ef_cons
  | |- encodes _ (IU _) _ _ => apply en_int; range
  | |- encodes _ IBool (VBool true) _ => apply en_true
  | |- encodes _ IBool (VBool false) _ => apply en_false
  | |- encodes _ IKey _ _ => apply en_key; assumption
  | |- encodes _ (IRaw _) _ _ => apply en_raw; assumption
  | |- encodes _ (INamed _) (VStruct _) _ => eapply en_struct; [vm_compute; reflexivity|]
  | |- encodes _ (INamed "Mode") (VEnum "Locking" _) _ => eapply (en_enum _ "Mode" _ 0%nat "Locking"); [vm_compute; reflexivity|reflexivity|apply ea_nil]
  | |- encodes _ (INamed "Mode") (VEnum "Burning" _) _ => eapply (en_enum _ "Mode" _ 1%nat "Burning"); [vm_compute; reflexivity|reflexivity|apply ea_nil]
  end.
Lemma args_complete p g fs : entry_for (fst (published g)) (arguments p) = Some fs -> offered p g -> wf_call g -> encodes_fields (types p) fs (snd (published g)) (args_of g).
Proof.
  intros E O W. assert (X : exists b, encodes_fields (types p) fs (snd (published g)) b /\ b = args_of g); [|destruct X as (b & K & <-); exact K].
  destruct g; cbn [offered] in O; cbn [wf_call] in W; repeat match type of O with _ \/ _ => destruct O as [O|O] end; subst p; vm_compute in E; try discriminate E; injection E as <-;
  repeat match goal with H : _ /\ _ |- _ => destruct H end; cbn [published snd]; unfold val_chain; try (destruct md); unfold val_mode; repeat match goal with b : bool |- _ => destruct b end;
  eexists; (split; [build|]); cbn [args_of]; rewrite ?app_nil_r; reflexivity.
Qed.
Lemma published_call p data g : dispatch p data = Some g <->
  exists fs b rest, entry_for (fst (published g)) (arguments p) = Some fs /\ encodes_fields (types p) fs (snd (published g)) b /\
    (data = call_header (fst (published g)) ++ b ++ rest \/
     (exists a, g = HTransferHook a) /\ data = firstn 8 (sha256 (str "spl-transfer-hook-interface:execute")) ++ b ++ rest).
Proof.
  rewrite dispatch_exact. unfold data_of, header, call_header. rewrite snake_name. split.
  - intros (O & W & h & rest & Hd & ->). destruct (listed_call _ _ O) as (fs & E). exists fs, (args_of g), rest. split; [exact E|]. split; [apply args_complete; assumption|].
    destruct Hd as [-> | [A ->]]; auto.
  - intros (fs & b & rest & E & K & Hd). destruct (args_sound _ _ _ _ E K) as (O & W & ->). split; [exact O|]. split; [exact W|].
    destruct Hd as [-> | [A ->]]; eexists; exists rest; (split; [|reflexivity]); auto.
Qed.
Lemma published_written p k fs data (a : contents k) data' : entry_for (struct_name k) (accounts p) = Some fs -> wf_contents k a -> store k data a = Some data' ->
  exists b rest, data' = account_header (struct_name k) ++ b ++ rest /\ encodes_fields (types p) fs (fields_of k a) b.
Proof. intros E W S. apply (published_account p k fs data' a E). exact (load_store _ _ _ _ W S). Qed.
Lemma published_inj : (forall p g g', offered p g -> offered p g' -> published g = published g' -> g = g') /\
  (forall p k fs (a a' : contents k), entry_for (struct_name k) (accounts p) = Some fs -> fields_of k a = fields_of k a' -> a = a').
Proof.
  split.
  - intros p g g' O O' E. destruct g, g'; try discriminate E; try reflexivity; try (cbn [offered] in O, O'; intuition congruence);
    cbn [published] in E; unfold val_chain, val_mode in E; repeat match goal with m : mode |- _ => destruct m end; try discriminate E; inversion E; reflexivity.
  - intros p k fs a a' E F. destruct k; try (exfalso; destruct p; discriminate E); clear E; cbn [fields_of contents] in *;
    try (destruct a as [? a], a' as [? a']; cbn [fst snd] in F); try destruct a; try destruct a';
    cbn in F; unfold val_mode, val_bitmap, val_trimmed, val_limit, val_status, val_chain in F;
    repeat match goal with m : mode |- _ => destruct m | o : option _ |- _ => destruct o | s : release_status |- _ => destruct s | t : trimmed |- _ => destruct t | r : rl |- _ => destruct r end;
    try discriminate F; inversion F; reflexivity.
Qed.

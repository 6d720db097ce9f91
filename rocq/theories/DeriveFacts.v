From Coq Require Import String.
From Verif Require Export SpecDerive.
From Verif Require Import BytesFacts SeedsFacts ChainFacts.
Import ListNotations.
Local Open Scope Z_scope.
Local Strategy 1000 [sha256].

(** ** The search *)
Lemma find_from_inv N seed program k : forall x b, find_from N seed program k = Some (x, b) ->
  1 <= b <= Z.of_nat k /\ create N (seed ++ be_enc 1 b) program = Some x /\
  forall c, b < c <= Z.of_nat k -> create N (seed ++ be_enc 1 c) program = None.
Proof.
  induction k as [|k IH]; intros x b; [discriminate|]. cbn [find_from]. destruct (create N (seed ++ be_enc 1 (Z.of_nat (S k))) program) eqn:C.
  - intros E. assert (x = b0 /\ b = Z.of_nat (S k)) as [-> ->] by (inversion E; auto). split; [lia|]. split; [exact C|]. intros; lia.
  - intros E. destruct (IH _ _ E) as (A & B & D). split; [lia|]. split; [exact B|]. intros c Hc. destruct (Z.eq_dec c (Z.of_nat (S k))) as [->|]; [exact C|]. apply D. lia.
Qed.
Lemma create_inv N seed program x : create N seed program = Some x <-> x = n_hash N (seed ++ program ++ str "ProgramDerivedAddress") /\ n_curve N x = false.
Proof.
  unfold create. cbv zeta. destruct (n_curve N (n_hash N _)) eqn:C; split; try discriminate.
  - intros [-> B]. congruence.
  - intros E. assert (x = n_hash N (seed ++ program ++ str "ProgramDerivedAddress")) as -> by congruence. auto.
  - intros [-> B]. reflexivity.
Qed.
Lemma found N seed program x b : find_address N seed program = Some (x, b) <->
  1 <= b <= 255 /\ create N (seed ++ be_enc 1 b) program = Some x /\ forall c, b < c <= 255 -> create N (seed ++ be_enc 1 c) program = None.
Proof.
  unfold find_address. split; [apply find_from_inv|]. intros (A & B & C). change 255 with (Z.of_nat 255) in A, C. revert A C. generalize 255%nat. intros k. induction k as [|k IH]; intros A C; [cbn in A; lia|].
  cbn [find_from]. destruct (Z.eq_dec b (Z.of_nat (S k))) as [E|E].
  - rewrite <- E, B. reflexivity.
  - rewrite (C (Z.of_nat (S k))) by lia. apply IH; [lia|]. intros c Hc. apply C. lia.
Qed.

(** ** Bytes of an address *)
Lemma pda_bytes N p t z x y w : address N (APda p t z x y) = Some w ->
  exists u v b, address N x = Some u /\ address N y = Some v /\ 1 <= b <= 255 /\ n_curve N w = false /\
    w = n_hash N ((seed_bytes N p t z u v ++ be_enc 1 b) ++ n_prog N p ++ str "ProgramDerivedAddress") /\
    In ((seed_bytes N p t z u v ++ be_enc 1 b) ++ n_prog N p ++ str "ProgramDerivedAddress") (hashed N (APda p t z x y)).
Proof.
  cbn [address hashed]. destruct (address N x) as [u|]; [|discriminate]. destruct (address N y) as [v|]; [|discriminate].
  destruct (find_address _ _ _) as [[x' b]|] eqn:F; [|discriminate]. cbn [option_map fst]. intros E. assert (x' = w) by congruence. subst x'.
  apply found in F as (A & B & _). apply create_inv in B as [B C]. exists u, v, b. do 5 (split; [auto|]).
  apply in_or_app. right. apply in_or_app. right. left. reflexivity.
Qed.
Lemma derived_off N p t z x y w : address N (APda p t z x y) = Some w -> n_curve N w = false.
Proof. intros E. apply pda_bytes in E as (u & v & b & _ & _ & _ & C & _ & _). exact C. Qed.

Section Inj.
Context {N : names} {D : addr -> Prop} (A : apart N D).

Lemma prog_names p : D (AProg p) -> length (n_prog N p) = 32%nat.
Proof. intros H. exact (ap_length _ _ A (AProg p) _ H eq_refl eq_refl). Qed.
Lemma bytes32 a x : regular D a -> address N a = Some x -> length x = 32%nat.
Proof.
  intros R E. destruct a; try exact (ap_length _ _ A _ _ R eq_refl E).
  apply pda_bytes in E as (u & v & b & _ & _ & _ & _ & -> & _). apply A.
Qed.
Lemma null32 : address N ANull = Some (repeat x00 32). Proof. reflexivity. Qed.

Lemma wf_of p t z x y u v pu : regular D (APda p t z x y) -> p = PManager \/ p = PTransceiver -> purpose_of t z u v = Some pu ->
  address N x = Some u -> address N y = Some v -> wf_purpose pu.
Proof.
  intros R Hp Hu Ex Ey. cbn [regular] in R. destruct R as [_ R].
  destruct Hp; subst p; destruct t; cbn [purpose_of] in Hu; try discriminate;
    inversion Hu; subst; cbn [wf_purpose]; cbv zeta; destruct R as (R1 & R2 & R3); auto;
    repeat match goal with |- _ /\ _ => split end; auto;
    match goal with E : address N _ = Some ?k |- Datatypes.length ?k = _ => refine (bytes32 _ _ _ E); assumption end.
Qed.

Lemma le8_inj a b : is_u64 a -> is_u64 b -> le_enc 8 a = le_enc 8 b -> a = b.
Proof. intros Ha Hb E. apply u64_pow in Ha, Hb. rewrite <- (le_dec_enc 8 a Ha), <- (le_dec_enc 8 b Hb). now rewrite E. Qed.

(** One level: equal bytes mean equal program, tag, number and equal bytes below. *)
Lemma level p t z x y p' t' z' x' y' w : regular D (APda p t z x y) -> regular D (APda p' t' z' x' y') ->
  address N (APda p t z x y) = Some w -> address N (APda p' t' z' x' y') = Some w ->
  strings_clash N (APda p t z x y) (APda p' t' z' x' y') \/ (p = p' /\ t = t' /\ z = z' /\
    (x = ANull /\ x' = ANull \/ regular D x /\ regular D x' /\ address N x = address N x' /\ address N x <> None) /\
    (y = ANull /\ y' = ANull \/ regular D y /\ regular D y' /\ address N y = address N y' /\ address N y <> None)).
Proof.
  intros R R' E E'. destruct (pda_bytes _ _ _ _ _ _ _ E) as (u & v & b & Ex & Ey & Hb & _ & Hw & Hin). destruct (pda_bytes _ _ _ _ _ _ _ E') as (u' & v' & b' & Ex' & Ey' & Hb' & _ & Hw' & Hin').
  set (m := (seed_bytes N p t z u v ++ be_enc 1 b) ++ n_prog N p ++ str "ProgramDerivedAddress") in *.
  set (m' := (seed_bytes N p' t' z' u' v' ++ be_enc 1 b') ++ n_prog N p' ++ str "ProgramDerivedAddress") in *.
  destruct (bytes_eqb m m') eqn:M; [|left; exists m, m'; split; [exact Hin|]; split; [exact Hin'|]; split; [|congruence]; intros Q; rewrite Q, bytes_eqb_refl in M; discriminate]. clear Hin Hin'.
  apply bytes_eqb_eq in M. subst m m'. right.
  assert (P : length (n_prog N p) = 32%nat /\ length (n_prog N p') = 32%nat) by (split; apply prog_names; [apply R|apply R']). destruct P as [P P'].
  apply app_suffix_inj in M as [M1 M]; [|rewrite !app_length, P, P'; reflexivity]. apply app_suffix_inj in M as [M2 _]; [|reflexivity].
  assert (p = p') as <-.
  { assert (Q : AProg p = AProg p') by (apply (ap_distinct _ _ A); [apply R|apply R'|reflexivity|reflexivity|]; cbn; congruence). congruence. }
  apply app_suffix_inj in M1 as [M _]; [|rewrite !be_enc_length; reflexivity]. clear M2 P'. split; [reflexivity|].
  assert (L : forall a q, regular D a -> address N a = Some q -> length q = 32%nat) by (intros; eapply bytes32; eassumption).
  assert (Own : p = PManager \/ p = PTransceiver -> t = t' /\ z = z' /\
    (x = ANull /\ x' = ANull \/ regular D x /\ regular D x' /\ address N x = address N x' /\ address N x <> None) /\
    (y = ANull /\ y' = ANull \/ regular D y /\ regular D y' /\ address N y = address N y' /\ address N y <> None)).
  { intros Hp. assert (S1 : exists pu, purpose_of t z u v = Some pu) by (destruct Hp; subst p; destruct t; cbn in R |- *; try tauto; eauto).
    assert (S2 : exists pu, purpose_of t' z' u' v' = Some pu) by (destruct Hp; subst p; destruct t'; cbn in R' |- *; try tauto; eauto).
    destruct S1 as [pu S1], S2 as [pu' S2]. pose proof (wf_of _ _ _ _ _ _ _ _ R Hp S1 Ex Ey) as W. pose proof (wf_of _ _ _ _ _ _ _ _ R' Hp S2 Ex' Ey') as W'.
    assert (Q : pu = pu').
    { apply concat_inj; auto. unfold seed_bytes in M. rewrite S1, S2 in M. destruct Hp; subst p; exact M. }
    subst pu'. clear W' M. destruct R as [_ R], R' as [_ R']. rewrite Ex, Ex', Ey, Ey'.
    destruct Hp; subst p; destruct t, t'; cbn [purpose_of] in S1, S2; try discriminate S1; try discriminate S2; rewrite <- S2 in S1; try discriminate S1; destruct R as (R1 & R2 & R3), R' as (R1' & R2' & R3');
      inversion S1; subst; split; auto; split; auto; split; try (left; split; congruence); right; repeat split; auto; congruence. }
  destruct p as [ | | | | | |[|n]]; try (apply Own; auto; fail); clear Own; unfold seed_bytes in M.
  - destruct R as [_ []].
  - destruct R as [_ []].
  - destruct R as (R0 & R), R' as (_ & R'). destruct t; try contradiction. destruct t'; try contradiction. destruct R as (Z1 & R1 & R2), R' as (Z2 & R1' & R2').
    assert (Lp : forall z, (z = 0 /\ D (AProg PToken) \/ z = 1 /\ D (AProg PToken22)) -> length (n_prog N (if z =? 0 then PToken else PToken22)) = 32%nat)
      by (intros ? [[-> ?]|[-> ?]]; cbn; apply prog_names; assumption).
    apply app_inj_length in M as [M1 M]; [|rewrite (L _ _ R1 Ex), (L _ _ R1' Ex'); reflexivity]. apply app_inj_length in M as [M2 M3]; [|rewrite !Lp by assumption; reflexivity].
    assert (z = z').
    { destruct Z1 as [[-> K1]|[-> K1]], Z2 as [[-> K2]|[-> K2]]; cbn in M2; auto; exfalso.
      - assert (AProg PToken = AProg PToken22) by (apply (ap_distinct _ _ A); auto; cbn; congruence). congruence.
      - assert (AProg PToken = AProg PToken22) by (apply (ap_distinct _ _ A); auto; cbn; congruence). congruence. }
    split; [reflexivity|]. split; [assumption|]. split; right; repeat split; auto; congruence.
  - destruct R as (R0 & R1 & R2), R' as (_ & R1' & R2'). apply (ap_seed _ _ A) in M; [|exact R0|reflexivity|exact (L _ _ R1 Ex)|exact (L _ _ R2 Ey)|exact (L _ _ R1' Ex')|exact (L _ _ R2' Ey')]. destruct M as (-> & -> & -> & ->).
    split; [reflexivity|]. split; [reflexivity|]. split; right; repeat split; auto; congruence.
  - destruct R as (R0 & R), R' as (_ & R'). destruct t; try contradiction. destruct t'; try contradiction. destruct R as (Z1 & R1 & R2), R' as (Z2 & R1' & R2').
    apply app_inj_length in M as [M1 M]; [|rewrite (L _ _ R1 Ex), (L _ _ R1' Ex'); reflexivity]. apply le8_inj in M; auto.
    split; [reflexivity|]. split; [exact M|]. split; [right; repeat split; auto; congruence|]. left. auto.
  - destruct R as (R0 & R1 & R2), R' as (_ & R1' & R2'). apply (ap_seed _ _ A) in M; [|exact R0|reflexivity|exact (L _ _ R1 Ex)|exact (L _ _ R2 Ey)|exact (L _ _ R1' Ex')|exact (L _ _ R2' Ey')]. destruct M as (-> & -> & -> & ->).
    split; [reflexivity|]. split; [reflexivity|]. split; right; repeat split; auto; congruence.
Qed.

Lemma base_hits a b w p t z x y : base a = true -> b = APda p t z x y -> address N a = Some w -> address N b = Some w -> hits N a b.
Proof.
  intros B -> E E'. apply pda_bytes in E' as (u & v & k & _ & _ & _ & _ & -> & I).
  exists a. eexists. split; [destruct a; try discriminate; left; reflexivity|]. split; [exact I|exact E].
Qed.
Lemma exposed_parts p t z x y p' t' z' x' y' : exposed N x x' \/ exposed N y y' -> exposed N (APda p t z x y) (APda p' t' z' x' y').
Proof.
  assert (Hx : forall p t z x y m, In m (hashed N x) \/ In m (hashed N y) -> In m (hashed N (APda p t z x y))).
  { intros. cbn [hashed]. destruct H; apply in_or_app; [left; assumption|]. right. apply in_or_app. left. assumption. }
  assert (Nx : forall p t z x y c, In c (names_in x) \/ In c (names_in y) -> In c (names_in (APda p t z x y))) by (intros; cbn [names_in]; apply in_or_app; assumption).
  intros [[(u & v & A1 & A2 & A3)|[(c & u & A1 & A2 & A3)|(c & u & A1 & A2 & A3)]]|[(u & v & A1 & A2 & A3)|[(c & u & A1 & A2 & A3)|(c & u & A1 & A2 & A3)]]].
  1,4: left; exists u, v; split; [apply Hx; auto|]; split; [apply Hx; auto|exact A3].
  1,3: right; left; exists c, u; split; [apply Nx; auto|]; split; [apply Hx; auto|exact A3].
  1,2: right; right; exists c, u; split; [apply Nx; auto|]; split; [apply Hx; auto|exact A3].
Qed.
Lemma same_bytes a : forall b w, regular D a -> regular D b -> address N a = Some w -> address N b = Some w -> a = b \/ exposed N a b.
Proof.
  induction a as [| | | |p t z x IHx y IHy]; intros b w R R' E E'.
  1-4: destruct (base b) eqn:B; [left; apply (ap_distinct _ _ A); auto; [destruct b; try discriminate; exact R'|congruence]|];
    destruct b as [| | | |p' t' z' x' y']; try discriminate; right; right; left; eapply base_hits; [reflexivity|reflexivity|exact E|exact E'].
  destruct b as [| | | |p' t' z' x' y']; try (right; right; right; eapply base_hits; [reflexivity|reflexivity|exact E'|exact E]).
  destruct (level _ _ _ _ _ _ _ _ _ _ _ R R' E E') as [C|(-> & -> & -> & Hx & Hy)]; [right; left; exact C|].
  assert (X : x = x' \/ exposed N x x').
  { destruct Hx as [[-> ->]|(R1 & R2 & E1 & E2)]; [auto|]. destruct (address N x) as [w1|] eqn:F; [|congruence]. eapply IHx; eauto. }
  assert (Y : y = y' \/ exposed N y y').
  { destruct Hy as [[-> ->]|(R1 & R2 & E1 & E2)]; [auto|]. destruct (address N y) as [w1|] eqn:F; [|congruence]. eapply IHy; eauto. }
  destruct X as [->|]; [|right; apply exposed_parts; auto]. destruct Y as [->|]; [auto|right; apply exposed_parts; auto].
Qed.
End Inj.

Lemma hashed_off N a m : In m (hashed N a) -> n_curve N (n_hash N m) = false.
Proof.
  induction a as [| | | |p t z x IHx y IHy]; cbn [hashed]; try contradiction. intros I. apply in_app_or in I as [I|I]; [auto|]. apply in_app_or in I as [I|I]; [auto|].
  destruct (address N x) as [u|]; [|contradiction]. destruct (address N y) as [v|]; [|contradiction]. destruct (find_address _ _ _) as [[w b]|] eqn:F; [|contradiction].
  destruct I as [<-|[]]. apply found in F as (_ & F & _). apply create_inv in F as [-> F]. exact F.
Qed.
Lemma curve_hits N a b : (forall c x, In c (names_in a) -> address N c = Some x -> n_curve N x = true) -> ~ hits N a b.
Proof. intros C (c & u & I & J & E). specialize (C _ _ I E). rewrite (hashed_off _ _ _ J) in C. discriminate. Qed.

Lemma same_messages N D (A : apart N D) key m m' : regular_msg D m -> regular_msg D m' -> (forall a, In a (parts m ++ parts m') -> address N a = Some (key a)) ->
  wire_msg key m = wire_msg key m' -> m = m' \/ exposed_msg N m m'.
Proof.
  intros (R1 & R2 & R3 & R4) (S1 & S2 & S3 & S4) K E. unfold wire_msg in E.
  assert (Q : forall a b, In (a, b) (combine (parts m) (parts m')) -> regular D a -> regular D b -> key a = key b -> a = b \/ exposed_msg N m m').
  { intros a b I Ra Rb Q. destruct (same_bytes A a b (key a) Ra Rb) as [->|X]; [apply K, in_or_app; left; eapply in_combine_l, I|rewrite Q; apply K, in_or_app; right; eapply in_combine_r, I|left; reflexivity|].
    right. exists a, b. auto. }
  destruct m as [i s am t c to], m' as [i' s' am' t' c' to']. cbn in *. inversion E; subst.
  destruct (Q i i') as [->|]; auto. destruct (Q s s') as [->|]; auto. destruct (Q t t') as [->|]; auto. destruct (Q to to') as [->|]; auto 6.
Qed.

(** ** SHA-256 *)
Lemma round_length st kw : length st = 8%nat -> length (round256 st kw) = 8%nat.
Proof. destruct st as [|a [|b [|c [|d [|e [|f [|g [|h [|]]]]]]]]]; cbn [length]; intros H; try discriminate. reflexivity. Qed.
Lemma rounds_length kws : forall st, length st = 8%nat -> length (fold_left round256 kws st) = 8%nat.
Proof. induction kws as [|kw kws IH]; intros st H; cbn [fold_left]; [exact H|]. apply IH, round_length, H. Qed.
Lemma block_length st blk : length st = 8%nat -> length (block256 st blk) = 8%nat.
Proof. intros H. unfold block256. cbv zeta. rewrite map_length, combine_length, rounds_length by exact H. rewrite H. reflexivity. Qed.
Lemma blocks_length bs : forall st, length st = 8%nat -> length (fold_left block256 bs st) = 8%nat.
Proof. induction bs as [|b bs IH]; intros st H; cbn [fold_left]; [exact H|]. apply IH, block_length, H. Qed.
Lemma concat4 l : length (List.concat (map (be_enc 4) l)) = (4 * length l)%nat.
Proof. induction l as [|x l IH]; [reflexivity|]. cbn [map List.concat]. rewrite app_length, be_enc_length, IH. cbn [length]. lia. Qed.
Lemma sha256_length m : length (sha256 m) = 32%nat.
Proof. unfold sha256. cbv zeta. rewrite concat4, blocks_length by reflexivity. reflexivity. Qed.

(** ** The addresses of the code *)
Ltac by_seeds := unfold derived, pda_reg, pda_inbox, pda_session, pda_message, pda_vtm; cbn [address]; repeat match goal with H : address _ _ = _ |- _ => rewrite H end; reflexivity.
Lemma manager_addresses N : derived N pda_config PManager Seeds.SConfig /\ derived N pda_outbox_rl PManager SOutboxRateLimit /\
  derived N token_authority PManager STokenAuthority /\ derived N upgrade_lock PManager SUpgradeLock /\
  derived N pda_lut PManager SLut /\ derived N lut_authority PManager SLutAuthority /\
  (forall ch, derived N (pda_peer ch) PManager (Seeds.SPeer ch) /\ derived N (pda_inbox_rl ch) PManager (SInboxRateLimit ch)) /\
  (forall t x, address N t = Some x -> derived N (pda_reg t) PManager (Seeds.SRegistered x)) /\
  (forall d x, address N d = Some x -> derived N (pda_inbox d) PManager (SInboxItem x)) /\
  (forall o d x y, address N o = Some x -> address N d = Some y -> derived N (pda_session o d) PManager (SSession x y)).
Proof. do 6 (split; [by_seeds|]). split; [intros ch; split; by_seeds|]. split; [intros; by_seeds|]. split; intros; by_seeds. Qed.
Lemma transceiver_addresses N p : p = PManager \/ p = PTransceiver ->
  derived N (pda_emitter p) p SEmitter /\ derived N (pda_outbox_signer p) p SOutboxSigner /\
  (forall ch, derived N (pda_xpeer p ch) p (Seeds.SXPeer ch)) /\
  (forall it x, address N it = Some x -> derived N (pda_message p it) p (SMessage x)) /\
  (forall ch i x, address N i = Some x -> derived N (pda_vtm p ch i) p (SVtm ch x)).
Proof. intros [-> | ->]; (split; [by_seeds|]; split; [by_seeds|]; split; [intros; by_seeds|]; split; intros; by_seeds). Qed.
Lemma ata_address N p w m x y : p = PToken \/ p = PToken22 -> address N w = Some x -> address N m = Some y ->
  address N (ata p w m) = option_map fst (find_address N (x ++ n_prog N p ++ y) (n_prog N PAta)).
Proof. intros [-> | ->] Hw Hm; unfold ata; cbn [address]; rewrite Hw, Hm; reflexivity. Qed.

Lemma regular_addresses (D : addr -> Prop) : D (AProg PManager) ->
  regular D pda_config /\ regular D pda_outbox_rl /\ regular D token_authority /\ regular D upgrade_lock /\ regular D pda_lut /\ regular D lut_authority /\
  (forall ch, is_u16 ch -> regular D (pda_peer ch) /\ regular D (pda_inbox_rl ch)) /\
  (forall a, regular D a -> regular D (pda_reg a) /\ regular D (pda_inbox a)) /\
  (forall a b, regular D a -> regular D b -> regular D (pda_session a b)) /\
  (forall p, p = PManager \/ p = PTransceiver -> D (AProg p) -> regular D (pda_emitter p) /\ regular D (pda_outbox_signer p) /\
    (forall ch, is_u16 ch -> regular D (pda_xpeer p ch)) /\ (forall a, regular D a -> regular D (pda_message p a)) /\
    (forall ch a, is_u16 ch -> regular D a -> regular D (pda_vtm p ch a))) /\
  (forall p a b, p = PToken \/ p = PToken22 -> D (AProg p) -> D (AProg PAta) -> regular D a -> regular D b -> regular D (ata p a b)).
Proof.
  intros H. do 6 (split; [cbn; tauto|]). split; [intros ch Hc; split; cbn -[is_u16]; auto|]. split; [intros a Ha; split; cbn; auto|]. split; [intros a b Ha Hb; cbn; auto|]. split.
  - intros p [-> | ->] Hp; (split; [cbn; auto|]; split; [cbn; auto|]; split; [intros; cbn -[is_u16]; auto|]; split; [intros; cbn; auto|intros; cbn -[is_u16]; auto]).
  - intros p a b [-> | ->] Hp Ht Ha Hb; cbn; auto 6.
Qed.

(** ** Finitely many names, all points of the curve *)
Definition on_curve_names (N : names) (l : list addr) : bool :=
  forallb (fun a => match address N a with Some x => n_curve N x && (length x =? 32)%nat && base a | None => false end) l.
Definition distinct_names (N : names) (l : list addr) : bool :=
  forallb (fun a => forallb (fun b => match address N a, address N b with Some x, Some y => implb (bytes_eqb x y) (addr_eqb a b) | _, _ => false end) l) l.
Lemma apart_finite N l : (forall u, length (n_hash N u) = 32%nat) -> on_curve_names N l = true -> distinct_names N l = true ->
  forallb (fun a => match a with AProg p => negb (foreign p) | _ => true end) l = true -> apart N (fun a => In a l).
Proof.
  intros HL C Di F. unfold on_curve_names, distinct_names in C, Di. rewrite forallb_forall in C, Di, F.
  assert (K : forall a x, In a l -> address N a = Some x -> n_curve N x = true /\ length x = 32%nat).
  { intros a x H E. specialize (C a H). cbv beta in C. rewrite E in C. apply andb_true_iff in C as [C _]. apply andb_true_iff in C as [C1 C2]. apply Nat.eqb_eq in C2. auto. }
  constructor.
  - exact HL.
  - intros a x H _ E. apply (K a x H E).
  - intros a b Ha Hb _ _ E. specialize (Di a Ha). cbv beta in Di. rewrite forallb_forall in Di. specialize (Di b Hb). cbv beta in Di. rewrite E in Di.
    destruct (address N b) as [y|]; [|discriminate]. rewrite bytes_eqb_refl in Di. cbn in Di. now apply addr_eqb_eq in Di.
  - intros p t z a b t' z' a' b' H Q. specialize (F _ H). cbv beta iota in F. rewrite Q in F. discriminate.
Qed.

(** * Proofs about governance. *)
From Coq Require Import String.
From Verif Require Export SpecGov BytesFacts.
From Verif Require Import ChainFacts WireFacts.
Import ListNotations.
Local Open Scope Z_scope.
Local Open Scope list_scope.

(** ** Codec *)
Lemma read_bool_app b r : read_bool ([flag_byte b] ++ r) = Some (b, r).
Proof. destruct b; reflexivity. Qed.
Lemma read_bool_inv l b r : read_bool l = Some (b, r) -> l = [flag_byte b] ++ r.
Proof.
  unfold read_bool, be_u8. intros H. apply rbind_Some in H as (z & l1 & H1 & H). apply be_u_inv in H1 as [-> _].
  destruct (z =? 0) eqn:E0; [apply rret_inv in H as [-> ->]; replace z with 0 by lia; reflexivity|].
  destruct (z =? 1) eqn:E1; [apply rret_inv in H as [-> ->]; replace z with 1 by lia; reflexivity|discriminate].
Qed.
Lemma write_bool_eq b : write_bool b = Some [flag_byte b].
Proof. destruct b; reflexivity. Qed.
Lemma write_acc_eq a : write_acc a = Some (acc_bytes a).
Proof. unfold write_acc. rewrite !write_bool_eq. reflexivity. Qed.
Lemma write_accs_eq l : write_accs l = Some (List.concat (map acc_bytes l)).
Proof. induction l as [|a l IH]; [reflexivity|]. cbn [write_accs map List.concat]. now rewrite write_acc_eq, IH. Qed.

Lemma read_acc_app a r : List.length (ac_key a) = 32%nat -> read_acc (acc_bytes a ++ r) = Some (a, r).
Proof.
  intros Hk. unfold read_acc, acc_bytes. rewrite <- app_assoc. rewrite (rbind_step _ _ _ _ _ (take_app 32 _ _ Hk)).
  change (([flag_byte (ac_signer a); flag_byte (ac_writable a)] ++ r)) with ([flag_byte (ac_signer a)] ++ [flag_byte (ac_writable a)] ++ r).
  rewrite (rbind_step _ _ _ _ _ (read_bool_app _ _)), (rbind_step _ _ _ _ _ (read_bool_app _ _)). destruct a; reflexivity.
Qed.
Lemma read_acc_inv l a r : read_acc l = Some (a, r) -> l = acc_bytes a ++ r /\ List.length (ac_key a) = 32%nat.
Proof.
  unfold read_acc. intros H. apply rbind_Some in H as (k & l1 & H1 & H). apply take_inv in H1 as [-> Hk].
  apply rbind_Some in H as (s & l2 & H2 & H). apply read_bool_inv in H2 as ->. apply rbind_Some in H as (w & l3 & H3 & H). apply read_bool_inv in H3 as ->.
  apply rret_inv in H as [-> ->]. split; [|exact Hk]. unfold acc_bytes. cbn [ac_key ac_signer ac_writable]. now rewrite <- app_assoc.
Qed.
Lemma read_accs_app l r : Forall (fun a => List.length (ac_key a) = 32%nat) l -> read_accs (List.length l) (List.concat (map acc_bytes l) ++ r) = Some (l, r).
Proof.
  induction l as [|a l IH]; intros F; [reflexivity|]. inversion F; subst. cbn [List.length read_accs map List.concat]. rewrite <- app_assoc.
  rewrite (rbind_step _ _ _ _ _ (read_acc_app _ _ H1)). now rewrite (rbind_step _ _ _ _ _ (IH H2)).
Qed.
Lemma read_accs_inv n : forall l x r, read_accs n l = Some (x, r) -> l = List.concat (map acc_bytes x) ++ r /\ List.length x = n /\ Forall (fun a => List.length (ac_key a) = 32%nat) x.
Proof.
  induction n as [|n IH]; intros l x r H; cbn [read_accs] in H.
  - apply rret_inv in H as [-> ->]. auto.
  - apply rbind_Some in H as (a & l1 & H1 & H). apply read_acc_inv in H1 as [-> Hk]. apply rbind_Some in H as (y & l2 & H2 & H). apply IH in H2 as (-> & Hl & F).
    apply rret_inv in H as [-> ->]. cbn [map List.concat List.length]. rewrite <- app_assoc. split; [reflexivity|]. split; [lia|now constructor].
Qed.

Definition small (m : gov_msg) : Prop := Z.of_nat (List.length (g_accounts m)) <= u16_max /\ Z.of_nat (List.length (g_data m)) <= u16_max.

Lemma MODULE_eq : MODULE = repeat x00 8 ++ str "GeneralPurposeGovernance".
Proof. reflexivity. Qed.
Lemma gov_packet_eq m : gov_packet m = MODULE ++ be_enc 1 2 ++ be_enc 2 1 ++ g_gov m ++ g_program m
  ++ be_enc 2 (Z.of_nat (List.length (g_accounts m))) ++ List.concat (map acc_bytes (g_accounts m)) ++ be_enc 2 (Z.of_nat (List.length (g_data m))) ++ g_data m.
Proof. unfold gov_packet. rewrite MODULE_eq, <- app_assoc. reflexivity. Qed.

Lemma write_gov_eq m : small m -> write_gov m = Some (gov_packet m).
Proof.
  intros [A B]. rewrite gov_packet_eq. unfold write_gov, write_body, w_u16_checked. rewrite write_accs_eq.
  replace ((0 <=? Z.of_nat (List.length (g_accounts m))) && (Z.of_nat (List.length (g_accounts m)) <=? u16_max)) with true by lia.
  replace ((0 <=? Z.of_nat (List.length (g_data m))) && (Z.of_nat (List.length (g_data m)) <=? u16_max)) with true by lia. reflexivity.
Qed.
Lemma write_gov_None m : write_gov m = None <-> u16_max < Z.of_nat (List.length (g_accounts m)) \/ u16_max < Z.of_nat (List.length (g_data m)).
Proof.
  split.
  - intros H. destruct (Z.leb_spec (Z.of_nat (List.length (g_accounts m))) u16_max); [|auto]. destruct (Z.leb_spec (Z.of_nat (List.length (g_data m))) u16_max); [|auto].
    rewrite write_gov_eq in H by (split; assumption). discriminate.
  - unfold write_gov, write_body, w_u16_checked. rewrite write_accs_eq. intros [H|H].
    + replace ((0 <=? Z.of_nat (List.length (g_accounts m))) && (Z.of_nat (List.length (g_accounts m)) <=? u16_max)) with false by lia. reflexivity.
    + replace ((0 <=? Z.of_nat (List.length (g_data m))) && (Z.of_nat (List.length (g_data m)) <=? u16_max)) with false by lia.
      destruct ((0 <=? Z.of_nat (List.length (g_accounts m))) && (Z.of_nat (List.length (g_accounts m)) <=? u16_max)); reflexivity.
Qed.
Lemma write_gov_Some m b : write_gov m = Some b <-> small m /\ b = gov_packet m.
Proof.
  split; [|intros [A ->]; now apply write_gov_eq]. intros H.
  assert (S : small m). { destruct (Z.leb_spec (Z.of_nat (List.length (g_accounts m))) u16_max); destruct (Z.leb_spec (Z.of_nat (List.length (g_data m))) u16_max); try (split; assumption);
    exfalso; assert (N : write_gov m = None) by (apply write_gov_None; auto); congruence. }
  split; [exact S|]. rewrite write_gov_eq in H by exact S. congruence.
Qed.

Lemma read_gov_app m r : wf_gov m -> small m -> read_gov (gov_packet m ++ r) = Some (m, r).
Proof.
  intros (Hg & Hp & Ha) [Sa Sd]. rewrite gov_packet_eq. rewrite <- !app_assoc. unfold read_gov, read_action, be_u8, be_u16.
  rewrite (rbind_step _ _ _ _ _ (take_app 32 MODULE _ eq_refl)), bytes_eqb_refl. unfold rguard at 1. rewrite (rbind_step (rret tt) _ _ tt _ eq_refl).
  assert (Act : read_action (be_enc 1 2 ++ be_enc 2 1 ++ g_gov m ++ g_program m ++ be_enc 2 (Z.of_nat (List.length (g_accounts m))) ++ List.concat (map acc_bytes (g_accounts m)) ++ be_enc 2 (Z.of_nat (List.length (g_data m))) ++ g_data m ++ r)
    = Some (SolanaCall, be_enc 2 1 ++ g_gov m ++ g_program m ++ be_enc 2 (Z.of_nat (List.length (g_accounts m))) ++ List.concat (map acc_bytes (g_accounts m)) ++ be_enc 2 (Z.of_nat (List.length (g_data m))) ++ g_data m ++ r)) by reflexivity.
  unfold read_action, be_u8 in Act. rewrite (rbind_step _ _ _ _ _ Act). unfold rguard at 1. cbn [is_solana_call]. rewrite (rbind_step (rret tt) _ _ tt _ eq_refl).
  rewrite (rbind_step _ _ _ _ _ (be_u_app 2 1 _ ltac:(rewrite pow256_2; lia))). unfold rguard at 1. change (1 =? SOLANA) with true. rewrite (rbind_step (rret tt) _ _ tt _ eq_refl).
  rewrite (rbind_step _ _ _ _ _ (take_app 32 _ _ Hg)). unfold read_body, be_u16. rewrite (rbind_step _ _ _ _ _ (take_app 32 _ _ Hp)).
  rewrite (rbind_step _ _ _ _ _ (be_u_app 2 (Z.of_nat (List.length (g_accounts m))) _ ltac:(rewrite pow256_2; ilia))). rewrite Nat2Z.id.
  rewrite (rbind_step _ _ _ _ _ (read_accs_app _ _ Ha)).
  rewrite (rbind_step _ _ _ _ _ (be_u_app 2 (Z.of_nat (List.length (g_data m))) _ ltac:(rewrite pow256_2; ilia))). rewrite Nat2Z.id.
  rewrite (rbind_step _ _ _ _ _ (take_app _ (g_data m) _ eq_refl)). destruct m; reflexivity.
Qed.
Lemma read_gov_inv l m r : read_gov l = Some (m, r) -> l = gov_packet m ++ r /\ wf_gov m /\ small m.
Proof.
  unfold read_gov, read_action, be_u8, be_u16. intros H. rewrite gov_packet_eq.
  apply rbind_Some in H as (md & l1 & H1 & H). apply take_inv in H1 as [-> Hm]. apply rbind_Some in H as (u & l2 & H2 & H). apply rguard_inv in H2 as [Em ->]. apply bytes_eqb_eq in Em as ->.
  apply rbind_Some in H as (a & l3 & H3 & H). apply rbind_Some in H3 as (z & l4 & H4 & H3). apply be_u_inv in H4 as [-> _].
  apply rbind_Some in H as (u2 & l5 & H5 & H). apply rguard_inv in H5 as [Ea ->].
  assert (Z2 : z = 2 /\ l3 = l4). { destruct (z =? 0); [apply rret_inv in H3 as [-> ->]; discriminate|]. destruct (z =? 1); [apply rret_inv in H3 as [-> ->]; discriminate|].
    destruct (z =? 2) eqn:E2; [apply rret_inv in H3 as [_ ->]; split; [lia|reflexivity]|discriminate]. }
  destruct Z2 as [-> ->]. clear H3.
  apply rbind_Some in H as (c & l6 & H6 & H). apply be_u_inv in H6 as [-> _]. apply rbind_Some in H as (u3 & l7 & H7 & H). apply rguard_inv in H7 as [Ec ->].
  unfold SOLANA in Ec. replace c with 1 by lia.
  apply rbind_Some in H as (g & l8 & H8 & H). apply take_inv in H8 as [-> Hg]. unfold read_body, be_u16 in H.
  apply rbind_Some in H as (p & l9 & H9 & H). apply take_inv in H9 as [-> Hp]. apply rbind_Some in H as (n & l10 & H10 & H). apply be_u_inv in H10 as [-> Hn].
  apply rbind_Some in H as (x & l11 & H11 & H). apply read_accs_inv in H11 as (-> & Hl & F). apply rbind_Some in H as (k & l12 & H12 & H). apply be_u_inv in H12 as [-> Hk].
  apply rbind_Some in H as (d & l13 & H13 & H). apply take_inv in H13 as [-> Hd]. apply rret_inv in H as [-> ->]. cbn [g_gov g_program g_accounts g_data].
  rewrite Hl, Hd, !Z2Nat.id by lia. rewrite <- !app_assoc. split; [reflexivity|]. split; [repeat split; assumption|].
  rewrite pow256_2 in *. split; cbn [g_accounts g_data]; rewrite ?Hl, ?Hd, Z2Nat.id by lia; ilia.
Qed.

(** Two messages with the same packet followed by anything are equal. *)
Lemma gov_packet_inj m m' r r' : wf_gov m -> small m -> wf_gov m' -> small m' -> gov_packet m ++ r = gov_packet m' ++ r' -> m = m' /\ r = r'.
Proof.
  intros A B C D K. pose proof (read_gov_app m r A B) as H1. rewrite K, (read_gov_app m' r' C D) in H1. inversion H1; auto.
Qed.

Lemma acc_bytes_length l : Forall (fun a => List.length (ac_key a) = 32%nat) l -> List.length (List.concat (map acc_bytes l)) = (34 * List.length l)%nat.
Proof.
  induction 1 as [|a l Ha F IH]; [reflexivity|]. cbn [map List.concat]. rewrite app_length, IH. unfold acc_bytes. rewrite app_length, Ha. cbn [length]. lia.
Qed.
Lemma gov_written m b : wf_gov m -> write_gov m = Some b -> gov_wsize m = Z.of_nat (List.length b) - 32.
Proof.
  intros (Hg & Hp & Ha) H. apply write_gov_Some in H as [_ ->]. rewrite gov_packet_eq. rewrite !app_length, acc_bytes_length, !be_enc_length, Hg, Hp by exact Ha.
  change (List.length MODULE) with 32%nat. unfold gov_wsize. lia.
Qed.

(** ** Execution *)
Lemma subst_acc_key pda payer a : ac_key (subst_acc pda payer a) = key_for pda payer (ac_key a) /\ ac_signer (subst_acc pda payer a) = ac_signer a /\ ac_writable (subst_acc pda payer a) = ac_writable a.
Proof.
  unfold subst_acc, key_for. change (str "owner" ++ repeat x00 27) with OWNER. change (str "payer" ++ repeat x00 27) with PAYER.
  destruct (bytes_eqb (ac_key a) OWNER); [auto|]. destruct (bytes_eqb (ac_key a) PAYER); auto.
Qed.
Lemma map_call pda payer m : call_of pda payer m (Gix (g_program m) (map (subst_acc pda payer) (g_accounts m)) (g_data m)).
Proof.
  split; [reflexivity|]. split; [reflexivity|]. cbn [ix_accounts]. induction (g_accounts m) as [|a l IH]; [constructor|]. cbn [map]. constructor; [apply subst_acc_key|exact IH].
Qed.

Definition seqs {W} (l : list (gev W)) : list Z := map (fun e => v_seq (gv_vaa e)) l.
(** Signatures handed on: the governance address's, and those of the accounts the program was called with. *)
Definition no_forged {W} (E : genv W) (e : gev W) : Prop :=
  forall a, In a (ix_accounts (gv_ix e)) -> ac_signer a = true ->
    ac_key a = ge_addr E SGovernance \/ exists c, In c (gv_ctx e) /\ ac_key c = ac_key a /\ ac_signer c = true.
Definition no_forged_write {W} (e : gev W) : Prop :=
  forall a, In a (ix_accounts (gv_ix e)) -> ac_writable a = true -> exists c, In c (gv_ctx e) /\ ac_key c = ac_key a /\ ac_writable c = true.

Record g_inv {W} (E : genv W) (st : gstate W) : Prop := {
  gi_auth : Forall (authorised E) (gs_log st);
  gi_once : NoDup (seqs (gs_log st));
  gi_used : Forall (fun e => gs_replay st (ge_addr E (SReplay 1 GOVERNANCE_EMITTER (v_seq (gv_vaa e)))) = true) (gs_log st);
  gi_forge : Forall (fun e => no_forged E e /\ no_forged_write e) (gs_log st) }.

Lemma mark_true f a b : mark f a b = true <-> b = a \/ f b = true.
Proof. unfold mark. rewrite Bool.orb_true_iff, bytes_eqb_eq. reflexivity. Qed.
Lemma existsb_key ctx k (f : acc -> bool) : existsb (fun c => bytes_eqb (ac_key c) k && f c) ctx = true -> exists c, In c ctx /\ ac_key c = k /\ f c = true.
Proof. intros H. apply existsb_exists in H as (c & Hin & Hc). apply andb_prop in Hc as [A B]. apply bytes_eqb_eq in A. eauto. Qed.

(** One step of the program, without its recursion. *)
Lemma g_exec_inv {W} (E : genv W) n st ctx data st' : g_exec E n st ctx data = Ok st' ->
  exists n' payer gov va prog rep sys rest v m r, n = S n' /\ ctx = payer :: gov :: va :: prog :: rep :: sys :: rest /\
    let pda := ge_addr E SGovernance in
    let replay := ge_addr E (SReplay 1 GOVERNANCE_EMITTER (v_seq v)) in
    let ix := Gix (g_program m) (map (subst_acc pda (ac_key payer)) (g_accounts m)) (g_data m) in
    let st1 := GState (gs_world st) (mark (gs_replay st) replay) (Gev (gs_world st) v ctx ix :: gs_log st) in
    firstn 8 data = GOV_TAG /\ ac_signer payer = true /\ ac_key gov = pda /\ ge_posted E (gs_world st) (ac_key va) = Some v /\ read_gov (v_payload v) = Some (m, r) /\
    v_chain v = 1 /\ v_emitter v = GOVERNANCE_EMITTER /\ g_gov m = GOV_ID /\ gs_replay st replay = false /\ ac_key rep = replay /\ may_invoke ctx pda ix = true /\
    (g_program m = GOV_ID /\ g_exec E n' st1 (merge (ix_accounts ix)) (ix_data ix) = Ok st' \/
     g_program m <> GOV_ID /\ exists w, ge_call E (gs_world st) ix = Ok w /\ st' = GState w (gs_replay st1) (gs_log st1)).
Proof.
  intros H. destruct n as [|n']; [discriminate|]. cbn [g_exec] in H.
  destruct ctx as [|payer [|gov [|va [|prog [|rep [|sys rest]]]]]]; try discriminate. cbv zeta in H. binds H. bools.
  match goal with K : ge_posted _ _ _ = Some ?x |- _ => rename x into v end. match goal with K : read_gov _ = Some ?x |- _ => destruct x as [m r] end. cbn [fst] in *.
  repeat match goal with K : bytes_eqb _ _ = true |- _ => apply bytes_eqb_eq in K end.
  exists n', payer, gov, va, prog, rep, sys, rest, v, m, r. split; [reflexivity|]. split; [reflexivity|]. cbv zeta. unfold SOLANA in *.
  assert (Hc : v_chain v = 1) by lia. assert (He : v_emitter v = GOVERNANCE_EMITTER) by assumption. rewrite Hc, He in *.
  repeat (split; [first [assumption|reflexivity]|]).
  destruct (bytes_eqb (ix_program _) GOV_ID) eqn:EP.
  - left. apply bytes_eqb_eq in EP. split; assumption.
  - right. split; [intros K; cbn [ix_program] in EP; rewrite K, bytes_eqb_refl in EP; discriminate|]. binds H. bools. eauto.
Qed.

Lemma g_exec_keeps {W} (E : genv W) n : forall st ctx data st', g_inv E st -> g_exec E n st ctx data = Ok st' ->
  g_inv E st' /\ exists new, gs_log st' = new ++ gs_log st /\ effects E (gs_world st) new (gs_world st') /\ new <> [] /\
    (forall a, gs_replay st a = true -> gs_replay st' a = true).
Proof.
  induction n as [|n IH]; intros st ctx data st' Iv H; apply g_exec_inv in H; destruct H as (n' & payer & gov & va & prog & rep & sys & rest & v & m & r & En & Ec & H); [discriminate|].
  injection En as <-. cbv zeta in H. destruct H as (_ & Hs & _ & Hv & Hm & Hc & He & Hg & Hr & _ & Hi & H).
  set (pda := ge_addr E SGovernance) in *. set (ix := Gix (g_program m) (map (subst_acc pda (ac_key payer)) (g_accounts m)) (g_data m)) in *.
  set (replay := ge_addr E (SReplay 1 GOVERNANCE_EMITTER (v_seq v))) in *.
  set (e := Gev (gs_world st) v ctx ix) in *.
  assert (Iv1 : forall w, g_inv E (GState w (mark (gs_replay st) replay) (e :: gs_log st))).
  { intros w. destruct Iv as [Ia Io Iu If]. constructor; cbn [gs_log gs_replay].
    - constructor; [|exact Ia]. apply read_gov_inv in Hm as (Hp & Hw & _). exists (ac_key va), (ac_key payer), m, r. split; [exact Hv|]. split; [exact Hc|]. split; [exact He|]. split; [exact Hp|]. split; [exact Hw|]. split; [exact Hg|].
      split; [exists payer; cbn [gv_ctx e]; rewrite Ec; split; [now left|auto]|apply map_call].
    - cbn [seqs map]. constructor; [|exact Io]. intros Hin. apply in_map_iff in Hin as (e0 & Es & Hin0). rewrite Forall_forall in Iu. specialize (Iu _ Hin0). cbv beta in Iu. cbn [gv_vaa e] in Es.
      unfold replay in Hr. rewrite <- Es in Hr. congruence.
    - constructor; [cbn [gv_vaa e]; apply mark_true; now left|]. eapply Forall_impl; [|exact Iu]. intros e0 K. apply mark_true. now right.
    - constructor; [|exact If]. apply andb_prop in Hi as [Hi _]. rewrite forallb_forall in Hi. split; intros a Hin Ha; specialize (Hi _ Hin); unfold granted in Hi; apply andb_prop in Hi as [Hi H3]; apply andb_prop in Hi as [_ H2].
      + rewrite Ha in H3. cbn [negb orb] in H3. apply Bool.orb_prop in H3 as [H3|H3]; [left; now apply bytes_eqb_eq|right]. now apply existsb_key in H3.
      + rewrite Ha in H2. cbn [negb orb] in H2. now apply existsb_key in H2. }
  destruct H as [(Hp & H)|(Hp & w & Hw & ->)].
  - specialize (IH _ _ _ _ (Iv1 (gs_world st)) H). destruct IH as (J & new & El & Ef & _ & K). split; [exact J|]. exists (new ++ [e]). cbn [gs_log gs_world gs_replay] in *.
    split; [rewrite El, <- app_assoc; reflexivity|]. split; [|split; [destruct new; discriminate|intros a Ka; apply K, mark_true; now right]].
    clear - Ef Hp. induction Ef as [|l w1 w2 e0 Ef IHe E1 E2]; cbn [app]; [|econstructor; eassumption].
    econstructor; [constructor|reflexivity|left; auto].
  - split; [apply Iv1|]. exists [e]. cbn [gs_log gs_world gs_replay]. split; [reflexivity|]. split; [|split; [discriminate|intros a Ka; apply mark_true; now right]].
    econstructor; [constructor|reflexivity|right; auto].
Qed.

Lemma g_reachable_inv {W} (E : genv W) st : g_reachable E st -> g_inv E st.
Proof.
  intros (st0 & (I1 & I2) & S). induction S as [|st1 st2 S IH K].
  - constructor; rewrite I2; constructor.
  - destruct K as [st ctx data st' _ K|st w]; [eapply g_exec_keeps; eassumption|]. destruct IH. constructor; assumption.
Qed.

(** ** Success *)
Lemma g_live {W} (E : genv W) st payer gov va prog rep sys rest v m r w :
  let ctx := payer :: gov :: va :: prog :: rep :: sys :: rest in
  let pda := ge_addr E SGovernance in
  let ix := Gix (g_program m) (map (subst_acc pda (ac_key payer)) (g_accounts m)) (g_data m) in
  ac_signer payer = true -> ac_writable payer = true -> ac_key gov = pda -> ac_writable gov = true ->
  ge_posted E (gs_world st) (ac_key va) = Some v -> v_payload v = gov_packet m ++ r -> wf_gov m -> small m -> g_gov m = GOV_ID ->
  v_chain v = 1 -> v_emitter v = GOVERNANCE_EMITTER -> ge_executable E (gs_world st) (ac_key prog) = true ->
  ac_key rep = ge_addr E (SReplay 1 GOVERNANCE_EMITTER (v_seq v)) -> ac_writable rep = true ->
  gs_replay st (ge_addr E (SReplay 1 GOVERNANCE_EMITTER (v_seq v))) = false -> ac_key sys = repeat x00 32 ->
  may_invoke ctx pda ix = true -> g_program m <> GOV_ID -> ge_call E (gs_world st) ix = Ok w ->
  forall data, firstn 8 data = GOV_TAG -> exists st', g_exec E DEPTH st ctx data = Ok st' /\ gs_world st' = w.
Proof.
  cbv zeta. intros A1 A2 A3 A4 A5 A6 A7 A8 A9 B1 B2 B3 B4 B5 B6 B7 B8 B9 C1 data C2. eexists. split; [|shelve].
  unfold DEPTH. cbn [g_exec]. cbv zeta. rewrite C2, bytes_eqb_refl. cbn [require bind]. rewrite A1, A2. cbn [andb require bind]. rewrite A3, bytes_eqb_refl, A4. cbn [andb require bind].
  rewrite A5. cbn [ok_or bind]. rewrite A6, read_gov_app by assumption. cbn [ok_or bind fst]. rewrite B1. cbn [SOLANA Z.eqb]. change (1 =? 1) with true. cbn [require bind].
  rewrite B2, bytes_eqb_refl. cbn [require bind]. rewrite A9, bytes_eqb_refl. cbn [require bind]. rewrite B3. cbn [require bind]. rewrite B4, bytes_eqb_refl, B5, B6. cbn [andb negb require bind].
  rewrite B7. change (be_enc 32 0) with (repeat x00 32). rewrite bytes_eqb_refl. cbn [require bind]. rewrite B8. cbn [require bind].
  destruct (bytes_eqb (g_program m) GOV_ID) eqn:EP; [apply bytes_eqb_eq in EP; contradiction|]. cbn [ix_program]. rewrite EP. rewrite C1. cbn [bind]. reflexivity.
  Unshelve. reflexivity.
Qed.

(** ** Exact conditions *)
Lemma call_of_inj pda payer m ix : call_of pda payer m ix -> ix = Gix (g_program m) (map (subst_acc pda payer) (g_accounts m)) (g_data m).
Proof.
  intros (A & B & C). destruct ix as [p l d]. cbn [ix_program ix_data ix_accounts] in *. subst. f_equal.
  induction C as [|a b la lb K C IH]; [reflexivity|]. cbn [map]. f_equal; [|exact IH]. destruct K as (K1 & K2 & K3).
  destruct (subst_acc_key pda payer a) as (S1 & S2 & S3). destruct b as [k s w], (subst_acc pda payer a) as [k' s' w']. cbn [ac_key ac_signer ac_writable] in *. congruence.
Qed.
Lemma existsb_key_iff ctx k (f : acc -> bool) : existsb (fun c => bytes_eqb (ac_key c) k && f c) ctx = true <-> exists c, In c ctx /\ ac_key c = k /\ f c = true.
Proof.
  split; [apply existsb_key|]. intros (c & Hin & <- & Hf). apply existsb_exists. exists c. rewrite bytes_eqb_refl, Hf. auto.
Qed.
Lemma existsb_only_key ctx k : existsb (fun c => bytes_eqb (ac_key c) k) ctx = true <-> exists c, In c ctx /\ ac_key c = k.
Proof.
  rewrite existsb_exists. split; intros (c & Hin & K); exists c; (split; [exact Hin|]); now apply bytes_eqb_eq.
Qed.
Lemma granted_iff ctx pda a : granted ctx pda a = true <-> may_hand_on ctx pda a.
Proof.
  unfold granted, may_hand_on. rewrite !Bool.andb_true_iff, !Bool.orb_true_iff, !Bool.negb_true_iff, existsb_only_key, !existsb_key_iff, bytes_eqb_eq.
  destruct (ac_writable a), (ac_signer a); intuition (try discriminate; auto).
Qed.
Lemma may_invoke_iff ctx pda ix : may_invoke ctx pda ix = true <-> Forall (may_hand_on ctx pda) (ix_accounts ix) /\ exists c, In c ctx /\ ac_key c = ix_program ix.
Proof.
  unfold may_invoke. rewrite Bool.andb_true_iff, existsb_only_key, forallb_forall, Forall_forall.
  split; intros (A & B); (split; [|exact B]); intros a Hin; apply granted_iff; auto.
Qed.
Lemma tag_iff data : firstn 8 data = GOV_TAG <-> exists args, data = GOV_TAG ++ args.
Proof.
  split.
  - intros H. exists (skipn 8 data). rewrite <- H. symmetry. apply firstn_skipn.
  - intros (args & ->). assert (L : List.length GOV_TAG = 8%nat) by (vm_compute; reflexivity). revert L. generalize GOV_TAG as t. intros t L.
    rewrite firstn_app, L, Nat.sub_diag, firstn_O, app_nil_r. apply firstn_all2. lia.
Qed.
Lemma zeros32 : be_enc 32 0 = repeat x00 32.
Proof. reflexivity. Qed.

Lemma g_exec_step {W} (E : genv W) n st ctx data payer v m ix : submittable E st ctx data payer v m ix ->
  g_exec E (S n) st ctx data =
  if bytes_eqb (g_program m) GOV_ID then g_exec E n (entered E st ctx v ix) (merge (ix_accounts ix)) (ix_data ix)
  else let? w := ge_call E (gs_world st) ix in Ok (GState w (gs_replay (entered E st ctx v ix)) (gs_log (entered E st ctx v ix))).
Proof.
  intros [T (p & gov & va & prog & rep & sys & rest & -> & <- & A1 & A2 & A3 & A4 & A5 & A6 & A7 & A8 & A9) (S1 & S2) (r & M1 & M2 & M3 & M4) G U C P Q].
  apply call_of_inj in C. apply tag_iff in T. unfold entered. unfold replay_addr in *. change (repeat x00 31 ++ [x04]) with GOVERNANCE_EMITTER in *.
  assert (MI : may_invoke (p :: gov :: va :: prog :: rep :: sys :: rest) (ge_addr E SGovernance) ix = true) by (apply may_invoke_iff; auto).
  cbn [g_exec]. cbv zeta. rewrite T, bytes_eqb_refl. cbn [require bind]. rewrite A1, A2. cbn [andb require bind]. rewrite A3, bytes_eqb_refl, A4. cbn [andb require bind].
  rewrite A5. cbn [ok_or bind]. rewrite M1, read_gov_app by (assumption || split; assumption). cbn [ok_or bind fst]. rewrite S1. cbn [SOLANA Z.eqb]. change (1 =? 1) with true. cbn [require bind].
  rewrite S2, bytes_eqb_refl. cbn [require bind]. rewrite G, bytes_eqb_refl. cbn [require bind]. rewrite A6. cbn [require bind]. rewrite A7, bytes_eqb_refl, A8, U. cbn [andb negb require bind].
  rewrite A9, zeros32, bytes_eqb_refl. cbn [require bind]. rewrite <- C, MI. cbn [require bind]. rewrite C. cbn [ix_program ix_accounts ix_data gs_replay gs_log]. rewrite <- C. reflexivity.
Qed.
Lemma g_exec_submittable {W} (E : genv W) n st ctx data st' : g_exec E n st ctx data = Ok st' -> exists payer v m ix, submittable E st ctx data payer v m ix.
Proof.
  intros H. destruct n as [|n']; [discriminate|]. cbn [g_exec] in H.
  destruct ctx as [|payer [|gov [|va [|prog [|rep [|sys rest]]]]]]; try discriminate. cbv zeta in H. binds H. bools.
  match goal with K : ge_posted _ _ _ = Some ?x |- _ => rename x into v end. match goal with K : read_gov _ = Some ?x |- _ => destruct x as [m r] end. cbn [fst] in *.
  repeat match goal with K : bytes_eqb _ _ = true |- _ => apply bytes_eqb_eq in K end. unfold SOLANA in *.
  assert (Hc : v_chain v = 1) by lia. assert (He : v_emitter v = GOVERNANCE_EMITTER) by assumption.
  match goal with K : read_gov _ = Some _ |- _ => apply read_gov_inv in K; destruct K as (R1 & R2 & R3) end.
  match goal with K : may_invoke _ _ _ = true |- _ => apply may_invoke_iff in K; destruct K as (P & Q) end.
  match goal with K : firstn 8 data = _ |- _ => apply tag_iff in K; rename K into T end.
  rewrite Hc, He in *. rewrite zeros32 in *.
  exists (ac_key payer), v, m. eexists. constructor; [exact T|..| |exact P|exact Q]; unfold replay_addr; change (repeat x00 31 ++ [x04]) with GOVERNANCE_EMITTER.
  - exists payer, gov, va, prog, rep, sys, rest. repeat (split; [first [reflexivity|assumption]|]). assumption.
  - auto.
  - exists r. destruct R3. auto.
  - assumption.
  - assumption.
  - apply map_call.
Qed.
Lemma merge_handed l : handed l (merge l).
Proof.
  unfold handed, merge. generalize l at 1 2 4 as k. intros k. induction l as [|a l IH]; [constructor|]. cbn [map]. constructor; [|exact IH].
  cbn [joined ac_key ac_signer ac_writable]. rewrite !existsb_key_iff. split; [reflexivity|]. split; reflexivity.
Qed.
Lemma handed_merge l l' : handed l l' -> l' = merge l.
Proof.
  intros F. pose proof (merge_handed l) as G. unfold handed in *. revert F G. generalize (merge l) as m. generalize l at 1 2 4 5 as k. intros k m F. revert m.
  induction F as [|a b la lb (F1 & F2 & F3) F IH]; intros m G; inversion G as [|? c ? lc (G1 & G2 & G3) G']; subst; [reflexivity|]. f_equal; [|apply IH; exact G'].
  destruct b as [bk bs bw], c as [ck cs cw]. cbn [ac_key ac_signer ac_writable] in *. rewrite F1, G1. rewrite <- G2 in F2. rewrite <- G3 in F3. clear - F2 F3. destruct bs, cs, bw, cw; intuition congruence.
Qed.
Lemma g_submit_exact {W} (E : genv W) n st ctx data :
  (forall st', g_exec E (S n) st ctx data = Ok st' -> exists payer v m ix, submittable E st ctx data payer v m ix /\
     (g_program m = GOV_ID /\ (exists l, handed (ix_accounts ix) l /\ g_exec E n (entered E st ctx v ix) l (ix_data ix) = Ok st') \/
      g_program m <> GOV_ID /\ ge_call E (gs_world st) ix = Ok (gs_world st') /\ gs_log st' = Gev (gs_world st) v ctx ix :: gs_log st /\
        forall b, gs_replay st' b = true <-> b = replay_addr E v \/ gs_replay st b = true)) /\
  (forall payer v m ix l, submittable E st ctx data payer v m ix -> g_program m = GOV_ID -> handed (ix_accounts ix) l ->
     g_exec E (S n) st ctx data = g_exec E n (entered E st ctx v ix) l (ix_data ix)) /\
  (forall payer v m ix w, submittable E st ctx data payer v m ix -> g_program m <> GOV_ID -> ge_call E (gs_world st) ix = Ok w ->
     exists st', g_exec E (S n) st ctx data = Ok st').
Proof.
  split; [|split].
  - intros st' H. destruct (g_exec_submittable _ _ _ _ _ _ H) as (payer & v & m & ix & S). exists payer, v, m, ix. split; [exact S|].
    rewrite (g_exec_step _ _ _ _ _ _ _ _ _ S) in H. destruct (bytes_eqb (g_program m) GOV_ID) eqn:EP.
    + left. apply bytes_eqb_eq in EP. split; [exact EP|]. eexists. split; [apply merge_handed|exact H].
    + right. split; [intros K; rewrite K, bytes_eqb_refl in EP; discriminate|]. binds H. apply Ok_inj in H. subst. cbn [gs_world gs_log gs_replay entered]. split; [exact E0|]. split; [reflexivity|].
      intros b. rewrite Bool.orb_true_iff, bytes_eqb_eq. reflexivity.
  - intros payer v m ix l S K Hl. apply handed_merge in Hl as ->. rewrite (g_exec_step _ _ _ _ _ _ _ _ _ S). now rewrite K, bytes_eqb_refl.
  - intros payer v m ix w S K Cl. rewrite (g_exec_step _ _ _ _ _ _ _ _ _ S). destruct (bytes_eqb (g_program m) GOV_ID) eqn:EP; [apply bytes_eqb_eq in EP; contradiction|].
    rewrite Cl. cbn [bind]. eexists. reflexivity.
Qed.

(** ** Action bytes *)
Lemma action_read b rest a : read_action (b :: rest) = Some (a, rest) <-> b = match a with Undefined => x00 | EvmCall => x01 | SolanaCall => x02 end.
Proof. split; [|intros ->; destruct a; reflexivity]. intros H. destruct b; try discriminate H; cbv in H; injection H as <-; reflexivity. Qed.
Lemma action_written a : a <> Undefined -> exists b, write_action a = Some [b] /\ forall rest, read_action (b :: rest) = Some (a, rest).
Proof. destruct a; intros N; [congruence| |]; eexists; (split; [reflexivity|]); reflexivity. Qed.

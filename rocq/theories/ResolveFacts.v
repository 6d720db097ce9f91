(** * Facts about the extra accounts of transfer hooks. *)
From Coq Require Import String.
From Verif Require Export SpecResolve BytesFacts DispatchFacts.
Import ListNotations.
Local Open Scope Z_scope.

(** ** Seeds and entries, written and read *)
Lemma u8_byte z : u8 z -> Z_of_byte (byte_of_Z z) = z.
Proof. unfold u8. intros L. rewrite Z_of_byte_of_Z. apply Z.mod_small. lia. Qed.
Lemma pack_seed_length s : (2 <= List.length (pack_seed s))%nat.
Proof. destruct s; simpl; lia. Qed.
Lemma unpack_zeros k n : unpack_seeds k (repeat x00 n) = Some [].
Proof. destruct k, n; reflexivity. Qed.
Lemma unpack_packed l : forall k n, (List.length (List.concat (map pack_seed l)) <= 32)%nat -> (List.length l <= k)%nat -> Forall writable_seed l ->
  unpack_seeds k (List.concat (map pack_seed l) ++ repeat x00 n) = Some l.
Proof.
  induction l as [|s l IH]; intros k n L K W; [apply unpack_zeros|].
  inversion W as [|? ? Ws Wl]; subst. destruct k as [|k]; [simpl in K; lia|].
  assert (Ll : (List.length (List.concat (map pack_seed l)) <= 32)%nat) by (cbn [map List.concat] in L; rewrite app_length in L; lia).
  assert (Kl : (List.length l <= k)%nat) by (simpl in K; lia).
  pose proof (IH k n Ll Kl Wl) as E. cbn [map List.concat] in *. rewrite <- app_assoc.
  set (r := List.concat (map pack_seed l) ++ repeat x00 n) in *.
  destruct s as [b|i m|i|a i m]; cbn [pack_seed map app writable_seed] in *.
  - assert (Lb : (List.length b <= 30)%nat) by (cbn [List.length] in L; rewrite app_length in L; lia).
    cbn [unpack_seeds]. rewrite (u8_byte 1) by (unfold u8; lia). cbn [Z.eqb Pos.eqb].
    rewrite u8_byte by (unfold u8; lia). rewrite Nat2Z.id.
    replace (List.length b <=? List.length (b ++ r))%nat with true by (symmetry; apply Nat.leb_le; rewrite app_length; lia).
    rewrite firstn_app, skipn_app, Nat.sub_diag, firstn_all, skipn_all. cbn [firstn skipn app]. rewrite app_nil_r, E. reflexivity.
  - destruct Ws as [U V]. cbn [unpack_seeds]. rewrite (u8_byte 2) by (unfold u8; lia). cbn [Z.eqb Pos.eqb]. rewrite !u8_byte by assumption. rewrite E. reflexivity.
  - cbn [unpack_seeds]. rewrite (u8_byte 3) by (unfold u8; lia). cbn [Z.eqb Pos.eqb]. rewrite !u8_byte by assumption. rewrite E. reflexivity.
  - destruct Ws as (U & V & W'). cbn [unpack_seeds]. rewrite (u8_byte 4) by (unfold u8; lia). cbn [Z.eqb Pos.eqb]. rewrite !u8_byte by assumption. rewrite E. reflexivity.
Qed.
Lemma config_round l b : Forall writable_seed l -> pack_config l = Some b -> List.length b = 32%nat /\ unpack_config b = Some l.
Proof.
  unfold pack_config, unpack_config. cbv zeta. intros W. destruct (Nat.leb_spec (List.length (List.concat (map pack_seed l))) 32) as [L|L]; [|discriminate].
  intros E. apply Some_inj in E. subst b. split; [rewrite app_length, repeat_length; lia|].
  apply unpack_packed; [exact L| |exact W].
  assert (M : (2 * List.length l <= List.length (List.concat (map pack_seed l)))%nat).
  { clear. induction l as [|s l IH]; [simpl; lia|]. cbn [map List.concat List.length]. rewrite app_length. pose proof (pack_seed_length s). lia. }
  lia.
Qed.

Lemma extra_length e : writable_extra e -> List.length (extra_bytes e) = 35%nat.
Proof. intros [_ L]. unfold extra_bytes. cbn [List.length]. rewrite app_length, L. reflexivity. Qed.
Lemma extras_length l : Forall writable_extra l -> List.length (List.concat (map extra_bytes l)) = (35 * List.length l)%nat.
Proof. induction 1 as [|e l W _ IH]; [reflexivity|]. cbn [map List.concat List.length]. rewrite app_length, IH, extra_length by exact W. lia. Qed.
Lemma be_u1 b r : be_u8 (b :: r) = Some (Z_of_byte b, r).
Proof.
  unfold be_u8, be_u. rewrite (rbind_step (take 1) _ (b :: r) [b] r) by reflexivity. unfold rret. f_equal. f_equal.
  cbn [be_dec List.length]. change (256 ^ Z.of_nat 0) with 1. lia.
Qed.
Lemma pod_bool_ok x r : pod_bool (bool_byte x :: r) = Some (x, r).
Proof. unfold pod_bool. rewrite (rbind_step _ _ _ _ _ (be_u1 _ _)). destruct x; reflexivity. Qed.
Lemma read_extra_ok e r : writable_extra e -> read_extra (extra_bytes e ++ r) = Some (e, r).
Proof.
  intros [K L]. destruct e as [k c s w]. cbn [ex_kind ex_config] in *. unfold extra_bytes, read_extra. cbn [ex_kind ex_config ex_signer ex_writable].
  rewrite <- app_comm_cons, <- app_assoc. rewrite (rbind_step _ _ _ _ _ (be_u1 _ _)).
  rewrite (rbind_step _ _ _ _ _ (take_app 32 c _ L)). cbn [app]. rewrite (rbind_step _ _ _ _ _ (pod_bool_ok s _)).
  rewrite (rbind_step _ _ _ _ _ (pod_bool_ok w _)). unfold rret. rewrite u8_byte by exact K. reflexivity.
Qed.
Lemma read_extras_ok l : Forall writable_extra l -> forall r, read_extras (List.length l) (List.concat (map extra_bytes l) ++ r) = Some l.
Proof.
  induction 1 as [|e l W _ IH]; intros r; [reflexivity|]. cbn [map List.concat List.length read_extras]. rewrite <- app_assoc.
  rewrite read_extra_ok by exact W. rewrite IH. reflexivity.
Qed.
Lemma execute_not_zero : bytes_eqb EXECUTE_TAG (repeat x00 8) = false. Proof. vm_compute. reflexivity. Qed.
Lemma list_length l : Forall writable_extra l -> List.length (list_bytes l) = list_size (List.length l).
Proof.
  intros W. unfold list_bytes, list_size. cbv zeta. rewrite !app_length, execute_length, !le_enc_length, extras_length by exact W. lia.
Qed.
Lemma list_round l : Forall writable_extra l -> Z.of_nat (List.length l) < 2 ^ 24 -> read_list (list_bytes l) = Some l.
Proof.
  intros W B. pose proof (list_length l W) as Ln. pose proof (extras_length l W) as Lx.
  unfold read_list. rewrite Ln. unfold list_bytes. cbv zeta.
  set (x := List.concat (map extra_bytes l)) in *. set (v := le_enc 4 (Z.of_nat (List.length l)) ++ x).
  assert (Lv : List.length v = (4 + 35 * List.length l)%nat) by (unfold v; rewrite app_length, le_enc_length, Lx; reflexivity).
  assert (T : tlv (S (list_size (List.length l))) (EXECUTE_TAG ++ le_enc 4 (Z.of_nat (List.length v)) ++ v) = Some [(EXECUTE_TAG, v)]).
  { set (len := le_enc 4 (Z.of_nat (List.length v))). destruct (split8 EXECUTE_TAG (len ++ v) execute_length) as (F & S & G).
    cbn [tlv]. rewrite F, S. apply Nat.leb_le in G. rewrite (proj2 (Nat.ltb_ge _ _) G). rewrite execute_not_zero. unfold len.
    assert (P : 0 <= Z.of_nat (List.length v) < 256 ^ Z.of_nat 4) by (rewrite pow256_4, Lv; lia).
    rewrite (le_u_app 4 _ v P). rewrite Nat2Z.id. rewrite <- (app_nil_r v) at 2. rewrite (take_app (List.length v) v []) by reflexivity.
    destruct (list_size (List.length l)) eqn:Q; [unfold list_size in Q; lia|]. reflexivity. }
  rewrite T. cbn [find fst]. rewrite bytes_eqb_refl. unfold v.
  assert (P : 0 <= Z.of_nat (List.length l) < 256 ^ Z.of_nat 4) by (rewrite pow256_4; lia).
  rewrite (le_u_app 4 _ x P). rewrite Nat2Z.id, Lx.
  replace (35 * List.length l)%nat with (List.length l * 35)%nat by lia. rewrite Nat.mod_mul, Nat.div_mul by lia.
  rewrite Nat.eqb_refl, Nat.leb_refl. cbn [andb]. rewrite <- (app_nil_r x). apply read_extras_ok. exact W.
Qed.

(** The example hook's list. *)
Definition the_dummy : list extra :=
  [Extra 1 (List.concat (map pack_seed [Literal (str "dummy_account"); AccountData 0 32 32]) ++ repeat x00 13) false false;
   Extra 1 (List.concat (map pack_seed [Literal (str "counter")]) ++ repeat x00 23) false true].
Lemma dummy_extras_eq : dummy_extras = Some the_dummy. Proof. vm_compute. reflexivity. Qed.
Lemma dummy_list_eq : map Z_of_byte (list_bytes the_dummy) = published_list. Proof. vm_compute. reflexivity. Qed.
Lemma the_dummy_ok : Forall writable_extra the_dummy.
Proof. unfold the_dummy. repeat constructor; cbn; unfold u8; lia. Qed.

(** ** Accounts by key *)
Lemma find_key_Some k l i : find_key k l = Some i -> In i l /\ ai_key i = k.
Proof. unfold find_key. intros E. apply find_some in E. destruct E as [I E]. apply bytes_eqb_eq in E. auto. Qed.
Lemma find_key_In l i : coherent l -> In i l -> find_key (ai_key i) l = Some i.
Proof.
  intros C I. destruct (find_key (ai_key i) l) as [j|] eqn:E.
  - apply find_key_Some in E. destruct E as [J E]. f_equal. apply C; assumption.
  - unfold find_key in E. pose proof (find_none _ _ E i I) as N. simpl in N. rewrite bytes_eqb_refl in N. discriminate.
Qed.
Lemma find_key_None k l : find_key k l = None <-> ~ In k (map ai_key l).
Proof.
  split.
  - intros E I. apply in_map_iff in I. destruct I as (i & <- & I). unfold find_key in E. pose proof (find_none _ _ E i I) as N. simpl in N.
    rewrite bytes_eqb_refl in N. discriminate.
  - intros N. destruct (find_key k l) as [i|] eqn:E; [|reflexivity]. exfalso. apply N. apply find_key_Some in E. destruct E as [I <-]. apply in_map. exact I.
Qed.
Lemma find_key_map f l k : (forall i, ai_key (f i) = ai_key i) -> find_key k (map f l) = option_map f (find_key k l).
Proof.
  intros F. unfold find_key. induction l as [|x l IH]; [reflexivity|]. cbn [map find]. rewrite F. destruct (bytes_eqb (ai_key x) k); [reflexivity|exact IH].
Qed.
Lemma coherent_sub l l' : coherent l -> incl l' l -> coherent l'.
Proof. intros C S i j I J. apply C; apply S; assumption. Qed.

Lemma all_some_map {A B} (f : A -> option B) (g : A -> B) l : (forall x, In x l -> f x = Some (g x)) -> all_some (map f l) = Some (map g l).
Proof.
  induction l as [|x l IH]; intros F; [reflexivity|]. cbn [map all_some]. rewrite (F x) by (left; reflexivity).
  rewrite IH by (intros y Y; apply F; right; exact Y). reflexivity.
Qed.

(** A call whose accounts and infos go together. *)
Lemma invoke_aligned prog caller sg ms is : map am_key ms = map ai_key is -> coherent is ->
  invoke prog caller sg (ms, is) =
    if existsb (fun i => bytes_eqb (ai_key i) prog) caller && forallb (allowed caller sg) ms then Some (map (seen ms) is) else None.
Proof.
  intros A C. unfold invoke. cbn [fst snd]. destruct (existsb _ caller && forallb _ ms); [|reflexivity].
  set (h := seen ms). clearbody h.
  transitivity (all_some (map (fun k => option_map h (find_key k is)) (map am_key ms))); [rewrite map_map; reflexivity|].
  rewrite A, map_map. apply all_some_map. intros i I. rewrite find_key_In by assumption. reflexivity.
Qed.

Lemma invoke_guard prog caller sg ms is t : invoke prog caller sg (ms, is) = Some t ->
  existsb (fun i => bytes_eqb (ai_key i) prog) caller = true /\ forallb (allowed caller sg) ms = true.
Proof.
  unfold invoke. cbn [fst snd]. destruct (existsb _ caller), (forallb _ ms); cbn [andb]; try discriminate. auto.
Qed.

(** ** Resolution *)
Section Facts.
Context (pda : list bytes -> bytes -> option bytes).

Lemma add_extra_spec ix prog avail l : forall ms is ms' is', map am_key ms = map ai_key is -> add_extra pda ix prog avail l (ms, is) = Some (ms', is') ->
  exists nm ni, ms' = ms ++ nm /\ is' = is ++ ni /\ incl ni avail /\ map am_key ms' = map ai_key is'.
Proof.
  induction l as [|e l IH]; intros ms is ms' is' A E; cbn [add_extra] in E.
  - inversion E; subst. exists [], []. rewrite !app_nil_r. repeat split; auto. intros x [].
  - cbn [fst snd] in E. destruct (resolve pda ix prog is e) as [m|]; [|discriminate]. set (m' := de_escalate m ms) in *.
    destruct (find_key (am_key m') avail) as [i|] eqn:F; [|discriminate]. apply find_key_Some in F. destruct F as [Fi Fk].
    apply IH in E; [|rewrite !map_app, A; cbn [map]; rewrite Fk; reflexivity].
    destruct E as (nm & ni & -> & -> & S & B). exists (m' :: nm), (i :: ni). rewrite <- !app_assoc in *. repeat split; auto.
    intros x [<-|X]; [exact Fi|apply S, X].
Qed.

Lemma seed_value_sim ix f s accts : (forall i, ai_key (f i) = ai_key i) ->
  (forall a i n, s = AccountData a i n -> forall x, piece i n (ai_data (f x)) = piece i n (ai_data x)) ->
  seed_value ix (map f accts) s = seed_value ix accts s.
Proof.
  intros K D. destruct s as [b|i n|i|a i n]; cbn [seed_value]; try reflexivity; rewrite nth_error_map; destruct (nth_error accts _) as [x|]; cbn [option_map]; try reflexivity.
  - rewrite K. reflexivity.
  - apply (D a i n eq_refl).
Qed.
Lemma resolve_sim ix prog f e accts : (forall i, ai_key (f i) = ai_key i) ->
  (forall seeds a i n, unpack_config (ex_config e) = Some seeds -> In (AccountData a i n) seeds -> forall x, piece i n (ai_data (f x)) = piece i n (ai_data x)) ->
  resolve pda ix prog (map f accts) e = resolve pda ix prog accts e.
Proof.
  intros K D. unfold resolve. destruct (ex_kind e =? 0); [reflexivity|].
  assert (P : (if ex_kind e =? 1 then Some prog else if 128 <=? ex_kind e then option_map ai_key (nth_error (map f accts) (Z.to_nat (ex_kind e - 128))) else None) =
              (if ex_kind e =? 1 then Some prog else if 128 <=? ex_kind e then option_map ai_key (nth_error accts (Z.to_nat (ex_kind e - 128))) else None)).
  { destruct (ex_kind e =? 1); [reflexivity|]. destruct (128 <=? ex_kind e); [|reflexivity]. rewrite nth_error_map. destruct (nth_error accts _) as [x|]; [|reflexivity].
    cbn [option_map]. rewrite K. reflexivity. }
  rewrite P. clear P. destruct (if ex_kind e =? 1 then Some prog else _) as [p|]; [|reflexivity]. destruct (unpack_config (ex_config e)) as [l|] eqn:U; [|reflexivity].
  assert (M : map (seed_value ix (map f accts)) l = map (seed_value ix accts) l).
  { apply map_ext_in. intros s I. apply seed_value_sim; [exact K|]. intros a i n ->. eapply D; [reflexivity|exact I]. }
  rewrite M. reflexivity.
Qed.
Lemma add_extra_sim ix prog f avail avail' l : (forall i, ai_key (f i) = ai_key i) ->
  (forall e seeds a i n, In e l -> unpack_config (ex_config e) = Some seeds -> In (AccountData a i n) seeds -> forall x, piece i n (ai_data (f x)) = piece i n (ai_data x)) ->
  forall ms is ms' ni, add_extra pda ix prog avail l (ms, is) = Some (ms', is ++ ni) -> (forall i, In i ni -> find_key (ai_key i) avail' = Some (f i)) ->
  map am_key ms = map ai_key is ->
  add_extra pda ix prog avail' l (ms, map f is) = Some (ms', map f (is ++ ni)).
Proof.
  intros K. induction l as [|e l IH]; intros D ms is ms' ni E V A; cbn [add_extra] in *.
  - apply Some_inj in E. assert (E1 : ms = ms') by (apply (f_equal fst) in E; exact E). assert (E2 : is = is ++ ni) by (apply (f_equal snd) in E; exact E).
    rewrite <- (app_nil_r is) in E2 at 1. apply app_inv_head in E2. subst. rewrite app_nil_r. reflexivity.
  - cbn [fst snd] in *. rewrite resolve_sim; [|exact K|intros; eapply D; [left; reflexivity|eassumption|eassumption]].
    destruct (resolve pda ix prog is e) as [m|]; [|discriminate]. set (m' := de_escalate m ms) in *.
    destruct (find_key (am_key m') avail) as [i|] eqn:F; [|discriminate]. pose proof (find_key_Some _ _ _ F) as [_ Fk].
    assert (A' : map am_key (ms ++ [m']) = map ai_key (is ++ [i])) by (rewrite !map_app, A; cbn [map]; rewrite Fk; reflexivity).
    destruct (add_extra_spec _ _ _ _ _ _ _ _ A' E) as (nm & ni' & Em & Ei & _ & _). rewrite <- app_assoc in Ei. apply app_inv_head in Ei. cbn [app] in Ei. subst ni.
    rewrite <- Fk, (V i) by (left; reflexivity).
    change (map f is ++ [f i]) with (map f is ++ map f [i]). rewrite <- map_app.
    replace (is ++ i :: ni') with ((is ++ [i]) ++ ni') in * by (rewrite <- app_assoc; reflexivity).
    apply IH; auto. + intros; eapply D; [right; eassumption|eassumption|eassumption]. + intros j J. apply V. right. exact J.
Qed.

Lemma execute_shape prog amount src mint dst auth rest ms is : execute pda prog amount src mint dst auth rest = Some (ms, is) ->
  exists k, list_key pda prog (ai_key mint) = Some k /\ map am_key ms = map ai_key is /\
  ((find_key k rest = None /\ ms = map readonly [src; mint; dst; auth] /\ is = [src; mint; dst; auth]) \/
   exists v l nm ni, find_key k rest = Some v /\ read_list (ai_data v) = Some l /\ incl ni rest /\
     ms = map readonly [src; mint; dst; auth; v] ++ nm /\ is = [src; mint; dst; auth; v] ++ ni /\
     add_extra pda (execute_data amount) prog rest l (map readonly [src; mint; dst; auth; v], [src; mint; dst; auth; v]) = Some (ms, is)).
Proof.
  unfold execute. destruct (list_key pda prog (ai_key mint)) as [k|]; [|discriminate]. cbv zeta. destruct (find_key k rest) as [v|] eqn:F.
  - destruct (read_list (ai_data v)) as [l|] eqn:R; [|discriminate]. cbn [app map]. intros E. exists k. split; [reflexivity|].
    pose proof (fun A => add_extra_spec _ _ _ _ _ _ _ _ A E) as Q. destruct (Q eq_refl) as (nm & ni & Em & Ei & S & A). clear Q. split; [exact A|]. right. exists v, l, nm, ni. repeat split; auto.
  - intros E. apply Some_inj in E. inversion E; subst. exists k. split; [reflexivity|]. split; [reflexivity|]. left. auto.
Qed.

Definition signer_metas (rest : list info) : list ameta := map (fun i => AMeta (ai_key i) true false) (filter ai_signer rest).
Definition four_metas (src mint dst auth : info) : list ameta :=
  [AMeta (ai_key src) false true; readonly mint; AMeta (ai_key dst) false true; AMeta (ai_key auth) true false].
Lemma forward_shape prog amount src mint dst auth rest ms is : forward pda prog amount src mint dst auth rest = Some (ms, is) ->
  exists ms2 is2 nm ni tm ti p, execute pda prog amount src mint dst auth rest = Some (ms2, is2) /\ find_key prog rest = Some p /\
    ms = four_metas src mint dst auth ++ (signer_metas rest ++ nm ++ tm) /\ is = [src; mint; dst; auth] ++ (filter ai_signer rest ++ ni ++ ti) /\
    map am_key nm = map ai_key ni /\ map am_key tm = map ai_key ti /\ Forall (fun m => am_signer m = false /\ am_writable m = false) tm /\
    incl ni rest /\ incl ti rest /\ In p ti /\
    ((ms2 = map readonly [src; mint; dst; auth] /\ is2 = [src; mint; dst; auth] /\ ni = []) \/
     exists v, In v ti /\ ms2 = map readonly [src; mint; dst; auth; v] ++ nm /\ is2 = [src; mint; dst; auth; v] ++ ni).
Proof.
  unfold forward. cbv zeta. destruct (list_key pda prog (ai_key mint)) as [k|] eqn:K; [|discriminate].
  destruct (find_key prog rest) as [p|] eqn:P; [|discriminate]. pose proof (find_key_Some _ _ _ P) as [Pi Pk].
  destruct (find_key k rest) as [v|] eqn:V.
  - destruct (execute pda prog amount src mint dst auth rest) as [[m i]|] eqn:E; [|discriminate]. intros G. apply Some_inj in G.
    pose proof (execute_shape _ _ _ _ _ _ _ _ _ E) as (k' & K' & A & Hc). assert (k' = k) by congruence. subst k'.
    destruct Hc as [(N & _)|(v' & l & nm & ni & V' & R & S & -> & -> & Ad)]; [congruence|]. assert (v' = v) by congruence. subst v'. clear V'.
    pose proof (find_key_Some _ _ _ V) as [Vi Vk].
    exists (map readonly [src; mint; dst; auth; v] ++ nm), ([src; mint; dst; auth; v] ++ ni), nm, ni, [readonly v; AMeta prog false false], [v; p], p.
    cbn [map app skipn] in G. inversion G; subst ms is. clear G.
    split; [reflexivity|]. split; [reflexivity|]. split; [unfold four_metas, signer_metas; cbn [app]; rewrite <- ?app_assoc; reflexivity|].
    split; [cbn [app]; rewrite <- ?app_assoc; reflexivity|].
    split; [rewrite !map_app in A; cbn [map app] in A; injection A; auto|].
    split; [cbn [map am_key readonly]; rewrite Pk; reflexivity|].
    split; [repeat constructor|]. split; [exact S|]. split; [intros x [<-|[<-|[]]]; assumption|]. split; [right; left; reflexivity|].
    right. exists v. split; [left; reflexivity|]. split; reflexivity.
  - intros G. apply Some_inj in G. inversion G; subst ms is. clear G.
    exists (map readonly [src; mint; dst; auth]), [src; mint; dst; auth], [], [], [AMeta prog false false], [p], p.
    unfold execute. rewrite K. cbv zeta. rewrite V.
    split; [reflexivity|]. split; [reflexivity|]. split; [unfold four_metas, signer_metas; cbn [app]; reflexivity|].
    split; [cbn [app]; reflexivity|]. split; [reflexivity|].
    split; [cbn [map am_key]; rewrite Pk; reflexivity|].
    split; [repeat constructor|]. split; [intros x []|]. split; [intros x [<-|[]]; assumption|]. split; [left; reflexivity|].
    left. auto.
Qed.

Lemma key_move moved i : ai_key (move moved i) = ai_key i. Proof. reflexivity. Qed.
Lemma key_seen ms i : ai_key (seen ms i) = ai_key i. Proof. reflexivity. Qed.
Lemma coherent_map f l : (forall i, ai_key (f i) = ai_key i) -> coherent l -> coherent (map f l).
Proof.
  intros K C i j I J E. apply in_map_iff in I, J. destruct I as (a & <- & I). destruct J as (b & <- & J). rewrite !K in E. f_equal. apply C; assumption.
Qed.
Lemma seen_flag ms m i : In m ms -> am_key m = ai_key i ->
  (am_signer m = true -> ai_signer (seen ms i) = true) /\ (am_writable m = true -> ai_writable (seen ms i) = true).
Proof.
  intros I K. unfold seen. cbn [ai_signer ai_writable].
  assert (F : In m (filter (fun m => bytes_eqb (am_key m) (ai_key i)) ms)) by (apply filter_In; split; [exact I|rewrite K; apply bytes_eqb_refl]).
  split; intros T; apply existsb_exists; exists m; auto.
Qed.
Lemma map_am_readonly l : map am_key (map readonly l) = map ai_key l.
Proof. rewrite map_map. reflexivity. Qed.
Lemma aligned_In ms is m : map am_key ms = map ai_key is -> In m ms -> exists i, In i is /\ ai_key i = am_key m.
Proof. intros A I. apply (in_map am_key) in I. rewrite A in I. apply in_map_iff in I. destruct I as (i & E & I). eauto. Qed.

(** What the manager passes on is what Token-2022 needs for the hook: the second resolution succeeds, with the same result, and no privilege is missing. *)
Lemma delivered prog tp amount moved signed caller src mint dst auth rest x t :
  coherent (caller ++ [src; mint; dst; auth] ++ rest) ->
  (forall v l, In v rest -> list_key pda prog (ai_key mint) = Some (ai_key v) -> read_list (ai_data v) = Some l ->
     moved (ai_key v) (ai_owner v) (ai_data v) = ai_data v /\ steady moved l) ->
  forward pda prog amount src mint dst auth rest = Some x -> invoke tp (caller ++ [src; mint; dst; auth] ++ rest) signed x = Some t ->
  exists ms is, execute pda prog amount src mint dst auth rest = Some (ms, is) /\
    hook_accounts pda prog tp amount moved signed caller src mint dst auth rest = Some (map (fun i => seen ms (move moved i)) is).
Proof.
  intros C HL F I. destruct x as [ms is]. unfold hook_accounts. rewrite F, I.
  destruct (forward_shape _ _ _ _ _ _ _ _ _ F) as (ms2 & is2 & nm & ni & tm & ti & p & E & P & Em & Ei & An & At & Tm & Sn & St & Pt & Hc).
  exists ms2, is2. split; [exact E|].
  set (R := filter ai_signer rest ++ ni ++ ti) in *.
  assert (SR : incl R rest).
  { unfold R. intros y Y. apply in_app_or in Y. destruct Y as [Y|Y]; [apply filter_In in Y; tauto|]. apply in_app_or in Y. destruct Y; auto. }
  assert (Cr : coherent ([src; mint; dst; auth] ++ rest)) by (eapply coherent_sub; [exact C|apply incl_appr, incl_refl]).
  assert (Ci : coherent is). { rewrite Ei. eapply coherent_sub; [exact Cr|]. apply incl_app; [apply incl_appl, incl_refl|apply incl_appr, SR]. }
  assert (CR : coherent R) by (eapply coherent_sub; [exact Ci|rewrite Ei; apply incl_appr, incl_refl]).
  assert (Am : map am_key ms = map ai_key is).
  { rewrite Em, Ei. unfold R. rewrite !map_app, An, At. unfold signer_metas. rewrite map_map. reflexivity. }
  rewrite (invoke_aligned tp _ signed ms is Am Ci) in I. destruct (existsb _ _ && forallb _ ms); [|discriminate]. apply Some_inj in I. subst t.
  rewrite map_map. set (f := fun i => move moved (seen ms i)).
  assert (Kf : forall i, ai_key (f i) = ai_key i) by reflexivity.
  pose proof E as E0. apply execute_shape in E0. destruct E0 as (k & K & A2 & Hs).
  assert (X : execute pda prog amount (f src) (f mint) (f dst) (f auth) (map f R) = Some (ms2, map f is2)).
  { unfold execute. rewrite Kf, K. cbv zeta. rewrite (find_key_map f R k Kf).
    destruct Hs as [(N & -> & ->)|(v & l & nm' & ni' & V & Rl & S' & -> & -> & Ad)].
    - replace (find_key k R) with (@None info); [reflexivity|]. symmetry. apply find_key_None. apply find_key_None in N. intros Y. apply N.
      apply in_map_iff in Y. destruct Y as (y & <- & Y). apply in_map, SR, Y.
    - destruct Hc as [(_ & Z & _)|(v' & Vt & Em2 & Ei2)]; [discriminate|].
      pose proof (find_key_Some _ _ _ V) as [Vi Vk].
      assert (vv : v = v' /\ nm' = nm /\ ni' = ni) by (cbn [app map] in Em2, Ei2; injection Ei2; injection Em2; auto). destruct vv as (<- & -> & ->).
      assert (VR : In v R) by (unfold R; apply in_or_app; right; apply in_or_app; right; exact Vt).
      rewrite <- Vk, find_key_In by assumption. cbn [option_map].
      destruct (HL v l Vi) as [Mv Sl]; [congruence|exact Rl|].
      change (ai_data (f v)) with (moved (ai_key v) (ai_owner v) (ai_data v)). rewrite Mv, Rl.
      change (map readonly ([f src; f mint; f dst; f auth] ++ [f v])) with (map readonly [src; mint; dst; auth; v]).
      change ([f src; f mint; f dst; f auth] ++ [f v]) with (map f [src; mint; dst; auth; v]).
      eapply add_extra_sim; [exact Kf| |exact Ad| |reflexivity].
      + intros e seeds a i n Ie U Is y. change (ai_data (f y)) with (moved (ai_key y) (ai_owner y) (ai_data y)). eapply Sl; eassumption.
      + intros i Ii. rewrite (find_key_map f R _ Kf), find_key_In; [reflexivity|exact CR|]. unfold R. apply in_or_app. right. apply in_or_app. left. exact Ii. }
  rewrite Ei. cbn [app map]. fold (f src) (f mint) (f dst) (f auth). 
  change (map (fun x : info => move moved (seen ms x)) R) with (map f R). rewrite X.
  assert (I2 : incl is2 is).
  { rewrite Ei. destruct Hc as [(_ & -> & _)|(v & Vt & _ & ->)]; [apply incl_appl, incl_refl|]. intros y Y. apply in_app_or in Y. destruct Y as [Y|Y].
    - cbn [In] in Y. destruct Y as [<-|[<-|[<-|[<-|[<-|[]]]]]]; try (cbn; tauto). apply in_or_app. right. unfold R. apply in_or_app. right. apply in_or_app. right. exact Vt.
    - apply in_or_app. right. unfold R. apply in_or_app. right. apply in_or_app. left. exact Y. }
  rewrite invoke_aligned; [|rewrite A2, map_map; reflexivity|apply coherent_map; [exact Kf|exact (coherent_sub _ _ Ci I2)]].
  change (f src :: f mint :: f dst :: f auth :: map f R) with (map f ([src; mint; dst; auth] ++ R)). rewrite <- Ei.
  assert (G : existsb (fun i => bytes_eqb (ai_key i) prog) (map f is) && forallb (allowed (map f is) []) ms2 = true).
  { apply andb_true_iff. split.
    - apply existsb_exists. exists (f p). apply find_key_Some in P. destruct P as [_ Pk]. split; [|rewrite Kf, Pk; apply bytes_eqb_refl].
      apply in_map. rewrite Ei. apply in_or_app. right. unfold R. apply in_or_app. right. apply in_or_app. right. exact Pt.
    - apply forallb_forall. intros m M. destruct (aligned_In ms2 is2 m A2 M) as (i & Ii & Ki).
      unfold allowed. rewrite <- Ki, (find_key_map f is _ Kf), find_key_In by (auto). cbn [option_map].
      assert (Q : (am_signer m = false /\ am_writable m = false) \/ In m ms).
      { assert (ro : forall l, In m (map readonly l) -> am_signer m = false /\ am_writable m = false).
        { intros l L. apply in_map_iff in L. destruct L as (y & <- & _). split; reflexivity. }
        destruct Hc as [(Em2 & _ & _)|(v & _ & Em2 & _)]; rewrite Em2 in M; [left; apply (ro _ M)|].
        apply in_app_or in M. destruct M as [M|M]; [left; apply (ro _ M)|right]. rewrite Em. apply in_or_app. right. apply in_or_app. right. apply in_or_app. left. exact M. }
      destruct Q as [(-> & ->)|Q]; [reflexivity|].
      destruct (seen_flag ms m i Q (eq_sym Ki)) as [Hsig Hwri]. change (ai_signer (f i)) with (ai_signer (seen ms i)). change (ai_writable (f i)) with (ai_writable (seen ms i)).
      apply andb_true_iff. split; [destruct (am_signer m); [rewrite Hsig by reflexivity|]; reflexivity|destruct (am_writable m); [apply Hwri|]; reflexivity]. }
  rewrite G. rewrite map_map. reflexivity.
Qed.
End Facts.

(** ** The example hook *)
Lemma firstn_nth (a b : bytes) n : List.length a = List.length b -> (forall k, (k < n)%nat -> nth k a x00 = nth k b x00) -> firstn n a = firstn n b.
Proof.
  revert a b. induction n as [|n IH]; intros a b L E; [reflexivity|]. destruct a as [|x a], b as [|y b]; try discriminate L; [reflexivity|].
  cbn [firstn]. f_equal; [apply (E 0%nat); lia|]. apply IH; [injection L; auto|]. intros k K. apply (E (S k)). lia.
Qed.
Lemma settled_token tp moved k o d : settled tp moved -> read_token (moved k o d) = read_token d /\ read_mint (moved k o d) = read_mint d.
Proof.
  intros S. destruct (S k o d) as (_ & L & N). unfold read_token, read_mint, byte_at. rewrite L, (N 108%nat), (N 45%nat) by (auto; left; lia).
  assert (F : firstn 64 (moved k o d) = firstn 64 d) by (apply firstn_nth; [exact L|]; intros j J; apply N; left; exact J).
  assert (F1 : firstn 32 (moved k o d) = firstn 32 d) by (apply firstn_nth; [exact L|]; intros j J; apply N; left; lia).
  rewrite F1, (firstn_skipn_comm 32 32 (moved k o d)), (firstn_skipn_comm 32 32 d). change (32 + 32)%nat with 64%nat. rewrite F. split; reflexivity.
Qed.
Lemma read_token_iff i toks m o : (oneof (ai_owner i) toks = true /\ read_token (ai_data i) = Some (m, o)) <-> is_token toks i m o.
Proof.
  unfold is_token, read_token, oneof, byte_at.
  assert (O : existsb (bytes_eqb (ai_owner i)) toks = true <-> In (ai_owner i) toks).
  { rewrite existsb_exists. split; [intros (x & I & E); apply bytes_eqb_eq in E; subst; exact I|intros I; exists (ai_owner i); split; [exact I|apply bytes_eqb_refl]]. }
  assert (B : forall b, (Z_of_byte b =? 1) || (Z_of_byte b =? 2) = true <-> b = x01 \/ b = x02).
  { intros b. rewrite orb_true_iff, !Z.eqb_eq. change 1 with (Z_of_byte x01) at 1. change 2 with (Z_of_byte x02) at 1.
    split; (intros [E|E]; [left|right]); try (apply Z_of_byte_inj; exact E); rewrite E; reflexivity. }
  split.
  - intros [Ow E]. destruct (_ && _) eqn:G; [|discriminate]. apply andb_true_iff in G. destruct G as [G1 G2]. apply Nat.leb_le in G1. apply B in G2. apply Some_inj in E.
    inversion E. repeat split; auto. apply O. exact Ow.
  - intros (Ow & L & S & M & W). split; [apply O; exact Ow|]. rewrite (proj2 (Nat.leb_le _ _) L). apply B in S. rewrite S. cbn [andb]. rewrite M, W. reflexivity.
Qed.
Lemma read_mint_iff i toks : (oneof (ai_owner i) toks && read_mint (ai_data i) = true) <-> is_mint toks i.
Proof.
  unfold is_mint, read_mint, oneof, byte_at. rewrite !andb_true_iff, Nat.leb_le, Z.eqb_eq, existsb_exists.
  assert (B : forall b, Z_of_byte b = 1 <-> b = x01) by (intros b; split; [intros E; apply Z_of_byte_inj; exact E|intros ->; reflexivity]). rewrite B.
  split.
  - intros ((x & I & E) & L & N). apply bytes_eqb_eq in E. subst x. auto.
  - intros (I & L & N). split; [|auto]. exists (ai_owner i). split; [exact I|apply bytes_eqb_refl].
Qed.

Lemma de_escalate_ro m l : Forall (fun x => am_signer x = false /\ am_writable x = false) l -> am_signer m = false ->
  de_escalate m l = AMeta (am_key m) false (am_writable m && negb (existsb (bytes_eqb (am_key m)) (map am_key l))).
Proof.
  intros F S. unfold de_escalate. destruct m as [k s w]. cbn [am_key am_signer am_writable] in *. subst s.
  assert (Q : filter (fun x => bytes_eqb (am_key x) k) l = [] <-> existsb (bytes_eqb k) (map am_key l) = false).
  { clear F. induction l as [|x l IH]; [split; reflexivity|]. cbn [filter map existsb].
    assert (Y : bytes_eqb k (am_key x) = bytes_eqb (am_key x) k).
    { destruct (bytes_eqb k (am_key x)) eqn:E, (bytes_eqb (am_key x) k) eqn:G; try reflexivity; [apply bytes_eqb_eq in E; subst; rewrite bytes_eqb_refl in G; discriminate|].
      apply bytes_eqb_eq in G. subst. rewrite bytes_eqb_refl in E. discriminate. }
    rewrite Y. destruct (bytes_eqb (am_key x) k); [split; discriminate|exact IH]. }
  assert (G : Forall (fun x => am_signer x = false /\ am_writable x = false) (filter (fun x => bytes_eqb (am_key x) k) l)).
  { apply Forall_forall. intros x X. apply filter_In in X. destruct X as [X _]. revert x X. apply Forall_forall. exact F. }
  destruct (filter (fun x => bytes_eqb (am_key x) k) l) as [|y r].
  - rewrite (proj1 Q eq_refl). rewrite andb_true_r. reflexivity.
  - assert (T : existsb (bytes_eqb k) (map am_key l) = true) by (destruct (existsb _ _); [reflexivity|]; pose proof (proj2 Q eq_refl); discriminate).
    rewrite T. cbn [negb]. rewrite andb_false_r.
    assert (W : existsb am_writable (y :: r) = false).
    { clear - G. induction G as [|a l [_ W] _ IH]; [reflexivity|]. cbn [existsb]. rewrite W. exact IH. }
    rewrite W, andb_false_r. reflexivity.
Qed.

Definition seven (src mint dst auth v d c : info) : list info := [src; mint; dst; auth; v; d; c].
Definition apart (c : bytes) (l : list info) : bool := negb (existsb (bytes_eqb c) (map ai_key l)).
Lemma apart_iff c l : apart c l = true <-> ~ In c (map ai_key l).
Proof.
  unfold apart. rewrite negb_true_iff. split.
  - intros E I. assert (T : existsb (bytes_eqb c) (map ai_key l) = true) by (apply existsb_exists; exists c; split; [exact I|apply bytes_eqb_refl]). congruence.
  - intros N. destruct (existsb _ _) eqn:E; [|reflexivity]. apply existsb_exists in E. destruct E as (x & I & X). apply bytes_eqb_eq in X. subst x. contradiction.
Qed.
Definition seven_metas (src mint dst auth v d c : info) : list ameta :=
  map readonly [src; mint; dst; auth; v; d] ++ [AMeta (ai_key c) false (apart (ai_key c) [src; mint; dst; auth; v; d])].
Lemma piece_owner b : (64 <= List.length b)%nat -> piece 32 32 b = Some (firstn 32 (skipn 32 b)).
Proof. intros L. unfold piece. destruct (Z.leb_spec (32 + 32) (Z.of_nat (List.length b))); [reflexivity|lia]. Qed.
Section Dummy.
Context (pda : list bytes -> bytes -> option bytes).

Lemma dummy_add ix prog avail src mint dst auth v : 
  add_extra pda ix prog avail the_dummy (map readonly [src; mint; dst; auth; v], [src; mint; dst; auth; v]) =
    let! o := piece 32 32 (ai_data src) in
    let! kd := pda [str "dummy_account"; o] prog in
    let! d := find_key kd avail in
    let! kc := pda [str "counter"] prog in
    let! c := find_key kc avail in
    Some (seven_metas src mint dst auth v d c, seven src mint dst auth v d c).
Proof.
  unfold the_dummy. cbn [add_extra fst snd].
  assert (R1 : forall accts : list info, resolve pda ix prog (src :: accts) (Extra 1 (List.concat (map pack_seed [Literal (str "dummy_account"); AccountData 0 32 32]) ++ repeat x00 13) false false) =
    let! o := piece 32 32 (ai_data src) in let! k := pda [str "dummy_account"; o] prog in Some (AMeta k false false)).
  { intros accts. unfold resolve. cbn [ex_kind ex_config ex_signer ex_writable]. change (1 =? 0) with false. change (1 =? 1) with true. cbv iota.
    replace (unpack_config _) with (Some [Literal (str "dummy_account"); AccountData 0 32 32]) by (vm_compute; reflexivity).
    cbn [map seed_value Z.to_nat nth_error all_some option_map]. destruct (piece 32 32 (ai_data src)); reflexivity. }
  assert (R2 : forall accts : list info, resolve pda ix prog accts (Extra 1 (List.concat (map pack_seed [Literal (str "counter")]) ++ repeat x00 23) false true) =
    let! k := pda [str "counter"] prog in Some (AMeta k false true)).
  { intros accts. unfold resolve. cbn [ex_kind ex_config ex_signer ex_writable]. change (1 =? 0) with false. change (1 =? 1) with true. cbv iota.
    replace (unpack_config _) with (Some [Literal (str "counter")]) by (vm_compute; reflexivity).
    cbn [map seed_value all_some option_map]. reflexivity. }
  rewrite R1. destruct (piece 32 32 (ai_data src)) as [o|]; [|reflexivity]. destruct (pda [str "dummy_account"; o] prog) as [kd|]; [|reflexivity].
  assert (F5 : Forall (fun x => am_signer x = false /\ am_writable x = false) (map readonly [src; mint; dst; auth; v])) by (repeat constructor).
  rewrite (de_escalate_ro _ _ F5) by reflexivity. cbn [am_key am_writable andb].
  destruct (find_key kd avail) as [d|] eqn:D; [|reflexivity]. apply find_key_Some in D. destruct D as [_ D]. cbn [fst snd]. rewrite R2.
  destruct (pda [str "counter"] prog) as [kc|]; [|reflexivity].
  assert (F6 : Forall (fun x => am_signer x = false /\ am_writable x = false) (map readonly [src; mint; dst; auth; v] ++ [AMeta kd false false])) by (repeat constructor).
  rewrite (de_escalate_ro _ _ F6) by reflexivity. cbn [am_key am_writable andb].
  destruct (find_key kc avail) as [c|] eqn:E; [|reflexivity]. apply find_key_Some in E. destruct E as [_ E]. subst kd kc. reflexivity.
Qed.

Lemma counter_length : List.length COUNTER_TAG = 8%nat. Proof. vm_compute. reflexivity. Qed.
Lemma okeyb_iff o k : okeyb o k = true <-> o = Some k.
Proof. destruct o as [x|]; cbn [okeyb]; [rewrite bytes_eqb_eq|]; split; intros E; try discriminate; congruence. Qed.
Lemma transfer_hook_iff tokens prog s m d a v y c b : transfer_hook pda tokens prog (seven s m d a v y c) = Some b <->
  exists o n tail, is_token tokens s (ai_key m) o /\ (exists o', is_token tokens d (ai_key m) o') /\ is_mint tokens m /\
    pda [str "extra-account-metas"; ai_key m] prog = Some (ai_key v) /\ pda [str "dummy_account"; o] prog = Some (ai_key y) /\
    pda [str "counter"] prog = Some (ai_key c) /\ ai_owner c = prog /\ ai_writable c = true /\ 0 <= n < u64_max /\
    ai_data c = COUNTER_TAG ++ le_enc 8 n ++ tail /\ b = COUNTER_TAG ++ le_enc 8 (n + 1) ++ tail.
Proof.
  unfold transfer_hook, seven. split.
  - destruct (oneof (ai_owner s) tokens) eqn:Os; [|discriminate]. destruct (read_token (ai_data s)) as [[sm so]|] eqn:Rs; [|discriminate].
    destruct (oneof (ai_owner d) tokens) eqn:Od; [|discriminate]. destruct (read_token (ai_data d)) as [[dm do']|] eqn:Rd; [|discriminate].
    destruct (_ && ai_writable c) eqn:G; [|discriminate]. 
    apply andb_true_iff in G. destruct G as [G W]. apply andb_true_iff in G. destruct G as [G T]. apply andb_true_iff in G. destruct G as [G Ow].
    apply andb_true_iff in G. destruct G as [G Kc]. apply andb_true_iff in G. destruct G as [G Ky]. apply andb_true_iff in G. destruct G as [G Kv].
    apply andb_true_iff in G. destruct G as [G Md]. apply andb_true_iff in G. destruct G as [G Ms].
    apply okeyb_iff in Kc, Ky, Kv. apply bytes_eqb_eq in Md, Ms, Ow, T. subst sm dm.
    destruct (le_u 8 (skipn 8 (ai_data c))) as [[n r]|] eqn:Le; [|discriminate]. apply le_u_inv in Le.
    destruct (Z.leb_spec (n + 1) u64_max) as [N|N]; [|discriminate]. intros E. apply Some_inj in E. subst b.
    exists so, n, r. split; [apply read_token_iff; auto|]. split; [exists do'; apply read_token_iff; auto|]. split; [apply read_mint_iff; exact G|].
    repeat (split; [assumption|]). destruct Le as [Le Ln]. split; [lia|]. split; [|reflexivity].
    rewrite <- (firstn_skipn 8 (ai_data c)). rewrite T. f_equal. exact Le.
  - intros (o & n & tail & Ts & (o' & Td) & M & Kv & Ky & Kc & Ow & W & N & D & ->).
    apply read_token_iff in Ts, Td. destruct Ts as [-> ->]. destruct Td as [-> ->]. apply read_mint_iff in M. rewrite M.
    apply okeyb_iff in Kv, Ky, Kc. rewrite Kv, Ky, Kc, Ow, W, D, (bytes_eqb_refl (ai_key m)), (bytes_eqb_refl prog). destruct (split8 COUNTER_TAG (le_enc 8 n ++ tail) counter_length) as (F & S & _).
    rewrite F, S, (bytes_eqb_refl COUNTER_TAG). cbn [andb].
    assert (P : 0 <= n < 256 ^ Z.of_nat 8) by (rewrite pow256_8; revert N; unfold u64_max; lia).
    rewrite (le_u_app 8 n tail P). destruct (Z.leb_spec (n + 1) u64_max); [reflexivity|lia].
Qed.

Lemma dummy_bytes : list_bytes the_dummy = map byte_of_Z published_list.
Proof. rewrite <- dummy_list_eq, map_map. rewrite (map_ext _ (fun b => b) byte_of_Z_of_byte), map_id. reflexivity. Qed.
Lemma dummy_read : read_list (map byte_of_Z published_list) = Some the_dummy.
Proof. rewrite <- dummy_bytes. apply list_round; [exact the_dummy_ok|cbn; lia]. Qed.
Lemma dummy_steady tp moved : settled tp moved -> steady moved the_dummy.
Proof.
  intros S e seeds a i n I U Is k o d. assert (Q : i = 32 /\ n = 32).
  { unfold the_dummy in I. destruct I as [<-|[<-|[]]]; cbn [ex_config] in U.
    - replace (unpack_config _) with (Some [Literal (str "dummy_account"); AccountData 0 32 32]) in U by (vm_compute; reflexivity).
      apply Some_inj in U. subst seeds. destruct Is as [Is|[Is|[]]]; [discriminate|]. injection Is; auto.
    - replace (unpack_config _) with (Some [Literal (str "counter")]) in U by (vm_compute; reflexivity).
      apply Some_inj in U. subst seeds. destruct Is as [Is|[]]. discriminate. }
  destruct Q as [-> ->]. destruct (S k o d) as (_ & L & N). unfold piece. rewrite L. destruct (32 + 32 <=? _); [|reflexivity]. f_equal.
  change (Z.to_nat 32) with 32%nat. rewrite !firstn_skipn_comm. f_equal. apply firstn_nth; [exact L|]. intros j J. apply N. left. exact J.
Qed.
Lemma execute_dispatch amount : is_u64 amount -> dispatch AHook (execute_data amount) = Some (HTransferHook amount).
Proof.
  intros U. unfold dispatch, execute_data. destruct (split8 EXECUTE_TAG (le_enc 8 amount) execute_length) as (F & S & G). rewrite G, F, execute_new.
  unfold fallback. rewrite F, S, bytes_eqb_refl. pose proof (proj2 (rmap_exact HTransferHook c_u64 is_u64 (le_enc 8 amount ++ []) (HTransferHook amount) [] exact_u64)) as R.
  rewrite app_nil_r in R. rewrite R; [reflexivity|]. exists amount. repeat split; apply U.
Qed.
Lemma seven_writable src mint dst auth v d c x : ai_key x = ai_key c ->
  ai_writable (seen (seven_metas src mint dst auth v d c) x) = apart (ai_key c) [src; mint; dst; auth; v; d].
Proof.
  intros K. unfold seen. cbn [ai_writable]. rewrite K. unfold seven_metas. rewrite filter_app, existsb_app. cbn [filter am_key]. rewrite bytes_eqb_refl. cbn [existsb am_writable].
  rewrite orb_false_r.
  assert (E : forall l, existsb am_writable (filter (fun m => bytes_eqb (am_key m) (ai_key c)) (map readonly l)) = false).
  { induction l as [|y l IH]; [reflexivity|]. cbn [map filter]. destruct (bytes_eqb (am_key (readonly y)) (ai_key c)); [cbn [existsb readonly am_writable orb]|]; exact IH. }
  rewrite E. reflexivity.
Qed.
Lemma is_token_moved tokens tp moved ms i m o : settled tp moved -> is_token tokens (seen ms (move moved i)) m o <-> is_token tokens i m o.
Proof.
  intros S. rewrite <- !read_token_iff. cbn [seen move ai_owner ai_data]. rewrite (proj1 (settled_token tp moved _ _ _ S)). reflexivity.
Qed.
Lemma is_mint_moved tokens tp moved ms i : settled tp moved -> is_mint tokens (seen ms (move moved i)) <-> is_mint tokens i.
Proof.
  intros S. rewrite <- !read_mint_iff. cbn [seen move ai_owner ai_data]. rewrite (proj2 (settled_token tp moved _ _ _ S)). reflexivity.
Qed.
Lemma allowed_flags all sg m i : coherent all -> In i all -> am_key m = ai_key i ->
  allowed all sg m = true <-> (am_signer m = true -> ai_signer i = true \/ In (ai_key i) sg) /\ (am_writable m = true -> ai_writable i = true).
Proof.
  intros C I K. unfold allowed. rewrite K, find_key_In by assumption.
  assert (E : existsb (bytes_eqb (ai_key i)) sg = true <-> In (ai_key i) sg).
  { rewrite existsb_exists. split; [intros (x & X & Y); apply bytes_eqb_eq in Y; subst; exact X|intros X; exists (ai_key i); split; [exact X|apply bytes_eqb_refl]]. }
  rewrite andb_true_iff. rewrite <- E. destruct (am_signer m), (am_writable m), (ai_signer i), (ai_writable i), (existsb _ sg); cbn [implb orb]; intuition congruence.
Qed.

Section Exact.
Context (tokens : list bytes) (prog tp : bytes) (amount : Z) (moved : bytes -> bytes -> bytes -> bytes) (signed : list bytes) (caller : list info)
  (src mint dst auth : info) (rest : list info).
Let all := caller ++ [src; mint; dst; auth] ++ rest.
Context (C : coherent all) (S : settled tp moved) (P : prog <> tp) (U : is_u64 amount)
  (L : forall v, In v rest -> list_key pda prog (ai_key mint) = Some (ai_key v) -> ai_owner v = prog /\ ai_data v = map byte_of_Z published_list).

Lemma listed v l : In v rest -> list_key pda prog (ai_key mint) = Some (ai_key v) -> read_list (ai_data v) = Some l ->
  moved (ai_key v) (ai_owner v) (ai_data v) = ai_data v /\ steady moved l.
Proof.
  intros I K R. destruct (L v I K) as [O D]. rewrite D, dummy_read in R. apply Some_inj in R. subst l. split; [|exact (dummy_steady tp moved S)].
  apply (S (ai_key v) (ai_owner v) (ai_data v)). congruence.
Qed.
Lemma in_rest i : In i rest -> In i all. Proof. unfold all. intros I. apply in_or_app. right. apply in_or_app. right. exact I. Qed.
Lemma Cr : coherent rest. Proof. apply (coherent_sub all); [exact C|]. intros i. apply in_rest. Qed.

Lemma dummy_needs b : hooked_transfer pda tokens prog tp amount moved signed caller src mint dst auth rest = Some b ->
  exists owner n tail, may_call tp signed all src dst auth /\ is_token tokens src (ai_key mint) owner /\ (exists o, is_token tokens dst (ai_key mint) o) /\
    is_mint tokens mint /\ supplied pda prog src mint dst auth owner rest n tail /\ n < u64_max /\ b = COUNTER_TAG ++ le_enc 8 (n + 1) ++ tail.
Proof.
  unfold hooked_transfer. destruct (hook_accounts pda prog tp amount moved signed caller src mint dst auth rest) as [l|] eqn:HA; [|discriminate].
  assert (FI : exists x t, forward pda prog amount src mint dst auth rest = Some x /\ invoke tp all signed x = Some t).
  { unfold hook_accounts in HA. destruct (forward pda prog amount src mint dst auth rest) as [x|]; [|discriminate]. fold all in HA.
    destruct (invoke tp all signed x) as [t|] eqn:I; [|discriminate]. exists x, t. split; [reflexivity|exact I]. }
  destruct FI as ([fm fi] & t & F & I). destruct (delivered pda prog tp amount moved signed caller src mint dst auth rest _ t C listed F I) as (ms & is & E & HA').
  rewrite HA in HA'. apply Some_inj in HA'. subst l. unfold hook_entry. rewrite (execute_dispatch amount U).
  destruct (execute_shape pda _ _ _ _ _ _ _ _ _ E) as (k & K & A & Hc). destruct Hc as [(_ & _ & ->)|(v & l & nm & ni & V & R & _ & Em & Ei & Ad)]; [discriminate|].
  pose proof (find_key_Some _ _ _ V) as [Vi Vk]. assert (Kv : list_key pda prog (ai_key mint) = Some (ai_key v)) by congruence.
  destruct (L v Vi Kv) as [Ov Dv]. rewrite Dv, dummy_read in R. apply Some_inj in R. subst l. rewrite dummy_add in Ad.
  destruct (piece 32 32 (ai_data src)) as [o|] eqn:Po; [|discriminate]. destruct (pda [str "dummy_account"; o] prog) as [kd|] eqn:Kd; [|discriminate].
  destruct (find_key kd rest) as [d|] eqn:D; [|discriminate]. destruct (pda [str "counter"] prog) as [kc|] eqn:Kc; [|discriminate].
  destruct (find_key kc rest) as [c|] eqn:Fc; [|discriminate]. apply find_key_Some in D, Fc. destruct D as [Di Dk]. destruct Fc as [Ci Ck]. subst kd kc.
  apply Some_inj in Ad. assert (Ems : seven_metas src mint dst auth v d c = ms) by (apply (f_equal fst) in Ad; exact Ad).
  assert (Eis : seven src mint dst auth v d c = is) by (apply (f_equal snd) in Ad; exact Ad). clear Ad. rewrite <- Eis.
  set (g := fun i => seen ms (move moved i)).
  change (map g (seven src mint dst auth v d c)) with (seven (g src) (g mint) (g dst) (g auth) (g v) (g d) (g c)). intros T. apply transfer_hook_iff in T.
  change (ai_key (g mint)) with (ai_key mint) in T. change (ai_key (g v)) with (ai_key v) in T. change (ai_key (g d)) with (ai_key d) in T. change (ai_key (g c)) with (ai_key c) in T.
  change (ai_owner (g c)) with (ai_owner c) in T. change (ai_data (g c)) with (moved (ai_key c) (ai_owner c) (ai_data c)) in T.
  destruct T as (o1 & n & tail & Ts & (o2 & Td) & Tm & Tv & Ty & Tc & Oc & Wc & N & Dc & ->).
  unfold g in Ts, Td, Tm, Wc. rewrite (is_token_moved tokens tp) in Ts, Td by exact S. rewrite (is_mint_moved tokens tp) in Tm by exact S.
  rewrite <- Ems, seven_writable in Wc by reflexivity. apply apart_iff in Wc.
  rewrite (proj1 (S (ai_key c) (ai_owner c) (ai_data c))) in Dc by congruence.
  assert (Oo : o1 = o). { destruct Ts as (_ & Ln & _ & _ & Eo). rewrite piece_owner in Po by lia. congruence. } subst o1.
  exists o, n, tail.
  (* privileges *)
  destruct (forward_shape pda _ _ _ _ _ _ _ _ _ F) as (ms2 & is2 & nm' & ni' & tm & ti & p & E2 & Pp & Efm & Efi & An & At & _ & Sn & St & _ & Hs).
  rewrite E in E2. apply Some_inj in E2. assert (ms2 = ms) by (apply (f_equal fst) in E2; auto). assert (is2 = is) by (apply (f_equal snd) in E2; auto). subst ms2 is2. clear E2.
  apply invoke_guard in I. destruct I as [G1 G2].
  rewrite forallb_forall in G2.
  assert (four : forall m i, In m (four_metas src mint dst auth) -> In i [src; mint; dst; auth] -> am_key m = ai_key i ->
     (am_signer m = true -> ai_signer i = true \/ In (ai_key i) signed) /\ (am_writable m = true -> ai_writable i = true)).
  { intros m i M Ii Km. apply (allowed_flags all signed m i C); [unfold all; apply in_or_app; right; apply in_or_app; left; exact Ii|exact Km|].
    apply G2. rewrite Efm. apply in_or_app. left. exact M. }
  split.
  { constructor.
    - apply existsb_exists in G1. destruct G1 as (i & Ii & K'). apply bytes_eqb_eq in K'. rewrite <- K'. apply in_map. exact Ii.
    - apply (four (AMeta (ai_key src) false true) src); try reflexivity; cbn; tauto.
    - apply (four (AMeta (ai_key dst) false true) dst); try reflexivity; cbn; tauto.
    - apply (four (AMeta (ai_key auth) true false) auth); try reflexivity; cbn; tauto. }
  split; [exact Ts|]. split; [exists o2; exact Td|]. split; [exact Tm|]. split; [|split; [lia|reflexivity]].
  apply find_key_Some in Pp. destruct Pp as [Pi Pk].
  constructor.
  - exists p. auto.
  - exists v. auto.
  - exists d. auto.
  - exists c. split; [exact Ci|]. split; [exact Kc|]. split; [|split; [exact Oc|split; [exact Dc|lia]]].
    destruct Hs as [(_ & Z & _)|(v' & _ & Em' & _)]; [rewrite <- Eis in Z; discriminate|].
    assert (M : In (AMeta (ai_key c) false true) fm).
    { rewrite Efm. apply in_or_app. right. apply in_or_app. right. apply in_or_app. left.
      rewrite <- Ems in Em'. unfold seven_metas in Em'. rewrite (proj2 (apart_iff _ _) Wc) in Em'. cbn [map app] in Em'. injection Em' as _ <-. right. left. reflexivity. }
    apply G2 in M. apply (allowed_flags all signed _ c C (in_rest _ Ci)) in M; [|reflexivity]. apply M. reflexivity.
  - intros c' Kc'. rewrite Kc in Kc'. apply Some_inj in Kc'. subst c'. cbn [map In] in Wc. split; [cbn [map In]; tauto|]. rewrite Tv, Ty. split; intros Q; apply Some_inj in Q; apply Wc; rewrite Q; tauto.
Qed.

Lemma dummy_suffices owner n tail : may_call tp signed all src dst auth -> is_token tokens src (ai_key mint) owner -> (exists o, is_token tokens dst (ai_key mint) o) ->
  is_mint tokens mint -> supplied pda prog src mint dst auth owner rest n tail -> n < u64_max ->
  hooked_transfer pda tokens prog tp amount moved signed caller src mint dst auth rest = Some (COUNTER_TAG ++ le_enc 8 (n + 1) ++ tail).
Proof.
  intros Mc Ts Td Tm [(p & Pi & Pk) (v & Vi & Kv) (d & Di & Kd) (c & Ci & Kc & Wc & Oc & Dc & Nc) Ap] N.
  specialize (Ap _ Kc). destruct Ap as (Ap4 & Apv & Apd). rewrite Kv in Apv. rewrite Kd in Apd.
  destruct (L v Vi Kv) as [Ov Dv].
  assert (Po : piece 32 32 (ai_data src) = Some owner). { destruct Ts as (_ & Ln & _ & _ & <-). apply piece_owner. lia. }
  assert (Fv : find_key (ai_key v) rest = Some v) by (apply find_key_In; [exact Cr|exact Vi]).
  assert (Fd : find_key (ai_key d) rest = Some d) by (apply find_key_In; [exact Cr|exact Di]).
  assert (Fc : find_key (ai_key c) rest = Some c) by (apply find_key_In; [exact Cr|exact Ci]).
  assert (Fp : find_key prog rest = Some p) by (rewrite <- Pk; apply find_key_In; [exact Cr|exact Pi]).
  assert (Wr : apart (ai_key c) [src; mint; dst; auth; v; d] = true).
  { apply apart_iff. cbn [map In] in *. intros [Q|[Q|[Q|[Q|[Q|[Q|[]]]]]]]; try tauto; [apply Apv|apply Apd]; rewrite Q; reflexivity. }
  assert (E : execute pda prog amount src mint dst auth rest = Some (seven_metas src mint dst auth v d c, seven src mint dst auth v d c)).
  { unfold execute. unfold list_key. rewrite Kv. cbv zeta. rewrite Fv, Dv, dummy_read. cbn [app]. rewrite dummy_add, Po, Kd, Fd, Kc, Fc. reflexivity. }
  assert (Fw : exists x, forward pda prog amount src mint dst auth rest = Some x).
  { unfold forward. cbv zeta. unfold list_key. rewrite Kv, Fp, Fv, E. eexists. reflexivity. }
  destruct Fw as ([fm fi] & Fw).
  destruct (forward_shape pda _ _ _ _ _ _ _ _ _ Fw) as (ms2 & is2 & nm' & ni' & tm & ti & p' & E2 & _ & Efm & Efi & An & At & Tn & Sn & St & _ & Hs).
  rewrite E in E2. apply Some_inj in E2. assert (M2 : seven_metas src mint dst auth v d c = ms2) by (apply (f_equal fst) in E2; auto).
  assert (I2 : seven src mint dst auth v d c = is2) by (apply (f_equal snd) in E2; auto). subst ms2 is2. clear E2.
  destruct Hs as [(_ & Z & _)|(v' & _ & Em' & Ei')]; [discriminate|].
  assert (nm' = [readonly d; AMeta (ai_key c) false true]) by (unfold seven_metas in Em'; rewrite Wr in Em'; cbn [map app] in Em'; injection Em' as _ <-; reflexivity).
  assert (ni' = [d; c]) by (unfold seven in Ei'; cbn [app] in Ei'; injection Ei' as _ <-; reflexivity). subst nm' ni'.
  assert (Ai : map am_key fm = map ai_key fi) by (rewrite Efm, Efi, !map_app, An, At; unfold signer_metas; rewrite map_map; reflexivity).
  assert (Sub : incl fi ([src; mint; dst; auth] ++ rest)).
  { rewrite Efi. apply incl_app; [apply incl_appl, incl_refl|]. apply incl_appr. intros y Y. apply in_app_or in Y. destruct Y as [Y|Y]; [apply filter_In in Y; tauto|].
    apply in_app_or in Y. destruct Y as [Y|Y]; [apply Sn|apply St]; exact Y. }
  assert (Cf : coherent fi) by (apply (coherent_sub all); [exact C|]; intros y Y; unfold all; apply in_or_app; right; apply Sub, Y).
  destruct Mc as [Mp Ms Md Ma].
  assert (G : existsb (fun i => bytes_eqb (ai_key i) tp) all && forallb (allowed all signed) fm = true).
  { apply andb_true_iff. split.
    - apply in_map_iff in Mp. destruct Mp as (i & K & I). apply existsb_exists. exists i. split; [exact I|]. rewrite K. apply bytes_eqb_refl.
    - apply forallb_forall. intros m M. rewrite Efm in M.
      assert (four : forall i, In i [src; mint; dst; auth] -> In i all) by (intros i I; unfold all; apply in_or_app; right; apply in_or_app; left; exact I).
      apply in_app_or in M. destruct M as [M|M]; [|apply in_app_or in M; destruct M as [M|M]; [|apply in_app_or in M; destruct M as [M|M]]].
      + unfold four_metas in M. cbn [In] in M. destruct M as [<-|[<-|[<-|[<-|[]]]]].
        * apply (allowed_flags all signed _ src C); [apply four; cbn; tauto|reflexivity|]. cbn. split; [discriminate|intros _; exact Ms].
        * apply (allowed_flags all signed _ mint C); [apply four; cbn; tauto|reflexivity|]. cbn. split; discriminate.
        * apply (allowed_flags all signed _ dst C); [apply four; cbn; tauto|reflexivity|]. cbn. split; [discriminate|intros _; exact Md].
        * apply (allowed_flags all signed _ auth C); [apply four; cbn; tauto|reflexivity|]. cbn. split; [intros _; exact Ma|discriminate].
      + unfold signer_metas in M. apply in_map_iff in M. destruct M as (i & <- & I). apply filter_In in I. destruct I as [I Si].
        apply (allowed_flags all signed _ i C (in_rest _ I)); [reflexivity|]. cbn. split; [intros _; left; exact Si|discriminate].
      + cbn [In] in M. destruct M as [<-|[<-|[]]].
        * apply (allowed_flags all signed _ d C (in_rest _ Di)); [reflexivity|]. cbn. split; discriminate.
        * apply (allowed_flags all signed _ c C (in_rest _ Ci)); [reflexivity|]. cbn. split; [discriminate|intros _; exact Wc].
      + destruct (aligned_In tm ti m At M) as (i & I & K). apply (allowed_flags all signed _ i C (in_rest _ (St _ I))); [auto|].
        rewrite Forall_forall in Tn. destruct (Tn m M) as [-> ->]. split; discriminate. }
  assert (I : invoke tp all signed (fm, fi) = Some (map (seen fm) fi)) by (rewrite (invoke_aligned tp all signed fm fi Ai Cf), G; reflexivity).
  destruct (delivered pda prog tp amount moved signed caller src mint dst auth rest _ _ C listed Fw I) as (ms & is & E' & HA).
  rewrite E in E'. apply Some_inj in E'. assert (Q1 : seven_metas src mint dst auth v d c = ms) by (apply (f_equal fst) in E'; auto).
  assert (Q2 : seven src mint dst auth v d c = is) by (apply (f_equal snd) in E'; auto). clear E'.
  unfold hooked_transfer. rewrite HA. unfold hook_entry. rewrite (execute_dispatch amount U). rewrite <- Q2.
  set (g := fun i => seen ms (move moved i)).
  change (map g (seven src mint dst auth v d c)) with (seven (g src) (g mint) (g dst) (g auth) (g v) (g d) (g c)). apply transfer_hook_iff.
  change (ai_key (g mint)) with (ai_key mint). change (ai_key (g v)) with (ai_key v). change (ai_key (g d)) with (ai_key d). change (ai_key (g c)) with (ai_key c).
  change (ai_owner (g c)) with (ai_owner c). change (ai_data (g c)) with (moved (ai_key c) (ai_owner c) (ai_data c)).
  exists owner, n, tail. split; [apply (is_token_moved tokens tp); [exact S|exact Ts]|].
  split; [destruct Td as (o & Td); exists o; apply (is_token_moved tokens tp); [exact S|exact Td]|].
  split; [apply (is_mint_moved tokens tp); [exact S|exact Tm]|].
  split; [exact Kv|]. split; [exact Kd|]. split; [exact Kc|]. split; [exact Oc|].
  split; [unfold g; rewrite <- Q1, seven_writable by reflexivity; exact Wr|]. split; [lia|]. split; [|reflexivity].
  rewrite (proj1 (S (ai_key c) (ai_owner c) (ai_data c))) by congruence. exact Dc.
Qed.
End Exact.
End Dummy.
Lemma dummy_list_ok : exists l, dummy_extras = Some l /\ map Z_of_byte (list_bytes l) = published_list /\
  List.length (list_bytes l) = list_size 2 /\ List.length (list_bytes l) = 86%nat.
Proof.
  exists the_dummy. split; [exact dummy_extras_eq|]. split; [exact dummy_list_eq|]. rewrite (list_length _ the_dummy_ok). split; reflexivity.
Qed.
Lemma dummy_exact pda tokens prog tp amount moved signed caller src mint dst auth rest b :
  coherent (caller ++ [src; mint; dst; auth] ++ rest) -> settled tp moved -> prog <> tp -> is_u64 amount ->
  (forall v, In v rest -> list_key pda prog (ai_key mint) = Some (ai_key v) -> ai_owner v = prog /\ ai_data v = map byte_of_Z published_list) ->
  hooked_transfer pda tokens prog tp amount moved signed caller src mint dst auth rest = Some b <->
  exists owner n tail, may_call tp signed (caller ++ [src; mint; dst; auth] ++ rest) src dst auth /\
    is_token tokens src (ai_key mint) owner /\ (exists o, is_token tokens dst (ai_key mint) o) /\ is_mint tokens mint /\
    supplied pda prog src mint dst auth owner rest n tail /\ n < u64_max /\ b = COUNTER_TAG ++ le_enc 8 (n + 1) ++ tail.
Proof.
  intros C S P U L. split; [exact (dummy_needs pda tokens prog tp amount moved signed caller src mint dst auth rest C S P U L b)|].
  intros (owner & n & tail & Mc & Ts & Td & Tm & Su & N & ->). eapply dummy_suffices; eassumption.
Qed.
Lemma coherent_nodup l : NoDup (map ai_key l) -> coherent l.
Proof.
  induction l as [|x l IH]; intros N i j I J E; [destruct I|]. cbn [map] in N. inversion N as [|? ? Nx Nl]; subst.
  destruct I as [<-|I], J as [<-|J]; auto; [exfalso; apply Nx; rewrite E; apply in_map, J|exfalso; apply Nx; rewrite <- E; apply in_map, I|apply IH; assumption].
Qed.

(** * Facts about Upkeep.v *)
From Coq Require Import Lia.
From Verif Require Import BytesFacts.
From Verif Require Export CompressFacts LutFacts TxFacts.
From Verif Require Export Upkeep.
Import ListNotations.
Local Open Scope Z_scope.

(** ** Messages *)
Lemma raise_merged payer items m :
  as_meta (Account (me_key m) (privileged handle_eq_dec (HA payer) (map to_cix items) ac_signer (me_key m)) (privileged handle_eq_dec (HA payer) (map to_cix items) ac_writable (me_key m))) =
  raise_ (Meta (HA payer) true true :: flat_map metas_of items) m.
Proof.
  unfold as_meta, raise_. cbn [ac_key ac_signer ac_writable]. f_equal.
  - unfold privileged. cbn [existsb me_key me_signer]. rewrite andb_true_r. f_equal.
    + unfold handle_eqb. destruct (handle_eq_dec (me_key m) (HA payer)), (handle_eq_dec (HA payer) (me_key m)); congruence.
    + induction items as [|j r IH]; [reflexivity|]. cbn [map existsb flat_map]. rewrite existsb_app, IH. f_equal. destruct j as [[j|]|tp a d o n]; cbn [to_cix cx_accounts metas_of]; try reflexivity.
      * induction (ix_metas j) as [|x y IHy]; [reflexivity|]. cbn [map existsb]. rewrite IHy. f_equal. cbn [as_account ac_key ac_signer]. f_equal. unfold handle_eqb.
        destruct (handle_eq_dec (me_key m) (me_key x)), (handle_eq_dec (me_key x) (me_key m)); congruence.
      * cbn [map existsb as_account ac_key ac_signer me_key me_signer]. unfold handle_eqb.
        repeat match goal with |- context [handle_eq_dec ?a (me_key m)] => destruct (handle_eq_dec a (me_key m)), (handle_eq_dec (me_key m) a); try congruence end.
  - unfold privileged. cbn [existsb me_key me_writable]. rewrite andb_true_r. f_equal.
    + unfold handle_eqb. destruct (handle_eq_dec (me_key m) (HA payer)), (handle_eq_dec (HA payer) (me_key m)); congruence.
    + induction items as [|j r IH]; [reflexivity|]. cbn [map existsb flat_map]. rewrite existsb_app, IH. f_equal. destruct j as [[j|]|tp a d o n]; cbn [to_cix cx_accounts metas_of]; try reflexivity.
      * induction (ix_metas j) as [|x y IHy]; [reflexivity|]. cbn [map existsb]. rewrite IHy. f_equal. cbn [as_account ac_key ac_writable]. f_equal. unfold handle_eqb.
        destruct (handle_eq_dec (me_key m) (me_key x)), (handle_eq_dec (me_key x) (me_key m)); congruence.
      * cbn [map existsb as_account ac_key ac_writable me_key me_writable]. unfold handle_eqb.
        repeat match goal with |- context [handle_eq_dec ?a (me_key m)] => destruct (handle_eq_dec a (me_key m)), (handle_eq_dec (me_key m) a); try congruence end.
Qed.

(** Our programs' accounts in the message are those of [submit]. *)
Lemma merged_metas payer items i : map as_meta (cx_accounts (merged handle_eq_dec (HA payer) (map to_cix items) (to_cix i))) =
  map (raise_ (Meta (HA payer) true true :: flat_map metas_of items)) (match i with Ours None => [] | _ => metas_of i end).
Proof.
  unfold merged. cbn [cx_accounts]. rewrite map_map.
  assert (E : cx_accounts (to_cix i) = map as_account (match i with Ours None => [] | _ => metas_of i end)) by (destruct i as [[i|]|]; reflexivity).
  rewrite E, map_map. apply map_ext. intros m. rewrite <- raise_merged. reflexivity.
Qed.

Lemma send_same nm H hn l payer items tables g :
  Compress.compile handle_eq_dec (HA payer) (map to_cix (map fst items)) tables = Some g -> grown tables (tables_in hn l) ->
  (forall x, In x (map to_cix (map fst items)) -> cx_program x <> HA payer) ->
  forallb can_sign (signers_of (Meta (HA payer) true true :: flat_map (fun x => metas_of (fst x)) items)) = true ->
  send nm H hn l items g = submit nm H payer (l_world l) items.
Proof.
  intros C La Np Sg. unfold send.
  assert (Lo : Compress.load handle_eq_dec g (tables_in hn l) =
    Some (HA payer, map (merged handle_eq_dec (HA payer) (map to_cix (map fst items))) (map to_cix (map fst items)))).
  { eapply compile_load; [exact La| |exact C]. intros (x & I & E). exact (Np _ I E). }
  rewrite Lo. unfold submit. set (all := Meta (HA payer) true true :: flat_map (fun x => metas_of (fst x)) items) in *.
  assert (Al : all = Meta (HA payer) true true :: flat_map metas_of (map fst items)).
  { unfold all. f_equal. clear. induction items as [|x r IH]; [reflexivity|]. cbn [flat_map map fst]. rewrite IH. reflexivity. }
  assert (G : forall its s, (forall i ok, In (i, ok) its -> In i (map fst items)) ->
    run_message nm H s its (map (merged handle_eq_dec (HA payer) (map to_cix (map fst items))) (map to_cix (map fst its))) = submit_ nm H all s its).
  { induction its as [|[i ok] its IH]; intros s Sub; [reflexivity|]. cbn [map fst run_message submit_].
    rewrite (merged_metas payer (map fst items) i). rewrite <- Al.
    assert (E1 : (match i with
               | Ours (Some i0) => entry nm ok H s (ix_program i0) (map (raise_ all) match i with Ours None => [] | _ => metas_of i end) (cx_data (merged handle_eq_dec (HA payer) (map to_cix (map fst items)) (to_cix i)))
               | Ours None => Err Constraint
               | Approve tp a d o n => match tp with AProg p => step H s (Call (signers_of (map (raise_ all) match i with Ours None => [] | _ => metas_of i end)) (EApprove p a o d n)) | _ => Err Constraint end
               end) = submit1 nm H all ok s i).
    { destruct i as [[i|]|tp a d o n]; cbn [submit1]; [reflexivity|reflexivity|]. destruct tp; try reflexivity.
      assert (Io : In (Meta (HA o) true false) all).
      { rewrite Al. right. apply in_flat_map. exists (Approve (AProg p) a d o n). split; [eapply Sub; left; reflexivity|]. right; right; left; reflexivity. }
      assert (So : forall z, In z (signers_of (map (raise_ all) (metas_of (Approve (AProg p) a d o n)))) -> In z (signers_of all)).
      { intros z Iz. apply signers_of_in in Iz. destruct Iz as (m & Im & Ek & Es). apply in_map_iff in Im. destruct Im as (m0 & <- & _). cbn [raise_ me_key me_signer] in *.
        apply existsb_exists in Es. destruct Es as (n0 & In0 & En). apply andb_prop in En. destruct En as (En & Es). apply signers_of_in. exists n0. split; [exact In0|].
        unfold handle_eqb in En. destruct (handle_eq_dec (me_key n0) (me_key m0)); [|discriminate]. split; [congruence|exact Es]. }
      assert (Sm : signed (signers_of all) o = true /\ signed (signers_of (map (raise_ all) (metas_of (Approve (AProg p) a d o n)))) o = true).
      { split; apply signed_in; apply signers_of_in.
        - exists (Meta (HA o) true false). auto.
        - exists (raise_ all (Meta (HA o) true false)). split; [apply in_map; right; right; left; reflexivity|]. cbn [raise_ me_key me_signer]. split; [reflexivity|].
          apply existsb_exists. exists (Meta (HA o) true false). split; [exact Io|]. cbn [me_key me_signer]. rewrite andb_true_r. unfold handle_eqb. destruct (handle_eq_dec (HA o) (HA o)); [reflexivity|congruence]. }
      unfold step. cbn [signers ins]. rewrite Sg. replace (forallb can_sign (signers_of (map (raise_ all) (metas_of (Approve (AProg p) a d o n))))) with true.
      2:{ symmetry. apply forallb_forall. intros z Iz. rewrite forallb_forall in Sg. auto. }
      cbn [exec]. destruct Sm as (-> & ->). reflexivity. }
    cbn [cx_data merged to_cix] in *. rewrite E1. destruct (submit1 nm H all ok s i) as [s'|e]; [|reflexivity]. cbn [bind]. apply IH. intros j ok' I. eapply Sub. right. exact I. }
  apply G. intros i ok I. apply (in_map fst) in I. exact I.
Qed.

(** ** Upkeep *)
Lemma tables_later H hn l0 cs l a t : l_reachable H l0 -> l_run H l0 cs l -> getAddressLookupTable l0 = Some (Some (a, t)) ->
  grown [(HA a, map hn (lt_entries t))] (tables_in hn l) /\ (length (lt_entries t) <= 256)%nat.
Proof.
  intros R Rn E. unfold getAddressLookupTable in E. destruct (st_accts (l_world l0) pda_lut) as [[p d]|] eqn:A; [|discriminate]. destruct p; try discriminate. destruct d; try discriminate.
  destruct (l_tabs l0 (lu_address l1)) as [t'|] eqn:T; [|discriminate]. injection E as <- <-. destruct (record_points _ _ _ R A) as (slot & t1 & c & xs & Ea & Et & _). rewrite Ea in *.
  split.
  - intros k en [E|[]]. injection E as <- <-. destruct (own_grows _ _ _ _ _ _ R Rn T) as (t2 & more & E2 & Ee). exists (map hn more). cbn [tables_in]. rewrite E2. cbn [option_map]. rewrite Ee, map_app. reflexivity.
  - destruct (own_tables _ _ _ _ R T) as (_ & _ & L & _). lia.
Qed.

Lemma luts_later H hn l0 cs l : l_reachable H l0 -> l_run H l0 cs l -> grown (luts hn l0) (tables_in hn l) /\ Forall (fun t => (length (snd t) <= 256)%nat) (luts hn l0) /\ (length (luts hn l0) <= 1)%nat.
Proof.
  intros R Rn. unfold luts. destruct (getAddressLookupTable l0) as [[[a t]|]|] eqn:E; [|split; [intros ? ? []|split; [constructor|cbn; lia]]|split; [intros ? ? []|split; [constructor|cbn; lia]]].
  destruct (tables_later _ hn _ _ _ _ _ R Rn E) as (G & L). split; [exact G|]. split; [|cbn; lia]. constructor; [|constructor]. cbn [snd]. rewrite map_length. exact L.
Qed.

(** A built transaction can be packed and means the same to the runtime. *)
Definition built (i : tx_item) : Prop := match i with Ours (Some _) => True | Ours None => False | Approve tp _ _ _ _ => exists p, tp = AProg p end.
Lemma program_apart i payer : built i -> (forall p, payer <> AProg p) -> cx_program (to_cix i) <> HA payer.
Proof.
  intros B C E. destruct i as [[i|]|tp a d o n]; cbn [to_cix cx_program built] in *.
  - unfold program_key in E. destruct (prog_of (ix_program i)); [|discriminate]. injection E as E. exact (C _ (eq_sym E)).
  - exact B.
  - destruct B as (p & ->). injection E as E. exact (C _ (eq_sym E)).
Qed.
Lemma send_packed nm H hn l0 cs l payer items g : l_reachable H l0 -> l_run H l0 cs l -> can_sign payer = true -> (forall p, payer <> AProg p) -> Forall built (map fst items) ->
  forallb can_sign (signers_of (flat_map metas_of (map fst items))) = true ->
  pack payer (map fst items) (luts hn l0) = Some g -> send nm H hn l items g = submit nm H payer (l_world l) items.
Proof.
  intros R Rn C Np B S P. eapply send_same; [exact P|apply (luts_later H hn l0 cs l R Rn)| |].
  - intros x I. apply in_map_iff in I. destruct I as (i & <- & I). rewrite Forall_forall in B. apply program_apart; auto.
  - cbn [signers_of flat_map me_key me_signer app forallb]. rewrite C. cbn [andb]. replace (flat_map (fun x => metas_of (fst x)) items) with (flat_map metas_of (map fst items)); [exact S|].
    clear. induction items as [|x r IH]; [reflexivity|]. cbn [map flat_map]. rewrite IH. reflexivity.
Qed.
Lemma pack_some H hn l0 payer items : l_reachable H l0 -> (length (nodup handle_eq_dec (keys_of (HA payer) (map to_cix items))) <= 256)%nat -> exists g, pack payer items (luts hn l0) = Some g.
Proof.
  intros R L. destruct (luts_later H hn l0 [] l0 R (l_run_nil _ _)) as (_ & F & _). pose proof (proj2 (compile_iff handle_eq_dec (HA payer) (map to_cix items) _ F) L) as N. unfold pack.
  destruct (Compress.compile handle_eq_dec (HA payer) (map to_cix items) (luts hn l0)) as [g|]; [eauto|congruence].
Qed.

(** Sizes. *)
Lemma distinct_bound {K} (ed : forall a b : K, {a = b} + {a <> b}) l q : incl l q -> (length (nodup ed l) <= length q)%nat.
Proof. intros I. apply NoDup_incl_length; [apply NoDup_nodup|]. intros k J. apply nodup_In in J. exact (I k J). Qed.
Lemma signed_keys payer items k : privileged handle_eq_dec (HA payer) (map to_cix items) ac_signer k = true -> k = HA payer \/ exists m, In m (flat_map metas_of items) /\ me_key m = k /\ me_signer m = true.
Proof.
  unfold privileged. intros E. apply orb_prop in E. destruct E as [E|E]; [left; destruct (handle_eq_dec k (HA payer)); congruence|right].
  apply existsb_exists in E. destruct E as (x & I & E). apply existsb_exists in E. destruct E as (a & Ia & E). apply andb_prop in E. destruct E as (E1 & E2).
  destruct (handle_eq_dec k (ac_key a)) as [->|]; [|discriminate]. apply in_map_iff in I. destruct I as (i & <- & I).
  assert (exists m, In m (metas_of i) /\ a = as_account m) as (m & Im & ->).
  { destruct i as [[i|]|tp q d o n]; cbn [to_cix cx_accounts] in Ia; [|destruct Ia|]; apply in_map_iff in Ia; destruct Ia as (m & <- & Im); exists m; auto. }
  exists m. split; [apply in_flat_map; eauto|]. auto.
Qed.

Lemma get_lut H l : l_reachable H l ->
  (getAddressLookupTable l = Some None <-> st_accts (l_world l) pda_lut = None) /\ (forall a t, getAddressLookupTable l = Some (Some (a, t)) <-> recorded l a t) /\
  getAddressLookupTable l <> None.
Proof.
  intros R. unfold getAddressLookupTable, recorded. destruct (st_accts (l_world l) pda_lut) as [ac|] eqn:E.
  - destruct (kind_at _ TLut _ _ _ _ (reachable_inv _ _ (l_world_reachable _ _ R)) E) as (r & ->).
    destruct (record_points _ _ _ R E) as (slot & t & c & xs & _ & Et & _). rewrite Et. split; [split; discriminate|]. split; [|discriminate]. intros a t'. split.
    + intros X. injection X as <- <-. exists r. auto.
    + intros (r' & X & <- & Y). injection X as <-. congruence.
  - split; [tauto|]. split; [|discriminate]. intros a t. split; [discriminate|]. intros (r & X & _). discriminate.
Qed.

Lemma subset_b l1 l2 : forallb (fun a => existsb (addr_eqb a) l2) l1 = true <-> incl l1 l2.
Proof.
  rewrite forallb_forall. unfold incl. split; intros P a I; specialize (P a I).
  - apply existsb_exists in P. destruct P as (b & Ib & E). apply addr_eqb_eq in E. congruence.
  - apply existsb_exists. exists a. split; [exact P|apply addr_eqb_refl].
Qed.

Lemma update_iff H l c e : l_reachable H l ->
  update_needed l c e <> None /\ (update_needed l c e = Some false <-> exists a t, recorded l a t /\ incl (wanted c e) (lt_entries t)).
Proof.
  intros R. destruct (get_lut _ _ R) as (G1 & G2 & G3). unfold update_needed. destruct (getAddressLookupTable l) as [[[a t]|]|]; [| |congruence].
  - split; [discriminate|]. pose proof (proj1 (G2 a t) eq_refl) as Rc. split.
    + intros E. exists a, t. split; [exact Rc|]. apply subset_b. injection E as E. apply negb_false_iff in E. exact E.
    + intros (a' & t' & Rc' & I). apply G2 in Rc'. injection Rc' as <- <-. apply subset_b in I. rewrite I. reflexivity.
  - split; [discriminate|]. split; [discriminate|]. intros (a & t & Rc & _). apply G2 in Rc. discriminate.
Qed.

(** Of the deployment's own accounts none is ever missing. *)
Lemma update_exact H l c b f q : l_reachable H l -> config_at (l_world l) pda_config c ->
  (update_needed l c (b, f, q) = Some false <-> exists a t, recorded l a t /\ incl [b; f; q] (lt_entries t)).
Proof.
  intros R Hc. destruct (update_iff H l c (b, f, q) R) as (_ & ->). split; intros (a & t & Rc & I); exists a, t; (split; [exact Rc|]).
  - intros x J. apply I. unfold wanted. cbn in J |- *. tauto.
  - destruct Rc as (r & Er & <- & Et). destruct (record_points _ _ _ R Er) as (slot & t' & c' & xs & _ & Et' & Hc' & Nx & Ee). rewrite Et in Et'. injection Et' as <-.
    unfold config_at in *. assert (c' = c) by congruence. subst c'. destruct xs as [|[[b' f'] q'] xs]; [congruence|].
    intros x J. assert (D : In x [b; f; q] \/ In x (canonical c (b', f', q'))).
    { unfold wanted in J. unfold canonical. cbn in J |- *. tauto. }
    destruct D as [D|D]; [apply I; exact D|]. rewrite Ee. cbn [flat_map]. apply in_or_app. left. exact D.
Qed.

Lemma update_heals H l c r payer e slot : l_reachable H l -> config_at (l_world l) pda_config c ->
  st_accts (l_world l) pda_outbox_rl = Some (Acct PManager (DOutboxRL r)) -> can_sign payer = true -> is_u64 slot -> l_recent l slot = true ->
  (forall t, l_tabs l (lut_at lut_authority slot) = Some t -> Z.of_nat (length (lt_entries t)) <= 242) ->
  exists l', l_step H l (LCall [payer] (LInit (update_accts payer c e) slot)) = Ok l' /\ update_needed l' c e = Some false.
Proof.
  destruct e as [[b f] q]. intros R Hc Ho Hp Hs Hr Hroom. destruct (anyone_records H l c r payer b f q slot R Hc Ho Hp Hs Hr Hroom) as (l' & t & old & E & Rc & Ee).
  exists l'. split; [exact E|]. assert (R' : l_reachable H l').
  { destruct R as (l0 & cs & Hi & Rn). exists l0. eexists. split; [exact Hi|]. econstructor; eassumption. }
  apply (update_iff _ _ _ _ R'). exists (lut_at lut_authority slot), t. split; [exact Rc|]. rewrite Ee. intros x J. apply in_or_app. right. unfold wanted in J. unfold canonical. cbn in J |- *. tauto.
Qed.

Lemma run_reach H l cs l' : l_reachable H l -> l_run H l cs l' -> l_reachable H l'.
Proof.
  intros (l0 & cs0 & Hi & R0) R. exists l0. induction R as [|cs l1 c l' R IH Hs]; [eauto|]. destruct IH as (cs1 & _ & R1). exists (c :: cs1). split; [exact Hi|]. econstructor; eassumption.
Qed.

Lemma update_stays H l cs l' c e : l_reachable H l -> l_run H l cs l' -> (forall k x slot, In k cs -> l_ins k <> LInit x slot) ->
  update_needed l c e = Some false -> update_needed l' c e = Some false.
Proof.
  intros R Rn No U. pose proof (run_reach _ _ _ _ R Rn) as R'. apply (update_iff _ _ _ _ R) in U. destruct U as (a & t & (r & Er & Ea & Et) & I).
  destruct (record_points _ _ _ R Er) as (slot & t1 & c1 & xs & Ea' & _). subst a. rewrite Ea' in *.
  destruct (own_grows _ _ _ _ _ _ R Rn Et) as (t2 & more & Et2 & Ee). apply (update_iff _ _ _ _ R'). exists (lut_at lut_authority slot), t2.
  split; [|intros x J; rewrite Ee; apply in_or_app; left; exact (I x J)]. exists r. split; [|auto].
  clear - R Rn No Er. induction Rn as [|cs l1 k l' Rn IH Hs]; [exact Er|].
  destruct (l_record_step _ _ _ _ (run_reach _ _ _ _ R Rn) Hs) as [Q|(x & sl & cf & old & Ei & _)]; [|exfalso; eapply No; [left; reflexivity|exact Ei]].
  rewrite Q. apply IH. intros k' x sl J. apply No. right. exact J.
Qed.

(** The transfers and redemptions that the library builds. *)
Local Strategy 1000 [sha256].
Lemma encoded_len g : (length (encoded g) <= 8 + length (args_of g))%nat.
Proof. unfold encoded. rewrite app_length. match goal with |- (length (firstn 8 ?h) + _ <= _)%nat => pose proof (firstn_le_length 8 h) end. lia. Qed.
Definition keyed (b : option ix) (p : program) (g : gcall) (n : nat) (q sg : list handle) : Prop :=
  exists d ms, b = Some (Ix p d ms) /\ (length d <= 8 + length (args_of g))%nat /\ (length ms <= n)%nat /\ incl (map me_key ms) q /\ forall m, In m ms -> me_signer m = true -> In (me_key m) sg.
Ltac all_in := let a := fresh in let I := fresh in intros a I; cbn [map me_key In] in I; decompose [or] I; clear I;
  match goal with E : _ = a |- _ => subst a | F : False |- _ => destruct F end; unfold custody_address, assoc; repeat first [left; reflexivity|right].
Ltac all_sign := let a := fresh in let I := fresh in let S := fresh in intros a I S; cbn [In] in I; decompose [or] I; clear I;
  match goal with E : _ = a |- _ => subst a | F : False |- _ => destruct F end; cbn [me_signer me_key] in *; first [discriminate S|cbn [In]; tauto].
Ltac keys_built := do 2 eexists; split; [is_built|split; [apply encoded_len|split; [cbn [length]; lia|split; [all_in|all_sign]]]].
Section Keys.
Context (nm : bytes -> addr) (H : hashes).
Definition transfer_keys (payer from item : addr) (c : config addr) (tp : prog) (amount chain : Z) (to : bytes) (q : bool) : list handle :=
  [HA payer; HA pda_config; HA (cf_mint c); HA from; HA (cf_token_program c); HA item; HA pda_outbox_rl; HA (ata tp token_authority (cf_mint c)); HA system_program;
   HA (pda_inbox_rl chain); HA (pda_peer chain); HA (pda_session payer (h_args H (TransferArgs amount chain (nm to) q))); HA token_authority].
Lemma k_lock payer from item c tp amount chain to q : cf_token_program c = AProg tp -> cf_paused c = false ->
  keyed (createTransferLock nm H payer from payer item c amount chain to q) AManager (GTransferLock amount chain to q) 13 (transfer_keys payer from item c tp amount chain to q) [HA payer; HA item].
Proof. intros E P. unfold createTransferLock, transfer_common, transfer_keys, custody_address. rewrite P, E. cbn [assoc]. keys_built. Qed.
Lemma k_burn payer from item c tp amount chain to q : cf_token_program c = AProg tp ->
  keyed (createTransferBurn nm H payer from payer item c amount chain to q) AManager (GTransferBurn amount chain to q) 13 (transfer_keys payer from item c tp amount chain to q) [HA payer; HA item].
Proof. intros E. unfold createTransferBurn, transfer_common, transfer_keys, custody_address. rewrite E. cbn [assoc]. keys_built. Qed.
Definition release_keys (payer item : addr) (x : prog) : list handle :=
  [HA payer; HA pda_config; HA item; HA system_program; HA (pda_message x item); HA (pda_emitter x); HA (pda_reg (AProg x)); HBridge; HFeeCollector; HSequence x; HA (AProg PWormhole);
   HA sysvar_clock; HA sysvar_rent; HA (AProg PManager); HA (pda_outbox_signer x)].
Lemma k_release payer item x r : keyed (createReleaseWormholeOutbound payer item x r) (program_of x) (GReleaseOutbound r) 15 (release_keys payer item x) [HA payer].
Proof. unfold createReleaseWormholeOutbound, release_keys. keys_built. Qed.
Definition claim_keys (payer vaa : addr) (recipient : addr) (c : config addr) (tp : prog) (x : prog) (chain : Z) (m : ntt_msg) : list handle :=
  [HA payer; HA pda_config; HA (pda_xpeer x chain); HA vaa; HA (pda_vtm x chain (nm_id m)); HA system_program; HA (pda_peer chain); HA (pda_reg (AProg x)); HA (cf_mint c);
   HA (pda_inbox (h_msg H chain m)); HA (pda_inbox_rl chain); HA pda_outbox_rl; HA (ata tp recipient (cf_mint c)); HA token_authority; HA (cf_token_program c);
   HA (ata tp token_authority (cf_mint c))].
Lemma k_receive payer vaa rc c tp x chain m : keyed (createReceive payer vaa x chain m) (program_of x) GReceive 10 (claim_keys payer vaa rc c tp x chain m) [HA payer].
Proof. unfold createReceive, claim_keys. keys_built. Qed.
Lemma k_redeem payer vaa rc c tp x chain m : keyed (createRedeem H payer c x chain m) AManager GRedeem 10 (claim_keys payer vaa rc c tp x chain m) [HA payer].
Proof. unfold createRedeem, claim_keys. keys_built. Qed.
Lemma k_mint payer vaa rc c tp x chain m rv : cf_token_program c = AProg tp -> keyed (createReleaseInboundMint H payer rc c chain m rv) AManager (GReleaseMint rv) 10 (claim_keys payer vaa rc c tp x chain m) [HA payer].
Proof. intros E. unfold createReleaseInboundMint, release_common, claim_keys, custody_address. rewrite E. cbn [assoc]. keys_built. Qed.
Lemma k_unlock payer vaa rc c tp x chain m rv : cf_token_program c = AProg tp -> keyed (createReleaseInboundUnlock H payer rc c chain m rv) AManager (GReleaseUnlock rv) 10 (claim_keys payer vaa rc c tp x chain m) [HA payer].
Proof. intros E. unfold createReleaseInboundUnlock, release_common, claim_keys, custody_address. rewrite E. cbn [assoc]. keys_built. Qed.
End Keys.

Lemma packed_fits H hn l0 payer items Q SG d s b : l_reachable H l0 ->
  incl (keys_of (HA payer) (map to_cix items)) Q -> (length Q <= d)%nat ->
  (forall m, In m (flat_map metas_of items) -> me_signer m = true -> In (me_key m) SG) -> In (HA payer) SG -> (length SG <= s)%nat ->
  (length items < 128)%nat -> (forall x, In x (map to_cix items) -> (length (cx_accounts x) < 128 /\ length (cx_data x) < 128)%nat) ->
  (list_sum (map (fun x => 3 + length (cx_accounts x) + length (cx_data x)) (map to_cix items)) <= b)%nat -> (d < 128)%nat ->
  exists g, pack payer items (luts hn l0) = Some g /\ (wire_size g <= 74 + 64 * s + 32 * d + b)%nat.
Proof.
  intros R IQ LQ Sg SP LS Li Lx Lb Ld. pose proof (distinct_bound handle_eq_dec _ _ IQ) as D. destruct (pack_some H hn l0 payer items R) as (g & P); [lia|]. exists g. split; [exact P|].
  destruct (luts_later H hn l0 [] l0 R (l_run_nil _ _)) as (_ & _ & L1).
  destruct (compile_size handle_eq_dec (HA payer) (map to_cix items) _ g L1 P) as (W & St & Ns); [lia|rewrite map_length; exact Li|exact Lx|].
  assert (Sn : (mg_signatures g <= s)%nat).
  { rewrite Ns. etransitivity; [|exact LS]. apply distinct_bound. intros k J. apply filter_In in J. destruct J as (_ & J). destruct (signed_keys _ _ _ J) as [->|(m & Im & <- & Em)]; auto. }
  lia.
Qed.

Lemma keys_items payer items k : In k (keys_of (HA payer) (map to_cix items)) <-> k = HA payer \/ exists i, In i items /\ (k = cx_program (to_cix i) \/ In k (map me_key (metas_of i))).
Proof.
  unfold keys_of. cbn [In]. split; (intros [E|E]; [left; auto|right]).
  - apply in_flat_map in E. destruct E as (x & I & E). apply in_map_iff in I. destruct I as (i & <- & I). exists i. split; [exact I|]. destruct E as [E|E]; [left; auto|right].
    destruct i as [[i|]|tp a dl o n]; cbn [to_cix cx_accounts] in E; [rewrite map_map in E; exact E|destruct E|rewrite map_map in E; exact E].
  - destruct E as (i & I & E). apply in_flat_map. exists (to_cix i). split; [apply in_map; exact I|]. destruct E as [E|E]; [left; auto|right].
    destruct i as [[i|]|tp a dl o n]; cbn [to_cix cx_accounts]; [rewrite map_map; exact E|destruct E|rewrite map_map; exact E].
Qed.


Lemma combine_fst {A B} (l : list A) : forall r : list B, length r = length l -> map fst (combine l r) = l.
Proof. induction l as [|a l IH]; intros [|b r] E; try discriminate; [reflexivity|]. cbn [combine map fst]. f_equal. apply IH. cbn in E. congruence. Qed.

Lemma transfer_packed nm H hn l0 cs l c tp sender amount chain to q item x items : l_reachable H l0 -> l_run H l0 cs l ->
  cf_paused c = false -> cf_token_program c = AProg tp -> can_sign sender = true -> can_sign item = true -> (forall p, sender <> AProg p) -> is_ntt_prog x = true -> is32 to ->
  client_transfer nm H sender amount chain to q item c x = Some items ->
  exists g, pack sender items (luts hn l0) = Some g /\ (wire_size g <= 1232)%nat /\
    forall oks, length oks = length items -> send nm H hn l (combine items oks) g = submit nm H sender (l_world l) (combine items oks).
Proof.
  intros R Rn P E CS CI NP X T. unfold client_transfer. rewrite P, E. cbn [assoc]. set (from := ata tp sender (cf_mint c)). set (ses := pda_session _ _). intros Ei. injection Ei as <-.
  set (b2 := match cf_mode c with Locking => _ | Burning => _ end). set (b3 := createReleaseWormholeOutbound _ _ _ _).
  assert (K2 : exists g2, (length (args_of g2) <= 43)%nat /\ keyed b2 AManager g2 13 (transfer_keys nm H sender from item c tp amount chain to q) [HA sender; HA item]).
  { unfold b2. destruct (cf_mode c); [exists (GTransferLock amount chain to q)|exists (GTransferBurn amount chain to q)].
    all: split; [cbn [args_of]; rewrite ?app_length, ?le_enc_length; unfold is32 in T; cbn; lia|].
    - apply k_lock; assumption.
    - apply k_burn; assumption. }
  destruct K2 as (g2 & A2 & d2 & ms2 & E2 & Q2 & L2 & I2 & S2). destruct (k_release sender item x (negb q)) as (d3 & ms3 & E3 & Q3 & L3 & I3 & S3). cbn [args_of flag length] in Q3. fold b3 in E3. rewrite E2, E3. clear b2 b3 E2 E3.
  set (items := [_; _; _]).
  assert (Px : program_key (program_of x) = HA (AProg x)) by (destruct x; try discriminate X; reflexivity).
  destruct (packed_fits H hn l0 sender items
    (transfer_keys nm H sender from item c tp amount chain to q ++ [HA (pda_message x item); HA (pda_emitter x); HA (pda_reg (AProg x)); HBridge; HFeeCollector; HSequence x; HA (AProg PWormhole);
       HA sysvar_clock; HA sysvar_rent; HA (AProg PManager); HA (pda_outbox_signer x); HA (AProg x)]) [HA sender; HA item] 25 2 109 R) as (g & G1 & G2).
  - intros k J. apply keys_items in J. destruct J as [->|(i & J & K)]; [left; reflexivity|]. destruct J as [<-|[<-|[<-|[]]]]; cbn [to_cix cx_program metas_of ix_program ix_metas] in K.
    + apply in_or_app. left. unfold transfer_keys. rewrite E. destruct K as [->|[<-|[<-|[<-|[]]]]]; cbn [me_key In]; auto 15.
    + destruct K as [->|K]; [apply in_or_app; right; cbn; auto 15|apply in_or_app; left; apply I2; exact K].
    + rewrite Px in K. destruct K as [->|K]; [apply in_or_app; right; cbn [In]; auto 15|]. apply I3 in K. apply in_or_app. unfold release_keys in K. unfold transfer_keys. cbn [In] in K |- *. tauto.
  - cbn. lia.
  - intros m J Sm. cbn [items flat_map metas_of ix_metas app In] in J. rewrite app_nil_r in J. destruct J as [<-|[<-|[<-|J]]]; try discriminate Sm; [left; reflexivity|].
    apply in_app_or in J. destruct J as [J|J]; [exact (S2 _ J Sm)|]. destruct (S3 _ J Sm) as [J'|[]]. left. exact J'.
  - left. reflexivity.
  - cbn. lia.
  - cbn. lia.
  - intros y J. cbn [items map In] in J.
    destruct J as [<-|[<-|[<-|[]]]]; cbn [to_cix cx_accounts cx_data metas_of ix_metas ix_data]; rewrite map_length.
    + cbn [length]. rewrite le_enc_length. lia.
    + lia.
    + lia.
  - cbn [items map to_cix cx_accounts cx_data metas_of ix_metas ix_data list_sum fold_right length]. rewrite !map_length, le_enc_length. lia.
  - lia.
  - exists g. split; [exact G1|]. split; [lia|]. intros oks Lo. assert (Fs : map fst (combine items oks) = items) by (apply combine_fst; auto).
    eapply send_packed; try eassumption; rewrite ?Fs; try assumption.
    + repeat constructor; cbn; eauto.
    + cbn [items flat_map metas_of ix_metas app]. rewrite app_nil_r. apply forallb_forall. intros y J. apply signers_of_in in J. destruct J as (m & J & Ek & Es).
      destruct J as [<-|[<-|[<-|J]]]; try discriminate Es; [injection Ek as <-; exact CS|]. apply in_app_or in J. destruct J as [J|J].
      * destruct (S2 _ J Es) as [Q|[Q|[]]]; rewrite Ek in Q; injection Q as <-; assumption.
      * destruct (S3 _ J Es) as [Q|[]]; rewrite Ek in Q; injection Q as <-; assumption.
Qed.

Lemma redeem_packed nm H hn l0 cs l c tp payer vaa ch msg x items : l_reachable H l0 -> l_run H l0 cs l ->
  cf_paused c = false -> cf_token_program c = AProg tp -> can_sign payer = true -> (forall p, payer <> AProg p) -> is_ntt_prog x = true ->
  client_redeem H payer vaa ch msg c x = Some items ->
  exists g, pack payer items (luts hn l0) = Some g /\ (wire_size g <= 1232)%nat /\
    forall oks, length oks = length items -> send nm H hn l (combine items oks) g = submit nm H payer (l_world l) (combine items oks).
Proof.
  intros R Rn P E CS NP X. unfold client_redeem. rewrite P. intros Ei. injection Ei as <-.
  set (b3 := match cf_mode c with Locking => _ | Burning => _ end). set (b1 := createReceive _ _ _ _ _). set (b2 := createRedeem _ _ _ _ _ _). set (rc := nm_to msg) in *.
  assert (K3 : exists g3, (length (args_of g3) <= 1)%nat /\ keyed b3 AManager g3 10 (claim_keys H payer vaa rc c tp x ch msg) [HA payer]).
  { unfold b3. destruct (cf_mode c); [exists (GReleaseUnlock false)|exists (GReleaseMint false)]; (split; [cbn; lia|]); [apply k_unlock|apply k_mint]; assumption. }
  destruct K3 as (g3 & A3 & d3 & ms3 & E3 & Q3 & L3 & I3 & S3). destruct (k_receive H payer vaa rc c tp x ch msg) as (d1 & ms1 & E1 & Q1 & L1 & I1 & S1).
  destruct (k_redeem H payer vaa rc c tp x ch msg) as (d2 & ms2 & E2 & Q2 & L2 & I2 & S2). cbn [args_of length] in Q1, Q2.
  fold b1 in E1. fold b2 in E2. rewrite E1, E2, E3. clear b1 b2 b3 E1 E2 E3. set (items := [_; _; _]).
  assert (Px : program_key (program_of x) = HA (AProg x)) by (destruct x; try discriminate X; reflexivity).
  assert (Sg : forall m, In m (flat_map metas_of items) -> me_signer m = true -> In (me_key m) [HA payer]).
  { intros m J Sm. cbn [items flat_map metas_of ix_metas] in J. rewrite app_nil_r in J. apply in_app_or in J. destruct J as [J|J]; [exact (S1 _ J Sm)|]. apply in_app_or in J. destruct J as [J|J]; [exact (S2 _ J Sm)|exact (S3 _ J Sm)]. }
  destruct (packed_fits H hn l0 payer items (claim_keys H payer vaa rc c tp x ch msg ++ [HA (AProg PManager); HA (AProg x)]) [HA payer] 18 1 64 R) as (g & G1 & G2).
  - intros k J. apply keys_items in J. destruct J as [->|(i & J & K)]; [left; reflexivity|]. destruct J as [<-|[<-|[<-|[]]]]; cbn [to_cix cx_program metas_of ix_program ix_metas] in K.
    + rewrite Px in K. destruct K as [->|K]; [apply in_or_app; right; cbn [In]; auto|apply in_or_app; left; apply I1; exact K].
    + destruct K as [->|K]; [apply in_or_app; right; cbn; auto|apply in_or_app; left; apply I2; exact K].
    + destruct K as [->|K]; [apply in_or_app; right; cbn; auto|apply in_or_app; left; apply I3; exact K].
  - cbn. lia.
  - exact Sg.
  - left. reflexivity.
  - cbn. lia.
  - cbn. lia.
  - intros y J. cbn [items map In] in J. destruct J as [<-|[<-|[<-|[]]]]; cbn [to_cix cx_accounts cx_data metas_of ix_metas ix_data]; rewrite map_length; lia.
  - cbn [items map to_cix cx_accounts cx_data metas_of ix_metas ix_data list_sum fold_right length]. rewrite !map_length. lia.
  - lia.
  - exists g. split; [exact G1|]. split; [lia|]. intros oks Lo. assert (Fs : map fst (combine items oks) = items) by (apply combine_fst; auto).
    eapply send_packed; try eassumption; rewrite ?Fs; try assumption.
    + repeat constructor; cbn; eauto.
    + apply forallb_forall. intros y J. apply signers_of_in in J. destruct J as (m & J & Ek & Es). destruct (Sg _ J Es) as [Q|[]]. rewrite Ek in Q. injection Q as <-. exact CS.
Qed.

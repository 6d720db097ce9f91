(** * Proofs about the client library and the quoter (C98, C99). *)
From Coq Require Import String.
From Verif Require Import Client ClientFacts BuilderFacts TxFacts QuoterFacts QEffectFacts DispatchFacts.
From Verif Require EntryFacts.
From Verif Require Import QEntryFacts.
From Verif Require Export SpecQBuilder.
From Verif Require Import Quoter QEntry.
Import ListNotations.
Local Open Scope Z_scope.
Local Open Scope list_scope.
Local Strategy 1000 [sha256].

Lemma qaddr_eqb_refl a : qaddr_eqb a a = true. Proof. apply qaddr_eqb_eq. reflexivity. Qed.

Lemma q_at_least_nth ms ms' n m : q_at_least ms ms' -> nth_error ms n = Some m ->
  exists m', nth_error ms' n = Some m' /\ qm_key m' = qm_key m /\ (qm_signer m = true -> qm_signer m' = true) /\ (qm_writable m = true -> qm_writable m' = true).
Proof.
  intros (l & r & -> & F). revert n. induction F as [|a b ms l (K & S & W) F IH]; intros [|n] E; cbn in *; try discriminate E.
  - injection E as <-. eauto.
  - apply IH, E.
Qed.
Lemma q_at_least_key ms ms' n a : q_at_least ms ms' -> q_key ms n = Some a -> q_key ms' n = Some a.
Proof.
  intros L K. destruct (q_key_some _ _ _ K) as (m & M & E). destruct (q_at_least_nth _ _ _ _ L M) as (m' & M' & E' & _).
  unfold q_key. rewrite M'. cbn [option_map]. congruence.
Qed.
Lemma q_at_least_ext ms ms' n a : q_at_least ms ms' -> q_ext ms n = Some a -> q_ext ms' n = Some a.
Proof. intros L K. apply q_ext_key in K. unfold q_ext. rewrite (q_at_least_key _ _ _ _ L K). reflexivity. Qed.
Lemma q_at_least_instr I nm g ms ms' i : q_at_least ms ms' -> q_instr_of I nm g ms = Some i -> q_instr_of I nm g ms' = Some i.
Proof.
  intros L H. unfold q_instr_of in *. cbv zeta in *. destruct g; try discriminate H;
  repeat match type of H with (match ?r with _ => _ end) = Some _ => let R := fresh "R" in destruct r eqn:R; try discriminate H end; injection H as <-;
    repeat match goal with
    | R : q_ext ms ?n = Some _ |- _ => apply (q_at_least_ext _ ms' _ _ L) in R; rewrite R; clear R
    | R : q_key ms ?n = Some _ |- _ => apply (q_at_least_key _ ms' _ _ L) in R; rewrite R; clear R
    end; reflexivity.
Qed.
Lemma q_at_least_meet ns : forall ms ms', q_at_least ms ms' -> q_meet ns ms = true -> q_meet ns ms' = true.
Proof.
  induction ns as [|n ns IH]; intros ms ms' L M; [reflexivity|]. destruct ms as [|m ms]; [discriminate M|]. destruct L as (l & r & -> & F).
  inversion F as [|? m' ? l' (K & S & W) F' E1 E2]; subst. cbn [q_meet app] in *. apply andb_prop in M. destruct M as [M1 M2].
  rewrite (IH ms (l' ++ r)); [|exists l', r; auto|exact M2]. rewrite andb_true_r. unfold q_meets in *. rewrite K.
  apply andb_prop in M1. destruct M1 as [M1 MW]. apply andb_prop in M1. destruct M1 as [M1 MS]. rewrite M1. cbn [andb].
  destruct (qm_signer n), (qm_signer m); try discriminate MS; try rewrite (S eq_refl); cbn [implb andb];
    destruct (qm_writable n), (qm_writable m); try discriminate MW; try rewrite (W eq_refl); reflexivity.
Qed.
Lemma q_at_least_refl ms : q_at_least ms ms.
Proof. exists ms, []. split; [symmetry; apply app_nil_r|]. induction ms; constructor; auto. Qed.

Lemma q_means_intro I nm E q g ms b i :
  b = Some (QIx (encoded g) ms) -> offered AQuoter g -> wf_call g -> q_instr_of I nm g ms = Some i ->
  (forall sg q', q_step E q (QCall sg i) = Ok q' -> exists ns, q_layout I q i = Ok ns /\ q_meet ns ms = true) ->
  q_means I nm E q b i.
Proof.
  intros B O W Hi Y. exists (QIx (encoded g) ms). split; [exact B|]. cbn [qx_metas qx_data]. intros ms' L q'.
  assert (D : dispatch AQuoter (encoded g) = Some g) by (apply dispatch_exact; auto using encoded_data).
  assert (I' := q_at_least_instr _ _ _ _ _ _ L Hi). split; intros T.
  - destruct (q_entry_inv _ _ _ _ _ _ _ T) as (g' & i' & ns & D' & Hi' & Ly & M & S). rewrite D in D'. injection D' as <-. rewrite I' in Hi'. injection Hi' as <-. exact S.
  - destruct (Y _ _ T) as (ns & Ly & M). rewrite (q_entry_of _ _ _ _ _ _ _ _ _ D I' Ly (q_at_least_meet _ _ _ L M)). exact T.
Qed.

Lemma u64_to_some z : js_safe z -> u64_to z = Some z.
Proof. unfold js_safe, u64_to. intros [A B]. replace ((0 <=? z) && (z <? 2 ^ 53)) with true; [reflexivity|]. symmetry. apply andb_true_intro. split; [apply Z.leb_le|apply Z.ltb_lt]; assumption. Qed.
Lemma u64_to_none z : ~ js_safe z -> u64_to z = None.
Proof.
  unfold js_safe, u64_to. intros N. destruct ((0 <=? z) && (z <? 2 ^ 53)) eqn:B; [|reflexivity]. exfalso. apply N. apply andb_prop in B. destruct B as [A B].
  split; [apply Z.leb_le|apply Z.ltb_lt]; assumption.
Qed.
Lemma js_u64 z : js_safe z -> is_u64 z.
Proof. intros [A B]. change (2 ^ 53) with 9007199254740992 in B. ilia. Qed.

Ltac q_is_built := cbv beta delta [createRegisterChain createRegisterNtt createDeregisterNtt createUpdateSolPrice createUpdateChainParams
    createPauseRelayForChain createUpdateChainPrices createRequestRelay createSetAssistant createSetFeeRecipient q_build];
  match goal with |- match ?x with _ => _ end = _ => let ms := eval cbv in x in change x with ms; reflexivity end.
Ltac q_meets_all := cbv beta iota delta [q_meet q_meets qm_key qm_signer qm_writable implb]; rewrite ?qaddr_eqb_refl; reflexivity.
Ltac q_is_instr := cbv beta iota zeta delta [q_instr_of q_ext q_key option_map nth_error qm_key]; reflexivity.
Ltac q_intro gg := eapply q_means_intro with (g := gg); [q_is_built|reflexivity|cbn [wf_call]; repeat match goal with |- _ /\ _ => split end; try assumption; try exact Logic.I; try (unfold SpecDispatch.is_u32; change (2 ^ 32) with 4294967296; ilia)|try q_is_instr|].
Ltac q_plain := intros sg q' _; eexists; split; [reflexivity|q_meets_all].

Section Means.
Context (I : qids) (nm : bytes -> addr) (E : qenv) (q : qstate).
Lemma qm_register_chain au ch : is_u16 ch -> q_means I nm E q (createRegisterChain au ch) (QRegisterChain QInst au ch).
Proof. intros. q_intro (Dispatch.QRegisterChain ch). q_plain. Qed.
Lemma qm_register_ntt au p k g : is32 p -> is_u8 k -> is_u32 g -> q_means I nm E q (createRegisterNtt nm au p g k) (QRegisterNtt QInst au (nm p) k g).
Proof. intros. q_intro (Dispatch.QRegisterNtt p k g). 
q_plain. Qed.
Lemma qm_deregister_ntt au p : is32 p -> q_means I nm E q (createDeregisterNtt nm au p) (QDeregisterNtt QInst au (nm p)).
Proof. intros. q_intro (Dispatch.QDeregisterNtt p). q_plain. Qed.
Lemma qm_sol_price au p : js_safe p -> q_means I nm E q (createUpdateSolPrice au p) (QUpdateSolPrice QInst au p).
Proof. intros J. pose proof (js_u64 _ J). unfold createUpdateSolPrice. rewrite (u64_to_some _ J). q_intro (Dispatch.QUpdateSolPrice p). q_plain. Qed.
Lemma qm_params au ch d b : js_safe d -> js_safe b -> q_means I nm E q (createUpdateChainParams au ch d b) (QUpdateChainParams QInst au (QChain ch) d b).
Proof.
  intros J K. pose proof (js_u64 _ J). pose proof (js_u64 _ K). unfold createUpdateChainParams. rewrite (u64_to_some _ J), (u64_to_some _ K).
  q_intro (Dispatch.QUpdateChainParams d b). q_plain.
Qed.
Lemma qm_pause au ch : q_means I nm E q (createPauseRelayForChain au ch) (QUpdateChainParams QInst au (QChain ch) 0 u64_max).
Proof. eapply q_means_intro with (g := Dispatch.QUpdateChainParams 0 u64_max); [q_is_built|reflexivity|cbn [wf_call]; split; ilia|q_is_instr|]. q_plain. Qed.
Lemma qm_prices au ch n g : js_safe n -> js_safe g -> q_means I nm E q (createUpdateChainPrices au ch n g) (QUpdateChainPrices QInst au (QChain ch) n g).
Proof.
  intros J K. pose proof (js_u64 _ J). pose proof (js_u64 _ K). unfold createUpdateChainPrices. rewrite (u64_to_some _ J), (u64_to_some _ K).
  q_intro (Dispatch.QUpdateChainPrices n g). q_plain.
Qed.
Lemma qm_request py it ntt ch m d : js_safe m -> js_safe d ->
  (forall p o, st_accts (q_world q) it = Some (Acct p (DOutboxItem o)) -> ob_chain o = ch /\ AProg p = ntt) ->
  q_means I nm E q (createRequestRelay py it ntt ch m d) (QRequestRelay py QInst it d m).
Proof.
  intros J K A. pose proof (js_u64 _ J). pose proof (js_u64 _ K). unfold createRequestRelay. rewrite (u64_to_some _ J), (u64_to_some _ K).
  q_intro (Dispatch.QRequestRelay d m).
  intros sg q' S. apply q_step_inv in S. cbn [q_signers q_ins] in S. destruct S as (_ & _ & S). cbn [q_exec] in S. unfold qi_request_relay in S. cbn [q_layout].
  destruct (outbox_view (q_world q) it) as [[p o]|] eqn:V.
  - cbn [bind fst snd]. eexists. split; [reflexivity|]. unfold outbox_view in V. destruct (st_accts (q_world q) it) as [[p' []]|] eqn:T; try discriminate V. injection V as -> ->.
    destruct (A _ _ eq_refl) as [-> <-]. q_meets_all.
  - exfalso. cbn [bind] in S. repeat (match type of S with bind ?r _ = _ => destruct r; cbn [bind] in S; try discriminate S end).
Qed.
Lemma qm_set_assistant i o a : getInstance q = Gives i -> in_owner i = QExt o -> a <> in_assistant i ->
  q_means I nm E q (createSetAssistant q a) (QSetAssistant QInst o (if qaddr_eqb a (QExt (qd_self I)) then None else Some a)).
Proof.
  intros G O N. unfold createSetAssistant. rewrite G. replace (qaddr_eqb (in_assistant i) a) with false by (symmetry; apply qaddr_eqb_neq; congruence). rewrite O.
  q_intro Dispatch.QSetAssistant.
  intros sg q' _. cbn [q_layout]. eexists. split; [reflexivity|]. destruct (qaddr_eqb a (QExt (qd_self I))) eqn:B; [apply qaddr_eqb_eq in B; subst a|]; q_meets_all.
Qed.
Lemma qm_set_recipient i o a : getInstance q = Gives i -> in_owner i = QExt o -> a <> in_fee_recipient i -> a <> QExt ANull ->
  q_means I nm E q (createSetFeeRecipient q a) (QSetFeeRecipient QInst o a).
Proof.
  intros G O N N'. unfold createSetFeeRecipient. rewrite G. replace (qaddr_eqb a (QExt ANull)) with false by (symmetry; apply qaddr_eqb_neq; congruence).
  replace (qaddr_eqb (in_fee_recipient i) a) with false by (symmetry; apply qaddr_eqb_neq; congruence). rewrite O.
  q_intro Dispatch.QSetFeeRecipient. q_plain.
Qed.
End Means.

(** A request for another chain than the item's, or for another manager than the one that made it. *)
Lemma request_wrong I nm E q py it ntt ch m d : 
  (forall p o, st_accts (q_world q) it = Some (Acct p (DOutboxItem o)) -> ob_chain o <> ch \/ AProg p <> ntt) ->
  q_futile I nm E q (createRequestRelay py it ntt ch m d).
Proof.
  intros A x ms q' B L T. unfold createRequestRelay in B. destruct (u64_to m) as [m'|] eqn:Em; [|discriminate B]. destruct (u64_to d) as [d'|] eqn:Ed; [|discriminate B].
  assert (Jm : js_safe m' /\ js_safe d').
  { unfold u64_to in Em, Ed. unfold js_safe. repeat match goal with R : (if ?b then _ else _) = Some _ |- _ => destruct b eqn:?; [|discriminate R]; injection R as <- end.
    rewrite !andb_true_iff, Z.leb_le, Z.ltb_lt in *. tauto. }
  destruct Jm as [Jm Jd]. apply js_u64 in Jm, Jd.
  unfold q_build in B. match type of B with match ?y with _ => _ end = _ => let ms := eval cbv in y in change y with ms in B end. injection B as <-. cbn [qx_metas qx_data] in *.
  destruct (q_entry_inv _ _ _ _ _ _ _ T) as (g & i & ns & D & Hi & Y & M & S).
  assert (D' : dispatch AQuoter (encoded (Dispatch.QRequestRelay d' m')) = Some (Dispatch.QRequestRelay d' m')) by (apply dispatch_exact; split; [reflexivity|split; [cbn [wf_call]; auto|apply encoded_data]]).
  rewrite D' in D. injection D as <-.
  match type of L with q_at_least ?l _ => assert (Hi' : q_instr_of I nm (Dispatch.QRequestRelay d' m') l = Some (QRequestRelay py QInst it d' m')) by reflexivity;
    pose proof (fun n a => q_at_least_key l ms n a L) as K end.
  rewrite (q_at_least_instr _ _ _ _ _ _ L Hi') in Hi. injection Hi as <-. cbn [q_layout] in Y.
  destruct (outbox_view (q_world q) it) as [[p o]|] eqn:V; [|discriminate Y]. cbn [bind fst snd] in Y. injection Y as <-.
  unfold outbox_view in V. destruct (st_accts (q_world q) it) as [[p' []]|] eqn:W; try discriminate V. injection V as -> ->.
  assert (K2 := K 2%nat _ eq_refl). assert (K3 := K 3%nat _ eq_refl). clear K. unfold q_key in K2, K3.
  destruct (q_meet_at _ _ 2 _ M eq_refl) as (m2 & M2 & E2). destruct (q_meet_at _ _ 3 _ M eq_refl) as (m3 & M3 & E3).
  rewrite M2 in K2. rewrite M3 in K3. cbn [option_map] in K2, K3. apply q_meets_spec in E2, E3. cbn [qm_key] in E2, E3. destruct E2 as [E2 _], E3 as [E3 _].
  rewrite E2 in K2. rewrite E3 in K3. injection K2 as K2. injection K3 as K3.
  destruct (A _ _ eq_refl) as [N|N]; apply N; [exact K2|rewrite K3; reflexivity].
Qed.

(** Never built. *)
Lemma no_close au it : createCloseRelay au it = None. Proof. reflexivity. Qed.
Lemma no_initialize I nm known tag slot au code r : List.length tag = 4%nat -> List.length slot = 8%nat -> List.length au = 33%nat ->
  createInitializeQuoter I nm known (Some (tag ++ slot ++ au ++ code)) r = None.
Proof. intros A B C. unfold createInitializeQuoter. rewrite no_program_data; [reflexivity|]. rewrite !app_length, A, B, C. lia. Qed.

(** ** Signatures *)
Lemma q_wants_intro b x l : b = Some x -> q_signers_of (qx_metas x) = l -> q_wants b l.
Proof. intros B S. exists x. split; [exact B|]. intros a. rewrite <- S. symmetry. apply q_signers_of_in. Qed.
Ltac q_wanted := eapply q_wants_intro; [q_is_built|reflexivity].
Lemma qw_register_chain au ch : q_wants (createRegisterChain au ch) [au]. Proof. q_wanted. Qed.
Lemma qw_register_ntt nm au p k g : q_wants (createRegisterNtt nm au p k g) [au]. Proof. q_wanted. Qed.
Lemma qw_deregister_ntt nm au p : q_wants (createDeregisterNtt nm au p) [au]. Proof. q_wanted. Qed.
Lemma qw_sol_price au p : js_safe p -> q_wants (createUpdateSolPrice au p) [au].
Proof. intros J. unfold createUpdateSolPrice. rewrite (u64_to_some _ J). q_wanted. Qed.
Lemma qw_params au ch d b : js_safe d -> js_safe b -> q_wants (createUpdateChainParams au ch d b) [au].
Proof. intros J K. unfold createUpdateChainParams. rewrite (u64_to_some _ J), (u64_to_some _ K). q_wanted. Qed.
Lemma qw_pause au ch : q_wants (createPauseRelayForChain au ch) [au]. Proof. q_wanted. Qed.
Lemma qw_prices au ch d b : js_safe d -> js_safe b -> q_wants (createUpdateChainPrices au ch d b) [au].
Proof. intros J K. unfold createUpdateChainPrices. rewrite (u64_to_some _ J), (u64_to_some _ K). q_wanted. Qed.
Lemma qw_request py it ntt ch m d : js_safe m -> js_safe d -> q_wants (createRequestRelay py it ntt ch m d) [py].
Proof. intros J K. unfold createRequestRelay. rewrite (u64_to_some _ J), (u64_to_some _ K). q_wanted. Qed.
Lemma qw_set_assistant q i o a : getInstance q = Gives i -> in_owner i = QExt o -> a <> in_assistant i -> q_wants (createSetAssistant q a) [o].
Proof.
  intros G O N. unfold createSetAssistant. rewrite G. replace (qaddr_eqb (in_assistant i) a) with false by (symmetry; apply qaddr_eqb_neq; congruence). rewrite O.
  eapply q_wants_intro; [q_is_built|destruct a; reflexivity].
Qed.
Lemma qw_set_recipient q i o a : getInstance q = Gives i -> in_owner i = QExt o -> a <> in_fee_recipient i -> a <> QExt ANull -> q_wants (createSetFeeRecipient q a) [o].
Proof.
  intros G O N N'. unfold createSetFeeRecipient. rewrite G. replace (qaddr_eqb a (QExt ANull)) with false by (symmetry; apply qaddr_eqb_neq; congruence).
  replace (qaddr_eqb (in_fee_recipient i) a) with false by (symmetry; apply qaddr_eqb_neq; congruence). rewrite O.
  eapply q_wants_intro; [q_is_built|destruct a; reflexivity].
Qed.

(** ** Prices *)
Lemma js_safe_iff z : 0 <= z -> safe z = true <-> js_safe z.
Proof. intros N. unfold safe, js_safe. rewrite Z.ltb_lt. tauto. Qed.
Lemma safe_of z : js_safe z -> safe z = true.
Proof. intros J. apply js_safe_iff; [apply J|exact J]. Qed.

Lemma chain_known E q ch d : q_reachable E q -> q_accts q (QChain ch) = Some d -> exists c, d = QDChain c.
Proof.
  intros R A. pose proof (qv_accts _ _ (q_reachable_inv _ _ R) _ _ A) as K. destruct d; cbn [q_ok] in K; [destruct K as [K _]; discriminate K|eauto| |];
    destruct K as [[y K] _]; discriminate K.
Qed.
Lemma chain_pos E q ch c : q_reachable E q -> chain_at q ch c -> is_u64 (rc_max_dropoff c) /\ is_u64 (rc_base_price c) /\ is_u64 (rc_native_price c) /\ is_u64 (rc_gas_price c).
Proof. intros R A. exact (proj2 (qv_accts _ _ (q_reachable_inv _ _ R) _ _ A)). Qed.

Lemma get_chain E q ch c b : q_reachable E q -> getRegisteredChain q ch = Gives (c, b) <-> chain_at q ch c /\ js_chain c /\ b = false.
Proof.
  intros R. unfold getRegisteredChain, chain_at. split.
  - destruct (q_accts q (QChain ch)) as [d|] eqn:A; [|discriminate]. destruct (chain_known _ _ _ _ R A) as (c' & ->). destruct (chain_pos _ _ _ _ R A) as (P1 & P2 & P3 & P4).
    destruct (safe _ && _ && _ && _) eqn:S; [|discriminate]. intros H. injection H as -> <-. split; [reflexivity|]. rewrite !andb_true_iff in S. destruct S as (((S1 & S2) & S3) & S4).
    apply js_safe_iff in S1, S2, S3, S4; try ilia. split; [unfold js_chain; auto|]. apply Z.eqb_neq. intros X. rewrite X in S2. destruct S2 as [_ S2]. vm_compute in S2. discriminate S2.
  - intros (A & (S1 & S2 & S3 & S4) & ->). rewrite A. rewrite (safe_of _ S1), (safe_of _ S2), (safe_of _ S3), (safe_of _ S4). cbn [andb].
    replace (rc_base_price c =? u64_max) with false; [reflexivity|]. symmetry. apply Z.eqb_neq. intros X. rewrite X in S2. destruct S2 as [_ S2]. vm_compute in S2. discriminate S2.
Qed.
Lemma enabled_iff E q ch : q_reachable E q ->
  (isRelayEnabled q ch = Some true <-> exists c, chain_at q ch c /\ js_chain c) /\
  (isRelayEnabled q ch = Some false <-> q_accts q (QChain ch) = None) /\
  (isRelayEnabled q ch = None <-> exists c, chain_at q ch c /\ ~ js_chain c).
Proof.
  intros R. unfold isRelayEnabled. destruct (getRegisteredChain q ch) as [[c b]| |] eqn:G.
  - apply (get_chain _ _ _ _ _ R) in G. destruct G as (A & S & ->). unfold chain_at in *. cbn [negb]. split; [|split]; split; intros H; try discriminate H; eauto.
    + congruence.
    + destruct H as (c' & A' & N). exfalso. apply N. congruence.
  - assert (A : q_accts q (QChain ch) = None).
    { unfold getRegisteredChain in G. destruct (q_accts q (QChain ch)) as [[]|]; try discriminate G; [destruct (_ && _ && _ && _); discriminate G|reflexivity]. }
    unfold chain_at. split; [|split]; split; intros H; try discriminate H; eauto; destruct H as (c' & A' & _); congruence.
  - assert (A : exists c, chain_at q ch c /\ ~ js_chain c).
    { unfold getRegisteredChain in G. destruct (q_accts q (QChain ch)) as [d|] eqn:A; [|discriminate G]. destruct (chain_known _ _ _ _ R A) as (c & ->). exists c. split; [exact A|].
      intros (S1 & S2 & S3 & S4). rewrite (safe_of _ S1), (safe_of _ S2), (safe_of _ S3), (safe_of _ S4) in G. discriminate G. }
    unfold chain_at in *. destruct A as (c & A & N). split; [|split]; split; intros H; try discriminate H; eauto; [destruct H as (c' & A' & S); exfalso; apply N; congruence|congruence].
Qed.
Lemma paused_throws E q ch c : q_reachable E q -> chain_at q ch c -> rc_base_price c = u64_max -> isRelayEnabled q ch = None.
Proof. intros R A B. apply (enabled_iff _ _ _ R). exists c. split; [exact A|]. intros (_ & (_ & S) & _). rewrite B in S. vm_compute in S. discriminate S. Qed.

Lemma get_instance E q i : q_reachable E q -> getInstance q = Gives i <-> instance_at q i /\ js_safe (in_sol_price i).
Proof.
  intros R. unfold getInstance, instance_at. split.
  - destruct (q_accts q QInst) as [[j| | |]|] eqn:A; try discriminate. pose proof (qv_accts _ _ (q_reachable_inv _ _ R) _ _ A) as (_ & _ & U & _).
    destruct (safe _) eqn:S; [|discriminate]. intros H. injection H as ->. split; [reflexivity|]. apply js_safe_iff in S; [exact S|ilia].
  - intros (A & S). rewrite A. rewrite (safe_of _ S). reflexivity.
Qed.
Lemma get_ntt E q p n : q_reachable E q -> getRegisteredNtt q p = Gives n <-> ntt_at q p n.
Proof.
  intros R. unfold getRegisteredNtt, ntt_at. split.
  - destruct (q_accts q (QNtt p)) as [[]|] eqn:A; try discriminate. intros H. injection H as ->. reflexivity.
  - intros ->. reflexivity.
Qed.
Lemma requested_iff E q it : q_reachable E q ->
  (wasRelayRequested q it = Some None <-> q_accts q (QReq it) = None) /\
  (forall d, wasRelayRequested q it = Some (Some d) <-> request_at q it (RelayRequest d) /\ js_safe d).
Proof.
  intros R. unfold wasRelayRequested, request_at. destruct (q_accts q (QReq it)) as [d|] eqn:A.
  - pose proof (qv_accts _ _ (q_reachable_inv _ _ R) _ _ A) as K. destruct d as [| | |[r]]; cbn [q_ok] in K; try (destruct K as [K _]; discriminate K); try (destruct K as [[y K] _]; discriminate K).
    destruct K as (_ & U). cbn [rr_dropoff] in *. destruct (safe r) eqn:S.
    + apply js_safe_iff in S; [|ilia]. split; [split; discriminate|]. intros d. split; [intros H; injection H as <-; auto|]. intros (H & _). injection H as <-. reflexivity.
    + split; [split; discriminate|]. intros d. split; [discriminate|]. intros (H & J). injection H as <-. apply js_safe_iff in J; [congruence|ilia].
  - split; [tauto|]. intros d. split; [discriminate|]. intros (H & _). discriminate H.
Qed.

Lemma quote_iff evm E q ntt ch wei a b : q_reachable E q -> 
  quoteDeliveryPrice evm E q ntt ch wei = Some (a, b) <->
  evm ch = true /\ exists c i n, chain_at q ch c /\ js_chain c /\ instance_at q i /\ js_safe (in_sol_price i) /\ ntt_at q ntt n /\
    rc_native_price c <> 0 /\ in_sol_price i <> 0 /\ wei <= rc_max_dropoff c * 10 ^ 9 /\
    b = 10 ^ 9 * in_sol_price i /\
    a = request_rent E * b + fee_numerator_wei (rc_native_price c) (rc_gas_price c) (rc_base_price c) (rn_gas_cost n) wei.
Proof.
  intros R. unfold quoteDeliveryPrice. split.
  - destruct (evm ch); cbn [negb]; [|discriminate]. destruct (getRegisteredChain q ch) as [[c p]| |] eqn:Gc; try discriminate.
    destruct (getInstance q) as [i| |] eqn:Gi; try discriminate. destruct (getRegisteredNtt q ntt) as [n| |] eqn:Gn; try discriminate.
    apply (get_chain _ _ _ _ _ R) in Gc. apply (get_instance _ _ _ R) in Gi. apply (get_ntt _ _ _ _ R) in Gn. destruct Gc as (C1 & C2 & _), Gi as (I1 & I2).
    destruct (_ || _ || _) eqn:B; [discriminate|]. rewrite !orb_false_iff, !Z.eqb_neq, Z.ltb_ge in B. destruct B as ((B1 & B2) & B3).
    intros H. assert (Ha := f_equal (option_map fst) H). assert (Hb := f_equal (option_map snd) H). clear H. cbn [option_map fst snd] in Ha, Hb.
    assert (Hb' : b = 10 ^ 9 * in_sol_price i) by (rewrite Z.mul_comm; congruence). split; [reflexivity|]. exists c, i, n.
    do 9 (split; [assumption|]). unfold fee_numerator_wei, request_rent. assert (Ha' := f_equal (fun o => match o with Some z => z | None => 0 end) Ha). cbv beta iota in Ha'. rewrite <- Ha', Hb'. ring.
  - intros (V & c & i & n & A & Jc & Ai & Ji & An & N1 & N2 & L & -> & ->). rewrite V. cbn [negb].
    rewrite (proj2 (get_chain _ _ _ _ false R) (conj A (conj Jc eq_refl))), (proj2 (get_instance _ _ _ R) (conj Ai Ji)), (proj2 (get_ntt _ _ _ _ R) An).
    replace (rc_native_price c =? 0) with false by (symmetry; apply Z.eqb_neq; assumption). replace (in_sol_price i =? 0) with false by (symmetry; apply Z.eqb_neq; assumption).
    replace (rc_max_dropoff c * 10 ^ 9 <? wei) with false by (symmetry; apply Z.ltb_ge; assumption). cbn [orb]. unfold fee_numerator_wei, request_rent. f_equal. f_equal; ring.
Qed.

Lemma cost_iff E q ntt ch wei a b : q_reachable E q ->
  calcRelayCostInSol E q ntt ch wei = Some (a, b) <->
  exists c i n, chain_at q ch c /\ js_chain c /\ instance_at q i /\ js_safe (in_sol_price i) /\ ntt_at q ntt n /\ wei <= rc_max_dropoff c * 10 ^ 9 /\
    b = 10 ^ 9 * in_sol_price i /\
    a = request_rent E * b + fee_numerator_wei (rc_native_price c) (rc_gas_price c) (rc_base_price c) (rn_gas_cost n) wei.
Proof.
  intros R. unfold calcRelayCostInSol. split.
  - destruct (getRegisteredChain q ch) as [[c p]| |] eqn:Gc; try discriminate.
    destruct (getRegisteredNtt q ntt) as [n| |] eqn:Gn; try discriminate. destruct (getInstance q) as [i| |] eqn:Gi; try discriminate.
    apply (get_chain _ _ _ _ _ R) in Gc. apply (get_instance _ _ _ R) in Gi. apply (get_ntt _ _ _ _ R) in Gn. destruct Gc as (C1 & C2 & _), Gi as (I1 & I2).
    destruct (_ <? _) eqn:B; [discriminate|]. rewrite Z.ltb_ge in B.
    intros H. assert (Ha := f_equal (option_map fst) H). assert (Hb := f_equal (option_map snd) H). clear H. cbn [option_map fst snd] in Ha, Hb.
    assert (Hb' : b = 10 ^ 9 * in_sol_price i) by (rewrite Z.mul_comm; congruence). exists c, i, n.
    do 7 (split; [assumption|]). unfold fee_numerator_wei, request_rent. assert (Ha' := f_equal (fun o => match o with Some z => z | None => 0 end) Ha). cbv beta iota in Ha'. rewrite <- Ha', Hb'. ring.
  - intros (c & i & n & A & Jc & Ai & Ji & An & L & -> & ->).
    rewrite (proj2 (get_chain _ _ _ _ false R) (conj A (conj Jc eq_refl))), (proj2 (get_instance _ _ _ R) (conj Ai Ji)), (proj2 (get_ntt _ _ _ _ R) An).
    replace (rc_max_dropoff c * 10 ^ 9 <? wei) with false by (symmetry; apply Z.ltb_ge; assumption). unfold fee_numerator_wei, request_rent. f_equal. f_equal; ring.
Qed.

(** The quote before the five percent, where there is a quote. *)
Lemma cost_of_quote evm E q ntt ch wei p : quoteDeliveryPrice evm E q ntt ch wei = Some p -> calcRelayCostInSol E q ntt ch wei = Some p.
Proof.
  unfold quoteDeliveryPrice, calcRelayCostInSol. destruct (evm ch); cbn [negb]; [|discriminate]. destruct (getRegisteredChain q ch) as [[c ?]| |]; try discriminate.
  destruct (getInstance q) as [i| |]; try discriminate. destruct (getRegisteredNtt q ntt) as [n| |]; try discriminate.
  destruct (rc_max_dropoff c * 10 ^ 9 <? wei); [rewrite orb_true_r; discriminate|]. rewrite orb_false_r. destruct (_ || _); [discriminate|]. trivial.
Qed.

(** What is charged is at most the cost, when the price has not changed. *)
Lemma cost_bound E q ntt ch d a b : q_reachable E q -> calcRelayCostInSol E q ntt ch (d * 10 ^ 9) = Some (a, b) -> 0 <= d ->
  exists c i n, chain_at q ch c /\ instance_at q i /\ ntt_at q ntt n /\ b = 10 ^ 9 * in_sol_price i /\
    (b = 0 <-> in_sol_price i = 0) /\
    (in_sol_price i <> 0 -> Z.max (fee_formula (in_sol_price i) (rc_native_price c) (rc_gas_price c) (rc_base_price c) (rn_gas_cost n) d) (request_rent E) * b <= a).
Proof.
  intros R Q D. destruct (proj1 (cost_iff _ _ _ _ _ _ _ R) Q) as (c & i & n & A & _ & Ai & Ji & An & _ & Hb & Ha).
  exists c, i, n. do 4 (split; [assumption|]). split; [rewrite Hb; lia|]. intros N0.
  pose proof (q_reachable_inv _ _ R) as Iv. destruct (chain_pos _ _ _ _ R A) as (_ & P2 & P3 & P4).
  pose proof (qv_accts _ _ Iv _ _ Ai) as (_ & _ & U & _). pose proof (qv_accts _ _ Iv _ _ An) as (_ & _ & Ug). pose proof (qv_rent _ _ Iv 16) as Rn. change (qe_rent E 16) with (request_rent E) in Rn.
  destruct (fee_rounding (in_sol_price i) (rc_native_price c) (rc_gas_price c) (rc_base_price c) (rn_gas_cost n) d) as [F _]; try ilia; try assumption.
  assert (FN : 0 <= fee_numerator (rc_native_price c) (rc_gas_price c) (rc_base_price c) (rn_gas_cost n) d).
  { unfold fee_numerator. assert (0 <= rc_gas_price c * rn_gas_cost n) by (apply Z.mul_nonneg_nonneg; ilia). apply Z.add_nonneg_nonneg; apply Z.mul_nonneg_nonneg; try lia; ilia. }
  change (fee_numerator_wei (rc_native_price c) (rc_gas_price c) (rc_base_price c) (rn_gas_cost n) (d * 10 ^ 9))
    with (fee_numerator (rc_native_price c) (rc_gas_price c) (rc_base_price c) (rn_gas_cost n) d) in Ha.
  set (f := fee_formula _ _ _ _ _ _) in *. set (x := fee_numerator _ _ _ _ _) in *. set (r := request_rent E) in *.
  assert (D1 : 0 < 10 ^ 9 * in_sol_price i) by ilia. rewrite <- Hb in D1, F. clearbody f x r. rewrite Ha.
  destruct (Z.max_spec f r) as [[_ ->]|[_ ->]]; [lia|]. rewrite Z.mul_comm in F. assert (0 <= r * b) by (apply Z.mul_nonneg_nonneg; ilia). lia.
Qed.

(** The price quoted covers what is charged, while the price has not risen by more than four percent. *)
Lemma quote_covers evm E q0 q ntt ch wei a b m c i n d : q_reachable E q0 -> q_reachable E q ->
  quoteDeliveryPrice evm E q0 ntt ch wei = Some (a, b) -> near_105 a b m -> 0 <= wei ->
  chain_at q ch c -> instance_at q i -> ntt_at q ntt n -> in_sol_price i <> 0 -> 0 <= d ->
  100 * ((request_rent E * (10 ^ 9 * in_sol_price i) + fee_numerator (rc_native_price c) (rc_gas_price c) (rc_base_price c) (rn_gas_cost n) d) * b) <= 104 * (a * (10 ^ 9 * in_sol_price i)) ->
  Z.max (fee_formula (in_sol_price i) (rc_native_price c) (rc_gas_price c) (rc_base_price c) (rn_gas_cost n) d) (request_rent E) <= m.
Proof.
  intros R0 R Q Nr W A Ai An N D P. apply (quote_iff _ _ _ _ _ _ _ _ R0) in Q. destruct Q as (_ & c0 & i0 & n0 & A0 & _ & Ai0 & Ji & An0 & _ & N0 & _ & Hb & Ha).
  pose proof (q_reachable_inv _ _ R) as Iv. destruct (chain_pos _ _ _ _ R A) as (_ & P2 & P3 & P4).
  pose proof (qv_accts _ _ Iv _ _ Ai) as (_ & _ & U & _). pose proof (qv_accts _ _ Iv _ _ An) as (_ & _ & Ug). pose proof (qv_rent _ _ Iv 16) as Rn. change (qe_rent E 16) with (request_rent E) in Rn.
  assert (S0 : 0 < in_sol_price i0) by (unfold js_safe in Ji; lia). assert (S1 : 0 < in_sol_price i) by ilia.
  assert (B0 : 0 < b) by (rewrite Hb; lia).
  destruct (fee_rounding (in_sol_price i) (rc_native_price c) (rc_gas_price c) (rc_base_price c) (rn_gas_cost n) d) as [F _]; try ilia; try assumption.
  assert (FN : 0 <= fee_numerator (rc_native_price c) (rc_gas_price c) (rc_base_price c) (rn_gas_cost n) d).
  { unfold fee_numerator. assert (0 <= rc_gas_price c * rn_gas_cost n) by (apply Z.mul_nonneg_nonneg; ilia). apply Z.add_nonneg_nonneg; apply Z.mul_nonneg_nonneg; try lia; ilia. }
  set (f := fee_formula _ _ _ _ _ _) in *. set (x := fee_numerator _ _ _ _ _) in *. set (r := request_rent E) in *.
  assert (D1 : 0 < 10 ^ 9 * in_sol_price i) by lia. set (e := 10 ^ 9 * in_sol_price i) in *. clearbody e f x r.
  assert (M : 104 * a <= 100 * (m * b)) by (unfold near_105 in Nr; lia).
  assert (C : Z.max f r * e <= r * e + x).
  { destruct (Z.max_spec f r) as [[_ ->]|[_ ->]]; [lia|]. rewrite Z.mul_comm in F. assert (0 <= r * e) by (apply Z.mul_nonneg_nonneg; ilia). lia. }
  apply Z.nlt_ge. intros Lt. assert (K : (m + 1) * (e * b) <= Z.max f r * (e * b)) by (apply Z.mul_le_mono_nonneg_r; nia).
  assert (K2 : Z.max f r * e * b <= (r * e + x) * b) by (apply Z.mul_le_mono_nonneg_r; lia).
  assert (K3 : 104 * a * e <= 100 * (m * b) * e) by (apply Z.mul_le_mono_nonneg_r; lia). assert (0 < e * b) by nia. lia.
Qed.

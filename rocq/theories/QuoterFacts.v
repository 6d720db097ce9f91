(** * Facts about the quoter. *)
From Verif Require Export SpecQuoter LogFacts.
From Verif Require BitmapFacts.
Local Open Scope Z_scope.

Lemma qaddr_eqb_eq a b : qaddr_eqb a b = true <-> a = b.
Proof. unfold qaddr_eqb. destruct (qaddr_eq_dec a b); split; congruence. Qed.
Lemma qaddr_eqb_neq a b : qaddr_eqb a b = false <-> a <> b.
Proof. unfold qaddr_eqb. destruct (qaddr_eq_dec a b); split; congruence. Qed.
Lemma qupd_same {A} (m : qaddr -> A) a v : qupd m a v a = v.
Proof. unfold qupd, qaddr_eqb. destruct (qaddr_eq_dec a a); congruence. Qed.
Lemma qupd_other {A} (m : qaddr -> A) a v b : b <> a -> qupd m a v b = m b.
Proof. intros N. unfold qupd, qaddr_eqb. destruct (qaddr_eq_dec b a); congruence. Qed.
Lemma signed_In sg a : signed sg a = true -> In a sg.
Proof. unfold signed. rewrite existsb_exists. intros (x & Hx & E). apply addr_eqb_eq in E. now subst. Qed.

Ltac qgets := repeat match goal with
  | E : q_instance ?q ?a = Ok ?i |- _ => assert (q_accts q a = Some (QDInstance i)) by (unfold q_instance in E; destruct (q_accts q a) as [[]|]; try discriminate; apply Ok_inj in E; now subst); clear E
  | E : q_chain ?q ?a = Ok ?i |- _ => assert (q_accts q a = Some (QDChain i)) by (unfold q_chain in E; destruct (q_accts q a) as [[]|]; try discriminate; apply Ok_inj in E; now subst); clear E
  | E : q_ntt ?q ?a = Ok ?i |- _ => assert (q_accts q a = Some (QDNtt i)) by (unfold q_ntt in E; destruct (q_accts q a) as [[]|]; try discriminate; apply Ok_inj in E; now subst); clear E
  | E : q_request ?q ?a = Ok ?i |- _ => assert (q_accts q a = Some (QDRequest i)) by (unfold q_request in E; destruct (q_accts q a) as [[]|]; try discriminate; apply Ok_inj in E; now subst); clear E
  | E : qaddr_eqb _ _ = true |- _ => apply qaddr_eqb_eq in E
  | E : qaddr_eqb _ _ = false |- _ => apply qaddr_eqb_neq in E
  | E : signed _ _ = true |- _ => apply signed_In in E
  end.

Lemma authorized_ok q sg inst auth i : authorized q sg inst auth = Ok i ->
  q_accts q inst = Some (QDInstance i) /\ In auth sg /\ (in_owner i = QExt auth \/ in_assistant i = QExt auth).
Proof.
  intros E. unfold authorized in E. binds E. bools. qgets. subst. split; [assumption|]. split; [assumption|].
  match goal with K : is_authorized _ _ = true |- _ => unfold is_authorized in K; apply orb_true_iff in K; destruct K as [K|K]; apply qaddr_eqb_eq in K; auto end.
Qed.
Lemma owned_ok q sg inst o i : owned q sg inst o = Ok i -> q_accts q inst = Some (QDInstance i) /\ In o sg /\ in_owner i = QExt o.
Proof. intros E. unfold owned in E. binds E. bools. qgets. subst. auto. Qed.
Lemma lamport_transfer_ok q src dst x q' : lamport_transfer q src dst x = Ok q' -> src <> dst ->
  x <= q_lamports q src /\ 0 <= q_lamports q dst + x <= u64_max /\
  q_accts q' = q_accts q /\ q_world q' = q_world q /\ q_uauth q' = q_uauth q /\
  q_lamports q' src = q_lamports q src - x /\ q_lamports q' dst = q_lamports q dst + x /\
  (forall a, a <> src -> a <> dst -> q_lamports q' a = q_lamports q a).
Proof.
  intros E N. unfold lamport_transfer in E. binds E. bools. subst q'. cbn [q_lamports q_set q_accts q_world q_uauth] in *.
  rewrite !qupd_same. rewrite (qupd_other _ src _ dst) in * by congruence. rewrite (qupd_other _ dst _ src) by congruence. rewrite qupd_same.
  split; [lia|]. split; [lia|]. repeat (split; [reflexivity|]). intros a N1 N2. now rewrite !qupd_other by assumption.
Qed.
Lemma init_cost_ok rent cur : 0 <= rent -> 0 <= cur -> init_cost rent cur = rent - Z.min cur rent.
Proof. intros A B. unfold init_cost, sat_sub. destruct (cur =? 0) eqn:E; lia. Qed.

(** ** The fee *)
Lemma mul_div_ok a b d x : is_u64 a -> is_u64 b -> 0 <= d -> mul_div a b d = Ok x <-> (d <> 0 /\ a * b / d < 2 ^ 64 /\ x = a * b / d).
Proof.
  intros Ha Hb Hd. unfold mul_div. change (2 ^ 64) with 18446744073709551616. destruct (d =? 0) eqn:E0; [split; [discriminate|lia]|].
  assert (0 < d) by lia. destruct ((a =? 0) || (b =? 0)) eqn:E1.
  - assert (a * b = 0) as ->. { apply orb_true_iff in E1. destruct E1; [replace a with 0 by lia; reflexivity|replace b with 0 by lia; lia]. }
    rewrite Z.div_0_l by lia. split; [intros Q; apply Ok_inj in Q; lia|intros (_ & _ & ->); reflexivity].
  - assert (0 <= a * b <= u128_max) by (ints; nia). unfold plain, checked at 1.
    replace ((0 <=? a * b) && (a * b <=? u128_max)) with true by (symmetry; apply andb_true_iff; lia). cbn [ok_or bind].
    assert (0 <= a * b / d) by (apply Z.div_pos; lia). unfold checked. destruct ((0 <=? a * b / d) && (a * b / d <=? u64_max)) eqn:E2; cbn [ok_or].
    + apply andb_true_iff in E2. split; [intros Q; apply Ok_inj in Q; ints; lia|intros (_ & _ & ->); reflexivity].
    + split; [discriminate|]. intros (_ & K & _). apply andb_false_iff in E2. ints. lia.
Qed.
Lemma plain_iff max z x : plain max z = Ok x <-> 0 <= z <= max /\ x = z.
Proof.
  unfold plain, checked. destruct ((0 <=? z) && (z <=? max)) eqn:E; cbn [ok_or]; split.
  - intros Q. apply Ok_inj in Q. lia.
  - intros (_ & ->). reflexivity.
  - discriminate.
  - lia.
Qed.

Lemma relay_fee_ok i c n d f : is_u64 (in_sol_price i) -> is_u64 (rc_native_price c) -> is_u64 (rc_gas_price c) -> is_u64 (rc_base_price c) -> is_u32 (rn_gas_cost n) -> is_u64 d ->
  relay_fee i c n d = Ok f <->
  (in_sol_price i <> 0 /\ fee_fits (in_sol_price i) (rc_native_price c) (rc_gas_price c) (rc_base_price c) (rn_gas_cost n) d /\
   f = fee_formula (in_sol_price i) (rc_native_price c) (rc_gas_price c) (rc_base_price c) (rn_gas_cost n) d).
Proof.
  intros H1 H2 H3 H4 H5 H6. assert (H5' : is_u64 (rn_gas_cost n)) by ilia.
  unfold relay_fee, fee_fits, fee_formula, gas_gwei, cost_usd. change (10 ^ 9) with 1000000000. change GWEI with 1000000000. change LAMPORTS_PER_SOL with 1000000000.
  change (2 ^ 64) with 18446744073709551616. cbv zeta.
  set (gas := rc_gas_price c * rn_gas_cost n / 1000000000). assert (G0 : 0 <= gas) by (apply Z.div_pos; [apply Z.mul_nonneg_nonneg; ilia|lia]).
  set (nat := rc_native_price c * (d + gas) / 1000000000). assert (N0 : 0 <= nat) by (apply Z.div_pos; [apply Z.mul_nonneg_nonneg; clear nat; clearbody gas; ilia|lia]).
  split.
  - intros E. binds E. apply mul_div_ok in E0; [|assumption|assumption|lia]. destruct E0 as (_ & B0 & ->). fold gas in E1, B0.
    apply plain_iff in E1. destruct E1 as (B1 & ->). apply mul_div_ok in E2; [|assumption|assumption|lia]. destruct E2 as (_ & B2 & ->). fold nat in E3, B2.
    apply plain_iff in E3. destruct E3 as (B3 & ->). apply mul_div_ok in E; [|assumption|ilia|ilia]. destruct E as (B4 & B5 & ->).
    change (2 ^ 64) with 18446744073709551616 in *. repeat split; try assumption; ilia.
  - intros (Hs & (B1 & B2 & B3) & ->).
    assert (U1 : is_u64 (d + gas)) by ilia. assert (U2 : is_u64 (nat + rc_base_price c)) by ilia.
    replace (mul_div (rc_gas_price c) (rn_gas_cost n) 1000000000) with (Ok gas) by (symmetry; apply mul_div_ok; try assumption; try lia; change (2 ^ 64) with 18446744073709551616; fold gas; ilia).
    cbn [bind]. replace (plain u64_max (d + gas)) with (Ok (d + gas)) by (symmetry; apply plain_iff; split; [exact U1|reflexivity]). cbn [bind].
    replace (mul_div (rc_native_price c) (d + gas) 1000000000) with (Ok nat) by (symmetry; apply mul_div_ok; try assumption; try lia; change (2 ^ 64) with 18446744073709551616; fold nat; ilia).
    cbn [bind]. replace (plain u64_max (nat + rc_base_price c)) with (Ok (nat + rc_base_price c)) by (symmetry; apply plain_iff; split; [exact U2|reflexivity]). cbn [bind].
    apply mul_div_ok; try assumption; try ilia.
Qed.

(** ** What can change: accounts *)
Inductive q_why (E : qenv) (q : qstate) (sg : list addr) : qinstr -> qaddr -> option qdata -> option qdata -> Prop :=
  | QW_init o r : In o sg -> q_uauth q = Some o -> r <> QExt ANull ->
      q_why E q sg (QInitialize o r) QInst None (Some (QDInstance (Instance (QExt o) (QExt ANull) r 0)))
  | QW_recipient a o r i : In o sg -> q_accts q a = Some (QDInstance i) -> in_owner i = QExt o -> r <> QExt ANull ->
      q_why E q sg (QSetFeeRecipient a o r) a (Some (QDInstance i)) (Some (QDInstance (Instance (in_owner i) (in_assistant i) r (in_sol_price i))))
  | QW_assistant a o x i : In o sg -> q_accts q a = Some (QDInstance i) -> in_owner i = QExt o ->
      q_why E q sg (QSetAssistant a o x) a (Some (QDInstance i))
        (Some (QDInstance (Instance (in_owner i) (match x with Some b => b | None => QExt ANull end) (in_fee_recipient i) (in_sol_price i))))
  | QW_price a o p i : authorized q sg a o = Ok i -> 0 < p <= u64_max ->
      q_why E q sg (QUpdateSolPrice a o p) a (Some (QDInstance i)) (Some (QDInstance (Instance (in_owner i) (in_assistant i) (in_fee_recipient i) p)))
  | QW_chain a o ch i : authorized q sg a o = Ok i -> is_u16 ch ->
      q_why E q sg (QRegisterChain a o ch) (QChain ch) None (Some (QDChain (RegChain 0 0 u64_max 0 0)))
  | QW_prices a o b x y c i : authorized q sg a o = Ok i -> is_u64 x -> is_u64 y ->
      q_why E q sg (QUpdateChainPrices a o b x y) b (Some (QDChain c)) (Some (QDChain (RegChain (rc_bump c) (rc_max_dropoff c) (rc_base_price c) x y)))
  | QW_params a o b x y c i : authorized q sg a o = Ok i -> is_u64 x -> is_u64 y ->
      q_why E q sg (QUpdateChainParams a o b x y) b (Some (QDChain c)) (Some (QDChain (RegChain (rc_bump c) x y (rc_native_price c) (rc_gas_price c))))
  | QW_ntt a o p k g i : authorized q sg a o = Ok i -> is_u8 k -> is_u32 g ->
      q_why E q sg (QRegisterNtt a o p k g) (QNtt p) None (Some (QDNtt (RegNtt 0 k g)))
  | QW_dereg a o p n i : authorized q sg a o = Ok i ->
      q_why E q sg (QDeregisterNtt a o p) (QNtt p) (Some (QDNtt n)) None
  | QW_request p a it d m : is_u64 d ->
      q_why E q sg (QRequestRelay p a it d m) (QReq it) None (Some (QDRequest (RelayRequest d)))
  | QW_close a o r x n i : authorized q sg a o = Ok i -> r = in_fee_recipient i -> r <> x ->
      q_why E q sg (QCloseRelay a o r x) x (Some (QDRequest n)) None.

Lemma q_init_ok E q payer a size d q' : q_init E q payer a size d = Ok q' -> payer <> a ->
  q_accts q a = None /\ q_accts q' = qupd (q_accts q) a (Some d) /\ q_world q' = q_world q /\ q_uauth q' = q_uauth q /\
  let x := init_cost (qe_rent E size) (q_lamports q a) in
  x <= q_lamports q payer /\ 0 <= q_lamports q a + x <= u64_max /\
  q_lamports q' payer = q_lamports q payer - x /\ q_lamports q' a = q_lamports q a + x /\
  (forall b, b <> payer -> b <> a -> q_lamports q' b = q_lamports q b).
Proof.
  intros H N. unfold q_init in H. binds H. bools. destruct (q_accts q a) eqn:Ea; [discriminate|]. subst q'. split; [reflexivity|].
  apply lamport_transfer_ok in E1; [|exact N]. destruct E1 as (A1 & A2 & A3 & A4 & A5 & A6 & A7 & A8). cbn. rewrite A3. auto 10.
Qed.
Lemma q_close_ok q a dst q' : q_close q a dst = Ok q' -> a <> dst /\ q_accts q' = qupd (q_accts q) a None /\ q_world q' = q_world q /\ q_uauth q' = q_uauth q /\
  0 <= q_lamports q dst + q_lamports q a <= u64_max /\
  q_lamports q' a = 0 /\ q_lamports q' dst = q_lamports q dst + q_lamports q a /\ (forall b, b <> a -> b <> dst -> q_lamports q' b = q_lamports q b).
Proof.
  intros H. unfold q_close in H. binds H. bools. qgets. apply plain_iff in E0. destruct E0 as (B & ->). subst q'. cbn.
  split; [assumption|]. repeat (split; [reflexivity|]). split; [exact B|]. rewrite qupd_same. split; [reflexivity|].
  rewrite qupd_other by congruence. rewrite qupd_same. split; [reflexivity|]. intros b N1 N2. now rewrite !qupd_other by assumption.
Qed.
Lemma fits_iff m z : fits m z = true <-> 0 <= z <= m.
Proof. unfold fits. rewrite andb_true_iff. lia. Qed.

Lemma relay_inv E q sg payer inst item d m q' : qi_request_relay E q sg payer inst item d m = Ok q' ->
  exists i p o n c q1 fee, In payer sg /\ q_accts q inst = Some (QDInstance i) /\ in_sol_price i <> 0 /\
    st_accts (q_world q) item = Some (Acct p (DOutboxItem o)) /\ ntt_at q (AProg p) n /\ bm_get (ob_released o) (rn_index n) = Ok true /\
    chain_at q (ob_chain o) c /\ rc_base_price c <> u64_max /\ q_init E q (QExt payer) (QReq item) size_request (QDRequest (RelayRequest 0)) = Ok q1 /\
    d <= rc_max_dropoff c /\ relay_fee i c n d = Ok fee /\
    sat_sub fee (qe_rent E size_request) + qe_rent E size_request <= m /\
    let x := sat_sub fee (qe_rent E size_request) in
    let q2 := q_put (QReq item) (Some (QDRequest (RelayRequest d))) q1 in
    (0 < x /\ lamport_transfer q2 (QExt payer) (QReq item) x = Ok q' \/ x <= 0 /\ q' = q2).
Proof.
  intros H. unfold qi_request_relay in H. binds H. bools. unfold outbox_view in *.
  repeat match goal with E : context [st_accts ?w item] |- _ => destruct (st_accts w item) as [[p []]|] eqn:?; try discriminate; apply Ok_inj in E; subst end.
  cbn [fst snd] in *. subst. qgets.
  match goal with K : plain _ _ = Ok _ |- _ => apply plain_iff in K; destruct K as (? & ->) end.
  do 7 eexists. repeat (split; [first [eassumption|reflexivity|lia]|]). cbv zeta.
  match type of H with (if ?b then _ else _) = _ => destruct b eqn:?; [left|right; apply Ok_inj in H; subst] end; (split; [lia|]); [exact H|reflexivity].
Qed.

Lemma q_step_inv E q c q' : q_step E q c = Ok q' -> forallb can_sign (q_signers c) = true /\ q_typed (q_ins c) = true /\ q_exec E q (q_signers c) (q_ins c) = Ok q'.
Proof. unfold q_step. intros H. binds H. bools. auto. Qed.

Lemma relay_accts E q sg payer inst item d m q' : qi_request_relay E q sg payer inst item d m = Ok q' ->
  q_accts q (QReq item) = None /\ q_world q' = q_world q /\ q_uauth q' = q_uauth q /\
  (forall a, q_accts q' a = qupd (q_accts q) (QReq item) (Some (QDRequest (RelayRequest d))) a).
Proof.
  intros H. apply relay_inv in H. destruct H as (i & p & o & n & c & q1 & fee & _ & _ & _ & _ & _ & _ & _ & _ & Hi & _ & _ & _ & K).
  apply q_init_ok in Hi; [|discriminate]. destruct Hi as (N & A & W & U & _). split; [exact N|].
  assert (Q : forall a, qupd (q_accts q1) (QReq item) (Some (QDRequest (RelayRequest d))) a = qupd (q_accts q) (QReq item) (Some (QDRequest (RelayRequest d))) a).
  { intros a. rewrite A. unfold qupd. destruct (qaddr_eqb a (QReq item)); reflexivity. }
  cbv zeta in K. destruct K as [(_ & K)|(_ & ->)].
  - apply lamport_transfer_ok in K; [|discriminate]. destruct K as (_ & _ & A1 & A2 & A3 & _). cbn in A1, A2, A3.
    split; [congruence|]. split; [congruence|]. intros a. rewrite A1. apply Q.
  - cbn. split; [congruence|]. split; [congruence|]. exact Q.
Qed.

Lemma lamport_accts q a b x q' : lamport_transfer q a b x = Ok q' -> q_accts q' = q_accts q /\ q_world q' = q_world q /\ q_uauth q' = q_uauth q.
Proof. intros H. unfold lamport_transfer in H. binds H. bools. subst. auto. Qed.

Lemma q_change E q c q' a : q_step E q c = Ok q' -> q_accts q' a = q_accts q a \/ q_why E q (q_signers c) (q_ins c) a (q_accts q a) (q_accts q' a).
Proof.
  intros H. apply q_step_inv in H. destruct H as (_ & Ht & H). destruct c as [sg i]. cbn [q_signers q_ins] in *.
  destruct i; cbn [q_exec q_typed] in *.
  - unfold qi_initialize in H. binds H. bools. qgets. unfold is_default in *. qgets. apply q_init_ok in H; [|discriminate]. destruct H as (N & A & _). rewrite A.
    destruct (qaddr_eq_dec a QInst) as [->|]; [rewrite qupd_same, N; right; now constructor|left; now apply qupd_other].
  - unfold qi_set_fee_recipient in H. binds H. bools. unfold is_default in *. qgets. apply owned_ok in E0. destruct E0 as (A & B & C). subst q'. cbn.
    destruct (qaddr_eq_dec a inst) as [->|]; [rewrite qupd_same, A; right; now constructor|left; now apply qupd_other].
  - unfold qi_set_assistant in H. binds H. bools. apply owned_ok in E0. destruct E0 as (A & B & C). subst q'. cbn.
    destruct (qaddr_eq_dec a inst) as [->|]; [rewrite qupd_same, A; right; now constructor|left; now apply qupd_other].
  - unfold qi_register_chain in H. binds H. apply q_init_ok in H; [|discriminate]. destruct H as (N & A & _). rewrite A. apply fits_iff in Ht.
    destruct (qaddr_eq_dec a (QChain chain)) as [->|]; [rewrite qupd_same, N; right; econstructor; eassumption|left; now apply qupd_other].
  - unfold qi_register_ntt in H. binds H. apply q_init_ok in H; [|discriminate]. destruct H as (N & A & _). rewrite A. bools. repeat match goal with K : fits _ _ = true |- _ => apply fits_iff in K end.
    destruct (qaddr_eq_dec a (QNtt program)) as [->|]; [rewrite qupd_same, N; right; econstructor; eassumption|left; now apply qupd_other].
  - unfold qi_deregister_ntt in H. binds H. qgets. apply q_close_ok in H. destruct H as (N & A & _). rewrite A.
    destruct (qaddr_eq_dec a (QNtt program)) as [->|]; [rewrite qupd_same; right|left; now apply qupd_other]. match goal with K : q_accts q (QNtt program) = _ |- _ => rewrite K end. econstructor; eassumption.
  - unfold qi_update_sol_price in H. binds H. bools. subst q'. cbn. apply fits_iff in Ht. pose proof (authorized_ok _ _ _ _ _ E0) as (A & _).
    destruct (qaddr_eq_dec a inst) as [->|]; [rewrite qupd_same, A; right; constructor; [assumption|lia]|left; now apply qupd_other].
  - unfold qi_update_chain_prices in H. binds H. bools. qgets. subst q'. cbn. repeat match goal with K : fits _ _ = true |- _ => apply fits_iff in K end.
    destruct (qaddr_eq_dec a chain) as [->|]; [rewrite qupd_same; right|left; now apply qupd_other]. match goal with K : q_accts q chain = _ |- _ => rewrite K end. econstructor; eassumption.
  - unfold qi_update_chain_params in H. binds H. bools. qgets. subst q'. cbn. repeat match goal with K : fits _ _ = true |- _ => apply fits_iff in K end.
    destruct (qaddr_eq_dec a chain) as [->|]; [rewrite qupd_same; right|left; now apply qupd_other]. match goal with K : q_accts q chain = _ |- _ => rewrite K end. econstructor; eassumption.
  - apply relay_accts in H. destruct H as (N & _ & _ & A). rewrite A. bools. repeat match goal with K : fits _ _ = true |- _ => apply fits_iff in K end.
    destruct (qaddr_eq_dec a (QReq item)) as [->|]; [rewrite qupd_same, N; right; constructor; assumption|left; now apply qupd_other].
  - unfold qi_close_relay in H. binds H. bools. qgets. apply q_close_ok in H. destruct H as (N & A & _). rewrite A.
    destruct (qaddr_eq_dec a request) as [->|]; [rewrite qupd_same; right|left; now apply qupd_other]. match goal with K : q_accts q request = _ |- _ => rewrite K end. econstructor; try eassumption. congruence.
  - binds H. bools. subst. left. reflexivity.
  - binds H. bools. apply lamport_accts in H. destruct H as (-> & _). now left.
  - binds H. bools. subst. now left.
Qed.

(** ** Invariant *)
Definition q_ok (a : qaddr) (d : qdata) : Prop :=
  match d with
  | QDInstance i => a = QInst /\ (exists o, in_owner i = QExt o) /\ is_u64 (in_sol_price i) /\ in_fee_recipient i <> QExt ANull
  | QDChain c => (exists ch, a = QChain ch) /\ is_u64 (rc_max_dropoff c) /\ is_u64 (rc_base_price c) /\ is_u64 (rc_native_price c) /\ is_u64 (rc_gas_price c)
  | QDNtt n => (exists p, a = QNtt p) /\ is_u8 (rn_index n) /\ is_u32 (rn_gas_cost n)
  | QDRequest r => (exists it, a = QReq it) /\ is_u64 (rr_dropoff r)
  end.
Record q_inv (E : qenv) (q : qstate) : Prop := {
  qv_world : reachable (qe_hashes E) (q_world q);
  qv_rent : forall n, is_u64 (qe_rent E n);
  qv_lamports : forall a, is_u64 (q_lamports q a);
  qv_accts : forall a d, q_accts q a = Some d -> q_ok a d }.

Lemma q_world_step E q c q' : q_step E q c = Ok q' -> q_world q' = q_world q \/ exists i, q_ins c = QWorld i /\ step (qe_hashes E) (q_world q) (Call (q_signers c) i) = Ok (q_world q').
Proof.
  intros H. apply q_step_inv in H. destruct H as (_ & _ & H). destruct c as [sg i]. cbn [q_signers q_ins] in *. destruct i; cbn [q_exec] in H; try (left; revert H;
    unfold qi_initialize, qi_set_fee_recipient, qi_set_assistant, qi_register_chain, qi_register_ntt, qi_deregister_ntt, qi_update_sol_price, qi_update_chain_prices, qi_update_chain_params, qi_close_relay; intros H; binds H; bools; subst; try reflexivity;
    first [apply q_init_ok in H; [apply H|discriminate] | apply q_close_ok in H; apply H | apply lamport_accts in H; apply H]).
  - left. apply relay_accts in H. apply H.
  - right. binds H. bools. subst. exists c. auto.
Qed.

Lemma lamport_range q a b x q' : lamport_transfer q a b x = Ok q' -> 0 <= x -> (forall c, is_u64 (q_lamports q c)) -> forall c, is_u64 (q_lamports q' c).
Proof.
  intros H Hx R c. unfold lamport_transfer in H. binds H. bools. subst. cbn in *. pose proof (R a) as Ra. pose proof (R c). 
  destruct (qaddr_eq_dec c b) as [->|]; [rewrite qupd_same; split; lia|rewrite qupd_other by assumption].
  destruct (qaddr_eq_dec c a) as [->|]; [rewrite qupd_same; ilia|rewrite qupd_other by assumption; assumption].
Qed.
Lemma init_range E q p a n d q' : q_init E q p a n d = Ok q' -> (forall n, is_u64 (qe_rent E n)) -> (forall c, is_u64 (q_lamports q c)) -> forall c, is_u64 (q_lamports q' c).
Proof.
  intros H Hr R. unfold q_init in H. binds H. bools. subst. cbn. eapply lamport_range; [eassumption| |exact R].
  rewrite init_cost_ok; pose proof (Hr n); pose proof (R a); ilia.
Qed.
Lemma close_range q a b q' : q_close q a b = Ok q' -> (forall c, is_u64 (q_lamports q c)) -> forall c, is_u64 (q_lamports q' c).
Proof.
  intros H R c. apply q_close_ok in H. destruct H as (N & _ & _ & _ & B & Ea & Eb & Ec).
  destruct (qaddr_eq_dec c a) as [->|]; [rewrite Ea; ilia|]. destruct (qaddr_eq_dec c b) as [->|]; [rewrite Eb; exact B|rewrite Ec by assumption; apply R].
Qed.

Lemma q_inv_step E q c q' : q_inv E q -> q_step E q c = Ok q' -> q_inv E q'.
Proof.
  intros [W Rn L A] H. constructor.
  - destruct (q_world_step _ _ _ _ H) as [->|(i & _ & S)]; [exact W|]. eapply step_reachable; eassumption.
  - exact Rn.
  - pose proof H as H0. apply q_step_inv in H0. destruct H0 as (_ & Ht & H0). destruct c as [sg i]. cbn [q_signers q_ins] in *.
    destruct i; cbn [q_exec q_typed] in *; try (revert H0;
      unfold qi_initialize, qi_set_fee_recipient, qi_set_assistant, qi_register_chain, qi_register_ntt, qi_deregister_ntt, qi_update_sol_price, qi_update_chain_prices, qi_update_chain_params, qi_close_relay; intros H0; binds H0; bools; subst; try (exact L);
      first [eapply init_range; eassumption | eapply close_range; eassumption]).
    + apply relay_inv in H0. destruct H0 as (i & p & o & n & c & q1 & fee & _ & _ & _ & _ & _ & _ & _ & _ & Hi & _ & _ & _ & K). pose proof (init_range _ _ _ _ _ _ _ Hi Rn L) as L1.
      cbv zeta in K. destruct K as [(P & K)|(_ & ->)]; [|exact L1]. eapply lamport_range; [exact K|lia|exact L1].
    + binds H0. bools. subst. eapply lamport_range; [eassumption|apply fits_iff in Ht; lia|exact L].
  - intros a d Ed. destruct (q_change _ _ _ _ a H) as [Q|Q]; [apply A; congruence|]. rewrite Ed in Q.
    assert (Ao : forall d0, q_accts q a = Some d0 -> q_ok a d0) by (intros; now apply A).
    remember (q_accts q a) as old eqn:Eo. clear Eo.
    inversion Q; subst; repeat match goal with K : forall d0, Some ?z = Some d0 -> _ |- _ => specialize (K z eq_refl) end; cbn [q_ok in_owner in_sol_price in_fee_recipient rc_max_dropoff rc_base_price rc_native_price rc_gas_price rn_index rn_gas_cost rr_dropoff].
    + repeat split; eauto; ilia.
    + cbn in Ao. tauto.
    + cbn in Ao. tauto.
    + cbn in Ao. destruct Ao as (A1 & A2 & _ & A4). split; [exact A1|]. split; [exact A2|]. split; [ilia|exact A4].
    + repeat split; eauto; ilia.
    + cbn in Ao. tauto.
    + cbn in Ao. tauto.
    + split; [eauto|]. auto.
    + split; [eauto|]. auto.
Qed.
Lemma q_reachable_inv E q : q_reachable E q -> q_inv E q.
Proof.
  intros (q0 & tr & [W A L R] & Hr). induction Hr as [|tr q c q' Hr IH S]; [|eapply q_inv_step; eassumption].
  constructor; auto. intros a d Ed. rewrite A in Ed. discriminate.
Qed.
Lemma q_run_reachable E q tr q' : q_reachable E q -> q_run E q tr q' -> q_reachable E q'.
Proof.
  intros (q0 & t0 & I & R0) R. exists q0, (tr ++ t0). split; [exact I|]. induction R; cbn; [exact R0|]. constructor; assumption.
Qed.
Lemma q_step_reachable E q c q' : q_reachable E q -> q_step E q c = Ok q' -> q_reachable E q'.
Proof. intros Hr S. eapply q_run_reachable; [exact Hr|]. eapply q_run_step; [constructor|exact S]. Qed.

(** ** Relay requests *)
Lemma relay_exact E q sg payer inst item d m q' : q_reachable E q -> q_step E q (QCall sg (QRequestRelay payer inst item d m)) = Ok q' ->
  exists i p o n c fee paid, relayed E q sg payer item d m q' i p o n c fee paid.
Proof.
  intros Hr H. pose proof (q_reachable_inv _ _ Hr) as Hi. pose proof H as H1. apply q_step_inv in H1. destruct H1 as (_ & Ht & H1). cbn [q_signers q_ins q_exec q_typed] in *.
  bools. repeat match goal with K : fits _ _ = true |- _ => apply fits_iff in K end.
  pose proof (relay_accts _ _ _ _ _ _ _ _ _ H1) as (New & W & U & A).
  apply relay_inv in H1. destruct H1 as (i & p & o & n & c & q1 & fee & S & Ei & Pr & It & Nt & Bm & Ch & En & In & Dr & Fee & Mx & K).
  pose proof (qv_accts _ _ Hi _ _ Ei) as (-> & _ & Us & _). pose proof (qv_accts _ _ Hi _ _ Ch) as (_ & _ & U1 & U2 & U3). pose proof (qv_accts _ _ Hi _ _ Nt) as (_ & U4 & U5).
  apply relay_fee_ok in Fee; try assumption. destruct Fee as (_ & Fit & Fee).
  apply q_init_ok in In; [|discriminate]. destruct In as (_ & _ & _ & _ & In). cbv zeta in In. destruct In as (I1 & I2 & I3 & I4 & I5).
  pose proof (qv_rent _ _ Hi size_request) as Rn. pose proof (qv_lamports _ _ Hi (QReq item)) as Lr.
  rewrite init_cost_ok in * by (ilia).
  exists i, p, o, n, c, fee, (Z.max fee (request_rent E) - Z.min (q_lamports q (QReq item)) (request_rent E)).
  unfold request_rent. change (qe_rent E 16) with (qe_rent E size_request). set (rent := qe_rent E size_request) in *. unfold sat_sub in *.
  assert (Q : q_lamports q' (QExt payer) = q_lamports q (QExt payer) - (Z.max fee rent - Z.min (q_lamports q (QReq item)) rent) /\
              q_lamports q' (QReq item) = q_lamports q (QReq item) + (Z.max fee rent - Z.min (q_lamports q (QReq item)) rent) /\
              forall a, a <> QReq item -> a <> QExt payer -> q_lamports q' a = q_lamports q a).
  { cbv zeta in K. destruct K as [(P & K)|(P & ->)].
    - apply lamport_transfer_ok in K; [|discriminate]. destruct K as (_ & _ & _ & _ & _ & K1 & K2 & K3). cbn [q_put q_lamports] in K1, K2, K3.
      split; [rewrite K1, I3; lia|]. split; [rewrite K2, I4; lia|]. intros a N1 N2. rewrite K3, I5 by assumption. reflexivity.
    - cbn [q_put q_lamports]. split; [rewrite I3; lia|]. split; [rewrite I4; lia|]. intros a N1 N2. apply I5; assumption. }
  destruct Q as (Q1 & Q2 & Q3).
  constructor; try assumption; try reflexivity; unfold request_rent; try change (qe_rent E 16) with rent; try assumption; try reflexivity.
  - unfold bm_get in Bm. destruct (BITS <=? rn_index n); [discriminate|]. now apply Ok_inj in Bm.
  - lia.
  - unfold request_at. rewrite A. apply qupd_same.
  - split; [intros a N; rewrite A; now apply qupd_other|]. auto.
Qed.

(** ** Published flags and the log *)
Lemma published_grows H s cl s' p m : reachable H s -> step H s cl = Ok s' -> is_ntt_prog p = true -> In m (published s p) -> In m (published s' p).
Proof.
  intros Hr Hs Hp Hin. destruct (log_step _ _ _ _ _ Hr Hs Hp) as [->|(? & ? & ? & ? & ? & ? & ? & _ & _ & _ & _ & _ & _ & ->)]; [exact Hin|now right].
Qed.
Lemma flag_monotone H s cl s' a id : reachable H s -> step H s cl = Ok s' -> flag s a id = true -> flag s' a id = true.
Proof.
  intros Hr Hs E. destruct (Bool.bool_dec (flag s' a id) true) as [Q|Q]; [exact Q|].
  destruct (flag_step _ _ _ _ a id Hr Hs) as (C & _); [rewrite E; exact Q|congruence].
Qed.
Lemma flag_logged H s : reachable H s -> forall a id, flag s a id = true ->
  exists p tr rt, reg_at s tr rt /\ rt_id rt = id /\ rt_address rt = AProg p /\
    (is_ntt_prog p = true -> exists m, In m (published s p) /\ nm_id (tm_msg m) = a).
Proof.
  revert s. apply (reach_ind H (fun s => forall a id, flag s a id = true -> exists p tr rt, reg_at s tr rt /\ rt_id rt = id /\ rt_address rt = AProg p /\
    (is_ntt_prog p = true -> exists m, In m (published s p) /\ nm_id (tm_msg m) = a))).
  - intros s Hini a id F. exfalso. unfold flag in F. destruct (st_accts s a) as [[[] []]|] eqn:E; try discriminate. destruct (ini_accts _ Hini _ _ E) as (_ & C & _). discriminate.
  - intros s cl s' Hr IH Hs a id F. destruct (Bool.bool_dec (flag s a id) true) as [F0|F0].
    + destruct (IH _ _ F0) as (p & tr & rt & R & Hid & Ha & M). exists p, tr, rt. split; [eapply reg_kept; eassumption|]. split; [exact Hid|]. split; [exact Ha|].
      intros Hp. destruct (M Hp) as (m & Hin & Hm). exists m. split; [eapply published_grows; eassumption|exact Hm].
    + assert (N : flag s' a id <> flag s a id) by congruence.
      destruct (flag_step _ _ _ _ a id Hr Hs N) as (_ & _ & p & cfg & tr & rt & o & R & Ha & Hid & _ & _ & _).
      exists p, tr, rt. split; [eapply reg_kept; eassumption|]. split; [exact Hid|]. split; [exact Ha|]. intros Hp. rewrite <- Hid in N.
      destruct (flag_ntt _ _ _ _ _ _ _ _ Hr Hs R Ha Hp N) as (cfg' & rv & _ & c & o' & -> & _). eexists. split; [left; reflexivity|reflexivity].
Qed.

(** ** Where open requests come from *)
Lemma world_item E q c q' item p o : q_inv E q -> q_step E q c = Ok q' -> p = PManager -> st_accts (q_world q) item = Some (Acct p (DOutboxItem o)) ->
  forall id, Z.testbit (ob_released o) id = true -> flag (q_world q') item id = true.
Proof.
  intros Hi S -> Eo id B. assert (F : flag (q_world q) item id = true) by (unfold flag; rewrite Eo; exact B).
  destruct (q_world_step _ _ _ _ S) as [->|(i & _ & S')]; [exact F|]. eapply flag_monotone; [apply Hi|exact S'|exact F].
Qed.
Lemma q_flag_kept E q c q' item id : q_inv E q -> q_step E q c = Ok q' -> flag (q_world q) item id = true -> flag (q_world q') item id = true.
Proof.
  intros Hi S F. destruct (q_world_step _ _ _ _ S) as [->|(i & _ & S')]; [exact F|]. eapply flag_monotone; [apply Hi|exact S'|exact F].
Qed.

Lemma request_origin E q0 tr q item r : q_initial E q0 -> q_run E q0 tr q -> request_at q item r ->
  exists e sg payer inst d m i p o n c fee paid, In e tr /\ qe_call e = QCall sg (QRequestRelay payer inst item d m) /\
    relayed E (qe_pre e) sg payer item d m (qe_post e) i p o n c fee paid /\ r = RelayRequest d /\
    (p = PManager -> flag (q_world q) item (rn_index n) = true).
Proof.
  intros Hini R. induction R as [|tr q c q' R IH S]; intros Hreq.
  - exfalso. unfold request_at in Hreq. rewrite (qi_accts _ _ Hini) in Hreq. discriminate.
  - assert (Hr : q_reachable E q) by (exists q0, tr; auto). pose proof (q_reachable_inv _ _ Hr) as Hi.
    assert (Hold : request_at q item r -> exists e sg payer inst d m i p o n c0 fee paid, In e (QEv q c q' :: tr) /\ qe_call e = QCall sg (QRequestRelay payer inst item d m) /\
      relayed E (qe_pre e) sg payer item d m (qe_post e) i p o n c0 fee paid /\ r = RelayRequest d /\ (p = PManager -> flag (q_world q') item (rn_index n) = true)).
    { intros Q. destruct (IH Q) as (e & sg & payer & inst & d & m & i & p & o & n & c0 & fee & paid & In0 & Ec & Rl & Er & F).
      exists e, sg, payer, inst, d, m, i, p, o, n, c0, fee, paid. split; [right; exact In0|]. repeat (split; [assumption|]).
      intros Hp. eapply q_flag_kept; [exact Hi|exact S|auto]. }
    destruct (q_change _ _ _ _ (QReq item) S) as [Q|Q]; [apply Hold; unfold request_at in *; congruence|].
    destruct c as [sg i]. cbn [q_signers q_ins] in Q. unfold request_at in Hreq. rewrite Hreq in Q. remember (q_accts q (QReq item)) as old eqn:Eo. clear Eo.
    inversion Q; subst. destruct (relay_exact _ _ _ _ _ _ _ _ _ Hr S) as (i & p0 & o & n & c0 & fee & paid & Rl).
    exists (QEv q (QCall sg (QRequestRelay p a item d m)) q'), sg, p, a, d, m, i, p0, o, n, c0, fee, paid. split; [left; reflexivity|]. split; [reflexivity|].
    split; [exact Rl|]. split; [reflexivity|]. intros Hp. eapply world_item; try eassumption; apply Rl.
Qed.

Lemma request_twice E q sg payer inst item d m r : request_at q item r -> ~ exists q', q_step E q (QCall sg (QRequestRelay payer inst item d m)) = Ok q'.
Proof.
  intros Hreq (q' & S). apply q_step_inv in S. destruct S as (_ & _ & S). cbn [q_exec q_ins q_signers] in S. apply relay_accts in S. destruct S as (N & _). unfold request_at in Hreq. congruence.
Qed.

(** ** Lamports of the quoter's accounts *)
Lemma lamports_down E q c q' x : q_reachable E q -> q_step E q c = Ok q' -> q_lamports q' (QReq x) < q_lamports q (QReq x) ->
  exists inst o rec i, q_ins c = QCloseRelay inst o rec (QReq x) /\ instance_at q i /\ (in_owner i = QExt o \/ in_assistant i = QExt o) /\ In o (q_signers c) /\
    rec = in_fee_recipient i /\ rec <> QReq x /\ (exists r, request_at q x r) /\ q_accts q' (QReq x) = None /\ q_lamports q' (QReq x) = 0 /\
    q_lamports q' rec = q_lamports q rec + q_lamports q (QReq x) /\ (forall a, a <> QReq x -> a <> rec -> q_lamports q' a = q_lamports q a) /\
    (forall a, a <> QReq x -> q_accts q' a = q_accts q a).
Proof.
  intros Hr S Hlt. pose proof (q_reachable_inv _ _ Hr) as Hi. pose proof S as S0. apply q_step_inv in S0. destruct S0 as (_ & Ht & H). destruct c as [sg i]. cbn [q_signers q_ins] in *.
  pose proof (qv_lamports _ _ Hi (QReq x)) as Lx.
  assert (Hinit : forall p a n d, q_init E q (QExt p) a n d = Ok q' -> a <> QExt p -> False).
  { intros p a n d K N. apply q_init_ok in K; [|congruence]. destruct K as (_ & _ & _ & _ & K). cbv zeta in K. destruct K as (_ & _ & _ & K2 & K3).
    rewrite init_cost_ok in K2 by (pose proof (qv_rent _ _ Hi n); pose proof (qv_lamports _ _ Hi a); ilia).
    destruct (qaddr_eq_dec a (QReq x)) as [->|]; [|rewrite K3 in Hlt by congruence; lia]. lia. }
  destruct i; cbn [q_exec q_typed] in *; try (exfalso; revert H;
      unfold qi_initialize, qi_set_fee_recipient, qi_set_assistant, qi_register_chain, qi_register_ntt, qi_update_sol_price, qi_update_chain_prices, qi_update_chain_params; intros H; binds H; bools; subst;
      first [exact (Z.lt_irrefl _ Hlt) | eapply Hinit; [exact H|discriminate]]).
  - exfalso. unfold qi_deregister_ntt in H. binds H. apply q_close_ok in H. destruct H as (_ & _ & _ & _ & _ & _ & _ & K). rewrite K in Hlt by discriminate. lia.
  - exfalso. destruct (relay_exact _ _ _ _ _ _ _ _ _ Hr S) as (i & p0 & o & n & c0 & fee & paid & Rl). destruct Rl as [_ _ _ _ _ _ _ _ _ _ _ _ _ _ Pd _ Hh (_ & K & _)].
    destruct (qaddr_eq_dec (QReq x) (QReq item)) as [Q|]; [injection Q as ->|rewrite K in Hlt by (assumption || discriminate); lia].
    rewrite Hh, Pd in Hlt. lia.
  - unfold qi_close_relay in H. binds H. bools. qgets. apply authorized_ok in E0. destruct E0 as (A & Hin & Hau).
    pose proof (qv_accts _ _ Hi _ _ A) as (-> & _). pose proof (q_close_ok _ _ _ _ H) as (N & Ac & _ & _ & _ & L0 & L1 & L2).
    destruct (qaddr_eq_dec (QReq x) request) as [<-|N2].
    + exists QInst, auth, recipient, v. split; [reflexivity|]. split; [exact A|]. split; [exact Hau|]. split; [exact Hin|]. split; [assumption|]. split; [congruence|].
      split; [eexists; eassumption|]. split; [rewrite Ac; apply qupd_same|]. split; [exact L0|]. split; [exact L1|]. split; [exact L2|]. intros a N3. rewrite Ac. now apply qupd_other.
    + exfalso. pose proof (qv_lamports _ _ Hi request). destruct (qaddr_eq_dec (QReq x) recipient) as [<-|]; [rewrite L1 in Hlt; ilia|rewrite L2 in Hlt by assumption; lia].
  - exfalso. binds H. bools. destruct (qaddr_eq_dec dst (QExt src)) as [->|N].
    + unfold lamport_transfer in H. binds H. bools. subst. cbn [q_put q_set q_lamports] in Hlt. rewrite !qupd_other in Hlt by discriminate. lia.
    + apply lamport_transfer_ok in H; [|congruence]. destruct H as (_ & _ & _ & _ & _ & _ & K1 & K2). apply fits_iff in Ht.
      destruct (qaddr_eq_dec (QReq x) dst) as [<-|]; [rewrite K1 in Hlt; lia|rewrite K2 in Hlt by (assumption || discriminate); lia].
Qed.

(** ** Administration *)
Lemma only_instance E q a i : q_reachable E q -> q_accts q a = Some (QDInstance i) -> a = QInst.
Proof. intros Hr K. apply (qv_accts _ _ (q_reachable_inv _ _ Hr) _ _ K). Qed.
Lemma authorized_staff E q sg a o i : q_reachable E q -> authorized q sg a o = Ok i -> staff_signed q sg.
Proof.
  intros Hr K. apply authorized_ok in K. destruct K as (A & B & C). pose proof (only_instance _ _ _ _ Hr A) as ->. exists i, o. auto.
Qed.

Lemma instance_step E q c q' i : q_reachable E q -> q_step E q c = Ok q' -> instance_at q i ->
  exists i', instance_at q' i' /\ in_owner i' = in_owner i /\
    (i' = i \/
     (owner_signed q (q_signers c) /\ (exists r, i' = Instance (in_owner i) (in_assistant i) r (in_sol_price i) /\ r <> QExt ANull)) \/
     (owner_signed q (q_signers c) /\ (exists a, i' = Instance (in_owner i) a (in_fee_recipient i) (in_sol_price i))) \/
     (staff_signed q (q_signers c) /\ (exists p, i' = Instance (in_owner i) (in_assistant i) (in_fee_recipient i) p /\ 0 < p <= u64_max))).
Proof.
  intros Hr S Hin. destruct (q_change _ _ _ _ QInst S) as [Q|Q]; [exists i; unfold instance_at in *; split; [congruence|auto]|].
  destruct c as [sg k]. cbn [q_signers q_ins] in *. unfold instance_at in *. rewrite Hin in Q. remember (q_accts q' QInst) as new eqn:En. clear En.
  inversion Q; subst; try discriminate.
  - eexists. split; [reflexivity|]. split; [reflexivity|]. right; left. split; [exists i, o; auto|eexists; split; [reflexivity|assumption]].
  - eexists. split; [reflexivity|]. split; [reflexivity|]. right; right; left. split; [exists i, o; auto|eexists; reflexivity].
  - eexists. split; [reflexivity|]. split; [reflexivity|]. right; right; right. split; [eapply authorized_staff; eassumption|eexists; split; [reflexivity|assumption]].
Qed.
Lemma owner_fixed E q tr q' i : q_reachable E q -> q_run E q tr q' -> instance_at q i -> exists i', instance_at q' i' /\ in_owner i' = in_owner i.
Proof.
  intros Hr R. induction R as [|tr q1 c q2 R IH S]; intros Hin; [eauto|]. destruct (IH Hin) as (i1 & A & B).
  destruct (instance_step _ _ _ _ _ (q_run_reachable _ _ _ _ Hr R) S A) as (i2 & A2 & B2 & _). exists i2. split; [exact A2|congruence].
Qed.
Lemma instance_made E q c q' i : q_reachable E q -> q_step E q c = Ok q' -> q_accts q QInst = None -> instance_at q' i ->
  exists o r, q_ins c = QInitialize o r /\ q_uauth q = Some o /\ In o (q_signers c) /\ r <> QExt ANull /\ i = Instance (QExt o) (QExt ANull) r 0.
Proof.
  intros Hr S Hn Hin. destruct (q_change _ _ _ _ QInst S) as [Q|Q]; [unfold instance_at in *; congruence|].
  destruct c as [sg k]. cbn [q_signers q_ins] in *. unfold instance_at in *. rewrite Hin, Hn in Q. inversion Q; subst. exists o, r. auto.
Qed.
(** Everything but the instance and requests: prices and registrations. *)
Lemma registry_step E q c q' a : q_reachable E q -> q_step E q c = Ok q' -> (forall it, a <> QReq it) -> a <> QInst -> q_accts q' a <> q_accts q a -> staff_signed q (q_signers c).
Proof.
  intros Hr S N1 N2 Hne. destruct (q_change _ _ _ _ a S) as [Q|Q]; [contradiction|]. destruct c as [sg k]. cbn [q_signers q_ins] in *.
  clear Hne. assert (Hp : forall i, q_accts q a = Some (QDInstance i) -> False) by (intros i K; apply N2; eapply only_instance; eassumption).
  assert (Hq : forall i, q_accts q a = Some (QDRequest i) -> False) by (intros i K; destruct (qv_accts _ _ (q_reachable_inv _ _ Hr) _ _ K) as ((it & C) & _); eapply N1, C).
  remember (q_accts q a) as old eqn:Eo. clear Eo. remember (q_accts q' a) as new eqn:En. clear En.
  inversion Q; subst; try (exfalso; eapply Hp; reflexivity); try (exfalso; eapply Hq; reflexivity); try congruence; try (eapply authorized_staff; eassumption).
Qed.
Lemma request_step E q c q' it : q_reachable E q -> q_step E q c = Ok q' -> q_accts q' (QReq it) <> q_accts q (QReq it) ->
  (q_accts q (QReq it) = None /\ exists payer inst d m, q_ins c = QRequestRelay payer inst it d m /\ request_at q' it (RelayRequest d)) \/
  (q_accts q' (QReq it) = None /\ staff_signed q (q_signers c) /\ exists inst o rec i r, q_ins c = QCloseRelay inst o rec (QReq it) /\ request_at q it r /\
    instance_at q i /\ rec = in_fee_recipient i /\ q_lamports q' (QReq it) = 0 /\ q_lamports q' rec = q_lamports q rec + q_lamports q (QReq it) /\
    (forall a, a <> QReq it -> a <> rec -> q_lamports q' a = q_lamports q a)).
Proof.
  intros Hr S Hne. destruct (q_change _ _ _ _ (QReq it) S) as [Q|Q]; [contradiction|]. destruct c as [sg k]. cbn [q_signers q_ins] in *.
  pose proof (qv_accts _ _ (q_reachable_inv _ _ Hr) (QReq it)) as A. unfold request_at.
  pose proof S as S0. apply q_step_inv in S0. destruct S0 as (_ & _ & S0). cbn [q_signers q_ins] in S0.
  remember (q_accts q (QReq it)) as old eqn:Eo. clear Eo. remember (q_accts q' (QReq it)) as new eqn:En. clear En.
  inversion Q; subst; try (specialize (A _ eq_refl); destruct A as (A & _); first [discriminate|destruct A; discriminate]).
  - left. split; [reflexivity|]. exists p, a, d, m. auto.
  - right. split; [reflexivity|]. split; [eapply authorized_staff; eassumption|]. exists a, o, (in_fee_recipient i), i, n. split; [reflexivity|]. split; [reflexivity|].
    match goal with K : authorized _ _ _ _ = Ok _ |- _ => apply authorized_ok in K; destruct K as (K & _); pose proof (only_instance _ _ _ _ Hr K) as -> end.
    split; [assumption|]. split; [reflexivity|]. cbn [q_exec] in S0. unfold qi_close_relay in S0. binds S0. apply q_close_ok in S0. destruct S0 as (_ & _ & _ & _ & _ & L0 & L1 & L2). auto.
Qed.

(** ** Success *)
Lemma lamport_transfer_live q a b x : a <> b -> 0 <= x <= q_lamports q a -> 0 <= q_lamports q b -> q_lamports q b + x <= u64_max -> exists q', lamport_transfer q a b x = Ok q'.
Proof.
  intros N A B C. unfold lamport_transfer. replace (x <=? q_lamports q a) with true by lia. cbn [require bind q_set q_lamports]. rewrite qupd_other by congruence.
  unfold checked. replace ((0 <=? q_lamports q b + x) && (q_lamports q b + x <=? u64_max)) with true by lia. cbn [ok_or bind]. eauto.
Qed.
Lemma relay_live E q sg payer item d m i p o n c : q_reachable E q -> forallb can_sign sg = true -> In payer sg -> is_u64 d -> is_u64 m ->
  instance_at q i -> in_sol_price i <> 0 -> st_accts (q_world q) item = Some (Acct p (DOutboxItem o)) -> ntt_at q (AProg p) n -> rn_index n < 128 ->
  Z.testbit (ob_released o) (rn_index n) = true -> chain_at q (ob_chain o) c -> rc_base_price c <> u64_max -> d <= rc_max_dropoff c ->
  fee_fits (in_sol_price i) (rc_native_price c) (rc_gas_price c) (rc_base_price c) (rn_gas_cost n) d ->
  let fee := fee_formula (in_sol_price i) (rc_native_price c) (rc_gas_price c) (rc_base_price c) (rn_gas_cost n) d in
  Z.max fee (request_rent E) <= m -> q_accts q (QReq item) = None ->
  Z.max fee (request_rent E) <= q_lamports q (QExt payer) -> q_lamports q (QReq item) + Z.max fee (request_rent E) <= u64_max ->
  exists q', q_step E q (QCall sg (QRequestRelay payer QInst item d m)) = Ok q'.
Proof.
  intros Hr Hsg Hin Hd Hm Hi Hp It Nt Ix Bt Ch En Dr Fit fee Mx New Lp Lr. pose proof (q_reachable_inv _ _ Hr) as Iv.
  pose proof (qv_accts _ _ Iv _ _ Hi) as (_ & _ & Us & _). pose proof (qv_accts _ _ Iv _ _ Ch) as (_ & _ & U1 & U2 & U3). pose proof (qv_accts _ _ Iv _ _ Nt) as (_ & U4 & U5).
  pose proof (qv_rent _ _ Iv size_request) as Rn. pose proof (qv_lamports _ _ Iv (QReq item)) as Lq. pose proof (qv_lamports _ _ Iv (QExt payer)) as Lq'.
  unfold request_rent in *. change (qe_rent E 16) with (qe_rent E size_request) in *. set (rent := qe_rent E size_request) in *.
  assert (Fee : relay_fee i c n d = Ok fee) by (apply relay_fee_ok; auto).
  assert (Sg : signed sg payer = true) by (unfold signed; apply existsb_exists; exists payer; split; [exact Hin|apply addr_eqb_refl]).
  destruct (lamport_transfer_live q (QExt payer) (QReq item) (init_cost rent (q_lamports q (QReq item)))) as (q1 & T1); [discriminate|rewrite init_cost_ok; ilia|ilia|rewrite init_cost_ok; ilia|].
  unfold q_step. cbn [q_signers q_ins q_typed]. rewrite Hsg. unfold fits. replace ((0 <=? d) && (d <=? u64_max)) with true by ilia. replace ((0 <=? m) && (m <=? u64_max)) with true by ilia.
  cbn [andb require bind q_exec]. unfold qi_request_relay. rewrite Sg. cbn [require bind]. unfold q_instance. unfold instance_at in Hi. rewrite Hi. cbn [bind].
  replace (in_sol_price i =? 0) with false by lia. cbn [negb require bind]. unfold outbox_view. rewrite It. cbn [bind fst snd]. unfold q_ntt, ntt_at in *. rewrite Nt. cbn [bind].
  rewrite BitmapFacts.bm_get_ok by ilia. cbn [bind]. rewrite Bt. cbn [require bind]. unfold q_chain, chain_at in *. rewrite Ch. cbn [bind].
  replace (rc_base_price c =? u64_max) with false by lia. cbn [negb require bind]. unfold q_init at 1. rewrite New. cbn [require bind]. fold rent. rewrite T1. cbn [bind].
  replace (d <=? rc_max_dropoff c) with true by lia. cbn [require bind]. rewrite Fee. cbn [bind]. unfold plain, checked, sat_sub. fold rent.
  replace ((0 <=? Z.max (fee - rent) 0 + rent) && (Z.max (fee - rent) 0 + rent <=? u64_max)) with true by ilia. cbn [ok_or bind].
  replace (Z.max (fee - rent) 0 + rent <=? m) with true by lia. cbn [require bind].
  apply lamport_transfer_ok in T1; [|discriminate]. destruct T1 as (_ & _ & _ & _ & _ & P1 & P2 & _). rewrite init_cost_ok in P1, P2 by ilia.
  destruct (0 <? Z.max (fee - rent) 0) eqn:Ex; [|eauto].
  apply lamport_transfer_live; [discriminate| | |]; cbn [q_put q_lamports]; rewrite ?P1, ?P2; ilia.
Qed.

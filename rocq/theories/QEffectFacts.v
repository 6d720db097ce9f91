(** * Proofs of the exact effects of the quoter's instructions. *)
From Verif Require Export SpecQEffect QuoterFacts.
From Verif Require AdminFacts BitmapFacts.
Local Open Scope Z_scope.
Definition q_succeeds (r : result qstate) : Prop := exists q', r = Ok q'.

Lemma In_signed sg a : In a sg -> signed sg a = true.
Proof. intros K. unfold signed. apply existsb_exists. exists a. split; [exact K|apply addr_eqb_refl]. Qed.
Lemma q_step_of E q sg i : forallb can_sign sg = true -> q_typed i = true -> q_step E q (QCall sg i) = q_exec E q sg i.
Proof. intros A B. unfold q_step. cbn [q_signers q_ins]. rewrite A, B. reflexivity. Qed.
Lemma fits_true m z : 0 <= z <= m -> fits m z = true.
Proof. apply fits_iff. Qed.

(** Access *)
Lemma authorized_iff E q sg inst auth i : q_reachable E q -> authorized q sg inst auth = Ok i <-> by_staff q sg inst auth i.
Proof.
  intros Hr. unfold by_staff. split.
  - intros K. apply authorized_ok in K. destruct K as (A & B & C). pose proof (only_instance _ _ _ _ Hr A). subst. auto.
  - intros (-> & A & B & C). unfold authorized, q_instance. unfold instance_at in A. rewrite A. cbn [bind]. rewrite (In_signed _ _ B). cbn [require bind].
    unfold is_authorized. replace (qaddr_eqb (in_owner i) (QExt auth) || qaddr_eqb (in_assistant i) (QExt auth)) with true; [reflexivity|].
    symmetry. apply orb_true_iff. destruct C as [C|C]; [left|right]; now apply qaddr_eqb_eq.
Qed.
Lemma owned_iff E q sg inst o i : q_reachable E q -> owned q sg inst o = Ok i <-> by_q_owner q sg inst o i.
Proof.
  intros Hr. unfold by_q_owner. split.
  - intros K. apply owned_ok in K. destruct K as (A & B & C). pose proof (only_instance _ _ _ _ Hr A). subst. auto.
  - intros (-> & A & B & C). unfold owned, q_instance. unfold instance_at in A. rewrite A. cbn [bind]. rewrite (In_signed _ _ B).
    replace (qaddr_eqb (in_owner i) (QExt o)) with true by (symmetry; now apply qaddr_eqb_eq). reflexivity.
Qed.

(** Creation, update, closure *)
Lemma rent_due_cost E q a size : q_inv E q -> init_cost (qe_rent E size) (q_lamports q a) = rent_due E q a size.
Proof. intros I. pose proof (qv_rent _ _ I size). pose proof (qv_lamports _ _ I a). rewrite init_cost_ok by ilia. unfold rent_due. lia. Qed.
Lemma q_init_iff E q payer a size d : q_inv E q -> payer <> a ->
  (q_succeeds (q_init E q payer a size d) <-> can_open E q payer a size) /\
  (forall q', q_init E q payer a size d = Ok q' -> opened E q q' payer a size d).
Proof.
  intros I N. split; [split|].
  - intros (q' & K). apply q_init_ok in K; [|exact N]. destruct K as (A & _ & _ & _ & K). cbv zeta in K. rewrite rent_due_cost in K by exact I. split; [exact A|apply K].
  - intros (A & B). unfold q_init. rewrite A. cbn [require bind]. rewrite rent_due_cost by exact I.
    pose proof (qv_rent _ _ I size). pose proof (qv_lamports _ _ I a).
    destruct (lamport_transfer_live q payer a (rent_due E q a size)) as (q1 & T); [exact N|unfold rent_due in *; lia|ilia|unfold rent_due; ilia|].
    rewrite T. cbn [bind]. eexists. reflexivity.
  - intros q' K. apply q_init_ok in K; [|exact N]. destruct K as (A & B & C & D & K). cbv zeta in K. rewrite rent_due_cost in K by exact I. destruct K as (_ & _ & K1 & K2 & K3).
    split; [rewrite B; apply qupd_same|]. split; [split; [intros b Nb; rewrite B; now apply qupd_other|auto]|]. split; [exact K1|]. split; [exact K2|exact K3].
Qed.
Lemma q_close_iff E q a dst : q_inv E q -> (q_succeeds (q_close q a dst) <-> can_close q a dst) /\ (forall q', q_close q a dst = Ok q' -> closed q q' a dst).
Proof.
  intros I. pose proof (qv_lamports _ _ I a). pose proof (qv_lamports _ _ I dst). split; [split|].
  - intros (q' & K). apply q_close_ok in K. destruct K as (A & _ & _ & _ & B & _). split; [exact A|lia].
  - intros (A & B). unfold q_close. replace (qaddr_eqb a dst) with false by (symmetry; now apply qaddr_eqb_neq). cbn [negb require bind].
    replace (plain u64_max (q_lamports q dst + q_lamports q a)) with (Ok (q_lamports q dst + q_lamports q a)) by (symmetry; apply plain_iff; ilia). eexists. reflexivity.
  - intros q' K. apply q_close_ok in K. destruct K as (A & B & C & D & _ & K1 & K2 & K3).
    split; [rewrite B; apply qupd_same|]. split; [split; [intros b Nb; rewrite B; now apply qupd_other|auto]|]. split; [lia|]. split; [exact K2|exact K3].
Qed.
Lemma q_put_stored q a d : stored q (q_put a (Some d) q) a d.
Proof. split; [apply qupd_same|]. split; [|intros b; reflexivity]. split; [|auto]. intros b N. now apply qupd_other. Qed.

Section Effects.
Variables (E : qenv) (q : qstate) (sg : list addr).
Hypotheses (Hr : q_reachable E q) (Hs : forallb can_sign sg = true).
Let I : q_inv E q := q_reachable_inv E q Hr.

Lemma q_initialize_effect o r :
  (q_succeeds (q_step E q (QCall sg (QInitialize o r))) <->
   In o sg /\ r <> QExt ANull /\ q_uauth q = Some o /\ can_open E q (QExt o) QInst 112) /\
  (forall q', q_step E q (QCall sg (QInitialize o r)) = Ok q' ->
     opened E q q' (QExt o) QInst 112 (QDInstance (Instance (QExt o) (QExt ANull) r 0))).
Proof.
  rewrite q_step_of by (assumption || reflexivity). cbn [q_exec]. unfold qi_initialize, is_default.
  destruct (q_init_iff E q (QExt o) QInst 112 (QDInstance (Instance (QExt o) (QExt ANull) r 0)) I) as (A & B); [discriminate|]. split; [split|].
  - intros (q' & K). binds K. bools. qgets. split; [assumption|]. split; [assumption|].
    split; [assumption|apply A; eexists; exact K].
  - intros (S & R & U & O). rewrite (In_signed _ _ S). cbn [require bind]. replace (qaddr_eqb r (QExt ANull)) with false by (symmetry; now apply qaddr_eqb_neq). cbn [negb require bind].
    rewrite U. cbn [oaddr_eqb]. rewrite addr_eqb_refl. cbn [require bind]. now apply A.
  - intros q' K. binds K. apply B. exact K.
Qed.

Lemma q_recipient_effect a o r :
  (q_succeeds (q_step E q (QCall sg (QSetFeeRecipient a o r))) <-> (exists i, by_q_owner q sg a o i) /\ r <> QExt ANull) /\
  (forall q', q_step E q (QCall sg (QSetFeeRecipient a o r)) = Ok q' -> exists i, by_q_owner q sg a o i /\
     stored q q' QInst (QDInstance (Instance (in_owner i) (in_assistant i) r (in_sol_price i)))).
Proof.
  rewrite q_step_of by (assumption || reflexivity). cbn [q_exec]. unfold qi_set_fee_recipient, is_default. split; [split|].
  - intros (q' & K). binds K. bools. qgets. split; [|assumption]. eexists. eapply owned_iff; eassumption.
  - intros ((i & O) & R). apply owned_iff with (E := E) in O; [|exact Hr]. rewrite O. cbn [bind]. replace (qaddr_eqb r (QExt ANull)) with false by (symmetry; now apply qaddr_eqb_neq). cbn [negb require bind].
    eexists. reflexivity.
  - intros q' K. binds K. bools. match goal with Z : owned _ _ _ _ = Ok ?i |- _ => exists i; apply owned_iff with (E := E) in Z; [|exact Hr] end.
    split; [assumption|]. subst. match goal with Z : by_q_owner _ _ _ _ _ |- _ => destruct Z as (-> & _) end. apply q_put_stored.
Qed.
Lemma q_assistant_effect a o x :
  (q_succeeds (q_step E q (QCall sg (QSetAssistant a o x))) <-> (exists i, by_q_owner q sg a o i)) /\
  (forall q', q_step E q (QCall sg (QSetAssistant a o x)) = Ok q' -> exists i, by_q_owner q sg a o i /\
     stored q q' QInst (QDInstance (Instance (in_owner i) (match x with Some b => b | None => QExt ANull end) (in_fee_recipient i) (in_sol_price i)))).
Proof.
  rewrite q_step_of by (assumption || reflexivity). cbn [q_exec]. unfold qi_set_assistant. split; [split|].
  - intros (q' & K). binds K. bools. eexists. eapply owned_iff; eassumption.
  - intros (i & O). apply owned_iff with (E := E) in O; [|exact Hr]. rewrite O. cbn [bind]. eexists. reflexivity.
  - intros q' K. binds K. bools. match goal with Z : owned _ _ _ _ = Ok ?i |- _ => exists i; apply owned_iff with (E := E) in Z; [|exact Hr] end.
    split; [assumption|]. subst. match goal with Z : by_q_owner _ _ _ _ _ |- _ => destruct Z as (-> & _) end. apply q_put_stored.
Qed.
Lemma q_price_effect a o p : is_u64 p ->
  (q_succeeds (q_step E q (QCall sg (QUpdateSolPrice a o p))) <-> (exists i, by_staff q sg a o i) /\ p <> 0) /\
  (forall q', q_step E q (QCall sg (QUpdateSolPrice a o p)) = Ok q' -> exists i, by_staff q sg a o i /\
     stored q q' QInst (QDInstance (Instance (in_owner i) (in_assistant i) (in_fee_recipient i) p))).
Proof.
  intros Hp. rewrite q_step_of by (assumption || apply fits_true; exact Hp). cbn [q_exec]. unfold qi_update_sol_price. split; [split|].
  - intros (q' & K). binds K. bools. split; [|lia]. eexists. eapply authorized_iff; eassumption.
  - intros ((i & O) & R). apply authorized_iff with (E := E) in O; [|exact Hr]. rewrite O. cbn [bind]. replace (p =? 0) with false by lia. cbn [negb require bind]. eexists. reflexivity.
  - intros q' K. binds K. bools. match goal with Z : authorized _ _ _ _ = Ok ?i |- _ => exists i; apply authorized_iff with (E := E) in Z; [|exact Hr] end.
    split; [assumption|]. subst. match goal with Z : by_staff _ _ _ _ _ |- _ => destruct Z as (-> & _) end. apply q_put_stored.
Qed.
Lemma q_register_chain_effect a o ch : is_u16 ch ->
  (q_succeeds (q_step E q (QCall sg (QRegisterChain a o ch))) <-> (exists i, by_staff q sg a o i) /\ can_open E q (QExt o) (QChain ch) 41) /\
  (forall q', q_step E q (QCall sg (QRegisterChain a o ch)) = Ok q' ->
     opened E q q' (QExt o) (QChain ch) 41 (QDChain (RegChain 0 0 u64_max 0 0))).
Proof.
  intros Hc. rewrite q_step_of by (assumption || apply fits_true; exact Hc). cbn [q_exec]. unfold qi_register_chain.
  destruct (q_init_iff E q (QExt o) (QChain ch) 41 (QDChain (RegChain 0 0 u64_max 0 0)) I) as (A & B); [discriminate|]. split; [split|].
  - intros (q' & K). binds K. split; [|apply A; eexists; exact K]. eexists. eapply authorized_iff; eassumption.
  - intros ((i & O) & R). apply authorized_iff with (E := E) in O; [|exact Hr]. rewrite O. cbn [bind]. now apply A.
  - intros q' K. binds K. apply B. exact K.
Qed.
Lemma q_register_ntt_effect a o p k g : is_u8 k -> is_u32 g ->
  (q_succeeds (q_step E q (QCall sg (QRegisterNtt a o p k g))) <-> (exists i, by_staff q sg a o i) /\ can_open E q (QExt o) (QNtt p) 14) /\
  (forall q', q_step E q (QCall sg (QRegisterNtt a o p k g)) = Ok q' ->
     opened E q q' (QExt o) (QNtt p) 14 (QDNtt (RegNtt 0 k g))).
Proof.
  intros Hk Hg. rewrite q_step_of; [|assumption|cbn [q_typed]; rewrite !fits_true by assumption; reflexivity]. cbn [q_exec]. unfold qi_register_ntt.
  destruct (q_init_iff E q (QExt o) (QNtt p) 14 (QDNtt (RegNtt 0 k g)) I) as (A & B); [discriminate|]. split; [split|].
  - intros (q' & K). binds K. split; [|apply A; eexists; exact K]. eexists. eapply authorized_iff; eassumption.
  - intros ((i & O) & R). apply authorized_iff with (E := E) in O; [|exact Hr]. rewrite O. cbn [bind]. now apply A.
  - intros q' K. binds K. apply B. exact K.
Qed.
Lemma q_deregister_effect a o p :
  (q_succeeds (q_step E q (QCall sg (QDeregisterNtt a o p))) <->
   (exists i, by_staff q sg a o i) /\ (exists n, ntt_at q p n) /\ can_close q (QNtt p) (QExt o)) /\
  (forall q', q_step E q (QCall sg (QDeregisterNtt a o p)) = Ok q' -> closed q q' (QNtt p) (QExt o)).
Proof.
  rewrite q_step_of by (assumption || reflexivity). cbn [q_exec]. unfold qi_deregister_ntt.
  destruct (q_close_iff E q (QNtt p) (QExt o) I) as (A & B). split; [split|].
  - intros (q' & K). binds K. qgets. split; [|split; [eexists; eassumption|apply A; eexists; exact K]]. eexists. eapply authorized_iff; eassumption.
  - intros ((i & O) & (n & N) & R). apply authorized_iff with (E := E) in O; [|exact Hr]. rewrite O. cbn [bind]. unfold q_ntt. unfold ntt_at in N. rewrite N. cbn [bind]. now apply A.
  - intros q' K. binds K. apply B. exact K.
Qed.
Lemma q_close_relay_effect a o r x :
  (q_succeeds (q_step E q (QCall sg (QCloseRelay a o r x))) <->
   exists i item d, by_staff q sg a o i /\ r = in_fee_recipient i /\ x = QReq item /\ request_at q item d /\ can_close q x r) /\
  (forall q', q_step E q (QCall sg (QCloseRelay a o r x)) = Ok q' -> closed q q' x r).
Proof.
  rewrite q_step_of by (assumption || reflexivity). cbn [q_exec]. unfold qi_close_relay.
  destruct (q_close_iff E q x r I) as (A & B). split; [split|].
  - intros (q' & K). binds K. bools. qgets.
    match goal with Z : q_accts q x = Some (QDRequest ?d) |- _ => pose proof (qv_accts _ _ I _ _ Z) as ((item & ->) & _); exists v, item, d end.
    split; [eapply authorized_iff; eassumption|]. split; [assumption|]. split; [reflexivity|]. split; [assumption|]. apply A. eexists. exact K.
  - intros (i & item & d & O & -> & -> & D & R). apply authorized_iff with (E := E) in O; [|exact Hr]. rewrite O. cbn [bind].
    replace (qaddr_eqb (in_fee_recipient i) (in_fee_recipient i)) with true by (symmetry; now apply qaddr_eqb_eq). cbn [require bind].
    unfold q_request. unfold request_at in D. rewrite D. cbn [bind]. now apply A.
  - intros q' K. binds K. apply B. exact K.
Qed.
Lemma q_prices_effect a o x n g : is_u64 n -> is_u64 g ->
  (q_succeeds (q_step E q (QCall sg (QUpdateChainPrices a o x n g))) <-> (exists i, by_staff q sg a o i) /\ (exists ch c, x = QChain ch /\ chain_at q ch c)) /\
  (forall q', q_step E q (QCall sg (QUpdateChainPrices a o x n g)) = Ok q' -> exists ch c, x = QChain ch /\ chain_at q ch c /\
     stored q q' x (QDChain (RegChain (rc_bump c) (rc_max_dropoff c) (rc_base_price c) n g))).
Proof.
  intros Hn Hg. rewrite q_step_of; [|assumption|cbn [q_typed]; rewrite !fits_true by assumption; reflexivity]. cbn [q_exec]. unfold qi_update_chain_prices. split; [split|].
  - intros (q' & K). binds K. qgets. split; [eexists; eapply authorized_iff; eassumption|].
    match goal with Z : q_accts q x = Some (QDChain ?c) |- _ => pose proof (qv_accts _ _ I _ _ Z) as ((ch & ->) & _); exists ch, c end. auto.
  - intros ((i & O) & ch & c & -> & C). apply authorized_iff with (E := E) in O; [|exact Hr]. rewrite O. cbn [bind]. unfold q_chain. unfold chain_at in C. rewrite C. cbn [bind]. eexists. reflexivity.
  - intros q' K. binds K. qgets. match goal with Z : q_accts q x = Some (QDChain ?c) |- _ => pose proof (qv_accts _ _ I _ _ Z) as ((ch & ->) & _); exists ch, c end.
    split; [reflexivity|]. split; [assumption|]. apply Ok_inj in K. subst. apply q_put_stored.
Qed.
Lemma q_params_effect a o x d b : is_u64 d -> is_u64 b ->
  (q_succeeds (q_step E q (QCall sg (QUpdateChainParams a o x d b))) <-> (exists i, by_staff q sg a o i) /\ (exists ch c, x = QChain ch /\ chain_at q ch c)) /\
  (forall q', q_step E q (QCall sg (QUpdateChainParams a o x d b)) = Ok q' -> exists ch c, x = QChain ch /\ chain_at q ch c /\
     stored q q' x (QDChain (RegChain (rc_bump c) d b (rc_native_price c) (rc_gas_price c)))).
Proof.
  intros Hn Hg. rewrite q_step_of; [|assumption|cbn [q_typed]; rewrite !fits_true by assumption; reflexivity]. cbn [q_exec]. unfold qi_update_chain_params. split; [split|].
  - intros (q' & K). binds K. qgets. split; [eexists; eapply authorized_iff; eassumption|].
    match goal with Z : q_accts q x = Some (QDChain ?c) |- _ => pose proof (qv_accts _ _ I _ _ Z) as ((ch & ->) & _); exists ch, c end. auto.
  - intros ((i & O) & ch & c & -> & C). apply authorized_iff with (E := E) in O; [|exact Hr]. rewrite O. cbn [bind]. unfold q_chain. unfold chain_at in C. rewrite C. cbn [bind]. eexists. reflexivity.
  - intros q' K. binds K. qgets. match goal with Z : q_accts q x = Some (QDChain ?c) |- _ => pose proof (qv_accts _ _ I _ _ Z) as ((ch & ->) & _); exists ch, c end.
    split; [reflexivity|]. split; [assumption|]. apply Ok_inj in K. subst. apply q_put_stored.
Qed.

Lemma q_request_effect payer a item d m : is_u64 d -> is_u64 m ->
  (q_succeeds (q_step E q (QCall sg (QRequestRelay payer a item d m))) <-> exists i p o n c x, relayable E q sg payer a item d m i p o n c x) /\
  (forall q', q_step E q (QCall sg (QRequestRelay payer a item d m)) = Ok q' -> exists i p o n c x, relayable E q sg payer a item d m i p o n c x /\
     request_at q' item (RelayRequest d) /\ only_acct (QReq item) q q' /\
     moved q q' (QExt payer) (QReq item) (x - Z.min (q_lamports q (QReq item)) (request_rent E))).
Proof.
  intros Hd Hm.
  assert (F : forall q', q_step E q (QCall sg (QRequestRelay payer a item d m)) = Ok q' -> exists i p o n c x, relayable E q sg payer a item d m i p o n c x /\
     request_at q' item (RelayRequest d) /\ only_acct (QReq item) q q' /\
     moved q q' (QExt payer) (QReq item) (x - Z.min (q_lamports q (QReq item)) (request_rent E))).
  { intros q' K. destruct (relay_exact _ _ _ _ _ _ _ _ _ Hr K) as (i & p & o & n & c & fee & paid & R).
    pose proof (q_step_reachable _ _ _ _ Hr K) as Hr'. pose proof (qv_lamports _ _ (q_reachable_inv _ _ Hr')) as L'.
    apply q_step_inv in K. destruct K as (_ & _ & K). cbn [q_ins q_exec q_signers] in K. apply relay_inv in K.
    destruct K as (i1 & p1 & o1 & n1 & c1 & q1 & fee1 & _ & K1 & _ & K2 & K3 & K4 & _).
    assert (a = QInst) by exact (only_instance _ _ _ _ Hr K1). subst a.
    destruct R as [A B C D F G J K L M N O P Q R S T (U & V & W & X)].
    rewrite D in K2. injection K2 as <- <-. unfold ntt_at in F, K3. rewrite F in K3. injection K3 as <-.
    assert (rn_index n < 128). { unfold bm_get in K4. destruct (BITS <=? rn_index n) eqn:Z; [discriminate|]. unfold BITS in Z. lia. }
    exists i, p, o, n, c, (Z.max fee (request_rent E)). split; [|split; [exact Q|split; [split; auto|]]].
    - constructor; auto; try (rewrite N; reflexivity).
      + pose proof (L' (QExt payer)) as Y. rewrite S, R in Y. ilia.
      + pose proof (L' (QReq item)) as Y. rewrite T, R in Y. ilia.
    - rewrite R in S, T. split; [exact S|]. split; [exact T|]. intros b N1 N2. now apply V. }
  split; [split|exact F].
  - intros (q' & K). destruct (F _ K) as (i & p & o & n & c & x & R & _). eauto 8.
  - intros (i & p & o & n & c & x & [Sg (-> & Hi) Hp It Nt Ix Bt Ch En Dr New Fit X Mx Fu Ro]).
    pose proof (qv_accts _ _ I _ _ Hi) as (_ & _ & Us & _). pose proof (qv_accts _ _ I _ _ Ch) as (_ & _ & U1 & U2 & U3). pose proof (qv_accts _ _ I _ _ Nt) as (_ & U4 & U5).
    pose proof (qv_rent _ _ I size_request) as Rn. pose proof (qv_lamports _ _ I (QReq item)) as Lq. pose proof (qv_lamports _ _ I (QExt payer)) as Lq'.
    unfold request_rent in *. change (qe_rent E 16) with (qe_rent E size_request) in *. set (rent := qe_rent E size_request) in *.
    set (fee := fee_formula (in_sol_price i) (rc_native_price c) (rc_gas_price c) (rc_base_price c) (rn_gas_cost n) d) in *.
    assert (Fee : relay_fee i c n d = Ok fee) by (apply relay_fee_ok; auto). apply In_signed in Sg.
    destruct (lamport_transfer_live q (QExt payer) (QReq item) (init_cost rent (q_lamports q (QReq item)))) as (q1 & T1); [discriminate|rewrite init_cost_ok; ilia|ilia|rewrite init_cost_ok; ilia|].
    rewrite q_step_of; [|assumption|cbn [q_typed]; rewrite !fits_true by assumption; reflexivity]. unfold q_succeeds.
    cbn [q_exec]. unfold qi_request_relay. rewrite Sg. cbn [require bind]. unfold q_instance. unfold instance_at in Hi. rewrite Hi. cbn [bind].
    replace (in_sol_price i =? 0) with false by lia. cbn [negb require bind]. unfold outbox_view. rewrite It. cbn [bind fst snd]. unfold q_ntt, ntt_at in *. rewrite Nt. cbn [bind].
    rewrite BitmapFacts.bm_get_ok by ilia. cbn [bind]. rewrite Bt. cbn [require bind]. unfold q_chain, chain_at in *. rewrite Ch. cbn [bind].
    replace (rc_base_price c =? u64_max) with false by lia. cbn [negb require bind]. unfold q_init at 1. rewrite New. cbn [require bind]. fold rent. rewrite T1. cbn [bind].
    replace (d <=? rc_max_dropoff c) with true by lia. cbn [require bind]. rewrite Fee. cbn [bind]. unfold plain, checked, sat_sub. fold rent.
    replace ((0 <=? Z.max (fee - rent) 0 + rent) && (Z.max (fee - rent) 0 + rent <=? u64_max)) with true by ilia. cbn [ok_or bind].
    replace (Z.max (fee - rent) 0 + rent <=? m) with true by lia. cbn [require bind].
    apply lamport_transfer_ok in T1; [|discriminate]. destruct T1 as (_ & _ & _ & _ & _ & P1 & P2 & _). rewrite init_cost_ok in P1, P2 by ilia.
    destruct (0 <? Z.max (fee - rent) 0) eqn:Ex; [|eauto].
    apply lamport_transfer_live; [discriminate| | |]; cbn [q_put q_lamports]; rewrite ?P1, ?P2; ilia.
Qed.
End Effects.

(** ** Conservation of lamports *)
Lemma moved_sum q q' src dst x l : moved q q' src dst x -> src <> dst -> NoDup l -> In src l -> In dst l -> lamports_of q' l = lamports_of q l.
Proof.
  intros (A & B & C) N D. assert (Z : lamports_of q' l = lamports_of q l - (if in_dec qaddr_eq_dec src l then x else 0) + (if in_dec qaddr_eq_dec dst l then x else 0)).
  { induction l as [|a l IH]; [reflexivity|]. inversion D as [|? ? Na Dl]; subst. specialize (IH Dl). cbn [lamports_of fold_right]. fold (lamports_of q' l). fold (lamports_of q l). rewrite IH. clear IH.
    destruct (qaddr_eq_dec a src) as [->|N1]; [|destruct (qaddr_eq_dec a dst) as [->|N2]].
    - rewrite A. destruct (in_dec qaddr_eq_dec src l); [contradiction|]. destruct (in_dec qaddr_eq_dec src (src :: l)) as [_|K]; [|elim K; now left].
      destruct (in_dec qaddr_eq_dec dst l) as [d|d], (in_dec qaddr_eq_dec dst (src :: l)) as [e|e]; try lia; exfalso; [apply e; now right|destruct e; congruence].
    - rewrite B. destruct (in_dec qaddr_eq_dec dst l); [contradiction|]. destruct (in_dec qaddr_eq_dec dst (dst :: l)) as [_|K]; [|elim K; now left].
      destruct (in_dec qaddr_eq_dec src l) as [d|d], (in_dec qaddr_eq_dec src (dst :: l)) as [e|e]; try lia; exfalso; [apply e; now right|destruct e; congruence].
    - rewrite C by assumption.
      destruct (in_dec qaddr_eq_dec src l) as [d|d], (in_dec qaddr_eq_dec src (a :: l)) as [e|e]; try (exfalso; (apply e; now right) || (destruct e; congruence));
      destruct (in_dec qaddr_eq_dec dst l) as [d'|d'], (in_dec qaddr_eq_dec dst (a :: l)) as [e'|e']; try (exfalso; (apply e'; now right) || (destruct e'; congruence)); lia. }
  intros I1 I2. rewrite Z. destruct (in_dec qaddr_eq_dec src l); [|contradiction]. destruct (in_dec qaddr_eq_dec dst l); [lia|contradiction].
Qed.
Lemma same_sum q q' l : same_money q q' -> lamports_of q' l = lamports_of q l.
Proof. intros S. induction l as [|a l IH]; [reflexivity|]. cbn [lamports_of fold_right]. fold (lamports_of q' l). fold (lamports_of q l). now rewrite IH, S. Qed.

Lemma step_moves E q c q' : q_reachable E q -> q_step E q c = Ok q' -> same_money q q' \/ exists src dst x, src <> dst /\ moved q q' src dst x.
Proof.
  intros Hr S. pose proof (q_reachable_inv _ _ Hr) as I. destruct c as [sg i]. pose proof (q_step_inv _ _ _ _ S) as (Hs & Ht & _). cbn [q_signers q_ins] in *. destruct i; cbn [q_typed] in Ht; bools;
    repeat match goal with K : fits _ _ = true |- _ => apply fits_iff in K end.
  - right. apply q_initialize_effect in S; auto. exists (QExt owner), QInst. eexists. split; [discriminate|apply S].
  - left. apply q_recipient_effect in S; auto. destruct S as (i & _ & S). apply S.
  - left. apply q_assistant_effect in S; auto. destruct S as (i & _ & S). apply S.
  - right. apply q_register_chain_effect in S; auto. exists (QExt auth), (QChain chain). eexists. split; [discriminate|apply S].
  - right. apply q_register_ntt_effect in S; auto. exists (QExt auth), (QNtt program). eexists. split; [discriminate|apply S].
  - right. apply q_deregister_effect in S; auto. exists (QNtt program), (QExt auth). eexists. split; [discriminate|apply S].
  - left. apply q_price_effect in S; auto. destruct S as (i & _ & S). apply S.
  - left. apply q_prices_effect in S; auto. destruct S as (ch & i & _ & _ & S). apply S.
  - left. apply q_params_effect in S; auto. destruct S as (ch & i & _ & _ & S). apply S.
  - right. apply q_request_effect in S; auto. destruct S as (i & p & o & n & c & x & _ & _ & _ & S). exists (QExt payer), (QReq item). eexists. split; [discriminate|exact S].
  - right. assert (Sc : q_succeeds (q_step E q (QCall sg (QCloseRelay inst auth recipient request)))) by (eexists; exact S).
    apply q_close_relay_effect in Sc; auto. destruct Sc as (i & item & d & _ & _ & _ & _ & N & _).
    apply q_close_relay_effect in S; auto. exists request, recipient. eexists. split; [exact N|apply S].
  - left. rewrite q_step_of in S by auto. cbn [q_exec] in S. binds S. apply Ok_inj in S. subst. intros b. reflexivity.
  - rewrite q_step_of in S by (auto; now apply fits_true). cbn [q_exec] in S. binds S.
    destruct (qaddr_eq_dec (QExt src) dst) as [<-|N].
    + left. unfold lamport_transfer in S. binds S. bools. subst. intros b. cbn [q_set q_lamports] in *. rewrite qupd_same in *.
      destruct (qaddr_eq_dec b (QExt src)) as [->|N]; [rewrite qupd_same; lia|now rewrite !qupd_other by assumption].
    + right. apply lamport_transfer_ok in S; [|exact N]. exists (QExt src), dst, x. split; [exact N|]. destruct S as (_ & _ & _ & _ & _ & A & B & C). split; [exact A|]. split; [exact B|exact C].
  - left. rewrite q_step_of in S by auto. cbn [q_exec] in S. binds S. apply Ok_inj in S. subst. intros b. reflexivity.
Qed.
Lemma run_conserved E q tr q' : q_reachable E q -> q_run E q tr q' ->
  exists t, (forall a, ~ In a t -> q_lamports q' a = q_lamports q a) /\ (forall l, NoDup l -> incl t l -> lamports_of q' l = lamports_of q l).
Proof.
  intros Hr R. induction R as [|tr q1 c q2 R IH S].
  - exists []. split; auto.
  - destruct IH as (t & A & B). destruct (step_moves _ _ _ _ (q_run_reachable _ _ _ _ Hr R) S) as [M|(src & dst & x & N & M)].
    + exists t. split; [intros a K; rewrite M; now apply A|]. intros l D K. rewrite <- (B l D K). now apply same_sum.
    + exists (src :: dst :: t). split.
      * intros a K. destruct M as (_ & _ & M). cbn in K. rewrite M by (intros ->; apply K; auto). apply A. intros Z. apply K. auto.
      * intros l D K. rewrite <- (B l D) by (intros z Z; apply K; cbn; auto). eapply moved_sum; [exact M|exact N|exact D|apply K; cbn; auto|apply K; cbn; auto].
Qed.

(** ** The fee formula *)
Lemma div_le_mono a b d : 0 < d -> a <= b -> a / d <= b / d.
Proof. intros. apply Z.div_le_mono; lia. Qed.
Lemma fee_monotone s s' n n' g g' b b' k k' d d' : 0 < s' <= s -> 0 <= n <= n' -> 0 <= g <= g' -> 0 <= b <= b' -> 0 <= k <= k' -> 0 <= d <= d' ->
  fee_formula s n g b k d <= fee_formula s' n' g' b' k' d'.
Proof.
  intros Hs Hn Hg Hb Hk Hd. unfold fee_formula, cost_usd, gas_gwei. change (10 ^ 9) with 1000000000.
  assert (A : 0 <= g * k / 1000000000 <= g' * k' / 1000000000) by (split; [apply Z.div_pos; nia|apply div_le_mono; nia]).
  set (x := g * k / 1000000000) in *. set (x' := g' * k' / 1000000000) in *.
  assert (B : 0 <= n * (d + x) / 1000000000 <= n' * (d' + x') / 1000000000) by (split; [apply Z.div_pos; nia|apply div_le_mono; nia]).
  set (y := n * (d + x) / 1000000000) in *. set (y' := n' * (d' + x') / 1000000000) in *.
  transitivity ((y' + b') * 1000000000 / s); [apply div_le_mono; lia|]. apply Z.div_le_compat_l; lia.
Qed.
Lemma fee_rounding s n g b k d : 0 < s -> 0 <= n -> 0 <= g -> 0 <= b -> 0 <= k -> 0 <= d ->
  let f := fee_formula s n g b k d in let x := fee_numerator n g b k d in
  f * (10 ^ 9 * s) <= x /\ x < (f + 1) * (10 ^ 9 * s) + (n * 10 ^ 9 + 10 ^ 18).
Proof.
  intros Hs Hn Hg Hb Hk Hd. cbv zeta. unfold fee_formula, cost_usd, gas_gwei, fee_numerator. change (10 ^ 9) with 1000000000. change (10 ^ 18) with (1000000000 * 1000000000).
  pose proof (Z.div_mod (g * k) 1000000000 ltac:(lia)) as A. pose proof (Z.mod_pos_bound (g * k) 1000000000 ltac:(lia)) as A'.
  set (x := g * k / 1000000000) in *. set (ra := g * k mod 1000000000) in *.
  pose proof (Z.div_mod (n * (d + x)) 1000000000 ltac:(lia)) as B. pose proof (Z.mod_pos_bound (n * (d + x)) 1000000000 ltac:(lia)) as B'.
  set (y := n * (d + x) / 1000000000) in *. set (rb := (n * (d + x)) mod 1000000000) in *.
  pose proof (Z.div_mod ((y + b) * 1000000000) s ltac:(lia)) as C. pose proof (Z.mod_pos_bound ((y + b) * 1000000000) s ltac:(lia)) as C'.
  set (f := (y + b) * 1000000000 / s) in *. set (rc := ((y + b) * 1000000000) mod s) in *.
  assert (X : n * (d * 1000000000 + g * k) + b * (1000000000 * 1000000000) = f * (1000000000 * s) + (rc * 1000000000 + rb * 1000000000 + n * ra)).
  { rewrite A. replace (n * (d * 1000000000 + (1000000000 * x + ra))) with (n * (d + x) * 1000000000 + n * ra) by ring. rewrite B at 1.
    replace (f * (1000000000 * s)) with (s * f * 1000000000) by ring. replace (s * f) with ((y + b) * 1000000000 - rc) by lia. ring. }
  rewrite X. split; nia.
Qed.

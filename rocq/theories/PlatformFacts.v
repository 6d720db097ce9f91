(** * Proofs about the surroundings of lookup tables and quoter. *)
From Verif Require Export SpecPlatform.
From Verif Require Import WorldFacts QuoterFacts Flow.
Import ListNotations.
Local Open Scope Z_scope.

Lemma in_signed sg a : In a sg -> signed sg a = true.
Proof. intros K. unfold signed. apply existsb_exists. exists a. split; [exact K|]. now apply addr_eqb_eq. Qed.
Lemma mine_iff l sg tab a t : lut_mine l sg tab a = Ok t <-> l_tabs l tab = Some t /\ In a sg /\ lt_auth t = Some a.
Proof.
  unfold lut_mine. split.
  - intros E. binds E. apply Ok_inj in E. subst. apply ok_or_ok in E0. apply require_ok in E1. apply require_ok in E2. split; [exact E0|]. split; [now apply QuoterFacts.signed_In|]. now apply oaddr_eqb_eq.
  - intros (A & B & C). rewrite A. cbn [ok_or bind]. rewrite (in_signed _ _ B). cbn [require bind]. rewrite C. replace (oaddr_eqb (Some a) a) with true by (symmetry; now apply oaddr_eqb_eq). reflexivity.
Qed.
Lemma tables_iff H l c l' : of_tables (l_ins c) -> l_step H l c = Ok l' <-> forallb can_sign (l_signers c) = true /\ table_rule l (l_signers c) (l_ins c) l'.
Proof.
  destruct c as [sg i]. cbn [l_ins l_signers]. intros O. unfold l_step. cbn [l_ins l_signers].
  destruct (forallb can_sign sg) eqn:F; cbn [require bind]; [|split; [discriminate|intros (K & _); discriminate K]].
  assert (J : forall P Q : Prop, (P <-> Q) -> (P <-> true = true /\ Q)) by (intros; tauto). apply J. clear J F.
  destruct i; try contradiction O; cbn [l_exec].
  - unfold lut_create. split.
    + intros E. binds E. apply require_ok in E0, E1, E2. assert (is_u64 slot) by (unfold u64b in E0; ilia). apply QuoterFacts.signed_In in E1.
      destruct (l_tabs l (lut_at authority slot)) eqn:T; apply Ok_inj in E; subst l'; [eapply T_there; eassumption|apply T_new; assumption].
    + intros R. inversion R; subst; replace (u64b slot) with true by (unfold u64b; symmetry; ilia); cbn [require bind]; rewrite in_signed by assumption; cbn [require bind];
        match goal with K : l_recent _ slot = true |- _ => rewrite K end; cbn [require bind]; match goal with K : l_tabs _ _ = _ |- _ => rewrite K end; reflexivity.
  - unfold lut_extend. split.
    + intros E. binds E. apply mine_iff in E0. destruct E0 as (A & B & C). apply require_ok in E1, E2, E3. apply Ok_inj in E. subst l'. match goal with T : table |- _ => destruct T as [au ac es] end. cbn in *. subst.
      apply (T_extend l sg tab authority es new); [assumption|exact A|destruct new; [discriminate E2|discriminate]|]. unfold MAX_ADDRESSES in E3. apply Z.leb_le in E3. lia.
    + intros R. inversion R; subst. assert (M : lut_mine l sg tab authority = Ok (Table (Some authority) true es)) by (apply mine_iff; auto). rewrite M. cbn [bind lt_active lt_auth lt_entries require].
      replace (0 <? Z.of_nat (length new)) with true by (symmetry; apply Z.ltb_lt; destruct new; [contradiction|cbn [length]; lia]). cbn [require bind].
      replace (_ <=? MAX_ADDRESSES) with true by (symmetry; apply Z.leb_le; unfold MAX_ADDRESSES; lia). reflexivity.
  - unfold lut_freeze. split.
    + intros E. binds E. apply mine_iff in E0. destruct E0 as (A & B & C). apply require_ok in E1. apply andb_true_iff in E1. destruct E1 as (E1 & E2). apply Ok_inj in E. subst l'. match goal with T : table |- _ => destruct T as [au ac es] end. cbn in *. subst.
      apply (T_freeze l sg tab authority es); [assumption|exact A|destruct es; [discriminate E2|discriminate]].
    + intros R. inversion R; subst. assert (M : lut_mine l sg tab authority = Ok (Table (Some authority) true es)) by (apply mine_iff; auto). rewrite M. cbn [bind lt_active lt_auth lt_entries require andb].
      replace (0 <? Z.of_nat (length es)) with true by (symmetry; apply Z.ltb_lt; destruct es; [contradiction|cbn [length]; lia]). reflexivity.
  - unfold lut_deactivate. split.
    + intros E. binds E. apply mine_iff in E0. destruct E0 as (A & B & C). apply require_ok in E1. apply Ok_inj in E. subst l'. match goal with T : table |- _ => destruct T as [au ac es] end. cbn in *. subst. apply (T_deactivate l sg tab authority es); assumption.
    + intros R. inversion R; subst. assert (M : lut_mine l sg tab authority = Ok (Table (Some authority) true es)) by (apply mine_iff; auto). rewrite M. reflexivity.
  - unfold lut_close. split.
    + intros E. binds E. apply mine_iff in E0. destruct E0 as (A & B & C). apply require_ok in E1. apply negb_true_iff in E1. apply Ok_inj in E. subst l'. match goal with T : table |- _ => destruct T as [au ac es] end. cbn in *. subst. apply (T_close l sg tab authority es); assumption.
    + intros R. inversion R; subst. assert (M : lut_mine l sg tab authority = Ok (Table (Some authority) false es)) by (apply mine_iff; auto). rewrite M. reflexivity.
  - split; [intros E; apply Ok_inj in E; subst; constructor|intros R; inversion R; reflexivity].
Qed.

Lemma beside_only E q c q' : q_reachable E q -> beside_quoter (q_ins c) -> q_step E q c = Ok q' -> forallb can_sign (q_signers c) = true /\ quoter_rule q (q_signers c) (q_ins c) q'.
Proof.
  destruct c as [sg i]. cbn [q_ins q_signers]. intros Hr B S. apply q_step_inv in S. destruct S as (F & Ty & S). split; [exact F|]. cbn [q_ins q_signers] in *. destruct i; try contradiction B; cbn [q_exec q_typed] in *.
  - binds S. apply require_ok in E0. apply QuoterFacts.signed_In in E0. apply fits_iff in Ty. unfold lamport_transfer in S. binds S. apply require_ok in E1. apply Z.leb_le in E1. apply ok_or_ok, checked_ok in E2. destruct E2 as (-> & R). apply Ok_inj in S.
    destruct (qaddr_eq_dec (QExt src) dst) as [<-|N].
    + apply Q_send_itself; try assumption; try (subst q'; reflexivity). intros c. subst q'. cbn in *. destruct (qaddr_eq_dec c (QExt src)) as [->|]; [rewrite !qupd_same; lia|rewrite !qupd_other by assumption; reflexivity].
    + assert (N' : dst <> QExt src) by congruence. cbn in R. rewrite qupd_other in R by assumption. subst q'. apply Q_send; try assumption; try reflexivity; cbn.
      * lia.
      * rewrite qupd_other by assumption. apply qupd_same.
      * rewrite qupd_same, qupd_other by assumption. reflexivity.
      * intros c A C. rewrite !qupd_other by assumption. reflexivity.
  - binds S. apply require_ok in E0. apply andb_true_iff in E0. destruct E0 as (A & C). apply QuoterFacts.signed_In in A. apply oaddr_eqb_eq in C. apply Ok_inj in S. subst q'. constructor; assumption.
Qed.
Lemma beside_can E q c q' : q_reachable E q -> beside_quoter (q_ins c) -> forallb can_sign (q_signers c) = true -> quoter_rule q (q_signers c) (q_ins c) q' ->
  exists q1, q_step E q c = Ok q1 /\ same_state q1 q'.
Proof.
  destruct c as [sg i]. cbn [q_ins q_signers]. intros Hr B F R. pose proof (qv_lamports _ _ (q_reachable_inv _ _ Hr)) as L. unfold q_step. cbn [q_ins q_signers]. rewrite F. cbn [andb].
  inversion R; subst; cbn [q_typed q_exec]; [| |cbn [require bind]; rewrite in_signed by assumption; cbn [andb]].
  - replace (fits u64_max x) with true by (symmetry; now apply fits_iff). cbn [require bind]. rewrite in_signed by assumption. cbn [require bind]. unfold lamport_transfer.
    replace (x <=? _) with true by (symmetry; apply Z.leb_le; assumption). cbn [require bind]. cbn [q_lamports q_set]. assert (N' : b <> QExt a) by congruence. rewrite qupd_other by assumption.
    unfold checked. pose proof (L b). replace (_ && _) with true by (symmetry; apply andb_true_iff; ilia). cbn [ok_or bind]. eexists. split; [reflexivity|]. unfold same_state. cbn.
    split; [congruence|]. split; [congruence|]. split; [|congruence]. intros c. destruct (qaddr_eq_dec c b) as [->|]; [rewrite qupd_same; congruence|rewrite qupd_other by assumption].
    destruct (qaddr_eq_dec c (QExt a)) as [->|]; [rewrite qupd_same; congruence|rewrite qupd_other by assumption; symmetry; auto].
  - replace (fits u64_max x) with true by (symmetry; now apply fits_iff). cbn [require bind]. rewrite in_signed by assumption. cbn [require bind]. unfold lamport_transfer.
    replace (x <=? _) with true by (symmetry; apply Z.leb_le; assumption). cbn [require bind]. cbn [q_lamports q_set]. rewrite qupd_same.
    unfold checked. pose proof (L (QExt a)). replace (_ && _) with true by (symmetry; apply andb_true_iff; ilia). cbn [ok_or bind]. eexists. split; [reflexivity|]. unfold same_state. cbn.
    split; [congruence|]. split; [congruence|]. split; [|congruence]. intros c. match goal with K : forall c, q_lamports q' c = _ |- _ => rewrite K end.
    destruct (qaddr_eq_dec c (QExt a)) as [->|]; [rewrite qupd_same; lia|rewrite !qupd_other by assumption; reflexivity].
  - match goal with K : q_uauth q = Some _ |- _ => rewrite K end. replace (oaddr_eqb (Some cur) cur) with true by (symmetry; now apply oaddr_eqb_eq). cbn [require bind]. eexists. split; [reflexivity|]. repeat split.
Qed.

(** * Delegated spending (C31). *)
From Verif Require Export PayFacts.
Local Open Scope Z_scope.

Lemma not_custody s a c : private a -> config_ok s c -> a <> cf_custody c.
Proof.
  intros Hn Hok C. destruct (co_prog _ _ Hok) as (tp & m & t & Htp & _ & Ec & _). eapply Hn; [exact Htp|]. rewrite C. exact Ec.
Qed.

(** A transfer out of [a], with the delegation behind it. *)
Definition sent_from (H : hashes) (s : state) (sg : list addr) (i : instr) (s' : state) (a : addr) : Prop :=
  exists md x ar c m pe f f' o v, transfer_of i = Some (md, x, ar) /\ xa_from x = a /\ transferred s sg x ar s' md c m pe f o v /\
    st_toks s a = Some f /\ tk_delegate f = Some (pda_session (tk_owner f) (h_args H ar)) /\ v <= tk_delegated f /\
    balance s' a = balance s a - v /\ st_toks s' a = Some f' /\ tk_delegated f' = tk_delegated f - v.

Lemma program_touch H s cl s' a : reachable H s -> step H s cl = Ok s' -> of_program (ins cl) = true -> private a ->
  sent_from H s (signers cl) (ins cl) s' a \/ balance s a <= balance s' a.
Proof.
  intros Hr Hs Hp Hna. pose proof (reachable_inv _ _ Hr) as Hi. destruct cl as [sg i]. cbn [ins signers] in *.
  assert (Hsame : st_toks s' a = st_toks s a -> balance s a <= balance s' a).
  { intros Q. unfold balance. rewrite Q. lia. }
  assert (Htr : forall md x ar c m pe f f' o v, transfer_of i = Some (md, x, ar) -> transferred s sg x ar s' md c m pe f o v ->
    tk_delegate f = Some (pda_session (tk_owner f) (h_args H ar)) -> v <= tk_delegated f ->
    balance s' (xa_from x) = balance s (xa_from x) - v -> (forall b, b <> xa_from x -> b <> cf_custody c -> st_toks s' b = st_toks s b) ->
    st_toks s' (xa_from x) = Some f' -> tk_delegated f' = tk_delegated f - v ->
    sent_from H s sg i s' a \/ balance s a <= balance s' a).
  { intros md x ar c m pe f f' o v Et T A1 A2 A3 A4 A5 A6. pose proof (tr_config _ _ _ _ _ _ _ _ _ _ _ _ T) as Ec.
    destruct (config_ok_at _ _ _ Hi Ec) as (_ & Hok). pose proof (not_custody _ _ _ Hna Hok) as Hnc.
    destruct (addr_eq_dec a (xa_from x)) as [->|Hne].
    - left. exists md, x, ar, c, m, pe, f, f', o, v. pose proof (tr_from _ _ _ _ _ _ _ _ _ _ _ _ T). auto 12.
    - right. auto. }
  destruct i; try discriminate;
  lazymatch goal with
  | |- sent_from _ _ _ (ITransferLock _ _) _ _ \/ _ => idtac
  | |- sent_from _ _ _ (ITransferBurn _ _) _ _ \/ _ => idtac
  | |- sent_from _ _ _ (IReleaseUnlock _ _) _ _ \/ _ => idtac
  | |- sent_from _ _ _ (IReleaseMint _ _) _ _ \/ _ => idtac
  | |- _ => right; destruct (step_ops _ _ _ _ Hs) as (os & s1 & Hops & Hl & Hw); cbn [signers ins] in Hw;
            inversion Hw; subst; try discriminate; cbn in Hops;
            first [apply Ok_inj in Hops; subst; apply Hsame; now rewrite (proj1 Hl)|idtac]
  end.
  - apply bind_ok in Hops. destruct Hops as (s2 & E & Q). apply Ok_inj in Q. subst s2. apply Hsame. rewrite (proj1 Hl).
    apply tok_init_ok in E. destruct E as (mm & _ & _ & _ & _ & _ & ->). cbn. rewrite upd_other; [reflexivity|]. apply Hna. assumption.
  - destruct (lock_exact _ _ _ _ _ _ Hr Hs) as (c & m & pe & f & o & v & T & _ & _ & A1 & A2 & A3 & _ & A5 & (f' & A6 & _ & A7) & _).
    eapply Htr; [reflexivity|eauto..].
  - destruct (burn_exact _ _ _ _ _ _ Hr Hs) as (c & m & pe & f & o & v & T & _ & _ & A1 & A2 & A3 & A5 & (f' & A6 & _ & A7) & _).
    eapply Htr; [reflexivity|eauto..].
  - right. destruct (mint_exact _ _ _ _ _ _ Hr Hs) as [(-> & _)|(c & it & m & P & _ & _ & _ & [(_ & _ & Q)|(_ & Q1 & Q2 & _)])]; [lia| |].
    + apply Hsame, Q. eapply not_custody; [exact Hna|]. eapply config_ok_at; [exact Hi|]. apply P.
    + destruct (addr_eq_dec a (destination x c it)) as [->|]; [|auto]. pose proof (py_fee _ _ _ _ _ _ _ P). lia.
  - right. destruct (unlock_exact _ _ _ _ _ _ Hr Hs) as [(-> & _)|(c & it & m & P & [(_ & Q & _)|(_ & _ & Q1 & Q2 & _)])]; [lia| |].
    + apply Hsame, Q.
    + destruct (addr_eq_dec a (destination x c it)) as [->|].
      * pose proof (py_fee _ _ _ _ _ _ _ P). lia.
      * apply Hsame, Q2; [|assumption]. eapply not_custody; [exact Hna|]. eapply config_ok_at; [exact Hi|]. apply P.
Qed.

(** ** Where delegations come from *)
Lemma spend_delegate t auth x t' d : 0 <= x -> spend t auth x = Ok t' -> tk_delegate t' = Some d ->
  tk_delegate t = Some d /\ tk_delegated t' <= tk_delegated t.
Proof.
  intros Hx E Hd. apply spend_ok in E. destruct E as (_&_&_&_&[(Q1 & Q2 & Q3 & Q4)|(_&_&->)]); [|split; [exact Hd|lia]].
  rewrite Q4 in Hd. destruct (_ =? 0); [discriminate|]. split; [congruence|lia].
Qed.

Lemma op_delegate s o s' a t' d : ledger_ok s -> op_ok o -> run_op s o = Ok s' -> st_toks s' a = Some t' -> tk_delegate t' = Some d ->
  (exists t, st_toks s a = Some t /\ tk_delegate t = Some d /\ tk_owner t' = tk_owner t /\ tk_delegated t' <= tk_delegated t) \/
  (exists p x, o = OApprove p a (tk_owner t') d x /\ tk_delegated t' = x /\ exists t, st_toks s a = Some t /\ tk_owner t = tk_owner t').
Proof.
  intros Hl Ho E Ea Hd.
  assert (Hsame : st_toks s' a = st_toks s a -> exists t, st_toks s a = Some t /\ tk_delegate t = Some d /\ tk_owner t' = tk_owner t /\ tk_delegated t' <= tk_delegated t).
  { intros Q. exists t'. rewrite <- Q. repeat split; try assumption. lia. }
  destruct o; cbn [run_op op_ok] in *.
  - left. apply tok_transfer_ok in E. destruct E as (t0 & d0 & m & t1 & E1 & E2 & E3 & _ & _ & _ & _ & _ & _ & Hsp & _ & _ & [(_ & ->)|(Hne & _ & _ & _ & Qt)]).
    + apply Hsame. reflexivity.
    + rewrite Qt, upd_eq in Ea. destruct (addr_eq_dec a dst) as [->|].
      * apply Some_inj in Ea. subst t'. cbn in *. exists d0. repeat split; try assumption. lia.
      * rewrite upd_eq in Ea. destruct (addr_eq_dec a src) as [->|]; [|apply Hsame; rewrite Qt, !upd_other by assumption; reflexivity].
        apply Some_inj in Ea. subst t'. cbn in *. destruct (spend_delegate _ _ _ _ _ Ho Hsp Hd). exists t0.
        apply spend_ok in Hsp. destruct Hsp as (_&_&Q&_). repeat split; assumption.
  - left. apply tok_mint_to_ok in E. destruct E as (d0 & m & E1 & E2 & _ & _ & _ & _ & _ & _ & _ & Qt & _).
    rewrite Qt, upd_eq in Ea. destruct (addr_eq_dec a dst) as [->|]; [|apply Hsame; rewrite Qt, upd_other by assumption; reflexivity].
    apply Some_inj in Ea. subst t'. cbn in *. exists d0. repeat split; try assumption. lia.
  - left. apply tok_burn_ok in E. destruct E as (t0 & m & t1 & E1 & E2 & _ & _ & _ & _ & Hsp & _ & _ & Qt & _).
    rewrite Qt, upd_eq in Ea. destruct (addr_eq_dec a src) as [->|]; [|apply Hsame; rewrite Qt, upd_other by assumption; reflexivity].
    apply Some_inj in Ea. subst t'. cbn in *. destruct (spend_delegate _ _ _ _ _ Ho Hsp Hd). exists t0.
    apply spend_ok in Hsp. destruct Hsp as (_&_&Q&_). repeat split; assumption.
  - left. apply tok_init_ok in E. destruct E as (m & _ & _ & _ & E2 & _ & ->). cbn in *. rewrite upd_eq in Ea.
    destruct (addr_eq_dec a a0) as [->|]; [|apply Hsame; rewrite upd_other by assumption; reflexivity].
    apply Some_inj in Ea. subst t'. discriminate.
  - binds E. gets. bools. subst s'. cbn in *. rewrite upd_eq in Ea. destruct (addr_eq_dec a a0) as [->|]; [|left; apply Hsame; rewrite upd_other by assumption; reflexivity].
    apply Some_inj in Ea. subst t'. cbn in *. apply Some_inj in Hd. subst del. right. exists p, x. subst owner. split; [reflexivity|]. split; [reflexivity|].
    exists v. auto.
  - left. binds E. gets. bools. subst s'. cbn in *. rewrite upd_eq in Ea. destruct (addr_eq_dec a a0) as [->|]; [|apply Hsame; rewrite upd_other by assumption; reflexivity].
    apply Some_inj in Ea. subst t'. discriminate.
  - left. binds E. gets. bools. subst s'. apply Hsame. reflexivity.
  - left. binds E. gets. bools. subst s'. cbn in *. rewrite upd_eq in Ea. destruct (addr_eq_dec a a0) as [->|]; [|apply Hsame; rewrite upd_other by assumption; reflexivity].
    apply Some_inj in Ea. subst t'. discriminate.
  - left. binds E. gets. bools. subst s'. cbn in *. rewrite upd_eq in Ea. destruct (addr_eq_dec a a0) as [->|]; [|apply Hsame; rewrite upd_other by assumption; reflexivity].
    discriminate.
  - left. binds E. bools. subst s'. apply Hsame. reflexivity.
  - left. binds E. bools. subst s'. apply Hsame. reflexivity.
  - left. binds E. gets. bools. subst s'. cbn in *. rewrite upd_eq in Ea. destruct (addr_eq_dec a dst) as [->|]; [|apply Hsame; rewrite upd_other by assumption; reflexivity].
    apply Some_inj in Ea. subst t'. cbn in *. exists v0. repeat split; try assumption. lia.
Qed.

Lemma ops_delegate os : forall s s' a t' d, ledger_ok s -> Forall op_ok os -> run_ops s os = Ok s' ->
  st_toks s' a = Some t' -> tk_delegate t' = Some d ->
  (exists t, st_toks s a = Some t /\ tk_delegate t = Some d /\ tk_owner t' = tk_owner t /\ tk_delegated t' <= tk_delegated t) \/
  (exists p x, In (OApprove p a (tk_owner t') d x) os /\ tk_delegated t' <= x).
Proof.
  induction os as [|o os IH]; intros s s' a t' d Hl Ho E Ea Hd; cbn [run_ops] in E.
  - apply Ok_inj in E. subst s'. left. exists t'. repeat split; try assumption. lia.
  - apply bind_ok in E. destruct E as (s1 & E1 & E2). inversion Ho; subst. destruct (run_op_ok _ _ _ Hl H1 E1) as (Hl1 & _).
    destruct (IH _ _ _ _ _ Hl1 H2 E2 Ea Hd) as [(t & Et & Hdt & Hot & Hle)|(p & x & Hin & Hle)]; [|right; exists p, x; split; [right; exact Hin|exact Hle]].
    destruct (op_delegate _ _ _ _ _ _ Hl H1 E1 Et Hdt) as [(t0 & A & B & C & D)|(p & x & -> & Q & t0 & Et0 & Ho0)].
    + left. exists t0. repeat split; try congruence. lia.
    + right. exists p, x. rewrite Hot. split; [left; reflexivity|lia].
Qed.

(** A delegation was there before or is an approval signed by the owner of the account. *)
Lemma step_delegate H s cl s' a t' d : reachable H s -> step H s cl = Ok s' -> st_toks s' a = Some t' -> tk_delegate t' = Some d ->
  (exists t, st_toks s a = Some t /\ tk_delegate t = Some d /\ tk_owner t' = tk_owner t /\ tk_delegated t' <= tk_delegated t) \/
  (exists p x, ins cl = EApprove p a (tk_owner t') d x /\ In (tk_owner t') (signers cl) /\ tk_delegated t' <= x).
Proof.
  intros Hr Hs Ea Hd. pose proof (reachable_inv _ _ Hr) as Hi. pose proof (step_inv _ _ _ _ Hs) as (Hsg & Hty & _).
  destruct (step_ops _ _ _ _ Hs) as (os & s1 & Hops & Hl & Hw). rewrite (proj1 Hl) in Ea.
  pose proof (why_ok _ _ _ _ _ _ Hi Hsg Hty Hw) as Hok.
  destruct (ops_delegate _ _ _ _ _ _ (inv_ledger _ Hi) Hok Hops Ea Hd) as [Q|(p & x & Hin & Hle)]; [left; exact Q|right].
  assert (K : exists o, os = [o] /\ o = OApprove p a (tk_owner t') d x /\ env_op (ins cl) = Some o /\ (forall b, op_auth o = Some b -> signed (signers cl) b = true)).
  { destruct Hw; cbn in Hin; try tauto; repeat match goal with Q : _ \/ _ |- _ => destruct Q as [Q|Q]; [try discriminate Q|] end; try contradiction.
    exists o. auto. }
  destruct K as (o & -> & -> & He & Hau). exists p, x. split; [|split; [|exact Hle]].
  - destruct (ins cl); cbn in He; try discriminate. apply Some_inj in He. inversion He; subst. reflexivity.
  - apply signed_In, Hau. reflexivity.
Qed.

Lemma delegate_origin H s0 tr s a t d : reachable H s0 -> run H s0 tr s -> st_toks s a = Some t -> tk_delegate t = Some d ->
  (exists t0, st_toks s0 a = Some t0 /\ tk_delegate t0 = Some d /\ tk_owner t = tk_owner t0 /\ tk_delegated t <= tk_delegated t0) \/
  (exists e p x, In e tr /\ ins (e_call e) = EApprove p a (tk_owner t) d x /\ In (tk_owner t) (signers (e_call e)) /\ tk_delegated t <= x).
Proof.
  intros Hr R. revert t. induction R as [|tr s c s' R IH E]; intros t Ea Hd.
  - left. exists t. repeat split; try assumption. lia.
  - assert (Hrs : reachable H s) by (eapply run_reachable; eassumption).
    destruct (step_delegate _ _ _ _ _ _ _ Hrs E Ea Hd) as [(t1 & E1 & D1 & O1 & L1)|(p & x & Ei & Hin & Hle)].
    + destruct (IH _ E1 D1) as [(t0 & ?&?&?&?)|(e & p & x & Hin & Ei & Hsn & Hle)].
      * left. exists t0. repeat split; try congruence. lia.
      * right. exists e, p, x. rewrite O1. repeat split; try assumption; [right; exact Hin|lia].
    + right. exists (Ev s c s'), p, x. repeat split; try assumption. left. reflexivity.
Qed.

Lemma allowance_nonneg s a : inv s -> 0 <= allowance s a.
Proof.
  intros Hi. unfold allowance. destruct (st_toks s a) as [t|] eqn:E; [|lia]. destruct (proj1 (inv_ledger _ Hi) _ _ E) as (_&_&_&Q&_).
  destruct (tk_delegate t); [ilia|lia].
Qed.
Lemma allowance_step H s cl s' a : reachable H s -> step H s cl = Ok s' -> private a -> ~ is_approval a (ins cl) ->
  drained a (Ev s cl s') + allowance s' a <= allowance s a.
Proof.
  intros Hr Hs Hna Hap. pose proof (reachable_inv _ _ Hr) as Hi. pose proof (allowance_nonneg _ a Hi) as Hn.
  assert (Hle : allowance s' a <= allowance s a).
  { unfold allowance at 1. destruct (st_toks s' a) as [t'|] eqn:Ea; [|lia]. destruct (tk_delegate t') as [d|] eqn:Ed; [|lia].
    destruct (step_delegate _ _ _ _ _ _ _ Hr Hs Ea Ed) as [(t & Et & Dt & _ & Hl)|(p & x & Ei & _)].
    - unfold allowance. rewrite Et, Dt. exact Hl.
    - exfalso. apply Hap. unfold is_approval. eauto. }
  unfold drained. cbn [e_call e_pre e_post]. destruct (of_program (ins cl)) eqn:Ep; [|lia].
  destruct (program_touch _ _ _ _ a Hr Hs Ep Hna) as [(md & x & ar & c & m & pe & f & f' & o & v & Et & Ex & T & Ef & Ed & Hv & Hb & Ef' & Hd)|]; [|lia].
  pose proof (tr_range _ _ _ _ _ _ _ _ _ _ _ _ T). unfold allowance in *. rewrite Ef, Ef', Ed in *. destruct (tk_delegate f'); lia.
Qed.

Lemma drained_total H s0 tr s a : reachable H s0 -> run H s0 tr s -> private a ->
  (forall e, In e tr -> ~ is_approval a (ins (e_call e))) -> sum (drained a) tr + allowance s a <= allowance s0 a.
Proof.
  intros Hr R Hna. induction R as [|tr s c s' R IH E]; intros Hap; cbn [sum fold_right]; [lia|].
  assert (Hrs : reachable H s) by (eapply run_reachable; eassumption).
  pose proof (allowance_step _ _ _ _ a Hrs E Hna (Hap (Ev s c s') (or_introl eq_refl))).
  specialize (IH (fun e h => Hap e (or_intror h))). fold (sum (drained a) tr). lia.
Qed.

(** Funds leave a private account through the programs only by a transfer with the arguments its owner signed for. *)
Lemma drained_signed H s0 tr s cl s' a : reachable H s0 -> run H s0 tr s -> step H s cl = Ok s' -> of_program (ins cl) = true -> private a ->
  balance s' a < balance s a ->
  exists md x ar t d, transfer_of (ins cl) = Some (md, x, ar) /\ xa_from x = a /\ st_toks s a = Some t /\
    d = pda_session (tk_owner t) (h_args H ar) /\
    ((exists t0, st_toks s0 a = Some t0 /\ tk_owner t0 = tk_owner t /\ tk_delegate t0 = Some d /\ balance s a - balance s' a <= tk_delegated t0) \/
     (exists e p y, In e tr /\ ins (e_call e) = EApprove p a (tk_owner t) d y /\ In (tk_owner t) (signers (e_call e)) /\ balance s a - balance s' a <= y)).
Proof.
  intros Hr R Hs Ep Hna Hlt. assert (Hrs : reachable H s) by (eapply run_reachable; eassumption).
  destruct (program_touch _ _ _ _ a Hrs Hs Ep Hna) as [(md & x & ar & c & m & pe & f & f' & o & v & Et & Ex & T & Ef & Ed & Hv & Hb & Ef' & Hd)|]; [|lia].
  exists md, x, ar, f, (pda_session (tk_owner f) (h_args H ar)). repeat (split; [assumption || reflexivity|]).
  destruct (delegate_origin _ _ _ _ _ _ _ Hr R Ef Ed) as [(t0 & A & B & C & D)|(e & p & y & A & B & C & D)].
  - left. exists t0. repeat split; try congruence. lia.
  - right. exists e, p, y. repeat split; try assumption. lia.
Qed.

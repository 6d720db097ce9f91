(** * Proofs about what happens after a peer is replaced (C114). *)
From Verif Require Export WindowFacts SpecCut.
Import ListNotations.
Local Open Scope Z_scope.

Lemma peer_step H s cl s' ch P : step H s cl = Ok s' -> peer_at s ch P -> ~ sets_peer ch (ins cl) -> peer_at s' ch P.
Proof.
  intros Hs L N. destruct (step_change _ _ _ _ Hs (pda_peer ch)) as [Q|Q]; unfold peer_at in *; [congruence|].
  rewrite L in Q. remember (pda_peer ch) as a0 eqn:Ea. remember (st_accts s' a0) as q eqn:Eq. exfalso. inversion Q; subst; try discriminate.
  match goal with E : pda_peer _ = pda_peer _ |- _ => injection E as -> end.
  match goal with E : _ = ins cl |- _ => apply N; do 5 eexists; symmetry; exact E end.
Qed.
Theorem peer_run H s tr s' ch P : run H s tr s' -> peer_at s ch P -> (forall e, In e tr -> ~ sets_peer ch (ins (e_call e))) ->
  peer_at s' ch P /\ forall e, In e tr -> peer_at (e_pre e) ch P.
Proof.
  intros R L. induction R as [|tr s1 cl s' R IH E]; intros N; [split; [exact L|contradiction]|].
  destruct (IH (fun e I => N e (or_intror I))) as (L1 & A). split; [eapply peer_step; [exact E|exact L1|exact (N _ (or_introl eq_refl))]|].
  intros e [<-|I]; [exact L1|apply A, I].
Qed.
Lemma same_peer s ch P Q : peer_at s ch P -> peer_at s ch Q -> P = Q.
Proof. unfold peer_at. congruence. Qed.

(** ** In *)
Theorem cut_in H s tr s' ch P e x p tm c rt pe : run H s tr s' -> peer_at s ch P -> (forall e, In e tr -> ~ sets_peer ch (ins (e_call e))) ->
  In e tr -> delivers (e_pre e) x p ch tm c rt pe -> tm_source tm = pe_address P.
Proof.
  intros R L N I D. destruct (peer_run _ _ _ _ _ _ R L N) as (_ & A). pose proof (same_peer _ _ _ _ (A e I) (dl_peer _ _ _ _ _ _ _ _ D)) as ->. symmetry. exact (dl_source _ _ _ _ _ _ _ _ D).
Qed.
Theorem cut_refused H s tr s' ch P sg x p tm s2 : reachable H s -> run H s tr s' -> peer_at s ch P -> (forall e, In e tr -> ~ sets_peer ch (ins (e_call e))) ->
  st_accts s' (ra_message x) = Some (Acct p (DVtm ch tm)) -> tm_source tm <> pe_address P -> step H s' (Call sg (IRedeem x)) <> Ok s2.
Proof.
  intros Hr R L N Hm Ne E. destruct (redeem_exact _ _ _ _ _ (run_reachable _ _ _ _ Hr R) E) as (p' & k & tm' & c & rt & pe & m & b & af & Rd).
  pose proof (rd_delivers _ _ _ _ _ _ _ _ _ _ _ _ _ Rd) as D. pose proof (dl_message _ _ _ _ _ _ _ _ D) as Q. rewrite Hm in Q. injection Q as <- <- <-.
  pose proof (same_peer _ _ _ _ (proj1 (peer_run _ _ _ _ _ _ R L N)) (dl_peer _ _ _ _ _ _ _ _ D)) as ->. apply Ne. symmetry. exact (dl_source _ _ _ _ _ _ _ _ D).
Qed.
Theorem cut_paid H s0 tr0 s tr s' ch P e a : initial s0 -> run H s0 tr0 s -> run H s tr s' -> peer_at s ch P -> (forall e, In e tr -> ~ sets_peer ch (ins (e_call e))) ->
  In e tr -> payout e = Some a -> open_in s a ->
  exists e1 x p k tm c rt pe, In e1 tr /\ ins (e_call e1) = IRedeem x /\ delivers (e_pre e1) x p k tm c rt pe /\ item_of H k (tm_msg tm) = a /\ (k = ch -> tm_source tm = pe_address P).
Proof.
  intros Hini R0 R L N Ie Pe (Os & Or). assert (Ra : run H s0 (tr ++ tr0) s') by (eapply run_app; eassumption).
  destruct (payout_delay _ _ _ _ _ _ Hini Ra (in_or_app _ _ _ (or_introl Ie)) Pe) as (tr5 & tr4 & tr3 & e1 & p & k & tm & c & m & it & t & irl & Etr & Ap & _).
  assert (I1 : In e1 (tr ++ tr0)) by (rewrite Etr; apply in_or_app; right; right; apply in_or_app; right; now left).
  pose proof Ap as (x & rt & pe & b & Ei & Eit & Rd & Nr & Nsch & Est).
  pose proof (rd_after _ _ _ _ _ _ _ _ _ _ _ _ _ Rd) as Haf. rewrite Eit in Haf.
  assert (I1' : In e1 tr).
  { apply in_app_or in I1. destruct I1 as [I1|I1]; [exact I1|]. exfalso. destruct (In_split_run _ _ _ _ _ R0 I1) as (u2 & u1 & _ & R1 & E1 & R2).
    assert (Hr1 : reachable H (e_post e1)) by (eapply step_reachable; [exists s0, u1; split; [exact Hini|exact R1]|exact E1]).
    destruct (status_run _ _ _ _ _ _ Hr1 R2 Haf) as (it' & Hit' & _ & _ & Lt). rewrite Est in Lt. unfold released in Or. rewrite (status_inbox _ _ _ Hit') in Or. rewrite (scheduled_inbox _ _ _ Hit') in Os.
    apply later_scheduled in Lt. destruct Lt as [Lt|Lt]; rewrite Lt in *; discriminate. }
  pose proof (rd_delivers _ _ _ _ _ _ _ _ _ _ _ _ _ Rd) as D. exists e1, x, p, k, tm, c, rt, pe. split; [exact I1'|]. split; [exact Ei|]. split; [exact D|]. split; [exact Eit|].
  intros ->. exact (cut_in _ _ _ _ _ _ _ _ _ _ _ _ _ R L N I1' D).
Qed.

(** ** Out *)
Theorem cut_out H s tr s' ch P e md x a : reachable H s -> run H s tr s' -> peer_at s ch P -> (forall e, In e tr -> ~ sets_peer ch (ins (e_call e))) ->
  In e tr -> transfer_of (ins (e_call e)) = Some (md, x, a) -> ar_chain a = ch ->
  exists o, outbox_at (e_post e) (xa_outbox_item x) o /\ ob_chain o = ch /\ ob_manager o = pe_address P.
Proof.
  intros Hr R L N I Ti <-. destruct (In_split_run _ _ _ _ _ R I) as (u2 & u1 & _ & R1 & E & _). destruct (e_call e) as [sg i] eqn:Ec. cbn [ins] in Ti.
  destruct (transfer_limits _ _ _ _ _ _ _ _ (run_reachable _ _ _ _ Hr R1) E Ti) as (c & m & pe & f & o & v & orl & irl & orl' & irl' & T & _).
  exists o. split; [exact (tr_item _ _ _ _ _ _ _ _ _ _ _ _ T)|]. split; [exact (tr_chain _ _ _ _ _ _ _ _ _ _ _ _ T)|].
  rewrite (tr_manager _ _ _ _ _ _ _ _ _ _ _ _ T). now rewrite (same_peer _ _ _ _ (tr_peer _ _ _ _ _ _ _ _ _ _ _ _ T) (proj2 (peer_run _ _ _ _ _ _ R L N) e I)).
Qed.

(** ** The emitters *)
Theorem emitter_run H s tr s' p ch a : reachable H s -> run H s tr s' -> is_ntt_prog p = true -> emitter_at s p ch a -> emitter_at s' p ch a.
Proof.
  intros Hr R Np (b & L). exists b. induction R as [|tr s1 cl s' R IH E]; [exact L|]. eapply xpeer_kept; [exact (run_reachable _ _ _ _ Hr R)|exact E|exact Np|exact IH].
Qed.

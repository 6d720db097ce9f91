(** * Transactions and histories. *)
From Verif Require Export Kept.
Local Open Scope Z_scope.

(** The calls of a history, oldest first. *)
Definition calls_of (tr : list ev) : list call := rev (map e_call tr).

(** A history of transactions: apply them in order; a failing one leaves the state as it was. *)
Definition apply_txs (H : hashes) (s : state) (txs : list (list call)) : state := fold_left (apply_tx H) txs s.
(** The transactions that succeed. *)
Fixpoint done (H : hashes) (s : state) (txs : list (list call)) : list (list call) :=
  match txs with
  | [] => []
  | tx :: r => match exec_tx H s tx with Ok s' => tx :: done H s' r | Err _ => done H s r end
  end.

Lemma run_app H s0 tr1 s1 tr2 s2 : run H s0 tr1 s1 -> run H s1 tr2 s2 -> run H s0 (tr2 ++ tr1) s2.
Proof. intros R1 R2. induction R2; cbn; [exact R1|]. apply run_step; auto. Qed.

Lemma exec_tx_run H tx : forall s s', exec_tx H s tx = Ok s' -> exists tr, run H s tr s' /\ calls_of tr = tx.
Proof.
  induction tx as [|c tx IH]; cbn; intros s s' E.
  - apply Ok_inj in E. subst. exists []. split; [constructor|reflexivity].
  - apply bind_ok in E. destruct E as (s1 & E1 & E2). destruct (IH _ _ E2) as (tr & R & Hc).
    exists (tr ++ [Ev s c s1]). split.
    + eapply run_app; [|exact R]. apply run_step; [constructor|exact E1].
    + unfold calls_of in *. rewrite map_app, rev_app_distr. cbn. congruence.
Qed.

Lemma apply_txs_run H txs : forall s, exists tr, run H s tr (apply_txs H s txs) /\ calls_of tr = concat (done H s txs).
Proof.
  induction txs as [|tx txs IH]; intros s; cbn.
  - exists []. split; [constructor|reflexivity].
  - unfold apply_tx. destruct (exec_tx H s tx) as [s1|e] eqn:E; [|apply IH].
    destruct (exec_tx_run _ _ _ _ E) as (tr1 & R1 & C1). destruct (IH s1) as (tr2 & R2 & C2).
    exists (tr2 ++ tr1). split; [eapply run_app; eassumption|]. unfold calls_of in *. rewrite map_app, rev_app_distr. cbn. congruence.
Qed.

Lemma run_reachable H s tr s' : reachable H s -> run H s tr s' -> reachable H s'.
Proof. intros (s0 & tr0 & Hi & R0) R. exists s0, (tr ++ tr0). split; [exact Hi|]. eapply run_app; eassumption. Qed.
Lemma step_reachable H s c s' : reachable H s -> step H s c = Ok s' -> reachable H s'.
Proof. intros Hr E. eapply run_reachable; [exact Hr|]. eapply run_step; [constructor|exact E]. Qed.

(** Every event of a history is a step between states of the history. *)
Lemma run_event H s0 tr s e : run H s0 tr s -> In e tr ->
  step H (e_pre e) (e_call e) = Ok (e_post e) /\
  exists tr1 tr2, run H s0 tr1 (e_pre e) /\ run H (e_post e) tr2 s /\ tr = tr2 ++ e :: tr1.
Proof.
  intros R Hin. induction R as [|tr s c s' R IH E]; [contradiction|]. destruct Hin as [<-|Hin]; cbn.
  - split; [exact E|]. exists tr, []. repeat split; [exact R|constructor].
  - destruct (IH Hin) as (Hs & tr1 & tr2 & R1 & R2 & ->). split; [exact Hs|]. exists tr1, (Ev s c s' :: tr2).
    split; [exact R1|]. split; [|reflexivity]. apply run_step; assumption.
Qed.

Lemma initial_reachable H s : initial s -> reachable H s.
Proof. intros Hi. exists s, []. split; [exact Hi|constructor]. Qed.
Lemma event_reachable H s0 tr s e : reachable H s0 -> run H s0 tr s -> In e tr -> reachable H (e_pre e) /\ reachable H (e_post e).
Proof.
  intros Hr R Hin. destruct (run_event _ _ _ _ _ R Hin) as (Hs & tr1 & tr2 & R1 & _).
  assert (reachable H (e_pre e)) by (eapply run_reachable; eassumption). split; [assumption|]. eapply step_reachable; eassumption.
Qed.

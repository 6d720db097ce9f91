(** * What can be lost within a day (C111). *)
From Verif Require Export DrainFacts.
From Verif Require Import Scenario PropsFlow PropsWindow.
Import ListNotations.
Local Open Scope Z_scope.
Local Open Scope list_scope.

(** Locking: whatever the other chains, the transceivers and everyone but the owner do for less than a day, the custody account loses no more than the items that were waiting
    and are paid now, and what the inbound limiters had to give and get back in this time.  What is sent out in the meantime makes room for what comes in, but is in custody itself. *)
Theorem C111_custody : forall H s0 tr0 s tr s' c chs lim t0 t1, initial s0 -> run H s0 tr0 s -> run H s tr s' -> no_collision H (tr ++ tr0) -> config_at s pda_config c -> cf_mode c = Locking ->
  t0 <= t1 -> t1 < t0 + day -> during t0 t1 tr -> NoDup chs -> from_chains chs (tr ++ tr0) -> (forall ch, In ch chs -> in_limiter s ch (lim ch)) ->
  (forall e ch, In e tr -> In ch chs -> ~ sets_inbound ch (ins (e_call e))) ->
  (balance s (cf_custody c) - balance s' (cf_custody c) - sum (waited s) tr) * day <= given lim t0 t1 chs.
Proof. exact custody_day. Qed.
Print Assumptions C111_custody.

(** Burning: the same for the growth of the supply, with what holders burn themselves put back. *)
Theorem C111_supply : forall H s0 tr0 s tr s' c chs lim t0 t1, initial s0 -> run H s0 tr0 s -> run H s tr s' -> no_collision H (tr ++ tr0) -> config_at s pda_config c -> cf_mode c = Burning ->
  t0 <= t1 -> t1 < t0 + day -> during t0 t1 tr -> NoDup chs -> from_chains chs (tr ++ tr0) -> (forall ch, In ch chs -> in_limiter s ch (lim ch)) ->
  (forall e ch, In e tr -> In ch chs -> ~ sets_inbound ch (ins (e_call e))) ->
  (supply_of s' (cf_mint c) + sum (burned_by_holder (cf_mint c)) tr - supply_of s (cf_mint c) - sum (waited s) tr) * day <= given lim t0 t1 chs.
Proof. exact supply_day. Qed.
Print Assumptions C111_supply.

(** If the owner pauses the deployment before the day is over and does not end the pause, that is all, for ever. *)
Theorem C111_custody_paused : forall H s0 tr0 s tr s1 tr2 s2 c chs lim t0 t1, initial s0 -> run H s0 tr0 s -> run H s tr s1 -> run H s1 tr2 s2 -> no_collision H (tr ++ tr0) -> config_at s pda_config c -> cf_mode c = Locking ->
  t0 <= t1 -> t1 < t0 + day -> during t0 t1 tr -> NoDup chs -> from_chains chs (tr ++ tr0) -> (forall ch, In ch chs -> in_limiter s ch (lim ch)) ->
  (forall e ch, In e tr -> In ch chs -> ~ sets_inbound ch (ins (e_call e))) -> paused_in s1 -> (forall e, In e tr2 -> ~ unpauses (ins (e_call e))) ->
  (balance s (cf_custody c) - balance s2 (cf_custody c) - sum (waited s) tr) * day <= given lim t0 t1 chs.
Proof. exact custody_paused. Qed.
Print Assumptions C111_custody_paused.
Theorem C111_supply_paused : forall H s0 tr0 s tr s1 tr2 s2 c chs lim t0 t1, initial s0 -> run H s0 tr0 s -> run H s tr s1 -> run H s1 tr2 s2 -> no_collision H (tr ++ tr0) -> config_at s pda_config c -> cf_mode c = Burning ->
  t0 <= t1 -> t1 < t0 + day -> during t0 t1 tr -> NoDup chs -> from_chains chs (tr ++ tr0) -> (forall ch, In ch chs -> in_limiter s ch (lim ch)) ->
  (forall e ch, In e tr -> In ch chs -> ~ sets_inbound ch (ins (e_call e))) -> paused_in s1 -> (forall e, In e tr2 -> ~ unpauses (ins (e_call e))) ->
  (supply_of s2 (cf_mint c) + sum (burned_by_holder (cf_mint c)) (tr2 ++ tr) - supply_of s (cf_mint c) - sum (waited s) tr) * day <= given lim t0 t1 chs.
Proof. exact supply_paused. Qed.
Print Assumptions C111_supply_paused.

(** ** The case of [PropsWindow.v], for the supply: the bound leaves less than 8 units. *)
Definition from_two (e : ev) : bool :=
  match ins (e_call e) with IRedeem x => match st_accts (e_pre e) (ra_message x) with Some (Acct _ (DVtm ch _)) => ch =? 2 | _ => true end | _ => true end.
Lemma two_chains tr : forallb from_two tr = true -> from_chains [2] tr.
Proof.
  intros F e p ch nm I (x & tm & c & rt & pe & Ei & Dl & _). pose proof (proj1 (forallb_forall _ _) F e I) as Q. unfold from_two in Q.
  rewrite Ei, (dl_message _ _ _ _ _ _ _ _ Dl : st_accts _ _ = _) in Q. apply Z.eqb_eq in Q. left. congruence.
Qed.
Definition full (_ : Z) : rl := RL 3000000000 3000000000 0.
Example C111_supply_case : run H0 (s_start Burning) (events H0 (s_start Burning) (firstn 5 (calls Burning))) (at_ Burning 5) /\ run H0 (at_ Burning 5) wrong_tr wrong_end /\
  no_collision H0 (wrong_tr ++ events H0 (s_start Burning) (firstn 5 (calls Burning))) /\ during 1000 87399 wrong_tr /\
  from_chains [2] (wrong_tr ++ events H0 (s_start Burning) (firstn 5 (calls Burning))) /\ (forall ch, In ch [2] -> in_limiter (at_ Burning 5) ch (full ch)) /\
  (forall e ch, In e wrong_tr -> In ch [2] -> ~ sets_inbound ch (ins (e_call e))) /\
  supply_of wrong_end MINT + sum (burned_by_holder MINT) wrong_tr - supply_of (at_ Burning 5) MINT - sum (waited (at_ Burning 5)) wrong_tr = 5999965270 /\ given full 1000 87399 [2] / day = 5999965277.
Proof.
  split; [exact before_runs|]. split; [exact wrong_runs|]. split; [exact (proj1 (proj2 (proj2 C110_case)))|]. split; [exact wrong_during|]. split; [apply two_chains; vm_compute; reflexivity|].
  split; [intros ch [<-|[]]; vm_compute; reflexivity|]. split; [intros e ch I [<-|[]]; exact (proj1 (wrong_quiet e I))|]. split; vm_compute; reflexivity.
Qed.

(** ** Custody: after the worked transfer 400000000 are waiting to be paid at once, and 1000000000 are in custody. Those are paid, and the wrong chain takes 500000000 more;
    its next 4000000000 have to wait. *)
Definition unlock (a : addr) : call := Call [] (IReleaseUnlock (ReleaseAccts pda_config a PToken true) true).
Definition taking : list call := [Call [] (ECreateAta PToken RCPT MINT); unlock in_inbox] ++ come 5 50000000 ++ [unlock (bad_item 5 50000000)] ++ come 6 400000000.
Definition taking_tr : list ev := events H0 (at_ Locking 11) taking.
Definition taking_end : state := apply_tx H0 (at_ Locking 11) taking.
Example C111_custody_case : run H0 (at_ Locking 11) taking_tr taking_end /\ forallb within taking_tr = true /\ forallb from_two taking_tr = true /\
  (balance (at_ Locking 11) custody, balance taking_end custody, sum (waited (at_ Locking 11)) taking_tr) = (1000000000, 100000000, 400000000) /\
  status_at taking_end (bad_item 6 400000000) = Some (ReleaseAfter (1000 + day)) /\ match st_accts (at_ Locking 11) pda_config with Some (Acct PManager (DConfig c)) => cf_mode c = Locking /\ cf_custody c = custody | _ => False end.
Proof. split; [apply tx_run; vm_compute; reflexivity|]. split; [vm_compute; reflexivity|]. split; [vm_compute; reflexivity|]. split; [vm_compute; reflexivity|]. split; [vm_compute; reflexivity|]. vm_compute. split; reflexivity. Qed.

(** ** The day is needed: the limiters delay, they do not refuse.  A second later what a wrong chain claims is paid in full, here more than a thousand times the bound. *)
Definition claiming : list call := [Call [] (ECreateAta PToken RCPT MINT)] ++ come 9 1000000000000 ++ [Call [] (EClock 87400); pay 9 1000000000000].
Definition claiming_tr : list ev := events H0 (at_ Burning 5) claiming.
Definition claiming_end : state := apply_tx H0 (at_ Burning 5) claiming.
Example C111_longer_case : run H0 (at_ Burning 5) claiming_tr claiming_end /\ during 1000 (1000 + day) claiming_tr /\ from_chains [2] claiming_tr /\
  (forall e ch, In e claiming_tr -> In ch [2] -> ~ sets_inbound ch (ins (e_call e))) /\
  supply_of claiming_end MINT - supply_of (at_ Burning 5) MINT = 10000000000000 /\ given full 1000 (1000 + day) [2] / day = 6000000000.
Proof.
  split; [apply tx_run; vm_compute; reflexivity|].
  split; [intros e I; assert (Q : (1000 <=? st_now (e_pre e)) && (st_now (e_pre e) <=? 1000 + day) = true) by (revert e I; apply all_of; vm_compute; reflexivity); apply andb_true_iff in Q; lia|].
  split; [apply two_chains; vm_compute; reflexivity|].
  split; [intros e ch I [<-|[]]; assert (Q : negb (is_owners e) = true) by (revert e I; apply (all_of (fun e => negb (is_owners e))); vm_compute; reflexivity); unfold is_owners in Q; intros [(c & o & l & E)|(c & o & a & l & d & E)]; rewrite E in Q; discriminate|].
  split; vm_compute; reflexivity.
Qed.

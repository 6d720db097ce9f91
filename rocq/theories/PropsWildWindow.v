(** * The rate limits over histories in which the ledger changes in any way (C110). *)
From Verif Require Export WildWindowFacts.
From Verif Require Import Scenario PropsFlow PropsWild PropsWindow WildWindowFacts.
Import ListNotations.
Local Open Scope Z_scope.
Local Open Scope list_scope.

(** The bounds do not depend on what token accounts and mints are like: they hold when these change in any way between instructions ([Wild.v]).
    Amounts are then in units of the mint as it is when a message is redeemed or a transfer made. *)
Theorem C110_wild_inbound : forall H s tr s' ch r t0 t1, wreachable H s -> wrun H s tr s' -> in_limiter s ch r -> t0 <= t1 -> during t0 t1 tr ->
  (forall e, In e tr -> ~ sets_inbound ch (ins (e_call e))) ->
  sum (in_at_once H (one ch)) tr * day <= room r t0 + (t1 - t0) * rl_limit r + sum (out_at_once (one ch)) tr * day.
Proof. exact w_inbound_bound. Qed.
Print Assumptions C110_wild_inbound.

Theorem C110_wild_outbound : forall H s tr s' r t0 t1, wreachable H s -> wrun H s tr s' -> out_limiter s r -> t0 <= t1 -> during t0 t1 tr ->
  (forall e, In e tr -> ~ sets_outbound (ins (e_call e))) ->
  sum (out_at_once every) tr * day <= room r t0 + (t1 - t0) * rl_limit r + sum (in_at_once H every) tr * day.
Proof. exact w_outbound_bound. Qed.
Print Assumptions C110_wild_outbound.

Theorem C110_wild_paused : forall H s0 tr0 s tr s1 tr2 s2 ch r t0 t1 l, initial s0 -> wrun H s0 tr0 s -> wrun H s tr s1 -> wrun H s1 tr2 s2 -> no_collision H (tr2 ++ tr ++ tr0) ->
  in_limiter s ch r -> t0 <= t1 -> t1 < t0 + day -> during t0 t1 tr -> (forall e, In e tr -> ~ sets_inbound ch (ins (e_call e))) ->
  paused_in s1 -> (forall e, In e tr2 -> ~ unpauses (ins (e_call e))) ->
  NoDup l -> (forall a, In a l -> open_in s a /\ paid_for H ch (tr2 ++ tr ++ tr0) (tr2 ++ tr) a) ->
  amounts s2 l * day <= room r t0 + (t1 - t0) * rl_limit r + sum (out_at_once (one ch)) tr * day.
Proof. exact w_paused_bound. Qed.
Print Assumptions C110_wild_paused.

Theorem C110_wild_paid : forall H s0 tr0 s tr s' ch r t0 t1 l, initial s0 -> wrun H s0 tr0 s -> wrun H s tr s' -> no_collision H (tr ++ tr0) ->
  in_limiter s ch r -> t0 <= t1 -> t1 < t0 + day -> during t0 t1 tr -> (forall e, In e tr -> ~ sets_inbound ch (ins (e_call e))) ->
  NoDup l -> (forall a, In a l -> open_in s a /\ paid_for H ch (tr ++ tr0) tr a) ->
  amounts s' l * day <= room r t0 + (t1 - t0) * rl_limit r + sum (out_at_once (one ch)) tr * day.
Proof. exact w_paid_bound. Qed.
Print Assumptions C110_wild_paid.

Theorem C110_wild_sent : forall H s tr s' r t0 t1, wreachable H s -> wrun H s tr s' -> out_limiter s r -> t0 <= t1 -> t1 < t0 + day -> during t0 t1 tr ->
  (forall e, In e tr -> ~ sets_outbound (ins (e_call e))) ->
  sum (sent_value s') tr * day <= room r t0 + (t1 - t0) * rl_limit r + sum (in_at_once H every) tr * day.
Proof. exact w_sent_bound. Qed.
Print Assumptions C110_wild_sent.

Theorem C110_wild_sent_paused : forall H s tr s1 tr2 s2 r t0 t1, wreachable H s -> wrun H s tr s1 -> wrun H s1 tr2 s2 -> out_limiter s r -> t0 <= t1 -> t1 < t0 + day -> during t0 t1 tr ->
  (forall e, In e tr -> ~ sets_outbound (ins (e_call e))) -> paused_in s1 -> (forall e, In e tr2 -> ~ unpauses (ins (e_call e))) ->
  sum (sent_value s2) (tr2 ++ tr) * day <= room r t0 + (t1 - t0) * rl_limit r + sum (in_at_once H every) tr * day.
Proof. exact w_sent_paused_bound. Qed.
Print Assumptions C110_wild_sent_paused.

(** The worked case of [PropsWindow.v] after the mint was made anew with 8 decimals: the three messages are then worth a tenth of what they were,
    and all three are let through at once. *)
Definition other_start : state := remade 8 (at_ Burning 5).
Definition other_tr : list ev := events H0 other_start wrong.
Definition other_end : state := apply_tx H0 other_start wrong.
Definition other_within (e : ev) : bool := (1000 <=? st_now (e_pre e)) && (st_now (e_pre e) <=? 87399) && negb (is_owners e).
Lemma other_runs : wrun H0 (at_ Burning 5) other_tr other_end.
Proof.
  rewrite <- (app_nil_r other_tr). eapply wrun_app; [eapply wrun_wild; [constructor|]|apply wrun_of_run, tx_run; vm_compute; reflexivity].
  apply remade_wild; [apply at_dec|ilia].
Qed.
Example C110_wild_case : wreachable H0 (at_ Burning 5) /\ wrun H0 (at_ Burning 5) other_tr other_end /\ in_limiter (at_ Burning 5) 2 (RL 3000000000 3000000000 0) /\
  forallb other_within other_tr = true /\ map (in_at_once H0 (one 2)) (rev other_tr) = [0; 0; 0; 300000000; 0; 0; 0; 0; 299996527; 0; 0; 0; 1] /\
  amounts other_end PropsWindow.taken = 599996527 /\ map (status_at other_end) PropsWindow.taken = [Some Released; Some Released].
Proof.
  split; [destruct (at_reachable Burning 5) as (s0 & tr & Hi & R); exists s0, tr; split; [exact Hi|apply wrun_of_run, R]|]. split; [exact other_runs|].
  repeat match goal with |- _ /\ _ => split end; vm_compute; reflexivity.
Qed.

(** The deposits of [PropsWindow.v] after the same change of the mint. *)
Definition other_stop : list ev := events H0 other_start (sending ++ [stop]).
Definition other_stopped : state := apply_tx H0 other_start (sending ++ [stop]).
Example C110_wild_sent_case : wrun H0 (at_ Burning 5) other_stop other_stopped /\ out_limiter (at_ Burning 5) (RL 3000000000 3000000000 0) /\ paused_in other_stopped /\
  forallb other_within other_stop = true /\
  map (fun e => (deposited e, sent_value other_stopped e)) (rev other_stop) = [(0, 0); (3000000000, 3000000000); (0, 0); (0, 0); (0, 0); (1900000000, 0); (0, 0)].
Proof.
  split.
  { rewrite <- (app_nil_r other_stop). eapply wrun_app; [eapply wrun_wild; [constructor|]|apply wrun_of_run, tx_run; vm_compute; reflexivity].
    apply remade_wild; [apply at_dec|ilia]. }
  split; [vm_compute; reflexivity|]. split; [eexists; split; [vm_compute; reflexivity|reflexivity]|]. split; vm_compute; reflexivity.
Qed.

(** * What can be lost within a day, over packets (C111 with C109). *)
From Verif Require Import SubmitFacts WindowFacts EffectFacts DrainFacts Scenario PropsFlow PropsWindow PropsDrain PropsEntry PropsTx PropsSubmit PropsSubmitWindow.
From Verif Require Import Submit.
Import ListNotations.
Local Open Scope Z_scope.
Local Open Scope list_scope.

(** Whatever packets arrive that neither the owner nor the named successor has signed, with whatever third-party programs in them: they come to a history
    by which custody loses, or the supply gains, no more within less than a day than what was waiting and what the limiters give. *)
Theorem C111_packets : forall ed hn nm H s0 l0 s l s' c, initial s0 -> chain ed hn nm H s0 l0 s -> chain ed hn nm H s l s' -> config_at s pda_config c -> silent ed hn l c ->
  exists tr0 tr, run H s0 tr0 s /\ run H s tr s' /\
  (forall e, In e tr -> (exists t, e_call e = Call [] (EClock t)) \/
     exists b, In b l /\ (forall t, ins (e_call e) <> EClock t) /\ forall x, In x (signers (e_call e)) -> agreed ed hn b x \/ third_party x) /\
  forall t0 t1 chs lim, t0 <= t1 -> t1 < t0 + day -> during t0 t1 tr -> no_collision H (tr ++ tr0) -> NoDup chs -> from_chains chs (tr ++ tr0) ->
    (forall ch, In ch chs -> in_limiter s ch (lim ch)) ->
    (cf_mode c = Locking -> (balance s (cf_custody c) - balance s' (cf_custody c) - sum (waited s) tr) * day <= SpecDrain.given lim t0 t1 chs) /\
    (cf_mode c = Burning -> (supply_of s' (cf_mint c) + sum (burned_by_holder (cf_mint c)) tr - supply_of s (cf_mint c) - sum (waited s) tr) * day <= SpecDrain.given lim t0 t1 chs).
Proof.
  intros ed hn nm H s0 l0 s l s' c Hi C0 C Hc A. destruct (chain_history _ _ _ _ _ _ _ C0) as (tr0 & R0 & _).
  assert (Hr : reachable H s) by (exists s0, tr0; split; assumption). destruct (silent_events _ _ _ _ _ _ _ _ _ Hr Hc C A) as (tr & R & F & Q).
  exists tr0, tr. split; [exact R0|]. split; [exact R|]. split; [exact (proj1 (Forall_forall _ _) F)|]. intros t0 t1 chs lim T1 T2 D NC N Fc L. split; intros M.
  - exact (custody_day _ _ _ _ _ _ _ _ _ _ _ Hi R0 R NC Hc M T1 T2 D N Fc L (fun e ch I _ => proj1 (Q e ch I))).
  - exact (supply_day _ _ _ _ _ _ _ _ _ _ _ Hi R0 R NC Hc M T1 T2 D N Fc L (fun e ch I _ => proj1 (Q e ch I))).
Qed.
Print Assumptions C111_packets.

(** The packets of [PropsSubmitWindow.v]: the theorem applies to them, and the supply grows by 5999965270. *)
Example C111_packets_case : (exists tr0 tr, run H0 (s_start Burning) tr0 p1 /\ run H0 p1 tr p4) /\ supply_of p4 MINT - supply_of p1 MINT = 5999965270.
Proof.
  split; [|vm_compute; reflexivity]. destruct C110_packets_case as (A & B & _).
  destruct (C111_packets toy names nm0 H0 (s_start Burning) _ p1 _ p4 (config_of p1) (s_start_initial Burning) A B ltac:(vm_compute; reflexivity) not_signed) as (tr0 & tr & R0 & R & _).
  exists tr0, tr. split; [exact R0|exact R].
Qed.

(** * What can be lost within a day (C111). *)
From Verif Require Export WindowFacts FlowFacts SpecDrain.
From Verif Require Import NetFacts.
Import ListNotations.
Local Open Scope Z_scope.

Definition over (f : Z -> Z) (l : list Z) : Z := fold_right (fun x n => f x + n) 0 l.
Lemma over_le f g l : (forall x, In x l -> f x <= g x) -> over f l <= over g l.
Proof.
  induction l as [|x l IH]; intros L; [reflexivity|]. cbn [over fold_right]. fold (over f l) (over g l). pose proof (L x (or_introl eq_refl)). specialize (IH (fun y I => L y (or_intror I))). lia.
Qed.
Lemma over_nonneg f l : (forall x, In x l -> 0 <= f x) -> 0 <= over f l.
Proof. induction l as [|x l IH]; intros L; [reflexivity|]. cbn [over fold_right]. fold (over f l). pose proof (L x (or_introl eq_refl)). specialize (IH (fun y I => L y (or_intror I))). lia. Qed.
Lemma over_one f l x : (forall x, In x l -> 0 <= f x) -> In x l -> f x <= over f l.
Proof.
  induction l as [|y l IH]; intros L I; [destruct I|]. cbn [over fold_right]. fold (over f l).
  pose proof (over_nonneg f l (fun z J => L z (or_intror J))). pose proof (L y (or_introl eq_refl)).
  destruct I as [->|I]; [lia|]. specialize (IH (fun z J => L z (or_intror J)) I). lia.
Qed.
(** Of distinct chains at most one is the one. *)
Lemma over_single f l k v : NoDup l -> 0 <= v -> (forall x, f x = if x =? k then v else 0) -> over f l <= v.
Proof.
  intros N P F. induction N as [|x l Nx N IH]; [exact P|]. cbn [over fold_right]. fold (over f l). rewrite F. destruct (Z.eqb_spec x k) as [->|_]; [|lia].
  assert (over f l <= over (fun _ => 0) l) by (apply over_le; intros y Iy; rewrite F; destruct (Z.eqb_spec y k) as [->|_]; [contradiction|lia]).
  assert (Z0 : over (fun _ => 0) l = 0) by (clear; induction l as [|y l IH]; [reflexivity|exact IH]). lia.
Qed.
Lemma over_add f g l : over (fun x => f x + g x) l = over f l + over g l.
Proof. induction l as [|x l IH]; [reflexivity|]. unfold over in *. cbn [fold_right]. rewrite IH. lia. Qed.
Lemma sum_over (f : Z -> ev -> Z) l tr : sum (fun e => over (fun x => f x e) l) tr = over (fun x => sum (f x) tr) l.
Proof.
  induction tr as [|e tr IH]; [induction l as [|x l IHl]; [reflexivity|exact IHl]|].
  change (over (fun x => sum (f x) (e :: tr)) l) with (over (fun x => f x e + sum (f x) tr) l). rewrite over_add, <- IH. reflexivity.
Qed.

(** ** What is paid for items that were not waiting *)
Definition fresh_item (s : state) (e : ev) : list addr := match payout e with Some a => match scheduled s a with Some _ => [] | None => [a] end | None => [] end.
Definition fresh_items (s : state) (tr : list ev) : list addr := flat_map (fresh_item s) tr.

Lemma count_pays s a tr : (count_occ addr_eq_dec (fresh_items s tr) a <= length (filter (pays_item a) tr))%nat.
Proof.
  induction tr as [|e tr IH]; [apply le_n|]. unfold fresh_items in *. cbn [flat_map filter]. rewrite count_occ_app. unfold fresh_item at 1, pays_item at 1.
  destruct (payout e) as [b|]; [|exact IH]. destruct (scheduled s b).
  - cbn [count_occ]. destruct (addr_eq_dec b a); cbn [length]; lia.
  - cbn [count_occ]. destruct (addr_eq_dec b a); cbn [length]; lia.
Qed.
Lemma fresh_distinct H s tr s' : reachable H s -> run H s tr s' -> NoDup (fresh_items s tr).
Proof.
  intros Hr R. apply (NoDup_count_occ addr_eq_dec). intros a. pose proof (count_pays s a tr). pose proof (proj1 (payout_once _ _ _ _ a Hr R)). lia.
Qed.
Lemma payout_amount H s tr s' e a : reachable H s -> run H s tr s' -> In e tr -> payout e = Some a -> amount_of (e_pre e) a = amount_of s' a.
Proof.
  intros Hr R I P. destruct (payout_pays _ _ _ _ _ _ Hr R I P) as (md & x & r & c & it & m & _ & Ea & Py). pose proof (py_item _ _ _ _ _ _ _ Py) as Hi. rewrite Ea in Hi.
  destruct (In_split_run _ _ _ _ _ R I) as (tr2 & tr1 & _ & R1 & E & R2). pose proof (run_reachable _ _ _ _ Hr R1) as Hr1.
  assert (R3 : run H (e_pre e) (tr2 ++ [e]) s').
  { eapply run_app; [|exact R2]. destruct e as [u cl u']. apply run_step; [constructor|exact E]. }
  destruct (status_run _ _ _ _ _ _ Hr1 R3 Hi) as (it' & Hi' & Em & _). unfold amount_of, inbox_at in *. rewrite Hi, Hi'. congruence.
Qed.
Lemma amounts_app s a b : amounts s (a ++ b) = amounts s a + amounts s b.
Proof. induction a as [|x a IH]; [reflexivity|]. cbn [app amounts fold_right]. fold (amounts s (a ++ b)) (amounts s a). lia. Qed.
Lemma paid_split H s tr s' : reachable H s -> run H s tr s' -> sum paid_out tr = sum (waited s) tr + amounts s' (fresh_items s tr).
Proof.
  intros Hr R. pose proof (fun e a I P => payout_amount _ _ _ _ e a Hr R I P) as K. clear R. induction tr as [|e tr IH]; [reflexivity|].
  cbn [sum fold_right fresh_items flat_map]. fold (sum paid_out tr) (sum (waited s) tr) (fresh_items s tr). rewrite amounts_app, (IH (fun e a I P => K e a (or_intror I) P)).
  pose proof (fun a => K e a (or_introl eq_refl)) as Ke. unfold paid_out, waited, fresh_item. destruct (payout e) as [a|]; [|cbn; lia].
  destruct (scheduled s a); cbn [amounts fold_right]; [lia|]. rewrite (Ke a eq_refl). lia.
Qed.

Lemma fresh_open H s0 tr0 s tr s' a : initial s0 -> run H s0 tr0 s -> run H s tr s' -> In a (fresh_items s tr) ->
  open_in s a /\ exists ch, paid_for H ch (tr ++ tr0) tr a.
Proof.
  intros Hi R0 R I. apply in_flat_map in I. destruct I as (e & Ie & Ia). unfold fresh_item in Ia. destruct (payout e) as [b|] eqn:P; [|destruct Ia].
  destruct (scheduled s b) eqn:Q; [destruct Ia|]. destruct Ia as [->|[]]. assert (Hr : reachable H s) by (exists s0, tr0; split; assumption). split.
  - split; [exact Q|]. destruct (released s a) eqn:Rl; [|reflexivity]. exfalso. pose proof (proj1 (proj2 (payout_once _ _ _ _ a Hr R)) Rl) as F.
    assert (In e (filter (pays_item a) tr)) as C; [|rewrite F in C; exact C]. apply filter_In. split; [exact Ie|]. unfold pays_item. rewrite P. destruct (addr_eq_dec a a); [reflexivity|contradiction].
  - destruct (payout_message _ _ _ _ _ _ Hi (run_app _ _ _ _ _ _ R0 R) (in_or_app _ _ _ (or_introl Ie)) P) as (md & x & r & c & it & m & e1 & p & ch & nm & _ & _ & _ & I1 & D1 & A1 & _).
    exists ch. split; [exists e; split; assumption|]. exists e1, p, nm. auto.
Qed.

Definition among (chs : list Z) (ch : Z) : bool := existsb (Z.eqb ch) chs.
Lemma among_in chs ch : among chs ch = true <-> In ch chs.
Proof. unfold among. rewrite existsb_exists. split; [intros (x & I & E); apply Z.eqb_eq in E; congruence|intros I; exists ch; split; [exact I|apply Z.eqb_refl]]. Qed.
(** A wider choice of chains lists no fewer items. *)
Lemma wider H (f g : Z -> bool) e p : (forall ch, f ch = true -> g ch = true) -> In p (item_at_once H f e) -> In p (item_at_once H g e).
Proof.
  intros W. unfold item_at_once. destruct (ins (e_call e)); try (intros []; fail). destruct (st_accts _ _) as [[? []]|]; try (intros []; fail).
  destruct (scheduled _ _); [intros []|]. destruct (scheduled _ _); [|intros []]. destruct (f _) eqn:F; [|intros []]. rewrite (W _ F). auto.
Qed.
Lemma in_over H s tr s' e chs : reachable H s -> run H s tr s' -> In e tr -> in_at_once H (among chs) e <= over (fun ch => in_at_once H (one ch) e) chs.
Proof.
  intros Hr R Ie.
  assert (P : forall sel, 0 <= in_at_once H sel e).
  { intros sel. apply total_nonneg. intros p Ip. apply (at_once_nonneg H s tr s' sel Hr R). apply in_flat_map. exists e. split; assumption. }
  pose proof (over_nonneg (fun ch => in_at_once H (one ch) e) chs (fun ch _ => P (one ch))) as Pn.
  assert (K : in_at_once H (among chs) e = 0 \/ exists ch, In ch chs /\ in_at_once H (among chs) e = in_at_once H (one ch) e).
  { unfold in_at_once, item_at_once. destruct (ins (e_call e)); try (left; reflexivity). destruct (st_accts _ _) as [[? []]|]; try (left; reflexivity).
    destruct (scheduled _ _); [left; reflexivity|]. destruct (scheduled _ _); [|left; reflexivity]. destruct (among chs chain) eqn:A; [|left; reflexivity]. right. exists chain.
    split; [apply among_in, A|]. unfold one. rewrite Z.eqb_refl. reflexivity. }
  destruct K as [K|(ch & I & K)]; [lia|]. rewrite K. exact (over_one (fun ch => in_at_once H (one ch) e) chs ch (fun ch _ => P (one ch)) I).
Qed.
Lemma out_over H s tr s' e chs : reachable H s -> run H s tr s' -> In e tr -> NoDup chs -> over (fun ch => out_at_once (one ch) e) chs <= deposited e.
Proof.
  intros Hr R Ie N. pose proof (deposited_nonneg _ _ _ _ _ Hr R Ie) as P. unfold deposited in *. destruct (transfer_of (ins (e_call e))) as [[[md x] ar]|] eqn:T.
  - set (v := match st_accts (e_post e) (xa_outbox_item x) with Some (Acct PManager (DOutboxItem o)) => if ob_release o =? st_now (e_pre e) then deposit_value (e_pre e) x ar else 0 | _ => 0 end).
    assert (V : 0 <= v <= deposit_value (e_pre e) x ar).
    { unfold v. destruct (st_accts _ _) as [[[] []]|]; try lia. destruct (_ =? _); lia. }
    enough (over (fun ch => out_at_once (one ch) e) chs <= v) by lia. apply (over_single _ _ (ar_chain ar)); [exact N|lia|].
    intros ch. unfold out_at_once, v, one. rewrite T. destruct (st_accts _ _) as [[[] []]|]; try (destruct (_ =? _); reflexivity). destruct (ch =? ar_chain ar); reflexivity.
  - assert (Z0 : over (fun ch => out_at_once (one ch) e) chs = over (fun _ => 0) chs) by (unfold out_at_once; rewrite T; reflexivity). rewrite Z0. clear. induction chs; [reflexivity|exact IHchs].
Qed.

(** ** The balance of payouts and deposits *)
Theorem net_bound H s0 tr0 s tr s' chs lim t0 t1 : initial s0 -> run H s0 tr0 s -> run H s tr s' -> no_collision H (tr ++ tr0) ->
  t0 <= t1 -> t1 < t0 + day -> during t0 t1 tr -> NoDup chs -> from_chains chs (tr ++ tr0) -> (forall ch, In ch chs -> in_limiter s ch (lim ch)) ->
  (forall e ch, In e tr -> In ch chs -> ~ sets_inbound ch (ins (e_call e))) ->
  sum paid_out tr * day <= (sum (waited s) tr + sum deposited tr) * day + given lim t0 t1 chs.
Proof.
  intros Hi R0 R NC T1 T2 D N Fc L Q. assert (Hr : reachable H s) by (exists s0, tr0; split; assumption). rewrite (paid_split _ _ _ _ Hr R).
  assert (A : amounts s' (fresh_items s tr) <= sum (in_at_once H (among chs)) tr).
  { rewrite sum_total. apply distinct_total; [eapply fresh_distinct; eassumption| |eapply at_once_nonneg; eassumption].
    intros a Ia. destruct (fresh_open _ _ _ _ _ _ _ Hi R0 R Ia) as (O & ch & P). pose proof (paid_at_once _ _ _ _ _ _ _ _ _ _ Hi R0 R NC D T2 O P) as I.
    destruct P as (_ & e2 & p2 & nm2 & I2 & D2 & _). pose proof (Fc _ _ _ _ I2 D2) as Ic. apply in_flat_map in I. destruct I as (e & Ie & I). apply in_flat_map. exists e. split; [exact Ie|].
    eapply wider; [|exact I]. intros k Ek. unfold one in Ek. apply Z.eqb_eq in Ek. subst k. apply among_in, Ic. }
  assert (B : sum (in_at_once H (among chs)) tr <= over (fun ch => sum (in_at_once H (one ch)) tr) chs).
  { rewrite <- sum_over. apply sum_le. intros e Ie. eapply in_over; eassumption. }
  assert (C : over (fun ch => sum (in_at_once H (one ch)) tr * day) chs <= over (fun ch => room (lim ch) t0 + (t1 - t0) * rl_limit (lim ch) + sum (out_at_once (one ch)) tr * day) chs).
  { apply over_le. intros ch Ic. exact (inbound_bound _ _ _ _ _ _ _ _ Hr R (L ch Ic) T1 D (fun e I => Q e ch I Ic)). }
  assert (E : over (fun ch => sum (out_at_once (one ch)) tr) chs <= sum deposited tr).
  { rewrite <- sum_over. apply sum_le. intros e Ie. eapply out_over; eassumption. }
  assert (M1 : forall f l, over (fun x => f x * day) l = over f l * day).
  { intros f l. induction l as [|x l IH]; [reflexivity|]. cbn [over fold_right]. fold (over (fun x => f x * day) l) (over f l). lia. }
  assert (M2 : forall l, over (fun ch => room (lim ch) t0 + (t1 - t0) * rl_limit (lim ch) + sum (out_at_once (one ch)) tr * day) l = given lim t0 t1 l + over (fun ch => sum (out_at_once (one ch)) tr) l * day).
  { intros l. induction l as [|x l IH]; [reflexivity|]. cbn [over fold_right given]. fold (given lim t0 t1 l) (over (fun ch => sum (out_at_once (one ch)) tr) l).
    fold (over (fun ch => room (lim ch) t0 + (t1 - t0) * rl_limit (lim ch) + sum (out_at_once (one ch)) tr * day) l). rewrite IH. lia. }
  rewrite M1, M2 in C. pose proof day_pos. nia.
Qed.

Theorem custody_day H s0 tr0 s tr s' c chs lim t0 t1 : initial s0 -> run H s0 tr0 s -> run H s tr s' -> no_collision H (tr ++ tr0) -> config_at s pda_config c -> cf_mode c = Locking ->
  t0 <= t1 -> t1 < t0 + day -> during t0 t1 tr -> NoDup chs -> from_chains chs (tr ++ tr0) -> (forall ch, In ch chs -> in_limiter s ch (lim ch)) ->
  (forall e ch, In e tr -> In ch chs -> ~ sets_inbound ch (ins (e_call e))) ->
  (balance s (cf_custody c) - balance s' (cf_custody c) - sum (waited s) tr) * day <= given lim t0 t1 chs.
Proof.
  intros Hi R0 R NC Hc Hm T1 T2 D N Fc L Q. pose proof (net_bound _ _ _ _ _ _ _ _ _ _ Hi R0 R NC T1 T2 D N Fc L Q) as B.
  pose proof (custody_run _ _ _ _ _ (ex_intro _ s0 (ex_intro _ tr0 (conj Hi R0))) R Hc Hm) as C. pose proof day_pos. nia.
Qed.
Theorem supply_day H s0 tr0 s tr s' c chs lim t0 t1 : initial s0 -> run H s0 tr0 s -> run H s tr s' -> no_collision H (tr ++ tr0) -> config_at s pda_config c -> cf_mode c = Burning ->
  t0 <= t1 -> t1 < t0 + day -> during t0 t1 tr -> NoDup chs -> from_chains chs (tr ++ tr0) -> (forall ch, In ch chs -> in_limiter s ch (lim ch)) ->
  (forall e ch, In e tr -> In ch chs -> ~ sets_inbound ch (ins (e_call e))) ->
  (supply_of s' (cf_mint c) + sum (burned_by_holder (cf_mint c)) tr - supply_of s (cf_mint c) - sum (waited s) tr) * day <= given lim t0 t1 chs.
Proof.
  intros Hi R0 R NC Hc Hm T1 T2 D N Fc L Q. pose proof (net_bound _ _ _ _ _ _ _ _ _ _ Hi R0 R NC T1 T2 D N Fc L Q) as B.
  pose proof (supply_run _ _ _ _ _ (ex_intro _ s0 (ex_intro _ tr0 (conj Hi R0))) R Hc Hm) as C. pose proof day_pos. nia.
Qed.

(** ** A pause within the day *)
Lemma paused_flows H s tr s' : reachable H s -> run H s tr s' -> paused_in s -> (forall e, In e tr -> ~ unpauses (ins (e_call e))) -> sum deposited tr = 0 /\ sum paid_out tr = 0.
Proof.
  intros Hr R P N. destruct (pause_run _ _ _ _ Hr R P N) as (_ & K1). destruct (pause_out _ _ _ _ Hr R P N) as (_ & K2 & _). clear R P N.
  induction tr as [|e tr IH]; [split; reflexivity|]. destruct (IH (fun e I => K1 e (or_intror I)) (fun e I => K2 e (or_intror I))) as (A & B). cbn [sum fold_right].
  fold (sum deposited tr) (sum paid_out tr). rewrite A, B. unfold deposited, paid_out. rewrite (K1 e (or_introl eq_refl)), (K2 e (or_introl eq_refl)). split; reflexivity.
Qed.
Theorem custody_paused H s0 tr0 s tr s1 tr2 s2 c chs lim t0 t1 : initial s0 -> run H s0 tr0 s -> run H s tr s1 -> run H s1 tr2 s2 -> no_collision H (tr ++ tr0) -> config_at s pda_config c -> cf_mode c = Locking ->
  t0 <= t1 -> t1 < t0 + day -> during t0 t1 tr -> NoDup chs -> from_chains chs (tr ++ tr0) -> (forall ch, In ch chs -> in_limiter s ch (lim ch)) ->
  (forall e ch, In e tr -> In ch chs -> ~ sets_inbound ch (ins (e_call e))) -> paused_in s1 -> (forall e, In e tr2 -> ~ unpauses (ins (e_call e))) ->
  (balance s (cf_custody c) - balance s2 (cf_custody c) - sum (waited s) tr) * day <= given lim t0 t1 chs.
Proof.
  intros Hi R0 R R2 NC Hc Hm T1 T2 D N Fc L Q P U. pose proof (net_bound _ _ _ _ _ _ _ _ _ _ Hi R0 R NC T1 T2 D N Fc L Q) as B.
  assert (Hr : reachable H s) by (exists s0, tr0; split; assumption). destruct (paused_flows _ _ _ _ (run_reachable _ _ _ _ Hr R) R2 P U) as (F1 & F2).
  pose proof (custody_run _ _ _ _ _ Hr (run_app _ _ _ _ _ _ R R2) Hc Hm) as C. rewrite !WindowFacts.sum_app, F1, F2 in C. pose proof day_pos. nia.
Qed.
Theorem supply_paused H s0 tr0 s tr s1 tr2 s2 c chs lim t0 t1 : initial s0 -> run H s0 tr0 s -> run H s tr s1 -> run H s1 tr2 s2 -> no_collision H (tr ++ tr0) -> config_at s pda_config c -> cf_mode c = Burning ->
  t0 <= t1 -> t1 < t0 + day -> during t0 t1 tr -> NoDup chs -> from_chains chs (tr ++ tr0) -> (forall ch, In ch chs -> in_limiter s ch (lim ch)) ->
  (forall e ch, In e tr -> In ch chs -> ~ sets_inbound ch (ins (e_call e))) -> paused_in s1 -> (forall e, In e tr2 -> ~ unpauses (ins (e_call e))) ->
  (supply_of s2 (cf_mint c) + sum (burned_by_holder (cf_mint c)) (tr2 ++ tr) - supply_of s (cf_mint c) - sum (waited s) tr) * day <= given lim t0 t1 chs.
Proof.
  intros Hi R0 R R2 NC Hc Hm T1 T2 D N Fc L Q P U. pose proof (net_bound _ _ _ _ _ _ _ _ _ _ Hi R0 R NC T1 T2 D N Fc L Q) as B.
  assert (Hr : reachable H s) by (exists s0, tr0; split; assumption). destruct (paused_flows _ _ _ _ (run_reachable _ _ _ _ Hr R) R2 P U) as (F1 & F2).
  pose proof (supply_run _ _ _ _ _ Hr (run_app _ _ _ _ _ _ R R2) Hc Hm) as C. rewrite (WindowFacts.sum_app deposited), (WindowFacts.sum_app paid_out), F1, F2 in C. pose proof day_pos. nia.
Qed.

(** * The rate limits over packets (C110 with C109). *)
From Verif Require Import SubmitFacts WindowFacts EffectFacts Scenario PropsFlow PropsWindow PropsEntry PropsTx PropsSubmit.
From Verif Require Import Submit.
Import ListNotations.
Local Open Scope Z_scope.
Local Open Scope list_scope.

(** The owner and the named successor of the settings [c] have signed none of the packets [l]. *)
Definition silent (ed : bytes -> bytes -> bytes -> bool) (hn : bytes -> handle) (l : list bytes) (c : config addr) : Prop :=
  forall o, o = cf_owner c \/ cf_pending c = Some o -> ~ third_party o /\ forall b, In b l -> ~ agreed ed hn b o.

(** Whoever sets a limiter is the owner and signs. *)
Lemma limiter_owner H s sg i s' ch : step H s (Call sg i) = Ok s' -> sets_inbound ch i \/ sets_outbound i -> exists a o c, by_owner s sg a o c.
Proof.
  intros E Q. apply step_inv in E as (_ & _ & E). cbn [ins signers] in E.
  destruct Q as [[(cfg & o & l & ->)|(cfg & o & a & l & d & ->)]|(cfg & o & b & l & ->)]; cbn [exec] in E;
    [unfold set_inbound_limit in E|unfold set_peer in E|unfold set_outbound_limit in E]; binds E;
    match goal with G : get_owned _ _ _ _ = Ok ?c |- _ => exists cfg, o, c; apply owned_ok; exact G end.
Qed.
Lemma silent_events ed hn nm H s l s' a c : reachable H s -> config_at s a c -> chain ed hn nm H s l s' -> silent ed hn l c ->
  exists tr, run H s tr s' /\ Forall (fun e => (exists t, e_call e = Call [] (EClock t)) \/ exists b, In b l /\ backed ed hn b (e_call e)) tr /\
    forall e ch, In e tr -> ~ sets_inbound ch (ins (e_call e)) /\ ~ sets_outbound (ins (e_call e)).
Proof.
  intros Hr Hc C A. destruct (chain_history _ _ _ _ _ _ _ C) as (tr & R & F). exists tr. split; [exact R|]. split; [exact F|].
  assert (Q : forall e o, In e tr -> o = cf_owner c \/ cf_pending c = Some o -> ~ In o (signers (e_call e))).
  { intros e o Ie Ho Hin. destruct (A o Ho) as (N & Ag). destruct (proj1 (Forall_forall _ _) F e Ie) as [(t & E)|(b & Hb & _ & B)]; [rewrite E in Hin; exact Hin|].
    destruct (B o Hin) as [Y|Y]; [exact (Ag b Hb Y)|exact (N Y)]. }
  intros e ch Ie. destruct (In_split_run _ _ _ _ _ R Ie) as (tr2 & tr1 & Et & R1 & E & _).
  assert (K : sets_inbound ch (ins (e_call e)) \/ sets_outbound (ins (e_call e)) -> False); [|tauto]. intros S.
  destruct e as [u [sg i] u']. cbn [e_pre e_call e_post ins] in *. destruct (limiter_owner _ _ _ _ _ _ E S) as (b & o & c1 & Hc1 & -> & Hin).
  assert (P : settings (st_accts u a) = settings (st_accts s a)).
  { apply (quiet_settings H s tr1 u a c Hr R1 Hc). apply Forall_forall. intros e1 I1.
    assert (I : In e1 tr) by (rewrite Et; apply in_or_app; right; now right). split; [|intros n Hn]; apply (Q e1 _ I); auto. }
  rewrite (settings_config _ _ _ Hc) in P.
  assert (K : exists c2, config_at u a c2 /\ cf_owner c2 = cf_owner c).
  { unfold config_at, has. destruct (st_accts u a) as [[[] []]|]; cbn in P; try discriminate; injection P; intros; eexists; (split; [reflexivity|]); auto. }
  destruct K as (c2 & Hc2 & Eo). destruct (config_one _ _ _ _ _ _ (run_reachable _ _ _ _ Hr R1) Hc1 Hc2) as (_ & ->).
  apply (Q _ (cf_owner c) Ie (or_introl eq_refl)). cbn [e_call signers]. congruence.
Qed.

(** Whatever packets arrive that the owner has not signed, with whatever third-party programs in them: they come to a history from which, within less than a day,
    no more is paid for messages of one chain, and no more is published to other chains, than the limiters let through at once. *)
Theorem C110_packets : forall ed hn nm H s0 l0 s l s' a c, initial s0 -> chain ed hn nm H s0 l0 s -> chain ed hn nm H s l s' -> config_at s a c -> silent ed hn l c ->
  exists tr0 tr, run H s0 tr0 s /\ run H s tr s' /\
  (forall e, In e tr -> (exists t, e_call e = Call [] (EClock t)) \/
     exists b, In b l /\ (forall t, ins (e_call e) <> EClock t) /\ forall x, In x (signers (e_call e)) -> agreed ed hn b x \/ third_party x) /\
  forall t0 t1, t0 <= t1 -> t1 < t0 + day -> during t0 t1 tr ->
    (forall ch r items, no_collision H (tr ++ tr0) -> in_limiter s ch r -> NoDup items ->
       (forall x, In x items -> open_in s x /\ paid_for H ch (tr ++ tr0) tr x) ->
       amounts s' items * day <= room r t0 + (t1 - t0) * rl_limit r + sum (out_at_once (one ch)) tr * day) /\
    (forall r, out_limiter s r -> sum (sent_value s') tr * day <= room r t0 + (t1 - t0) * rl_limit r + sum (in_at_once H every) tr * day).
Proof.
  intros ed hn nm H s0 l0 s l s' a c Hi C0 C Hc A. destruct (chain_history _ _ _ _ _ _ _ C0) as (tr0 & R0 & _).
  assert (Hr : reachable H s) by (exists s0, tr0; split; assumption). destruct (silent_events _ _ _ _ _ _ _ _ _ Hr Hc C A) as (tr & R & F & Q).
  exists tr0, tr. split; [exact R0|]. split; [exact R|]. split; [exact (proj1 (Forall_forall _ _) F)|]. intros t0 t1 T1 T2 D. split.
  - intros ch r items NC L Nd Hl. exact (paid_bound _ _ _ _ _ _ _ _ _ _ _ Hi R0 R NC L T1 T2 D (fun e I => proj1 (Q e ch I)) Nd Hl).
  - intros r L. exact (sent_bound _ _ _ _ _ _ _ Hr R L T1 T2 D (fun e I => proj2 (Q e 0 I))).
Qed.
Print Assumptions C110_packets.

(** ** The case of [PropsWindow.v] in packets: a third-party program sets the deployment up in a packet that the deployer signs, and has all the rest done in two packets
    that the user signs. *)
Definition any_ix (k : bytes) : cix bytes := Cix (k32 7) [Account k true true] [].
Definition any_packet (k : bytes) : bytes :=
  match Compress.compile bytes_dec k [any_ix k] [] with
  | Some g => match w_message (k32 99) true g with
              | Some m => match serialize (Tx (map (fun k => k ++ firstn 32 m) (firstn (mg_signatures g) (mg_static g))) (k32 99) true g) with Some b => b | None => [] end
              | None => [] end
  | None => []
  end.
Definition any_tx (k : bytes) : option (bytes * list (cix bytes)) :=
  match receive (any_packet k) with Some t => if genuine toy t then Compress.load bytes_dec (tx_message t) (fun _ => None) else None | None => None end.
Definition only (o : addr) (c : call) : bool :=
  forallb (addr_eqb o) (signers c) && match ins c with EClock _ => false | _ => true end.
Lemma events_calls H s cs e : In e (events H s cs) -> In (e_call e) cs.
Proof.
  revert s. induction cs as [|c cs IH]; cbn [events]; intros s I; [destruct I|]. destruct (step H s c) as [s'|]; [|destruct I].
  apply in_app_or in I. destruct I as [I|[<-|[]]]; [right; exact (IH _ I)|now left].
Qed.
Lemma any_lands k o s cs : names k = HA o -> any_tx k = Some (k, [any_ix k]) -> is_ok (exec_tx H0 s cs) = true -> forallb (only o) cs = true ->
  lands toy names nm0 H0 (fun _ => None) (any_packet k) s (apply_tx H0 s cs).
Proof.
  intros Hk R E F. unfold any_tx in R. destruct (receive (any_packet k)) as [t|] eqn:Rt; [|discriminate]. destruct (genuine toy t) eqn:G; [|discriminate].
  exists t, k, [any_ix k]. split; [exact Rt|]. split; [exact G|]. split; [exact R|].
  econstructor; [|constructor]. apply (ix_other _ _ _ _ _ _ (events H0 s cs)); [vm_compute; reflexivity|apply tx_run, E|].
  apply Forall_forall. intros e Ie. pose proof (proj1 (forallb_forall _ _) F _ (events_calls _ _ _ _ Ie)) as Q. unfold only in Q. apply andb_true_iff in Q. destruct Q as (Q1 & Q2).
  split; [intros z Ez; rewrite Ez in Q2; discriminate|]. intros x Ix. left. pose proof (proj1 (forallb_forall _ _) Q1 x Ix) as Q. apply addr_eqb_eq in Q. subst x.
  exists (Meta (HA o) true true). split; [cbn; rewrite Hk; now left|split; reflexivity].
Qed.
Lemma waits l s0 s t : chain toy names nm0 H0 s0 l s -> is_ok (exec_tx H0 s [Call [] (EClock t)]) = true -> chain toy names nm0 H0 s0 l (apply_tx H0 s [Call [] (EClock t)]).
Proof.
  intros C E. unfold apply_tx in *. cbn [exec_tx] in *. destruct (step H0 s (Call [] (EClock t))) as [s'|] eqn:S; [|discriminate]. cbn [bind] in *. exact (chain_time _ _ _ _ _ _ _ _ _ C S).
Qed.
Definition first_day : list call := [Call [] (ECreateAta PToken RCPT MINT)] ++ come 1 300000000 ++ [pay 1 300000000].
Definition second_day : list call := come 2 299996527 ++ [pay 2 299996527] ++ come 3 1.
Definition p0 : state := apply_tx H0 (s_start Burning) [Call [] (EClock 1000)].
Definition p1 : state := apply_tx H0 p0 (firstn 4 (skipn 1 (calls Burning))).
Definition p2 : state := apply_tx H0 p1 first_day.
Definition p3 : state := apply_tx H0 p2 [Call [] (EClock 87399)].
Definition p4 : state := apply_tx H0 p3 second_day.
Example C110_packets_case : chain toy names nm0 H0 (s_start Burning) [any_packet (k32 1)] p1 /\ chain toy names nm0 H0 p1 [any_packet (k32 2); any_packet (k32 2)] p4 /\
  in_limiter p1 2 (RL 3000000000 3000000000 0) /\ amounts p4 PropsWindow.taken = 5999965270 /\ map (status_at p4) PropsWindow.taken = [Some Released; Some Released] /\
  status_at p4 (bad_item 3 1) = Some (ReleaseAfter (87399 + day)).
Proof.
  assert (U : any_tx (k32 2) = Some (k32 2, [any_ix (k32 2)])) by (vm_compute; reflexivity).
  split.
  { apply (chain_packet _ _ _ _ _ [] p0 (fun _ => None)); [apply waits; [constructor|vm_compute; reflexivity]|].
    apply (any_lands (k32 1) DEPLOYER); vm_compute; reflexivity. }
  split.
  { apply (chain_packet _ _ _ _ _ [any_packet (k32 2)] p3 (fun _ => None)).
    - apply waits; [|vm_compute; reflexivity]. apply (chain_packet _ _ _ _ _ [] p1 (fun _ => None)); [constructor|].
      apply (any_lands (k32 2) USER); [vm_compute; reflexivity|exact U|vm_compute; reflexivity|vm_compute; reflexivity].
    - apply (any_lands (k32 2) USER); [vm_compute; reflexivity|exact U|vm_compute; reflexivity|vm_compute; reflexivity]. }
  repeat match goal with |- _ /\ _ => split end; vm_compute; reflexivity.
Qed.
(** The owner has signed neither of the two packets: their key is nowhere in the bytes. *)
Definition inside (k b : bytes) : bool := existsb (fun n => if bytes_dec (firstn 32 (skipn n b)) k then true else false) (seq 0 (S (length b))).
Lemma inside_app k p q : length k = 32%nat -> inside k (p ++ k ++ q) = true.
Proof.
  intros L. apply existsb_exists. exists (length p). split; [apply in_seq; rewrite app_length; lia|].
  rewrite skipn_app, skipn_all, Nat.sub_diag. cbn [skipn app]. rewrite firstn_app, L, Nat.sub_diag, firstn_O, app_nil_r, <- L, firstn_all. destruct (bytes_dec k k); [reflexivity|contradiction].
Qed.
Lemma not_signed : silent toy names [any_packet (k32 2); any_packet (k32 2)] (config_of p1).
Proof.
  assert (No : inside (k32 1) (any_packet (k32 2)) = false) by (vm_compute; reflexivity).
  assert (Ow : cf_owner (config_of p1) = DEPLOYER /\ cf_pending (config_of p1) = None) by (split; vm_compute; reflexivity). destruct Ow as (Ow & Pe).
  intros o Ho. rewrite Ow, Pe in Ho. destruct Ho as [->|Ho]; [|discriminate]. split; [intros (n & t & z & x & y & Q); discriminate Q|].
  intros b Hb (k & Hk & sigs & m & sig & E & _ & I & T). assert (Eb : b = any_packet (k32 2)) by (destruct Hb as [<-|[<-|[]]]; reflexivity). rewrite Eb in E. clear Hb Eb b.
  assert (k = k32 1) by (unfold names in Hk; repeat (match type of Hk with context[if ?d then _ else _] => destruct d as [->|_]; [solve [reflexivity|discriminate Hk]|] end); discriminate Hk). subst k.
  unfold toy in T. destruct (bytes_dec sig _) as [->|]; [|discriminate]. destruct (in_split _ _ I) as (u & v & ->).
  rewrite E, concat_app in No. cbn [concat] in No.
  match type of No with inside _ (?a ++ (?c ++ (_ ++ ?d) ++ ?e) ++ m) = _ =>
    replace (a ++ (c ++ (k32 1 ++ d) ++ e) ++ m) with ((a ++ c) ++ k32 1 ++ (d ++ e ++ m)) in No by (rewrite <- !app_assoc; reflexivity) end.
  rewrite inside_app in No by reflexivity. discriminate.
Qed.
(** So the theorem applies to them. *)
Example C110_packets_applied : exists tr0 tr, run H0 (s_start Burning) tr0 p1 /\ run H0 p1 tr p4.
Proof.
  destruct C110_packets_case as (A & B & _).
  destruct (C110_packets toy names nm0 H0 (s_start Burning) _ p1 _ p4 pda_config (config_of p1) (s_start_initial Burning) A B ltac:(vm_compute; reflexivity) not_signed) as (tr0 & tr & R0 & R & _).
  exists tr0, tr. split; [exact R0|exact R].
Qed.

(** * Locality of the instructions. *)
From Verif Require Export SpecEntry.
From Verif Require Import ChainFacts Lut DispatchFacts.
Import ListNotations.
Local Open Scope Z_scope.

Lemma handle_eqb_eq x y : handle_eqb x y = true <-> x = y.
Proof. unfold handle_eqb. destruct (handle_eq_dec x y); split; congruence. Qed.

(** ** Relating two runs. [L] are the accounts both may read, [W] those they may change. *)
Section Local.
  Variables L W : handle -> Prop.
  Hypothesis WL : forall h, W h -> L h.

  Definition agr (s t : state) : Prop :=
    st_now s = st_now t /\ (forall a, L (HA a) -> same_at s t a) /\ (L HProgramData -> st_uauth s = st_uauth t).
  Definition frm (s t : state) : Prop :=
    st_now s = st_now t /\ (forall a, ~ W (HA a) -> same_at s t a) /\
    (~ W HProgramData -> st_uauth s = st_uauth t) /\ (~ W HBridge -> st_posted s = st_posted t).
  (** Same result, related final states; both logs grow alike. *)
  Definition rel (s t : state) (r q : result state) : Prop :=
    match r, q with
    | Ok s', Ok t' => agr s' t' /\ frm s s' /\ frm t t' /\ exists l, st_posted s' = l ++ st_posted s /\ st_posted t' = l ++ st_posted t
    | Err e, Err e' => e = e'
    | _, _ => False
    end.

  Lemma frm_refl s : frm s s. Proof. repeat split; auto. Qed.
  Lemma same_at_trans s t u a : same_at s t a -> same_at t u a -> same_at s u a.
  Proof. unfold same_at. intuition congruence. Qed.
  Lemma frm_trans s t u : frm s t -> frm t u -> frm s u.
  Proof.
    intros (A & B & C & D) (A' & B' & C' & D'). split; [congruence|]. split; [intros a Ha; eapply same_at_trans; eauto|].
    split; intros Hn; [rewrite C, C'|rewrite D, D']; auto.
  Qed.
  Lemma rel_id s t : agr s t -> rel s t (Ok s) (Ok t).
  Proof. intros A. repeat split; try apply A; auto. exists []. split; reflexivity. Qed.
  Lemma rel_err s t e : rel s t (Err e) (Err e). Proof. reflexivity. Qed.

  (** Sequencing. *)
  Lemma rel_bind s t r q f g : rel s t r q -> (forall s' t', agr s' t' -> rel s' t' (f s') (g t')) -> rel s t (bind r f) (bind q g).
  Proof.
    unfold rel at 1. destruct r as [s'|e], q as [t'|e']; cbn [bind]; try contradiction; [|intros ->; reflexivity].
    intros (A & F & F' & l & P & Q) K. specialize (K s' t' A). unfold rel in *. destruct (f s') as [u|], (g t') as [v|]; try contradiction; auto.
    destruct K as (A1 & F1 & F1' & l1 & P1 & Q1). split; [exact A1|]. split; [eapply frm_trans; eassumption|]. split; [eapply frm_trans; eassumption|].
    exists (l1 ++ l). rewrite P1, Q1, P, Q, !app_assoc. split; reflexivity.
  Qed.
  Lemma rel_pure {A} s t (r : result A) f g : (forall x, r = Ok x -> rel s t (f x) (g x)) -> rel s t (bind r f) (bind r g).
  Proof. intros K. destruct r; cbn [bind]; [apply K; reflexivity|reflexivity]. Qed.

  (** Reading. *)
  Section Reads.
    Variables s t : state.
    Hypothesis A : agr s t.
    Lemma a_now : st_now t = st_now s. Proof. symmetry. apply A. Qed.
    Lemma a_accts a : L (HA a) -> st_accts t a = st_accts s a. Proof. intros Ha. symmetry. apply A, Ha. Qed.
    Lemma a_toks a : L (HA a) -> st_toks t a = st_toks s a. Proof. intros Ha. symmetry. apply A, Ha. Qed.
    Lemma a_mints a : L (HA a) -> st_mints t a = st_mints s a. Proof. intros Ha. symmetry. apply A, Ha. Qed.
    Lemma a_get p a : L (HA a) -> get t p a = get s p a. Proof. intros Ha. unfold get. rewrite a_accts by exact Ha. reflexivity. Qed.
    Lemma a_config a : L (HA a) -> get_config t a = get_config s a. Proof. intros Ha. unfold get_config. rewrite a_get by exact Ha. reflexivity. Qed.
    Lemma a_np a : L (HA a) -> get_not_paused t a = get_not_paused s a. Proof. intros Ha. unfold get_not_paused. rewrite a_config by exact Ha. reflexivity. Qed.
    Lemma a_owned sg a o : L (HA a) -> get_owned t sg a o = get_owned s sg a o. Proof. intros Ha. unfold get_owned. rewrite a_config by exact Ha. reflexivity. Qed.
    Lemma a_peer a : L (HA a) -> get_peer t a = get_peer s a. Proof. intros Ha. unfold get_peer. rewrite a_get by exact Ha. reflexivity. Qed.
    Lemma a_out a : L (HA a) -> get_outbox_item t a = get_outbox_item s a. Proof. intros Ha. unfold get_outbox_item. rewrite a_get by exact Ha. reflexivity. Qed.
    Lemma a_orl a : L (HA a) -> get_outbox_rl t a = get_outbox_rl s a. Proof. intros Ha. unfold get_outbox_rl. rewrite a_get by exact Ha. reflexivity. Qed.
    Lemma a_in a : L (HA a) -> get_inbox_item t a = get_inbox_item s a. Proof. intros Ha. unfold get_inbox_item. rewrite a_get by exact Ha. reflexivity. Qed.
    Lemma a_irl a : L (HA a) -> get_inbox_rl t a = get_inbox_rl s a. Proof. intros Ha. unfold get_inbox_rl. rewrite a_get by exact Ha. reflexivity. Qed.
    Lemma a_reg a : L (HA a) -> get_reg t a = get_reg s a. Proof. intros Ha. unfold get_reg. rewrite a_get by exact Ha. reflexivity. Qed.
    Lemma a_xpeer p a : L (HA a) -> get_xpeer t p a = get_xpeer s p a. Proof. intros Ha. unfold get_xpeer. rewrite a_get by exact Ha. reflexivity. Qed.
    Lemma a_msg a o : L (HA a) -> get_message t a o = get_message s a o. Proof. intros Ha. unfold get_message. rewrite a_accts by exact Ha. reflexivity. Qed.
    Lemma a_tok p a : L (HA a) -> get_tok t p a = get_tok s p a. Proof. intros Ha. unfold get_tok. rewrite a_toks by exact Ha. reflexivity. Qed.
    Lemma a_mint p a : L (HA a) -> get_mint t p a = get_mint s p a. Proof. intros Ha. unfold get_mint. rewrite a_mints by exact Ha. reflexivity. Qed.
    Lemma a_any_tok a : L (HA a) -> any_tok t a = any_tok s a. Proof. intros Ha. unfold any_tok. rewrite a_toks by exact Ha. reflexivity. Qed.
    Lemma a_any_mint a : L (HA a) -> any_mint t a = any_mint s a. Proof. intros Ha. unfold any_mint. rewrite a_mints by exact Ha. reflexivity. Qed.
    Lemma a_free a : L (HA a) -> free t a = free s a.
    Proof. intros Ha. unfold free. rewrite a_accts, a_toks, a_mints by exact Ha. reflexivity. Qed.
    Lemma a_init a k : L (HA a) -> init_if_needed t a k = init_if_needed s a k.
    Proof. intros Ha. unfold init_if_needed. rewrite a_accts, a_free, a_get by exact Ha. reflexivity. Qed.
    Lemma a_uauth : L HProgramData -> st_uauth t = st_uauth s. Proof. intros Ha. symmetry. apply A, Ha. Qed.
    Lemma a_outbound c i r : L (HA c) -> L (HA i) -> L (HA r) -> outbound_checks t c i r = outbound_checks s c i r.
    Proof. intros Hc Hi Hr. unfold outbound_checks. rewrite a_np, a_out, a_reg by assumption. reflexivity. Qed.

    (** Writing. *)
    Lemma upd_same {B} (f g : addr -> option B) a v b : (L (HA b) -> f b = g b) -> L (HA b) -> upd f a v b = upd g a v b.
    Proof. intros E Hb. unfold upd. destruct (addr_eqb b a); auto. Qed.
    Lemma upd_frame {B} (f : addr -> option B) a v b : W (HA a) -> ~ W (HA b) -> f b = upd f a v b.
    Proof. intros Ha Hb. rewrite upd_eq. destruct (addr_eq_dec b a) as [->|]; [contradiction|reflexivity]. Qed.

    Lemma r_put a p d : W (HA a) -> rel s t (Ok (put a p d s)) (Ok (put a p d t)).
    Proof.
      intros Ha. destruct A as (N & S & U). split; [|split; [|split; [|exists []; split; reflexivity]]].
      - split; [exact N|]. split; [|exact U]. intros b Hb. specialize (S b Hb). unfold same_at, put, set_accts; cbn [st_accts st_toks st_mints].
        split; [apply upd_same; [intros _; apply S|exact Hb]|apply S].
      - split; [reflexivity|]. split; [|split; reflexivity]. intros b Hb. unfold same_at, put, set_accts; cbn [st_accts st_toks st_mints].
        split; [apply upd_frame; assumption|split; reflexivity].
      - split; [reflexivity|]. split; [|split; reflexivity]. intros b Hb. unfold same_at, put, set_accts; cbn [st_accts st_toks st_mints].
        split; [apply upd_frame; assumption|split; reflexivity].
    Qed.
    Lemma r_put_tok a v : W (HA a) -> rel s t (Ok (put_tok a v s)) (Ok (put_tok a v t)).
    Proof.
      intros Ha. destruct A as (N & S & U). split; [|split; [|split; [|exists []; split; reflexivity]]].
      - split; [exact N|]. split; [|exact U]. intros b Hb. specialize (S b Hb). unfold same_at, put_tok, set_toks; cbn [st_accts st_toks st_mints].
        split; [apply S|]. split; [apply upd_same; [intros _; apply S|exact Hb]|apply S].
      - split; [reflexivity|]. split; [|split; reflexivity]. intros b Hb. unfold same_at, put_tok, set_toks; cbn [st_accts st_toks st_mints].
        split; [reflexivity|]. split; [apply upd_frame; assumption|reflexivity].
      - split; [reflexivity|]. split; [|split; reflexivity]. intros b Hb. unfold same_at, put_tok, set_toks; cbn [st_accts st_toks st_mints].
        split; [reflexivity|]. split; [apply upd_frame; assumption|reflexivity].
    Qed.
    Lemma r_put_mint a v : W (HA a) -> rel s t (Ok (put_mint a v s)) (Ok (put_mint a v t)).
    Proof.
      intros Ha. destruct A as (N & S & U). split; [|split; [|split; [|exists []; split; reflexivity]]].
      - split; [exact N|]. split; [|exact U]. intros b Hb. specialize (S b Hb). unfold same_at, put_mint, set_mints; cbn [st_accts st_toks st_mints].
        split; [apply S|]. split; [apply S|]. apply upd_same; [intros _; apply S|exact Hb].
      - split; [reflexivity|]. split; [|split; reflexivity]. intros b Hb. unfold same_at, put_mint, set_mints; cbn [st_accts st_toks st_mints].
        split; [reflexivity|]. split; [reflexivity|]. apply upd_frame; assumption.
      - split; [reflexivity|]. split; [|split; reflexivity]. intros b Hb. unfold same_at, put_mint, set_mints; cbn [st_accts st_toks st_mints].
        split; [reflexivity|]. split; [reflexivity|]. apply upd_frame; assumption.
    Qed.
    Lemma r_uauth v : W HProgramData -> rel s t (Ok (set_uauth v s)) (Ok (set_uauth v t)).
    Proof.
      intros Ha. destruct A as (N & S & U). split; [|split; [|split; [|exists []; split; reflexivity]]].
      - split; [exact N|]. split; [exact S|]. reflexivity.
      - repeat split. contradiction.
      - repeat split. contradiction.
    Qed.
    Lemma r_post x : W HBridge -> rel s t (Ok (set_posted (x :: st_posted s) s)) (Ok (set_posted (x :: st_posted t) t)).
    Proof.
      intros Ha. destruct A as (N & S & U). split; [|split; [|split; [|exists [x]; split; reflexivity]]].
      - split; [exact N|]. split; [exact S|]. exact U.
      - repeat split. contradiction.
      - repeat split. contradiction.
    Qed.
  End Reads.
  Arguments a_now {s t} _.
  Arguments a_accts {s t} _.
  Arguments a_toks {s t} _.
  Arguments a_mints {s t} _.
  Arguments a_get {s t} _.
  Arguments a_config {s t} _.
  Arguments a_np {s t} _.
  Arguments a_owned {s t} _.
  Arguments a_peer {s t} _.
  Arguments a_out {s t} _.
  Arguments a_orl {s t} _.
  Arguments a_in {s t} _.
  Arguments a_irl {s t} _.
  Arguments a_reg {s t} _.
  Arguments a_xpeer {s t} _.
  Arguments a_msg {s t} _.
  Arguments a_tok {s t} _.
  Arguments a_mint {s t} _.
  Arguments a_any_tok {s t} _.
  Arguments a_any_mint {s t} _.
  Arguments a_free {s t} _.
  Arguments a_init {s t} _.
  Arguments a_uauth {s t} _.
  Arguments a_outbound {s t} _.

  Lemma rel_then s t s1 t1 r q : rel s t (Ok s1) (Ok t1) -> (agr s1 t1 -> rel s1 t1 r q) -> rel s t r q.
  Proof. intros R K. change (rel s t (bind (Ok s1) (fun _ => r)) (bind (Ok t1) (fun _ => q))). 
    unfold rel in *. destruct R as (A & F & F' & l & P & Q). specialize (K A). cbn [bind]. destruct r as [u|], q as [v|]; try contradiction; auto.
    destruct K as (A1 & F1 & F1' & l1 & P1 & Q1). split; [exact A1|]. split; [eapply frm_trans; eassumption|]. split; [eapply frm_trans; eassumption|].
    exists (l1 ++ l). rewrite P1, Q1, P, Q, !app_assoc. split; reflexivity.
  Qed.

  (** ** Token programs, bridge, loader. *)
  Section Ops.
    Variables s t : state.
    Hypothesis A : agr s t.
    Lemma r_transfer p src mnt dst auth x ok : W (HA src) -> W (HA dst) -> W (HA mnt) ->
      rel s t (tok_transfer s p src mnt dst auth x ok) (tok_transfer t p src mnt dst auth x ok).
    Proof.
      intros H1 H2 H3. unfold tok_transfer. rewrite !(a_tok A), (a_mint A) by auto. do 6 (apply rel_pure; intros).
      destruct (addr_eqb src dst); [apply rel_id, A|]. cbv zeta. do 2 (apply rel_pure; intros).
      eapply rel_then; [apply r_put_tok; [exact A|exact H1]|intros A1]. eapply rel_then; [apply r_put_tok; [exact A1|exact H2]|intros A2].
      apply r_put_mint; assumption.
    Qed.
    Lemma r_mint_to p mnt dst auth x : W (HA mnt) -> W (HA dst) -> rel s t (tok_mint_to s p mnt dst auth x) (tok_mint_to t p mnt dst auth x).
    Proof.
      intros H1 H2. unfold tok_mint_to. rewrite (a_tok A), (a_mint A) by auto. do 5 (apply rel_pure; intros).
      eapply rel_then; [apply r_put_tok; [exact A|exact H2]|intros A1]. apply r_put_mint; assumption.
    Qed.
    Lemma r_burn p src mnt auth x : W (HA mnt) -> W (HA src) -> rel s t (tok_burn s p src mnt auth x) (tok_burn t p src mnt auth x).
    Proof.
      intros H1 H2. unfold tok_burn. rewrite (a_tok A), (a_mint A) by auto. do 6 (apply rel_pure; intros).
      eapply rel_then; [apply r_put_tok; [exact A|exact H2]|intros A1]. apply r_put_mint; assumption.
    Qed.
    Lemma r_init_tok p a mnt o : L (HA mnt) -> W (HA a) -> rel s t (tok_init s p a mnt o) (tok_init t p a mnt o).
    Proof.
      intros H1 H2. unfold tok_init. rewrite (a_mint A), (a_free A) by auto. do 2 (apply rel_pure; intros). apply r_put_tok; assumption.
    Qed.
    Lemma r_bridge m e pl ok : W (HA m) -> W HBridge -> rel s t (bridge_post s m e pl ok) (bridge_post t m e pl ok).
    Proof.
      intros H1 H2. unfold bridge_post. rewrite (a_free A) by auto. apply rel_pure; intros.
      eapply rel_then; [apply r_put; [exact A|exact H1]|intros A1].
      change (st_posted s) with (st_posted (put m PWormhole DPosted s)). change (st_posted t) with (st_posted (put m PWormhole DPosted t)).
      apply r_post; assumption.
    Qed.
    Lemma r_loader cur v : W HProgramData -> rel s t (loader_set_authority s cur v) (loader_set_authority t cur v).
    Proof. intros H1. unfold loader_set_authority. rewrite (a_uauth A) by auto. apply rel_pure; intros. apply r_uauth; assumption. Qed.
    Lemma r_outbox x snd am tr ch m r q : W (HA (xa_outbox_item x)) -> W (HA (pda_inbox_rl ch)) -> W (HA (xa_outbox_rl x)) ->
      rel s t (insert_into_outbox s x snd am tr ch m r q) (insert_into_outbox t x snd am tr ch m r q).
    Proof.
      intros H1 H2 H3. unfold insert_into_outbox. rewrite (a_orl A), (a_irl A), (a_now A) by auto.
      do 2 (apply rel_pure; intros). apply rel_pure; intros [? ?] _. apply rel_pure; intros [? ?] _.
      eapply rel_then; [apply r_put; [exact A|exact H3]|intros A1]. eapply rel_then; [apply r_put; [exact A1|exact H2]|intros A2].
      apply r_put; assumption.
    Qed.
  End Ops.

  (** ** Every instruction. *)
  Definition needs (n : need) : Prop :=
    match ne_key n with Some h => L h /\ (ne_writable n = true -> W h) | None => True end.

  Ltac lw := match goal with |- W _ => assumption | |- L _ => first [assumption | apply WL; assumption] end.
  Ltac spread := repeat match goal with
    | H : Forall needs (_ :: _) |- _ => apply Forall_cons_iff in H; destruct H as [? H]
    | H : Forall needs (_ ++ _) |- _ => apply Forall_app in H; destruct H as [H ?]
    | H : needs ?n |- _ => unfold needs in H; cbn [ne_key ne_writable ro mu sig_ sigmu payer other system loader clock rent program_data] in H
    | H : L _ /\ (true = true -> W _) |- _ => destruct H as [? H]; specialize (H eq_refl)
    | H : L _ /\ (false = true -> _) |- _ => destruct H as [? _]
    end.
  Ltac rd A := repeat first
    [ rewrite (a_outbound A) by lw | rewrite (a_np A) by lw | rewrite (a_owned A) by lw | rewrite (a_config A) by lw | rewrite (a_peer A) by lw | rewrite (a_out A) by lw
    | rewrite (a_orl A) by lw | rewrite (a_in A) by lw | rewrite (a_irl A) by lw | rewrite (a_reg A) by lw | rewrite (a_xpeer A) by lw | rewrite (a_msg A) by lw
    | rewrite (a_any_tok A) by lw | rewrite (a_any_mint A) by lw | rewrite (a_init A) by lw | rewrite (a_free A) by lw | rewrite (a_get A) by lw
    | rewrite (a_accts A) by lw | rewrite (a_toks A) by lw | rewrite (a_mints A) by lw | rewrite (a_uauth A) by lw | rewrite (a_now A) by lw ].

  Lemma local_layout H s t i ns : agr s t -> layout H s i = Ok ns -> Forall needs ns -> layout H t i = Ok ns.
  Proof.
    intros A E F. destruct i; cbn [layout] in *; try exact E.
    all: repeat match type of E with bind ?r _ = Ok _ => let R := fresh "R" in destruct r eqn:R; cbn [bind] in E; [|discriminate E] end.
    all: repeat match goal with p : _ * _ |- _ => destruct p end.
    all: try match type of E with (match ?d with _ => _ end) = _ => destruct d as [ | | | | | | | | | | ? ? [?|] | | ]; try discriminate E end.
    all: let N := fresh in (assert (N := E); injection N as <-).
    all: cbn [app] in F; spread.
    all: repeat (rd A; match goal with R : ?r = Ok _ |- context [bind ?r _] => rewrite R; cbn [bind] end); reflexivity.
  Qed.

  Lemma get_np s a c : get_config s a = Ok c -> get_not_paused s a = bind (require (negb (cf_paused c)) Paused) (fun _ => Ok c).
  Proof. intros E. unfold get_not_paused. rewrite E. reflexivity. Qed.
  Lemma bind_unit {A B} (r : result unit) (x : A) (f : A -> result B) : bind (bind r (fun _ => Ok x)) f = bind r (fun _ => f x).
  Proof. destruct r; reflexivity. Qed.

  Ltac pure := repeat first [apply rel_err | apply rel_pure; intros].
  Ltac layout_facts E F :=
    repeat match type of E with bind ?r _ = Ok _ => let R := fresh "R" in destruct r eqn:R; cbn [bind] in E; [|discriminate E] end;
    repeat match goal with p : _ * _ |- _ => destruct p end;
    injection E as <-; try unfold wormhole_accounts in F; cbn [app] in F; spread.

  Ltac one_put A A1 :=
    match goal with |- rel ?s ?t ?r _ =>
      match r with context [put ?a ?p ?d s] => apply (@rel_then s t (put a p d s) (put a p d t)); [apply r_put; [exact A|lw]|intros A1] end end.

  Lemma local_initialize H s t sg d m tp ch l md ns : agr s t -> layout H s (IInitialize d m tp ch l md) = Ok ns -> Forall needs ns ->
    rel s t (initialize s sg d m tp ch l md) (initialize t sg d m tp ch l md).
  Proof.
    intros A E F. cbn [layout] in E. layout_facts E F. unfold initialize. rd A. pure.
    apply rel_bind.
    - unfold init_custody. cbv zeta. rd A. destruct (st_toks s _); [apply rel_pure; intros; apply rel_id, A|].
      apply r_init_tok; [exact A|lw..].
    - intros s1 t1 A1. one_put A1 A2. apply r_put; [exact A2|lw].
  Qed.

  Lemma local_lut H s t c o x ok ns : agr s t -> layout H s (IInitializeLut c o x ok) = Ok ns -> Forall needs ns ->
    rel s t (initialize_lut s c o x ok) (initialize_lut t c o x ok).
  Proof.
    intros A E F. cbn [layout] in E. layout_facts E F. unfold initialize_lut. rd A. pure. apply r_put; [exact A|lw].
  Qed.

  Lemma local_checks s t sg x a md c f : agr s t -> get_config s (xa_config x) = Ok c -> any_tok s (xa_from x) = Ok f -> L (HA (xa_config x)) -> L (HA (cf_mint c)) ->
    L (HA (xa_from x)) -> L (HA (cf_custody c)) -> L (HA (xa_outbox_item x)) -> L (HA (xa_outbox_rl x)) -> L (HA (pda_inbox_rl (ar_chain a))) ->
    L (HA (pda_peer (ar_chain a))) ->
    transfer_checks t sg x a md = transfer_checks s sg x a md /\
    (forall c' mt f' pe, transfer_checks s sg x a md = Ok (c', mt, f', pe) -> c' = c /\ f' = f).
  Proof.
    intros A E Ef H1 H2 H3 H4 H5 H6 H7 H8. unfold transfer_checks. rewrite (a_np A) by lw. rewrite (get_np _ _ _ E), !bind_unit. split.
    - rd A. reflexivity.
    - intros c' mt f' pe Q.
      repeat match type of Q with bind ?r _ = Ok _ => let R := fresh "R" in destruct r eqn:R; cbn [bind] in Q; [|discriminate Q] end.
      injection Q as <- <- <- <-. split; [reflexivity|congruence].
  Qed.

  Lemma local_burn H s t sg x a ns : agr s t -> layout H s (ITransferBurn x a) = Ok ns -> Forall needs ns ->
    rel s t (transfer_burn H s sg x a) (transfer_burn H t sg x a).
  Proof.
    intros A E F. cbn [layout] in E. layout_facts E F. unfold transfer_burn.
    match goal with R1 : get_config _ _ = Ok _, R2 : any_tok _ _ = Ok _ |- _ => destruct (local_checks s t sg x a Burning _ _ A R1 R2) as [Q Q']; try lw end.
    rewrite Q. apply rel_pure. intros [[[c mt] f] pe] K. destruct (Q' _ _ _ _ K) as [-> ->]. apply rel_pure. intros [am tr] _.
    rd A. apply rel_pure. intros bf _. apply rel_bind; [apply r_transfer; [exact A|lw..]|]. intros s1 t1 A1.
    apply rel_bind; [apply r_burn; [exact A1|lw..]|]. intros s2 t2 A2. rd A2. pure. apply r_outbox; [exact A2|lw..].
  Qed.
  Lemma local_lock H s t sg x a ns : agr s t -> layout H s (ITransferLock x a) = Ok ns -> Forall needs ns ->
    rel s t (transfer_lock H s sg x a) (transfer_lock H t sg x a).
  Proof.
    intros A E F. cbn [layout] in E. layout_facts E F. unfold transfer_lock.
    match goal with R1 : get_config _ _ = Ok _, R2 : any_tok _ _ = Ok _ |- _ => destruct (local_checks s t sg x a Locking _ _ A R1 R2) as [Q Q']; try lw end.
    rewrite Q. apply rel_pure. intros [[[c mt] f] pe] K. destruct (Q' _ _ _ _ K) as [-> ->]. apply rel_pure. intros [am tr] _.
    rd A. apply rel_pure. intros bf _. apply rel_bind; [apply r_transfer; [exact A|lw..]|]. intros s1 t1 A1.
    rd A1. pure. apply r_outbox; [exact A1|lw..].
  Qed.

  Lemma local_redeem H s t x ns : agr s t -> layout H s (IRedeem x) = Ok ns -> Forall needs ns -> rel s t (redeem H s x) (redeem H t x).
  Proof.
    intros A E F. cbn [layout] in E. layout_facts E F. unfold redeem. rd A.
    repeat match goal with R : ?r = Ok _ |- context [bind ?r _] => rewrite R; cbn [bind]; rd A end.
    apply rel_pure; intros _ _. repeat match goal with R : ?r = Ok _ |- context [bind ?r _] => rewrite R; cbn [bind]; rd A end.
    pure. cbv zeta. rd A. pure.
    match goal with |- rel _ _ (if ?b then _ else _) _ => destruct b end; [apply r_put; [exact A|lw]|].
    apply rel_pure; intros [? ?] _. apply rel_pure; intros [? ?] _. apply rel_pure; intros ? _.
    one_put A A1. one_put A1 A2. apply r_put; [exact A2|lw].
  Qed.

  Lemma local_release_checks s t x md c it : agr s t -> get_config s (la_config x) = Ok c -> get_inbox_item s (la_item x) = Ok it ->
    L (HA (la_config x)) -> L (HA (la_item x)) -> L (HA (cf_mint c)) -> L (HA (cf_custody c)) -> L (HA (ata (la_tp x) (ib_recipient it) (cf_mint c))) ->
    release_checks t x md = release_checks s x md /\
    (forall c' i' ra, release_checks s x md = Ok (c', i', ra) -> c' = c /\ i' = it /\ ra = ata (la_tp x) (ib_recipient it) (cf_mint c)).
  Proof.
    intros A E Ei H1 H2 H3 H4 H5. unfold release_checks. rewrite (a_np A) by lw. rewrite (get_np _ _ _ E), !bind_unit. rd A. rewrite Ei. cbn [bind]. split.
    - rd A. reflexivity.
    - intros c' mt f' Q. cbv zeta in Q.
      repeat match type of Q with bind ?r _ = Ok _ => let R := fresh "R" in destruct r eqn:R; cbn [bind] in Q; [|discriminate Q] end.
      injection Q as <- <- <-. auto.
  Qed.
  Lemma local_mint H s t x r ns : agr s t -> layout H s (IReleaseMint x r) = Ok ns -> Forall needs ns ->
    rel s t (release_inbound_mint s x r) (release_inbound_mint t x r).
  Proof.
    intros A E F. cbn [layout] in E. layout_facts E F. unfold release_inbound_mint.
    match goal with R1 : get_config _ _ = Ok _, R2 : get_inbox_item _ _ = Ok _ |- _ => destruct (@local_release_checks s t x Burning _ _ A R1 R2) as [Q Q']; try lw end.
    rewrite Q. apply rel_pure. intros [[c i] ra] K. destruct (Q' _ _ _ K) as (-> & -> & ->). rd A. apply rel_pure. intros [i' rel'] _.
    destruct (negb rel'); [destruct r; [reflexivity|apply rel_id, A]|].
    apply rel_bind; [apply r_mint_to; [exact A|lw..]|]. intros s1 t1 A1. apply rel_bind; [apply r_transfer; [exact A1|lw..]|]. intros s2 t2 A2.
    apply r_put; [exact A2|lw].
  Qed.
  Lemma local_unlock H s t x r ns : agr s t -> layout H s (IReleaseUnlock x r) = Ok ns -> Forall needs ns ->
    rel s t (release_inbound_unlock s x r) (release_inbound_unlock t x r).
  Proof.
    intros A E F. cbn [layout] in E. layout_facts E F. unfold release_inbound_unlock.
    match goal with R1 : get_config _ _ = Ok _, R2 : get_inbox_item _ _ = Ok _ |- _ => destruct (@local_release_checks s t x Locking _ _ A R1 R2) as [Q Q']; try lw end.
    rewrite Q. apply rel_pure. intros [[c i] ra] K. destruct (Q' _ _ _ K) as (-> & -> & ->). rd A. apply rel_pure. intros [i' rel'] _.
    destruct (negb rel'); [destruct r; [reflexivity|apply rel_id, A]|].
    apply rel_bind; [apply r_transfer; [exact A|lw..]|]. intros s2 t2 A2. apply r_put; [exact A2|lw].
  Qed.

  Lemma local_mark s t sg sn c it tr : agr s t -> L (HA c) -> W (HA it) -> L (HA tr) ->
    rel s t (let? (s', _) := mark_outbox_item_as_released s sg sn c it tr in Ok s') (let? (t', _) := mark_outbox_item_as_released t sg sn c it tr in Ok t').
  Proof.
    intros A H1 H2 H3. unfold mark_outbox_item_as_released. rewrite (a_outbound A), (a_now A) by lw.
    destruct (outbound_checks s c it tr) as [[[? ?] ?]|]; cbn [bind]; [|reflexivity].
    destruct (require _ _); cbn [bind]; [|reflexivity]. destruct (require _ _); cbn [bind]; [|reflexivity].
    destruct (outbox_try_release _ _ _) as [[? ?]|]; cbn [bind]; [|reflexivity]. apply r_put; assumption.
  Qed.

  Lemma local_x_release s t p c it tr r ok : agr s t -> L (HA c) -> W (HA it) -> L (HA tr) -> W (HA (pda_message p it)) -> W HBridge ->
    rel s t (x_release s p c it tr r ok) (x_release t p c it tr r ok).
  Proof.
    intros A H1 H2 H3 H4 H5. unfold x_release. rewrite (a_outbound A), (a_now A) by lw. apply rel_pure. intros [[c' o] rt] Hc.
    apply rel_pure. intros _ _.
    assert (Step : exists o' b e, (match p with
       | PManager => let? (o', r) := outbox_try_release o (st_now s) (rt_id rt) in Ok (put it PManager (DOutboxItem o') s, r)
       | _ => mark_outbox_item_as_released s [pda_outbox_signer p] (pda_outbox_signer p) c it tr end)
       = match e with Some x => Err x | None => Ok (put it PManager (DOutboxItem o') s, b) end /\
      (match p with
       | PManager => let? (o', r) := outbox_try_release o (st_now s) (rt_id rt) in Ok (put it PManager (DOutboxItem o') t, r)
       | _ => mark_outbox_item_as_released t [pda_outbox_signer p] (pda_outbox_signer p) c it tr end)
       = match e with Some x => Err x | None => Ok (put it PManager (DOutboxItem o') t, b) end).
    { unfold mark_outbox_item_as_released. rewrite (a_outbound A), (a_now A) by lw. rewrite Hc. cbn [bind].
      destruct (outbox_try_release o (st_now s) (rt_id rt)) as [[o' b]|e]; cbn [bind].
      - destruct p; cbn [bind];
        (destruct (require _ _) as [|e1]; cbn [bind]; [|exists o', b, (Some e1); split; reflexivity];
         destruct (require _ _) as [|e2]; cbn [bind]; [|exists o', b, (Some e2); split; reflexivity]; exists o', b, None; split; reflexivity) ||
        (exists o', b, None; split; reflexivity).
      - destruct p; cbn [bind];
        (destruct (require _ _) as [|e1]; cbn [bind]; [|exists o, true, (Some e1); split; reflexivity];
         destruct (require _ _) as [|e2]; cbn [bind]; [|exists o, true, (Some e2); split; reflexivity]; exists o, true, (Some e); split; reflexivity) ||
        (exists o, true, (Some e); split; reflexivity). }
    destruct Step as (o' & b & e & -> & ->). destruct e; cbn [bind]; [reflexivity|].
    destruct (negb b); [destruct r; [reflexivity|apply rel_id, A]|].
    one_put A A1. rewrite (a_out A1) by lw. apply rel_pure. intros o2 _. do 2 (apply rel_pure; intros).
    apply r_bridge; assumption.
  Qed.

  Theorem local_exec H s t sg i ns : agr s t -> layout H s i = Ok ns -> Forall needs ns -> rel s t (exec H s sg i) (exec H t sg i).
  Proof.
    intros A E F. destruct i; try discriminate E; cbn [exec].
    - eapply local_initialize; eassumption.
    - eapply local_lut; eassumption.
    - eapply local_lock; eassumption.
    - eapply local_burn; eassumption.
    - eapply local_redeem; eassumption.
    - eapply local_mint; eassumption.
    - eapply local_unlock; eassumption.
    - cbn [layout] in E. layout_facts E F. unfold transfer_ownership. rd A. pure.
      one_put A A1. apply r_loader; [exact A1|lw].
    - cbn [layout] in E. layout_facts E F. unfold transfer_ownership_one_step_unchecked. rd A. pure.
      one_put A A1. apply r_loader; [exact A1|lw].
    - cbn [layout] in E. layout_facts E F. unfold claim_ownership. rd A. pure.
      one_put A A1. apply r_loader; [exact A1|lw].
    - cbn [layout] in E. layout_facts E F. unfold set_paused. rd A. pure. apply r_put; [exact A|lw].
    - cbn [layout] in E. layout_facts E F. unfold set_peer. rd A. pure.
      one_put A A1. apply r_put; [exact A1|lw].
    - cbn [layout] in E. layout_facts E F. unfold register_transceiver. rd A. pure.
      one_put A A1. apply r_put; [exact A1|lw].
    - cbn [layout] in E. layout_facts E F. unfold set_outbound_limit. rd A. pure. apply r_put; [exact A|lw].
    - cbn [layout] in E. layout_facts E F. unfold set_inbound_limit. rd A. pure. apply r_put; [exact A|lw].
    - cbn [layout] in E. layout_facts E F. apply local_mark; [exact A|lw..].
    - cbn [layout] in E. layout_facts E F. unfold x_set_peer. rd A. pure. apply r_put; [exact A|lw].
    - cbn [layout] in E. destruct (get s PWormhole vaa) as [d|] eqn:R; cbn [bind] in E; [|discriminate E].
      destruct d as [ | | | | | | | | | | ch e [m|] | | ]; try discriminate E. layout_facts E F. unfold x_receive. rd A. apply rel_pure; intros c _. rewrite R. cbn [bind].
      rd A. pure. cbv zeta. rd A. pure. apply r_put; [exact A|lw].
    - cbn [layout wormhole_accounts] in E. injection E as <-. try unfold wormhole_accounts in F. destruct p; cbn [app] in F; spread; apply local_x_release; (exact A || lw).
    - cbn [layout wormhole_accounts] in E. layout_facts E F. unfold x_broadcast_id. rd A.
      repeat match goal with R : ?r = Ok _ |- context [bind ?r _] => rewrite R; cbn [bind]; rd A end. pure. apply r_bridge; [exact A|lw..].
    - cbn [layout wormhole_accounts] in E. layout_facts E F. unfold x_broadcast_peer. rd A. pure. apply r_bridge; [exact A|lw..].
  Qed.
End Local.

(** ** The entry point. *)
Lemma meets_spec n m : meets n m = true ->
  (forall k, ne_key n = Some k -> me_key m = k) /\ (ne_signer n = true -> me_signer m = true) /\ (ne_writable n = true -> me_writable m = true).
Proof.
  unfold meets. rewrite !andb_true_iff. intros [[K S] W]. split; [|split].
  - intros k E. rewrite E in K. apply handle_eqb_eq in K. congruence.
  - intros E. rewrite E in S. exact S.
  - intros E. rewrite E in W. exact W.
Qed.
Lemma meet_in ns : forall ms n, meet ns ms = true -> In n ns -> exists m, In m ms /\ meets n m = true.
Proof.
  induction ns as [|n0 ns IH]; intros [|m ms] n M I; try contradiction; cbn [meet] in M; try discriminate M.
  apply andb_prop in M. destruct M as [M1 M]. destruct I as [<-|I]; [exists m; cbn; auto|].
  destruct (IH ms n M I) as (m' & I' & M'). exists m'. cbn; auto.
Qed.
Lemma meet_needs ns ms : meet ns ms = true -> Forall (needs (given ms) (given_writable ms)) ns.
Proof.
  intros M. apply Forall_forall. intros n I. destruct (meet_in _ _ _ M I) as (m & Im & E). apply meets_spec in E. destruct E as (K & _ & W).
  unfold needs. destruct (ne_key n) as [k|]; [|exact Logic.I]. specialize (K k eq_refl). split; [exists m; auto|]. intros Hw. exists m. auto.
Qed.
Lemma writable_given ms h : given_writable ms h -> given ms h.
Proof. intros (m & A & B & _). exists m. auto. Qed.

Lemma entry_inv nm ok H s p ms data s' : entry nm ok H s p ms data = Ok s' ->
  s' = s /\ (forall t ms', entry nm ok H t p ms' data = Ok t) \/
  exists q g i ns, prog_of p = Some q /\ dispatch p data = Some g /\ instr_of nm ok q g ms = Some i /\ layout H s i = Ok ns /\ meet ns ms = true /\
    step H s (Call (signers_of ms) i) = Ok s' /\
    (forall t ms', instr_of nm ok q g ms' = Some i -> entry nm ok H t p ms' data =
       (let? ns := layout H t i in let? _ := require (meet ns ms') Constraint in step H t (Call (signers_of ms') i))).
Proof.
  unfold entry. destruct (prog_of p) as [q|]; cbn [ok_or bind]; [|discriminate]. destruct (dispatch p data) as [g|]; cbn [ok_or bind]; [|discriminate].
  intros E.
  destruct (match g with GVersion | GTransceiverType => true | _ => false end) eqn:G.
  { left. destruct g; try discriminate G; injection E as <-; auto. }
  right. assert (E' : (let? i := ok_or (instr_of nm ok q g ms) Constraint in
    let? ns := layout H s i in let? _ := require (meet ns ms) Constraint in step H s (Call (signers_of ms) i)) = Ok s') by (destruct g; try discriminate G; exact E).
  clear E. destruct (instr_of nm ok q g ms) as [i|] eqn:I; cbn [ok_or bind] in E'; [|discriminate E'].
  destruct (layout H s i) as [ns|] eqn:Y; cbn [bind] in E'; [|discriminate E']. destruct (meet ns ms) eqn:M; cbn [require bind] in E'; [|discriminate E'].
  exists q, g, i, ns. repeat (split; [first [reflexivity | exact I | exact Y | exact M | exact E']|]).
  intros t ms' I'. rewrite I'. cbn [ok_or bind]. destruct g; try discriminate G; reflexivity.
Qed.

(** What a call reads. *)
Theorem entry_reads nm ok H s t p ms data s' : agree_on ms s t -> entry nm ok H s p ms data = Ok s' ->
  exists t' l, entry nm ok H t p ms data = Ok t' /\ agree_on ms s' t' /\ changes_within ms s s' /\ changes_within ms t t' /\
    st_posted s' = l ++ st_posted s /\ st_posted t' = l ++ st_posted t.
Proof.
  intros A E. destruct (entry_inv _ _ _ _ _ _ _ _ E) as [[-> K]|(q & g & i & ns & P & D & I & Y & M & S & K)].
  { exists t, []. split; [apply K|]. split; [exact A|]. repeat split. }
  pose proof (meet_needs _ _ M) as N.
  assert (Y' : layout H t i = Ok ns) by (eapply (local_layout (given ms) (given_writable ms)); [first [apply writable_given | exact A]|..]; first [exact A|exact Y|exact N]).
  rewrite (K t ms I), Y'. cbn [bind]. rewrite M. cbn [require bind]. unfold step in *. cbn [signers ins] in *.
  destruct (require _ _) as [u|]; cbn [bind] in *; [|discriminate S].
  pose proof (local_exec (given ms) (given_writable ms) (@writable_given ms) H s t (signers_of ms) i ns A Y N) as R. unfold rel in R. rewrite S in R.
  destruct (exec H t (signers_of ms) i) as [t'|]; [|contradiction]. destruct R as (R1 & R2 & R3 & l & R4 & R5).
  exists t', l. split; [reflexivity|]. split; [exact R1|]. split; [exact R2|]. split; [exact R3|]. auto.
Qed.
Lemma agree_refl ms s : agree_on ms s s. Proof. repeat split. Qed.
Theorem entry_writes nm ok H s p ms data s' : entry nm ok H s p ms data = Ok s' -> changes_within ms s s'.
Proof. intros E. destruct (entry_reads _ _ _ _ _ _ _ _ _ (agree_refl ms s) E) as (t' & l & _ & _ & F & _). exact F. Qed.

(** Independent calls commute. *)
Lemma changes_agree ms ms' s t : changes_within ms s t -> (forall h, given_writable ms h -> ~ given ms' h) -> agree_on ms' s t.
Proof.
  intros (N & S & U & _) D. split; [exact N|]. split.
  - intros a Ha. apply S. intros Hw. exact (D _ Hw Ha).
  - intros Ha. apply U. intros Hw. exact (D _ Hw Ha).
Qed.
Lemma given_writable_dec ms h : given_writable ms h \/ ~ given_writable ms h.
Proof.
  induction ms as [|m ms [IH|IH]].
  - right. intros (m & [] & _).
  - left. destruct IH as (m' & A & B). exists m'. cbn; auto.
  - destruct (handle_eq_dec (me_key m) h) as [E|E].
    + destruct (me_writable m) eqn:Wm; [left; exists m; cbn; auto|]. right. intros (m' & [<-|A] & B & C); [congruence|]. apply IH. exists m'. auto.
    + right. intros (m' & [<-|A] & B & C); [congruence|]. apply IH. exists m'. auto.
Qed.
Lemma same_at_sym s t a : same_at s t a -> same_at t s a. Proof. unfold same_at. intuition congruence. Qed.
Lemma same_at_tr s t u a : same_at s t a -> same_at t u a -> same_at s u a. Proof. unfold same_at. intuition congruence. Qed.

Theorem independent_commute nm ok ok' H s p p' ms ms' data data' s1 s2 : independent ms ms' ->
  entry nm ok H s p ms data = Ok s1 -> entry nm ok' H s1 p' ms' data' = Ok s2 ->
  exists t1 t2, entry nm ok' H s p' ms' data' = Ok t1 /\ entry nm ok H t1 p ms data = Ok t2 /\ same s2 t2.
Proof.
  intros [D D'] EA EB.
  assert (A1 : agree_on ms' s1 s).
  { pose proof (changes_agree ms ms' s s1 (entry_writes _ _ _ _ _ _ _ _ EA) D) as (N & S & U). split; [congruence|]. split.
    - intros a Ha. apply same_at_sym, S, Ha. - intros Ha. symmetry. apply U, Ha. }
  destruct (entry_reads _ _ _ _ _ _ _ _ _ A1 EB) as (t1 & l & E1 & G1 & F1 & F1' & P1 & P1').
  assert (A2 : agree_on ms s t1) by (apply (changes_agree ms' ms s t1); assumption).
  destruct (entry_reads _ _ _ _ _ _ _ _ _ A2 EA) as (t2 & l' & E2 & G2 & F2 & F2' & P2 & P2').
  exists t1, t2. split; [exact E1|]. split; [exact E2|].
  destruct F1 as (N1 & S1 & U1 & B1), F1' as (N1' & S1' & U1' & B1'), F2 as (N2 & S2 & U2 & B2), F2' as (N2' & S2' & U2' & B2').
  split; [congruence|]. split; [|split].
  - intros a. destruct (given_writable_dec ms (HA a)) as [Wa|Na].
    + (* s2 = s1 = t2 at a *) assert (Nb : ~ given_writable ms' (HA a)) by (intros Hw; apply (D _ Wa), writable_given, Hw).
      eapply same_at_tr; [apply same_at_sym, S1, Nb|]. apply G2, writable_given, Wa.
    + destruct (given_writable_dec ms' (HA a)) as [Wb|Nb].
      * eapply same_at_tr; [apply G1, writable_given, Wb|]. apply S2', Na.
      * eapply same_at_tr; [apply same_at_sym, S1, Nb|]. eapply same_at_tr; [apply same_at_sym, S2, Na|].
        eapply same_at_tr; [apply S1', Nb|]. apply S2', Na.
  - destruct (given_writable_dec ms HProgramData) as [Wa|Na].
    + assert (Nb : ~ given_writable ms' HProgramData) by (intros Hw; apply (D _ Wa), writable_given, Hw).
      rewrite <- U1 by exact Nb. apply G2, writable_given, Wa.
    + destruct (given_writable_dec ms' HProgramData) as [Wb|Nb].
      * rewrite <- U2' by exact Na. apply G1, writable_given, Wb.
      * rewrite <- U1, <- U2, <- U2', <- U1' by assumption. reflexivity.
  - destruct (given_writable_dec ms HBridge) as [Wa|Na].
    + assert (Nb : ~ given_writable ms' HBridge) by (intros Hw; apply (D _ Wa), writable_given, Hw).
      rewrite <- B1 by exact Nb. rewrite P2, P2'. rewrite <- B1' by exact Nb. reflexivity.
    + rewrite P1. rewrite <- (B2' Na), P1', <- (B2 Na). reflexivity.
Qed.

(** Signatures. *)
Ltac demanded K :=
  match goal with |- signed _ ?a = _ =>
    first [apply (K (sig_ a)); [cbn [In app]; tauto|reflexivity|reflexivity] | apply (K (sigmu a)); [cbn [In app]; tauto|reflexivity|reflexivity]] end.
Lemma sig_exec H s sg sg' i ns : layout H s i = Ok ns ->
  (forall n a, In n ns -> ne_signer n = true -> ne_key n = Some (HA a) -> signed sg a = signed sg' a) -> exec H s sg i = exec H s sg' i.
Proof.
  intros Y K. destruct i; try discriminate Y; cbn [exec]; try reflexivity.
  all: cbn [layout] in Y; repeat match type of Y with bind ?r _ = Ok _ => destruct r; cbn [bind] in Y; [|discriminate Y] end; injection Y as <-.
  all: try (assert (Ko : signed sg owner = signed sg' owner) by demanded K).
  all: try (unfold transfer_ownership, transfer_ownership_one_step_unchecked, set_paused, set_peer, register_transceiver, set_outbound_limit,
            set_inbound_limit, x_set_peer, get_owned; rewrite Ko; reflexivity).
  - assert (Ko : signed sg deployer = signed sg' deployer) by demanded K. unfold initialize. rewrite Ko. reflexivity.
  - assert (Ko : signed sg (xa_outbox_item x) = signed sg' (xa_outbox_item x)) by demanded K.
    unfold transfer_lock, transfer_checks. rewrite Ko. reflexivity.
  - assert (Ko : signed sg (xa_outbox_item x) = signed sg' (xa_outbox_item x)) by demanded K.
    unfold transfer_burn, transfer_checks. rewrite Ko. reflexivity.
  - assert (Ko : signed sg new_owner = signed sg' new_owner) by demanded K. unfold claim_ownership. rewrite Ko. reflexivity.
  - assert (Ko : signed sg signer = signed sg' signer) by demanded K. unfold mark_outbox_item_as_released. rewrite Ko. reflexivity.
  - assert (Ko : signed sg msg = signed sg' msg) by demanded K. unfold x_broadcast_id. rewrite Ko. reflexivity.
  - assert (Ko : signed sg msg = signed sg' msg) by demanded K. unfold x_broadcast_peer. rewrite Ko. reflexivity.
Qed.

Lemma signers_of_in ms a : In a (signers_of ms) <-> given_signer ms a.
Proof.
  unfold signers_of, given_signer. rewrite in_flat_map. split; intros (m & I & E); exists m; split; auto.
  - destruct (me_key m); try contradiction. destruct (me_signer m); [|contradiction]. destruct E as [<-|[]]. auto.
  - destruct E as [-> ->]. cbn. auto.
Qed.
Lemma signed_in sg a : signed sg a = true <-> In a sg.
Proof.
  unfold signed. rewrite existsb_exists. split; [intros (b & I & E); apply addr_eqb_eq in E; subst; exact I|]. intros I. exists a. split; [exact I|]. apply addr_eqb_eq. reflexivity.
Qed.

(** Fewer signatures: the same outcome or a refusal. *)
Lemma fewer_at ms ms' : fewer_signers ms ms' -> forall n, at_key ms' n = at_key ms n.
Proof.
  unfold at_key. induction 1 as [|m m' ms ms' (K & _) F IH]; intros [|n]; cbn [nth_error]; try reflexivity; [rewrite K; reflexivity|apply IH].
Qed.
Lemma fewer_instr nm ok q g ms ms' : fewer_signers ms ms' -> instr_of nm ok q g ms' = instr_of nm ok q g ms.
Proof.
  intros F. assert (A := fewer_at _ _ F). unfold instr_of, at_token_program. destruct g; cbv zeta; rewrite ?A; reflexivity.
Qed.
Lemma fewer_given ms ms' a : fewer_signers ms ms' -> given_signer ms' a -> given_signer ms a.
Proof.
  intros F (m' & I & K & S). revert I. induction F as [|m n ms ms' (K1 & _ & S1) F IH]; [intros []|]. intros [<-|I].
  - exists m. cbn. split; [auto|]. split; [congruence|]. auto.
  - destruct (IH I) as (x & X & X'). exists x. cbn. auto.
Qed.
Lemma demanded_signed ns ms n a : meet ns ms = true -> In n ns -> ne_signer n = true -> ne_key n = Some (HA a) -> signed (signers_of ms) a = true.
Proof.
  intros M I S K. destruct (meet_in _ _ _ M I) as (m & Im & E). apply meets_spec in E. destruct E as (K' & S' & _).
  apply signed_in, signers_of_in. exists m. auto.
Qed.
Theorem entry_signers nm ok H s p ms ms' data s' : fewer_signers ms ms' -> entry nm ok H s p ms data = Ok s' ->
  entry nm ok H s p ms' data = Ok s' \/ entry nm ok H s p ms' data = Err Constraint.
Proof.
  intros F E. destruct (entry_inv _ _ _ _ _ _ _ _ E) as [[-> K]|(q & g & i & ns & P & D & I & Y & M & S & K)]; [left; apply K|].
  rewrite (K s ms') by (rewrite (fewer_instr _ _ _ _ _ _ F); exact I). rewrite Y. cbn [bind].
  destruct (meet ns ms') eqn:M'; cbn [require bind]; [|right; reflexivity]. left.
  unfold step in *. cbn [signers ins] in *. destruct (forallb can_sign (signers_of ms) && typed i) eqn:G; cbn [require bind] in S; [|discriminate S].
  apply andb_prop in G. destruct G as [G T].
  assert (G' : forallb can_sign (signers_of ms') = true).
  { apply forallb_forall. intros a Ha. rewrite forallb_forall in G. apply G, signers_of_in. apply (fewer_given _ _ _ F), signers_of_in, Ha. }
  rewrite G', T. cbn [andb require bind]. rewrite <- S. eapply sig_exec; [exact Y|].
  intros n a In_ Sn Kn. rewrite (demanded_signed _ _ _ _ M' In_ Sn Kn), (demanded_signed _ _ _ _ M In_ Sn Kn). reflexivity.
Qed.

(** ** Completeness: an instruction of Exec.v that succeeds can be called. *)
Definition meta_of (x : addr) (n : need) : meta :=
  Meta (match ne_key n with Some k => k | None => HA x end) (ne_signer n) (ne_writable n).
Lemma meet_metas x ns : meet ns (map (meta_of x) ns) = true.
Proof.
  induction ns as [|n ns IH]; [reflexivity|]. cbn [map meet]. rewrite IH, andb_true_r. unfold meets, meta_of. cbn [me_key me_signer me_writable].
  destruct (ne_key n) as [k|]; [replace (handle_eqb k k) with true by (symmetry; apply handle_eqb_eq; reflexivity)|]; destruct (ne_signer n), (ne_writable n); reflexivity.
Qed.

(** An account that a successful instruction needs as signer has signed. *)
Lemma exec_signed H s sg i s' ns n a : exec H s sg i = Ok s' -> layout H s i = Ok ns -> In n ns -> ne_signer n = true -> ne_key n = Some (HA a) -> signed sg a = true.
Proof.
  intros E Y I S K. destruct (signed sg a) eqn:Sa; [reflexivity|exfalso].
  destruct i; try discriminate Y; cbn [layout] in Y;
  repeat match type of Y with bind ?r _ = Ok _ => let R := fresh "R" in destruct r eqn:R; cbn [bind] in Y; [|discriminate Y] end;
  repeat match goal with p : _ * _ |- _ => destruct p end.
  all: try match type of Y with (match ?d with _ => _ end) = _ => destruct d as [ | | | | | | | | | | ? ? [?|] | | ]; try discriminate Y end.
  all: injection Y as <-; unfold wormhole_accounts in I; try (destruct p); cbn [app In] in I.
  all: repeat match type of I with _ \/ _ => destruct I as [I|I] end; try contradiction; subst n;
       cbn [ne_signer ne_key ro mu sig_ sigmu payer other system loader clock rent program_data] in S, K; try discriminate S; try discriminate K; injection K as K; subst a.
  all: cbn [exec] in E.
  all: unfold initialize, transfer_lock, transfer_burn, transfer_checks, transfer_ownership, transfer_ownership_one_step_unchecked, claim_ownership, set_paused, set_peer,
       register_transceiver, set_outbound_limit, set_inbound_limit, x_set_peer, get_owned, mark_outbox_item_as_released, x_broadcast_id, x_broadcast_peer in E;
       rewrite Sa in E; cbn [andb require bind] in E.
  all: repeat match goal with
    | Q : Err _ = Ok _ |- _ => discriminate Q
    | Q : bind ?r _ = Ok _ |- _ => let R := fresh "R" in destruct r eqn:R; cbn [bind] in Q; [|discriminate Q]
    | p : (_ * _)%type |- _ => destruct p
    end.
Qed.

Ltac rng T := unfold u16b, u64b, u8b in T; rewrite ?andb_true_iff, ?Z.leb_le in T; cbn [wf_call]; unfold is_u16, is_u64, is_u8; repeat split; try assumption; ilia.
Ltac as_call b p q g :=
  exists b, p, q, g; split; [reflexivity|]; split; [cbn [offered]; auto|];
  split; [|split; [discriminate|split; [discriminate|cbn [instr_of map meta_of at_key at_token_program nth_error me_key ne_key ro mu sig_ sigmu payer other system loader clock rent program_data app wormhole_accounts]]]].
Ltac ntt_prog p T := destruct p; try discriminate T.

(** The call that stands for an instruction. *)
Lemma typed_call nm H s i ns x : named nm i -> callable i -> typed i = true -> layout H s i = Ok ns ->
  exists ok p q g, prog_of p = Some q /\ offered p g /\ wf_call g /\ g <> GVersion /\ g <> GTransceiverType /\
    instr_of nm ok q g (map (meta_of x) ns) = Some i.
Proof.
  intros Nm C T Y. destruct i; cbn [callable] in C; try contradiction; cbn [layout] in Y.
  all: repeat match type of Y with bind ?r _ = Ok _ => let R := fresh "R" in destruct r eqn:R; cbn [bind] in Y; [|discriminate Y] end;
       repeat match goal with p : (_ * _)%type |- _ => destruct p end.
  all: try match type of Y with (match ?d with _ => _ end) = _ => destruct d as [ | | | | | | | | | | ? ? [?|] | | ]; try discriminate Y end.
  all: injection Y as <-; cbn [typed] in T.
  all: cbn [named] in Nm.
  all: try match goal with x0 : transfer_accts |- _ => destruct x0 as [xc xf xt xi xr xh]; cbn [xa_tp xa_config xa_from xa_outbox_item xa_outbox_rl xa_hook_ok] in * end.
  all: try match goal with x0 : release_accts |- _ => destruct x0 as [lc li lt lh]; cbn [la_tp la_config la_item la_hook_ok] in * end.
  all: try match goal with x0 : redeem_accts |- _ => destruct x0 end.
  all: try match goal with x0 : targs |- _ => destruct x0 as [am ch to qu]; cbn [ar_amount ar_chain ar_to ar_queue] in *; destruct Nm as (bt & B32 & <-) end.
  - as_call true AManager PManager (GInitialize chain limit m); [rng T|]. rewrite C. reflexivity.
  - destruct C as (slot & Hs & ->). as_call ok AManager PManager (GInitializeLut slot); [exact Hs|].
    replace (addr_eqb _ _) with true by (symmetry; apply addr_eqb_eq; reflexivity). reflexivity.
  - as_call xh AManager PManager (GTransferLock am ch bt qu); [rng T|]. rewrite C. reflexivity.
  - as_call xh AManager PManager (GTransferBurn am ch bt qu); [rng T|]. rewrite C. reflexivity.
  - as_call true AManager PManager GRedeem; [exact Logic.I|reflexivity].
  - as_call lh AManager PManager (GReleaseMint revert_on_delay); [exact Logic.I|]. rewrite C. reflexivity.
  - as_call lh AManager PManager (GReleaseUnlock revert_on_delay); [exact Logic.I|]. rewrite C. reflexivity.
  - as_call true AManager PManager GTransferOwnership; [exact Logic.I|reflexivity].
  - as_call true AManager PManager GTransferOwnershipOneStep; [exact Logic.I|reflexivity].
  - as_call true AManager PManager GClaimOwnership; [exact Logic.I|reflexivity].
  - as_call true AManager PManager (GSetPaused paused); [exact Logic.I|reflexivity].
  - destruct Nm as (b & B32 & <-). as_call true AManager PManager (GSetPeer chain b limit decimals); [rng T|reflexivity].
  - as_call true AManager PManager GRegisterTransceiver; [exact Logic.I|reflexivity].
  - as_call true AManager PManager (GSetOutboundLimit limit); [rng T|reflexivity].
  - as_call true AManager PManager (GSetInboundLimit limit chain); [rng T|reflexivity].
  - as_call true AManager PManager GMark; [exact Logic.I|reflexivity].
  - destruct Nm as (b & B32 & <-). apply andb_prop in T. destruct T as [Tp T].
    destruct p; try discriminate Tp; [as_call true AManager PManager (GSetWormholePeer chain b)|as_call true ATransceiver PTransceiver (GSetWormholePeer chain b)]; (rng T || reflexivity).
  - destruct p; try discriminate T; [as_call true AManager PManager GReceive|as_call true ATransceiver PTransceiver GReceive]; (exact Logic.I || reflexivity).
  - destruct p; try discriminate T; [as_call bridge_ok AManager PManager (GReleaseOutbound revert_on_delay)|as_call bridge_ok ATransceiver PTransceiver (GReleaseOutbound revert_on_delay)]; (exact Logic.I || reflexivity).
  - destruct p; try discriminate T; [as_call bridge_ok AManager PManager GBroadcastId|as_call bridge_ok ATransceiver PTransceiver GBroadcastId]; (exact Logic.I || reflexivity).
  - apply andb_prop in T. destruct T as [Tp T].
    destruct p; try discriminate Tp; [as_call bridge_ok AManager PManager (GBroadcastPeer chain)|as_call bridge_ok ATransceiver PTransceiver (GBroadcastPeer chain)]; (rng T || reflexivity).
Qed.

(** An instruction that succeeds has a layout. *)
Lemma exec_layout H s sg i s' : callable i -> exec H s sg i = Ok s' -> exists ns, layout H s i = Ok ns.
Proof.
  intros C E. destruct i; cbn [callable] in C; try contradiction; cbn [exec layout] in *; try (eexists; reflexivity).
  - unfold initialize_lut in E. destruct (get_config s cfg); cbn [bind] in *; [eexists; reflexivity|discriminate E].
  - unfold transfer_lock, transfer_checks, get_not_paused in E. destruct (get_config s (xa_config x)); cbn [bind] in *; [|discriminate E].
    destruct (any_tok s (xa_from x)); cbn [bind] in *; [eexists; reflexivity|].
    repeat match goal with Q : bind ?r _ = Ok _ |- _ => let R := fresh "R" in destruct r eqn:R; cbn [bind] in Q; [|discriminate Q] | Q : Err _ = Ok _ |- _ => discriminate Q end.
  - unfold transfer_burn, transfer_checks, get_not_paused in E. destruct (get_config s (xa_config x)); cbn [bind] in *; [|discriminate E].
    destruct (any_tok s (xa_from x)); cbn [bind] in *; [eexists; reflexivity|].
    repeat match goal with Q : bind ?r _ = Ok _ |- _ => let R := fresh "R" in destruct r eqn:R; cbn [bind] in Q; [|discriminate Q] | Q : Err _ = Ok _ |- _ => discriminate Q end.
  - unfold redeem in E. destruct (get_config s (ra_config x)); cbn [bind] in *; [|discriminate E].
    destruct (require _ _); cbn [bind] in E; [|discriminate E]. destruct (get_reg s (ra_transceiver x)); cbn [bind] in *; [|discriminate E].
    destruct (get_message _ _ _) as [[? ?]|]; cbn [bind] in *; [eexists; reflexivity|discriminate E].
  - unfold release_inbound_mint, release_checks, get_not_paused in E. destruct (get_config s (la_config x)); cbn [bind] in *; [|discriminate E].
    destruct (get_inbox_item s (la_item x)); cbn [bind] in *; [eexists; reflexivity|].
    repeat match goal with Q : bind ?r _ = Ok _ |- _ => let R := fresh "R" in destruct r eqn:R; cbn [bind] in Q; [|discriminate Q] | Q : Err _ = Ok _ |- _ => discriminate Q end.
  - unfold release_inbound_unlock, release_checks, get_not_paused in E. destruct (get_config s (la_config x)); cbn [bind] in *; [|discriminate E].
    destruct (get_inbox_item s (la_item x)); cbn [bind] in *; [eexists; reflexivity|].
    repeat match goal with Q : bind ?r _ = Ok _ |- _ => let R := fresh "R" in destruct r eqn:R; cbn [bind] in Q; [|discriminate Q] | Q : Err _ = Ok _ |- _ => discriminate Q end.
  - unfold x_receive in E. destruct (get_not_paused s cfg); cbn [bind] in E; [|discriminate E]. destruct (get s PWormhole vaa) as [d|]; cbn [bind] in *; [|discriminate E].
    destruct d as [ | | | | | | | | | | ch e [m|] | | ]; try discriminate E. eexists; reflexivity.
  - unfold x_broadcast_id in E. destruct (get_config s cfg); cbn [bind] in *; [eexists; reflexivity|discriminate E].
Qed.

Theorem entry_complete nm H s sg i s' : named nm i -> callable i -> step H s (Call sg i) = Ok s' ->
  exists ok p ms data, entry nm ok H s p ms data = Ok s' /\ (forall a, given_signer ms a -> In a sg \/ a = AKey 0).
Proof.
  intros Nm C E. unfold step in E. cbn [signers ins] in E.
  destruct (forallb can_sign sg && typed i) eqn:G; cbn [require bind] in E; [|discriminate E]. apply andb_prop in G. destruct G as [G T].
  destruct (exec_layout _ _ _ _ _ C E) as (ns & Y).
  destruct (typed_call nm H s i ns (AKey 0) Nm C T Y) as (ok & p & q & g & P & O & Wf & G1 & G2 & I).
  set (ms := map (meta_of (AKey 0)) ns) in *.
  assert (Sg : forall a, given_signer ms a -> In a sg \/ a = AKey 0).
  { intros a (m & Im & K & S). unfold ms in Im. apply in_map_iff in Im. destruct Im as (n & <- & In_). cbn [meta_of me_key me_signer] in K, S.
    destruct (ne_key n) as [k|] eqn:Kn; [|right; congruence]. left. subst k. apply signed_in. eapply exec_signed; eassumption. }
  exists ok, p, ms, (ftag (name_of g) ++ args_of g ++ []). split; [|exact Sg].
  assert (D : dispatch p (ftag (name_of g) ++ args_of g ++ []) = Some g).
  { apply dispatch_exact. split; [exact O|]. split; [exact Wf|]. exists (ftag (name_of g)), []. split; [left; reflexivity|reflexivity]. }
  unfold entry. rewrite P. cbn [ok_or bind]. rewrite D. cbn [ok_or bind].
  assert (E' : (let? i := ok_or (instr_of nm ok q g ms) Constraint in
    let? ns := layout H s i in let? _ := require (meet ns ms) Constraint in step H s (Call (signers_of ms) i)) = Ok s').
  { rewrite I. cbn [ok_or bind]. rewrite Y. cbn [bind]. unfold ms at 1. rewrite meet_metas. cbn [require bind]. unfold step. cbn [signers ins].
    replace (forallb can_sign (signers_of ms)) with true; [|symmetry; apply forallb_forall; intros a Ha; apply signers_of_in in Ha; destruct (Sg _ Ha) as [Hs| ->];
      [rewrite forallb_forall in G; apply G, Hs|reflexivity]].
    rewrite T. cbn [andb require bind]. rewrite <- E. eapply sig_exec; [exact Y|]. intros n a In_ Sn Kn.
    rewrite (exec_signed _ _ _ _ _ _ _ _ E Y In_ Sn Kn). eapply demanded_signed; [apply meet_metas|exact In_|exact Sn|exact Kn]. }
  destruct g; try (exfalso; congruence); exact E'.
Qed.

(** Conversely every call that succeeds is such an instruction. *)
Lemma entry_callable nm ok p q g ms data i : dispatch p data = Some g -> instr_of nm ok q g ms = Some i -> callable i.
Proof.
  intros D I. apply dispatch_exact in D. destruct D as (_ & Wf & _). unfold instr_of, at_token_program in I. cbv zeta in I.
  destruct g; try discriminate I.
  all: repeat match type of I with (match ?r with _ => _ end) = Some _ => let R := fresh "R" in destruct r eqn:R; try discriminate I end.
  all: injection I as <-; cbn [callable xa_tp la_tp]; try exact Logic.I.
  all: repeat match goal with R : (match ?r with _ => _ end) = Some _ |- _ => let Q := fresh "Q" in destruct r eqn:Q; try discriminate R end.
  all: repeat match goal with R : Some _ = Some _ |- _ => injection R as <- end; try assumption.
  exists slot. split; [exact Wf|]. apply addr_eqb_eq. assumption.
Qed.
Theorem entry_step nm ok H s p ms data s' : entry nm ok H s p ms data = Ok s' ->
  s' = s \/ exists i sg, callable i /\ (forall a, In a sg <-> given_signer ms a) /\ step H s (Call sg i) = Ok s'.
Proof.
  intros E. destruct (entry_inv _ _ _ _ _ _ _ _ E) as [[-> _]|(q & g & i & ns & P & D & I & Y & M & S & K)]; [auto|].
  right. exists i, (signers_of ms). split; [eapply entry_callable; eassumption|]. split; [intros a; apply signers_of_in|exact S].
Qed.

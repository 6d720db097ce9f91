From Coq Require Import String.
From Verif Require Export SpecBump DeriveFacts QuoterFacts.
From Verif Require Import BytesFacts SeedsFacts ChainFacts Kept Changes.
From Verif Require Import Quoter Seeds.
Import ListNotations.
Local Open Scope Z_scope.
Local Strategy 1000 [sha256].

Section B.
Context (N : names) (Q : bytes) (E : qenv).

Lemma place_found a program s : place N Q a = Some (program, s) -> bytes_at N Q a = option_map fst (find_address N (List.concat (seeds s)) program).
Proof.
  intros P. destruct a as [|c|p|i|a]; try (unfold bytes_at, found_at; rewrite P; reflexivity).
  cbn [place bytes_at] in *. destruct a as [| | | |p t z x y]; try discriminate. destruct p; try discriminate; cbn [address];
    (destruct (address N x) as [u|]; [|discriminate]); (destruct (address N y) as [v|]; [|discriminate]);
    (destruct (purpose_of t z u v) as [w|] eqn:W; [|discriminate]); cbn [option_map] in P; apply Some_inj in P; inversion P; subst; cbn [seed_bytes]; rewrite W; reflexivity.
Qed.
Lemma bump_create a b : bump_at N Q a = Some b -> exists program s x, place N Q a = Some (program, s) /\ bytes_at N Q a = Some x /\
  create N (List.concat (seeds s) ++ be_enc 1 b) program = Some x.
Proof.
  unfold bump_at, found_at. destruct (place N Q a) as [[program s]|] eqn:P; [|discriminate]. destruct (find_address _ _ _) as [[x b']|] eqn:F; [|discriminate].
  cbn [option_map snd]. intros I. apply Some_inj in I. subst b'. exists program, s, x. split; [reflexivity|]. rewrite (place_found _ _ _ P), F. split; [reflexivity|].
  apply found in F. apply F.
Qed.

(** ** Where accounts with bumps come from *)
Lemma stores_world H w sg i w' x p d : inv w -> step H w (Call sg i) = Ok w' -> st_accts w' x = Some (Acct p d) -> p = PManager \/ p = PTransceiver -> bump_field d = true ->
  (exists d0, st_accts w x = Some (Acct p d0) /\ bump_field d0 = true) \/
  forall q, q_world q = w -> qe_hashes E = H -> In (QExt x) (writes E q (QWorld i)).
Proof.
  intros Hi S A P B. destruct (step_change _ _ _ _ S x) as [C|C]; [rewrite C in A; eauto|]. rewrite A in C. cbn [signers ins] in C. clear S.
  remember (st_accts w x) as old eqn:Eo. remember (Some (Acct p d)) as new eqn:En.
  destruct C; try discriminate En; apply Some_inj in En; inversion En; subst p d; try discriminate B; try (destruct P; discriminate);
    try (left; eexists; split; [reflexivity|reflexivity]); try (right; intros q Qw Qh; cbn [writes In]; auto; fail).
  all: match goal with R : redeem_facts _ _ _ _ _ _ _ _ _ _ _ _ _ _ _ _ |- _ => destruct (rf_item _ _ _ _ _ _ _ _ _ _ _ _ _ _ _ _ R) as [[Z _]|Z];
      [right; intros q Qw Qh; cbn [writes]; rewrite Qw, Qh, (rf_msg _ _ _ _ _ _ _ _ _ _ _ _ _ _ _ _ R), Z; left; reflexivity|left; eexists; split; [subst; exact Z|reflexivity]] end.
Qed.

Lemma stores_step q c q' a : q_inv E q -> q_step E q c = Ok q' -> stores q' a -> stores q a \/ In a (writes E q (q_ins c)).
Proof.
  intros Hi S [(x & p & d & -> & A & P & B)|R].
  - destruct (q_world_step _ _ _ _ S) as [W|(i & I & W)].
    + rewrite W in A. left. left. exists x, p, d. auto.
    + destruct (stores_world _ _ _ _ _ _ _ _ (reachable_inv _ _ (qv_world _ _ Hi)) W A P B) as [(d0 & A0 & B0)|K]; [left; left; exists x, p, d0; auto|].
      right. rewrite I. apply K; reflexivity.
  - destruct (q_change _ _ _ _ a S) as [C|C]; [left; right; rewrite C in R; exact R|].
    destruct c as [sg i]. cbn [q_signers q_ins] in *. remember (q_accts q a) as old eqn:Eo. remember (q_accts q' a) as new eqn:En. symmetry in En, Eo.
    destruct C; destruct R as [[? R]|[? R]]; try discriminate R; try (right; left; reflexivity); left; right; left; eexists; exact Eo.
Qed.
Lemma scribble_none q c q' a : q_inv E q -> q_step E q c = Ok q' -> scribbles (q_ins c) a -> ~ stores q' a.
Proof.
  intros Hi S (n & x & d & I & ->). pose proof (q_inv_step _ _ _ _ Hi S) as Hi'. apply q_step_inv in S as (_ & _ & S). rewrite I in S. cbn [q_exec] in S. binds S. apply Ok_inj in S. subst q'.
  apply step_inv in E0 as (_ & _ & X). cbn [ins exec signers] in X. binds X.
  assert (V : st_accts v x = Some (Acct (PUser n) d)).
  { destruct (st_accts (q_world q) x); binds X; apply Ok_inj in X; subst v; cbn; apply upd_same. }
  intros [(y & p & d' & A & B & P & _)|[[m R]|[m R]]].
  - inversion A; subst y. cbn in B. rewrite V in B. apply Some_inj in B. inversion B; subst p. destruct P; discriminate.
  - apply (qv_accts _ _ Hi') in R. destruct R as [[? R] _]. discriminate.
  - apply (qv_accts _ _ Hi') in R. destruct R as [[? R] _]. discriminate.
Qed.

Definition canonical (b : bstate) : Prop := forall a, stores (b_q b) a -> bump_at N Q a = Some (b_bump b a).
Lemma canonical_step b c b' : q_inv E (b_q b) -> canonical b -> b_step N Q E b c b' -> canonical b'.
Proof.
  intros Hi C S a A. destruct S as [_ S W K]. pose proof (scribble_none _ _ _ a Hi S) as Z. destruct (in_dec qaddr_eq_dec a (writes E (b_q b) (q_ins c))) as [I|I]; [apply W, I|].
  rewrite K; [|exact I|intros Y; exact (Z Y A)]. apply C. destruct (stores_step _ _ _ _ Hi S A) as [A'|A']; [exact A'|contradiction].
Qed.
Lemma b_reach b : b_reachable N Q E b -> q_inv E (b_q b) /\ canonical b.
Proof.
  intros (b0 & cs & [I0 W0] & R). induction R as [|cs b c b' R [IH1 IH2] S].
  - split; [apply q_reachable_inv; exists (b_q b0), []; split; [exact I0|constructor]|]. intros a [(x & p & d & _ & A & P & _)|[[m A]|[m A]]].
    + exfalso. apply (ini_accts _ W0) in A. destruct A as (_ & A & _). destruct P; subst p; discriminate.
    + rewrite (qi_accts _ _ I0) in A. discriminate.
    + rewrite (qi_accts _ _ I0) in A. discriminate.
  - split; [eapply q_inv_step; [exact IH1|apply S]|eapply canonical_step; eassumption].
Qed.
Lemma projects b0 cs b : b_run N Q E b0 cs b -> exists tr, q_run E (b_q b0) tr (b_q b) /\ map qe_call tr = cs.
Proof. intros R. induction R as [|cs b c b' R (tr & IH & <-) S]; [exists []; split; [constructor|reflexivity]|]. eexists (QEv _ c _ :: tr). split; [econstructor; [exact IH|apply S]|reflexivity]. Qed.


(** ** Checks *)
Lemma pin_stores q p k : In k [PinPeer; PinInbox; PinXPeer PManager; PinXPeer PTransceiver; PinChain; PinNtt] -> pin_type q k p = true -> stores q p.
Proof.
  intros I T. cbn [In] in I. repeat destruct I as [<-|I]; try contradiction I; unfold pin_type in T; try (destruct p as [| | | |x]; try discriminate T;
    destruct (st_accts (q_world q) x) as [[o []]|] eqn:A; try discriminate T; try (destruct o; try discriminate T; vm_compute in T; try discriminate T);
    left; do 3 eexists; split; [reflexivity|split; [exact A|split; [auto|reflexivity]]]);
  right; destruct (q_accts q p) as [[]|] eqn:A; try discriminate T; [left|right]; eauto.
Qed.
Lemma pin_in q i p : typed_args i -> In p (pins N q i) -> In (pn_kind p) [PinPeer; PinInbox; PinXPeer PManager; PinXPeer PTransceiver; PinChain; PinNtt] /\
  place N Q (pn_at p) = Some (pin_program N Q (pn_kind p), pn_seeds p).
Proof.
  intros [_ T] I. destruct i; cbn [pins] in I; try contradiction I.
  - destruct (address N program) eqn:A; [|contradiction]. destruct I as [<-|[]]. cbn [pn_kind pn_at pn_seeds place pin_program]. rewrite A. cbn [option_map In]. auto 10.
  - destruct (st_accts (q_world q) item) as [[o []]|]; try contradiction. destruct I as [<-|[<-|[]]]; cbn [pn_kind pn_at pn_seeds place pin_program address option_map In]; auto 10.
  - specialize (T _ eq_refl). destruct c; cbn [pins] in I; try contradiction I.
    + destruct I as [<-|[<-|[]]]; cbn; auto 10.
    + destruct I as [<-|[<-|[]]]; cbn; auto 10.
    + destruct (st_accts (q_world q) (ra_message x)) as [[o []]|]; try contradiction I. destruct I as [<-|[]]. cbn. auto 10.
    + destruct I as [<-|[]]. cbn. auto 10.
    + destruct (st_accts (q_world q) vaa) as [[[] []]|]; try contradiction I. destruct I as [<-|[]]. cbn [typed] in T. destruct p0; try discriminate T; cbn; auto 10.
Qed.
Lemma passes_at b p : canonical b -> In (pn_kind p) [PinPeer; PinInbox; PinXPeer PManager; PinXPeer PTransceiver; PinChain; PinNtt] ->
  place N Q (pn_at p) = Some (pin_program N Q (pn_kind p), pn_seeds p) -> pin_type (b_q b) (pn_kind p) (pn_at p) = true -> passes N Q b (pn_at p) p.
Proof.
  intros C I P T. split; [exact T|]. pose proof (C _ (pin_stores _ _ _ I T)) as B. apply bump_create in B as (program & s & x & P' & B & X). rewrite P in P'. apply Some_inj in P'. inversion P'; subst. eauto.
Qed.
Lemma pin_types q c q' p : q_step E q c = Ok q' -> In p (pins N q (q_ins c)) -> pin_type q (pn_kind p) (pn_at p) = true.
Proof.
  intros S I. apply q_step_inv in S as (_ & _ & S). destruct c as [sg i]. cbn [q_ins q_signers] in *. destruct i; cbn [pins] in I; try contradiction I; cbn [q_exec] in S.
  - destruct (address N program) eqn:A; [|contradiction]. destruct I as [<-|[]]. unfold qi_deregister_ntt in S. binds S. qgets. cbn [pn_kind pn_at pin_type].
    match goal with K : q_accts q _ = _ |- _ => rewrite K end. reflexivity.
  - apply relay_inv in S as (i & p0 & o & n & ch & q1 & fee & _ & _ & _ & A & B & _ & D & _). rewrite A in I. unfold ntt_at, chain_at in *.
    destruct I as [<-|[<-|[]]]; cbn [pn_kind pn_at pin_type]; [rewrite D|rewrite B]; reflexivity.
  - binds S. clear S. apply step_inv in E0 as (_ & _ & S). cbn [ins signers] in S. destruct c; cbn [pins] in I; try contradiction I; cbn [exec] in S.
    + apply transfer_lock_ok in S. destruct S as (?&?&?&?&?&?&?&?&?&?&?&?&?&?& F & _). pose proof (tf_irl _ _ _ _ _ _ _ _ _ _ _ _ _ _ _ _ F) as K1. pose proof (tf_peer _ _ _ _ _ _ _ _ _ _ _ _ _ _ _ _ F) as K2.
      unfold has in K1, K2. destruct I as [<-|[<-|[]]]; cbn [pn_kind pn_at pin_type]; [rewrite K1|rewrite K2]; reflexivity.
    + apply transfer_burn_ok in S. destruct S as (?&?&?&?&?&?&?&?&?&?&?&?&?&?&?& F & _). pose proof (tf_irl _ _ _ _ _ _ _ _ _ _ _ _ _ _ _ _ F) as K1. pose proof (tf_peer _ _ _ _ _ _ _ _ _ _ _ _ _ _ _ _ F) as K2.
      unfold has in K1, K2. destruct I as [<-|[<-|[]]]; cbn [pn_kind pn_at pin_type]; [rewrite K1|rewrite K2]; reflexivity.
    + apply redeem_ok in S. destruct S as (?&?&?&?&?&?&?&?&?&?&?&?&?& F & _). pose proof (rf_msg _ _ _ _ _ _ _ _ _ _ _ _ _ _ _ _ F) as K1. pose proof (rf_peer _ _ _ _ _ _ _ _ _ _ _ _ _ _ _ _ F) as K2.
      unfold has in K1, K2. rewrite K1 in I. destruct I as [<-|[]]; cbn [pn_kind pn_at pin_type]. rewrite K2. reflexivity.
    + unfold set_inbound_limit in S. binds S. apply get_inbox_rl_ok in E1. unfold has in E1. destruct I as [<-|[]]. cbn [pn_kind pn_at pin_type]. rewrite E1. reflexivity.
    + unfold x_receive in S. binds S. apply get_ok in E1. unfold has in E1. rewrite E1 in I. destruct v1; try discriminate. destruct m; try discriminate. binds S. apply get_xpeer_ok in E2. unfold has in E2.
      destruct I as [<-|[]]. cbn [pn_kind pn_at pin_type]. rewrite E2. apply prog_eqb_eq. reflexivity.
Qed.
Lemma step_typed q c q' : q_step E q c = Ok q' -> typed_args (q_ins c).
Proof.
  intros S. apply q_step_inv in S as (_ & T & S). split; [exact T|]. intros j J. rewrite J in S. cbn [q_exec] in S. binds S. apply step_inv in E0 as (_ & E0 & _). exact E0.
Qed.
Lemma complete b c q' : canonical b -> q_step E (b_q b) c = Ok q' -> (forall a, In a (writes E (b_q b) (q_ins c)) -> bump_at N Q a <> None) ->
  exists b', b_step N Q E b c b' /\ b_q b' = q'.
Proof.
  intros C S W. exists (BState q' (fun a => if in_dec qaddr_eq_dec a (writes E (b_q b) (q_ins c)) then match bump_at N Q a with Some z => z | None => 0 end else b_bump b a)). split; [|reflexivity].
  constructor.
  - apply Forall_forall. intros p I. destruct (pin_in _ _ _ (step_typed _ _ _ S) I) as [K P]. apply passes_at; auto. eapply pin_types; eassumption.
  - exact S.
  - intros a I. cbn [b_bump]. destruct (in_dec _ _ _); [|contradiction]. specialize (W a I). destruct (bump_at N Q a); [reflexivity|congruence].
  - intros a I _. cbn [b_bump]. destruct (in_dec _ _ _); [contradiction|reflexivity].
Qed.
Lemma lifts b0 tr q : b_initial E b0 -> q_run E (b_q b0) tr q -> (forall e a, In e tr -> In a (writes E (qe_pre e) (q_ins (qe_call e))) -> bump_at N Q a <> None) ->
  exists b, b_run N Q E b0 (map qe_call tr) b /\ b_q b = q.
Proof.
  intros I R. induction R as [|tr q c q' R IH S]; intros W; [exists b0; split; [constructor|reflexivity]|].
  destruct IH as (b & B & <-); [intros e a K; apply W; right; exact K|]. destruct (b_reach b) as [_ C]; [exists b0, (map qe_call tr); auto|].
  destruct (complete b c q' C S) as (b' & S' & <-); [intros a K; apply (W (QEv (b_q b) c q')); [left; reflexivity|exact K]|].
  exists b'. split; [econstructor; eassumption|reflexivity].
Qed.

(** An account that passes is the right one. *)
Lemma address_wide a x : wide N Q -> address N a = Some x -> List.length x = 32%nat.
Proof.
  intros (A & B & C & D & _). destruct a; cbn [address]; intros F; try (apply Some_inj in F; subst x); auto.
  destruct (address N a1); [|discriminate]. destruct (address N a2); [|discriminate]. destruct (find_address _ _ _) as [[w k]|] eqn:G; [|discriminate].
  cbn [option_map fst] in F. apply Some_inj in F. subst w. apply found in G as (_ & G & _). apply create_inv in G as [-> _]. apply A.
Qed.
Lemma place_at b p k : q_inv E (b_q b) -> (forall c d, q_accts (b_q b) (QChain c) = Some d -> is_u16 c) -> wide N Q ->
  In p [PinPeer; PinInbox; PinXPeer PManager; PinXPeer PTransceiver; PinChain; PinNtt] -> pin_type (b_q b) p k = true ->
  forall program s, place N Q k = Some (program, s) -> program = pin_program N Q p /\ wf_purpose s /\
    match p with
    | PinPeer => exists c, s = SPeer c /\ k = QExt (pda_peer c)
    | PinInbox => exists c, s = SInboxRateLimit c /\ k = QExt (pda_inbox_rl c)
    | PinXPeer x => exists c, s = SXPeer c /\ k = QExt (pda_xpeer x c)
    | PinChain => exists c, s = SRegChain c /\ k = QChain c
    | PinNtt => exists a u, s = SRegNtt u /\ k = QNtt a /\ address N a = Some u
    end.
Proof.
  intros Hi U W I T program s P. pose proof (reachable_inv _ _ (qv_world _ _ Hi)) as Hw. cbn [In] in I.
  repeat destruct I as [<-|I]; try contradiction I; unfold pin_type in T.
  1-4: destruct k as [| | | |x]; try discriminate T; destruct (st_accts (q_world (b_q b)) x) as [[o []]|] eqn:A; try discriminate T; try (destruct o; try discriminate T; vm_compute in T; try discriminate T);
    apply (inv_shape _ Hw) in A; unfold shape in A; cbn [ac_owner ac_data mgr_shape] in A; destruct A as (c & Hc & A); match type of A with _ /\ _ => destruct A as [A _] | _ => idtac end; subst x; vm_compute in P; apply Some_inj in P; inversion P; subst; cbn [wf_purpose];
    (split; [reflexivity|]); (split; [exact Hc|]); eauto.
  - destruct (q_accts (b_q b) k) as [[]|] eqn:A; try discriminate T. pose proof (qv_accts _ _ Hi _ _ A) as [[ch ->] _]. cbn [place] in P. apply Some_inj in P. inversion P; subst program s. split; [reflexivity|]. split; [eapply U, A|eauto].
  - destruct (q_accts (b_q b) k) as [[]|] eqn:A; try discriminate T. pose proof (qv_accts _ _ Hi _ _ A) as [[a ->] _]. cbn [place] in P. destruct (address N a) as [u|] eqn:F; [|discriminate]. cbn [option_map] in P.
    apply Some_inj in P. inversion P; subst program s. split; [reflexivity|]. split; [cbn [wf_purpose]; eapply address_wide; eassumption|eauto].
Qed.

Lemma chains_u16 b : b_reachable N Q E b -> forall c d, q_accts (b_q b) (QChain c) = Some d -> is_u16 c.
Proof.
  intros (b0 & cs & [I0 W0] & R). induction R as [|cs b c b' R IH S]; intros ch d A; [rewrite (qi_accts _ _ I0) in A; discriminate|].
  assert (Hi : q_inv E (b_q b)) by (apply b_reach; exists b0, cs; split; [split; assumption|exact R]).
  pose proof (qv_accts _ _ Hi) as V.
  destruct (q_change _ _ _ _ (QChain ch) (bs_step _ _ _ _ _ _ S)) as [C|C]; [rewrite C in A; eapply IH, A|]. rewrite A in C.
  specialize (IH ch). destruct (q_accts (b_q b) (QChain ch)) as [d0|] eqn:O; [eapply IH; reflexivity|].
  remember (QChain ch) as a eqn:Ea. remember (@None qdata) as old eqn:Eo. remember (Some d) as new eqn:En. destruct C; try discriminate. inversion Ea; subst. assumption.
Qed.
Lemma sound b i p k : b_reachable N Q E b -> wide N Q -> typed_args i -> In p (pins N (b_q b) i) -> wf_purpose (pn_seeds p) -> passes N Q b k p ->
  same_place N k (pn_at p) \/ forged N Q b k p.
Proof.
  intros R W T I Wp [Ty (x & X & B)]. pose proof (b_reach _ R) as [Hi C]. destruct (pin_in _ _ _ T I) as [K P]. pose proof (C _ (pin_stores _ _ _ K Ty)) as Bk.
  destruct (bump_create _ _ Bk) as (program & s & x' & P' & B' & X'). destruct (place_at b _ _ Hi (chains_u16 _ R) W K Ty _ _ P') as (-> & Ws & F).
  rewrite B in B'. apply Some_inj in B'. subst x'. apply create_inv in X as [X _]. apply create_inv in X' as [X' _].
  destruct (bytes_eqb (hashed_of s (b_bump b k) (pin_program N Q (pn_kind p))) (hashed_of (pn_seeds p) (b_bump b k) (pin_program N Q (pn_kind p)))) eqn:M.
  - left. apply bytes_eqb_eq in M. unfold hashed_of in M. apply app_suffix_inj in M as [M _]; [|reflexivity]. apply app_suffix_inj in M as [M _]; [|reflexivity].
    apply concat_inj in M; [|assumption|assumption]. subst s. clear X X' B Bk.
    destruct T as [_ T]. revert I F. clear - P T. intros I F. 
    destruct p as [pk ps pa]. cbn [pn_kind pn_seeds pn_at] in *. destruct i; cbn [pins] in I; try contradiction I.
    + destruct (address N program) eqn:A; [|contradiction]. destruct I as [I|[]]. inversion I; subst. destruct F as (a & u & F1 & -> & F2). inversion F1; subst. right. exists a, program. split; [reflexivity|]. split; [reflexivity|]. congruence.
    + destruct (st_accts (q_world (b_q b)) item) as [[o []]|]; try contradiction I. destruct I as [I|[I|[]]]; inversion I; subst.
      * destruct F as (ch & F1 & ->). inversion F1; subst. left. reflexivity.
      * destruct F as (a & u & F1 & -> & F2). inversion F1; subst. right. exists a, (AProg o). auto.
    + specialize (T _ eq_refl). destruct c; cbn [pins] in I; try contradiction I.
      * destruct I as [I|[I|[]]]; inversion I; subst; destruct F as (ch & F1 & ->); inversion F1; subst; left; reflexivity.
      * destruct I as [I|[I|[]]]; inversion I; subst; destruct F as (ch & F1 & ->); inversion F1; subst; left; reflexivity.
      * destruct (st_accts (q_world (b_q b)) (ra_message x)) as [[o []]|]; try contradiction I. destruct I as [I|[]]; inversion I; subst; destruct F as (ch & F1 & ->); inversion F1; subst; left; reflexivity.
      * destruct I as [I|[]]; inversion I; subst; destruct F as (ch & F1 & ->); inversion F1; subst; left; reflexivity.
      * destruct (st_accts (q_world (b_q b)) vaa) as [[[] []]|]; try contradiction I. destruct I as [I|[]]; inversion I; subst; destruct F as (ch & F1 & ->); inversion F1; subst; left; reflexivity.
  - right. exists (pin_program N Q (pn_kind p)), s, (b_bump b k). split; [exact P'|]. split; [exact Bk|]. cbv zeta. split; [intros G; rewrite G, bytes_eqb_refl in M; discriminate|].
    unfold hashed_of. congruence.
Qed.
End B.

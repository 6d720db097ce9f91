(** * Facts about networks (C48). *)
From Verif Require Export Network FlowFacts VtmFacts.
Local Open Scope Z_scope.

(** ** Histories of single chains *)
Lemma net_upd_same n k s : net_upd n k s k = s.
Proof. unfold net_upd. now rewrite Z.eqb_refl. Qed.
Lemma net_upd_other n k s j : j <> k -> net_upd n k s j = n j.
Proof. unfold net_upd. intros Hn. apply Z.eqb_neq in Hn. now rewrite Hn. Qed.
Lemma on_cons k j e h : on k ((j, e) :: h) = if j =? k then e :: on k h else on k h.
Proof. unfold on. cbn [filter fst]. destruct (j =? k); reflexivity. Qed.
Lemma on_In k e h : In e (on k h) <-> In (k, e) h.
Proof.
  unfold on. rewrite in_map_iff. split.
  - intros ((j, e') & Q & Hin). cbn in Q. subst e'. apply filter_In in Hin. destruct Hin as (Hin & Q). cbn in Q. apply Z.eqb_eq in Q. now subst.
  - intros Hin. exists (k, e). split; [reflexivity|]. apply filter_In. split; [exact Hin|]. cbn. apply Z.eqb_refl.
Qed.

Lemma net_node H ids n0 h n : net_run H ids n0 h n -> forall k, run H (n0 k) (on k h) (n k).
Proof.
  intros R. induction R as [|h n j c s' R IH Hj Ha Hp E]; intros k; [constructor|]. rewrite on_cons.
  destruct (j =? k) eqn:Q.
  - apply Z.eqb_eq in Q. subst. rewrite net_upd_same. apply run_step; [apply IH|exact E].
  - apply Z.eqb_neq in Q. rewrite net_upd_other by congruence. apply IH.
Qed.
Lemma net_ids H ids n0 h n k e : net_run H ids n0 h n -> In (k, e) h -> In k ids.
Proof. intros R. induction R as [|h n j c s' R IH Hj Ha Hp E]; intros Q; [contradiction|]. destruct Q; [congruence|auto]. Qed.
Lemma net_proper H ids n0 h n k e : net_run H ids n0 h n -> In (k, e) h -> proper ids k (e_call e).
Proof. intros R. induction R as [|h n j c s' R IH Hj Ha Hp E]; intros Q; [contradiction|]. destruct Q as [Q|Q]; [inversion Q; subst; exact Hp|auto]. Qed.

Lemma posted_step H s c s' po : step H s c = Ok s' -> In po (st_posted s) -> In po (st_posted s').
Proof.
  intros Hs Hin. pose proof (step_rest _ _ _ _ Hs) as R. remember (st_posted s') as ps. remember (st_now s') as nw. remember (st_uauth s') as ua.
  clear Heqps Heqnw Hequa. inversion R; subst; auto; right; exact Hin.
Qed.
Lemma net_posted H ids n0 h n po j : net_run H ids n0 h n -> In po (st_posted (n0 j)) -> In po (st_posted (n j)).
Proof.
  intros R Hin. pose proof (net_node _ _ _ _ _ R j) as Rj. induction Rj as [|tr s c s' Rj IH E]; [exact Hin|]. eapply posted_step; eassumption.
Qed.

(** Every attested message of a chain of the network was recorded there. *)
Lemma net_attested H ids n0 h n k e j em tm : net_run H ids n0 h n -> In (k, e) h -> attested e j em tm -> In j ids ->
  In (Post em (PPTransfer tm)) (st_posted (n j)).
Proof.
  intros R. induction R as [|h n i c s' R IH Hi Ha Hp E]; intros Hin At Hj; [contradiction|].
  assert (K : In (Post em (PPTransfer tm)) (st_posted (n j)) -> In (Post em (PPTransfer tm)) (st_posted (net_upd n i s' j))).
  { intros Q. destruct (Z.eq_dec j i) as [->|Hn]; [rewrite net_upd_same; eapply posted_step; eassumption|rewrite net_upd_other by congruence; exact Q]. }
  destruct Hin as [Q|Hin]; [|auto]. inversion Q; subst. apply K. destruct At as (v & Ev). cbn in Ev. unfold attestation in Ha. rewrite Ev in Ha. auto.
Qed.

(** ** What the administrators' conduct gives *)
Record trusted (ids : list Z) (k : Z) (s : state) : Prop := {
  tu_reg : forall p rt, reg_at s (pda_reg (AProg p)) rt -> is_ntt_prog p = true;
  tu_xpeer : forall p j xp, is_ntt_prog p = true -> st_accts s (pda_xpeer p j) = Some (Acct p (DXPeer xp)) ->
               In j ids /\ exists p', is_ntt_prog p' = true /\ xp_address xp = pda_emitter p';
  tu_chain : forall a c, config_at s a c -> cf_chain c = k }.

Lemma trusted_step H ids k s c s' : reachable H s -> trusted ids k s -> proper ids k c -> step H s c = Ok s' -> trusted ids k s'.
Proof.
  intros Hr [T1 T2 T3] Hp Hs. constructor.
  - intros p rt E. unfold reg_at in *. destruct (step_change _ _ _ _ Hs (pda_reg (AProg p))) as [Q|Q]; [apply (T1 _ rt); congruence|].
    rewrite E in Q. remember (st_accts s (pda_reg (AProg p))) as old eqn:Eo. remember (pda_reg (AProg p)) as a eqn:Ea.
    destruct c as [sg i]. cbn [signers ins] in *. inversion Q; subst; try discriminate.
    match goal with Q : pda_reg _ = pda_reg _ |- _ => inversion Q; subst end. destruct Hp as [Hp|Hp]; inversion Hp; reflexivity.
  - intros p j xp Hn E. destruct (step_change _ _ _ _ Hs (pda_xpeer p j)) as [Q|Q]; [apply (T2 p j xp Hn); congruence|].
    rewrite E in Q. remember (st_accts s (pda_xpeer p j)) as old eqn:Eo. remember (pda_xpeer p j) as a eqn:Ea. 
    destruct c as [sg i]. cbn [signers ins] in *. inversion Q; subst; try discriminate.
    + match goal with Q : pda_xpeer _ _ = pda_xpeer _ _ |- _ => inversion Q; subst end. destruct Hp as (Hj & Hp). split; [exact Hj|].
      destruct Hp as [->| ->]; eexists; (split; [|reflexivity]); reflexivity.
  - intros a cf E. destruct (config_made _ _ _ _ _ _ Hr Hs E) as [(cf0 & E0)|(d & m & tp & ch & l & md & _ & Ei & _ & _ & Id & _)].
    + destruct (config_step_at _ _ _ _ _ _ Hr Hs E0) as (cf' & E' & Ch). assert (cf' = cf) by (unfold config_at in *; congruence). subst.
      destruct Ch as [->|Ch]; [eauto|]. apply cfg_change_same in Ch. unfold cfg_same in Ch. rewrite <- (T3 _ _ E0). intuition congruence.
    + unfold proper in Hp. rewrite Ei in Hp. subst. unfold identity in Id. congruence.
Qed.

Lemma trusted_initial ids k s : initial s -> trusted ids k s.
Proof.
  intros Hi. constructor.
  - intros p rt E. destruct (ini_accts _ Hi _ _ E) as (_ & C & _). discriminate.
  - intros p j xp Hn E. destruct (ini_accts _ Hi _ _ E) as (_ & C & _). cbn in C. congruence.
  - intros a c E. destruct (initial_no_config _ _ _ Hi E).
Qed.
Section WithNet.
Context {H : hashes} {ids : list Z} {n0 : net} (Hini : net_initial ids n0).
Lemma net_reach h n k : net_run H ids n0 h n -> In k ids -> reachable H (n k).
Proof. intros R Hk. exists (n0 k), (on k h). split; [apply (ni_nodes _ _ Hini _ Hk)|exact (net_node _ _ _ _ _ R k)]. Qed.
Lemma net_trusted h n k : net_run H ids n0 h n -> In k ids -> trusted ids k (n k) /\ forall e, In (k, e) h -> trusted ids k (e_pre e).
Proof.
  intros R Hk. induction R as [|h n j c s' R IH Hj Ha Hp E].
  - split; [apply trusted_initial, (ni_nodes _ _ Hini _ Hk)|intros e []].
  - destruct IH as (IH1 & IH2). destruct (Z.eq_dec k j) as [->|Hn].
    + rewrite net_upd_same. split; [eapply trusted_step; [|exact IH1|exact Hp|exact E]; eapply net_reach; eassumption|].
      intros e [Q|Q]; [inversion Q; subst; exact IH1|auto].
    + rewrite net_upd_other by congruence. split; [exact IH1|]. intros e [Q|Q]; [congruence|auto].
Qed.
End WithNet.

Lemma published_In s p m : In (Post (pda_emitter p) (PPTransfer m)) (st_posted s) -> In m (published s p).
Proof.
  intros Hin. unfold published. apply in_flat_map. exists (Post (pda_emitter p) (PPTransfer m)). split; [exact Hin|]. cbn [po_payload po_emitter].
  destruct (addr_eq_dec (pda_emitter p) (pda_emitter p)) as [|C]; [now left|now destruct C].
Qed.

(** A published message is determined by its item. *)
Definition ticket (s : state) (a : addr) (nm : ntt_msg) : Prop :=
  exists o c, outbox_at s a o /\ config_at s pda_config c /\ nm = NttMsg a (ob_sender o) (ob_amount o) (cf_mint c) (ob_chain o) (ob_recipient o).
Lemma ticket_fun s a nm nm' : ticket s a nm -> ticket s a nm' -> nm = nm'.
Proof. intros (o & c & A & B & ->) (o' & c' & A' & B' & ->). unfold outbox_at, config_at in *. assert (o = o') by congruence. assert (c = c') by congruence. now subst. Qed.
Lemma ticket_run H s tr s' a nm : reachable H s -> run H s tr s' -> ticket s a nm -> ticket s' a nm.
Proof.
  intros Hr R (o & c & Ho & Hc & ->). destruct (item_kept _ _ _ _ _ _ Hr R Ho) as (o' & Ho' & S). destruct (config_kept _ _ _ _ _ _ Hr R Hc) as (c' & Hc' & Id).
  exists o', c'. split; [exact Ho'|]. split; [exact Hc'|]. unfold same_item in S. rewrite S. cbn. unfold identity in Id. congruence.
Qed.
Lemma log_ticket H s p m : is_ntt_prog p = true -> reachable H s -> In m (published s p) -> ticket s (nm_id (tm_msg m)) (tm_msg m).
Proof.
  intros Hp Hr. revert m. revert s Hr. apply (reach_ind H (fun s => forall m, In m (published s p) -> ticket s (nm_id (tm_msg m)) (tm_msg m))).
  - intros s Hi m. rewrite (initial_published _ _ Hi Hp). intros [].
  - intros s c s' Hr IH E m Hin. assert (R1 : run H s [Ev s c s'] s') by (apply run_step; [constructor|exact E]).
    destruct (log_step _ _ _ _ _ Hr E Hp) as [Q|(cfg & it & trr & rev & cf & o & rt & _ & F & _ & _ & _ & _ & Q)]; rewrite Q in Hin;
      [eapply ticket_run; eauto|]. destruct Hin as [<-|Hin]; [|eapply ticket_run; eauto].
    eapply ticket_run; [exact Hr|exact R1|]. exists o, cf. split; [apply (of_item _ _ _ _ _ _ _ F)|].
    split; [|reflexivity]. eapply config_at_pda; [exact Hr|apply (of_config _ _ _ _ _ _ _ F)].
Qed.

(** ** The deposit behind a payout *)
(** Event [e] of chain [j] deposited what message [nm] says. *)
Definition made (s : state) (e : ev) (nm : ntt_msg) : Prop :=
  exists md x ar, transfer_of (ins (e_call e)) = Some (md, x, ar) /\ ticket s (xa_outbox_item x) nm.
Lemma made_fun s e nm nm' : made s e nm -> made s e nm' -> nm = nm'.
Proof. intros (md & x & ar & E & T) (md' & x' & ar' & E' & T'). rewrite E in E'. inversion E'; subst. eapply ticket_fun; eassumption. Qed.

Lemma ticket_deposit H s0 tr s a nm m c : initial s0 -> run H s0 tr s -> ticket s a nm -> config_at s pda_config c -> st_mints s (cf_mint c) = Some m ->
  exists e, In e tr /\ made s e nm /\ 0 <= ta_decimals (nm_amount nm) <= mt_decimals m /\
    deposited e = ta_amount (nm_amount nm) * 10 ^ (mt_decimals m - ta_decimals (nm_amount nm)) /\ 0 <= deposited e.
Proof.
  intros Hini R T Hc Hm. pose proof T as (o & c' & Ho & Hc' & En). assert (c' = c) by (unfold config_at in *; congruence). subst c'.
  destruct (item_origin _ _ _ _ _ _ Hini R Ho) as (e & c0 & m0 & pe & f & o0 & v & md & x & ar & Hin & (Et & Ex & Tr) & S).
  destruct (run_event _ _ _ _ _ R Hin) as (Hse & tr1 & tr2 & R1 & R2 & _).
  assert (Hre : reachable H (e_pre e)) by (exists s0, tr1; auto).
  assert (R3 : run H (e_pre e) (tr2 ++ [Ev (e_pre e) (e_call e) (e_post e)]) s).
  { eapply run_app; [|exact R2]. apply run_step; [constructor|exact Hse]. }
  pose proof (run_config _ _ _ _ _ _ _ _ Hre R3 (tr_config _ _ _ _ _ _ _ _ _ _ _ _ Tr) Hc) as Id.
  assert (Em : cf_mint c = cf_mint c0) by (unfold identity in Id; congruence).
  destruct (run_mint _ _ _ _ _ _ Hre R3 (tr_mint _ _ _ _ _ _ _ _ _ _ _ _ Tr)) as (m1 & Em1 & Hd). rewrite <- Em in Em1. assert (m1 = m) by congruence. subst m1.
  assert (Ev : deposited e = v).
  { unfold deposited. rewrite Et. unfold deposit_value. rewrite (tr_config _ _ _ _ _ _ _ _ _ _ _ _ Tr).
    rewrite (tr_peer _ _ _ _ _ _ _ _ _ _ _ _ Tr). rewrite (tr_mint _ _ _ _ _ _ _ _ _ _ _ _ Tr). symmetry. apply (tr_value _ _ _ _ _ _ _ _ _ _ _ _ Tr). }
  exists e. split; [exact Hin|]. split; [exists md, x, ar; rewrite Ex; auto|].
  unfold same_item in S. rewrite En. cbn [nm_amount]. rewrite S. cbn [set_sent ob_amount]. rewrite Ev, Hd.
  pose proof (tr_same_value _ _ _ _ _ _ _ _ _ _ _ _ Tr) as Sv. split; [|split; [congruence|apply (tr_range _ _ _ _ _ _ _ _ _ _ _ _ Tr)]].
  rewrite (tr_amount _ _ _ _ _ _ _ _ _ _ _ _ Tr). cbn [ta_decimals].
  pose proof (reachable_inv _ _ Hre) as Hi. pose proof (mint_dec _ _ _ Hi (tr_mint _ _ _ _ _ _ _ _ _ _ _ _ Tr)).
  pose proof (peer_dec _ _ _ Hi (tr_peer _ _ _ _ _ _ _ _ _ _ _ _ Tr)). unfold shared. ilia.
Qed.

Lemma convert_worth K x f t : 0 <= x -> 0 <= f <= K -> 0 <= t <= K -> worth K t (convert x f t) <= worth K f x.
Proof.
  intros Hx Hf Ht. unfold worth, convert. destruct (t <=? f) eqn:Q; bools.
  - assert (E : 10 ^ (K - t) = 10 ^ (f - t) * 10 ^ (K - f)) by (rewrite <- Z.pow_add_r by lia; f_equal; lia). rewrite E, Z.mul_assoc.
    apply Z.mul_le_mono_nonneg_r; [apply Z.pow_nonneg; lia|]. rewrite Z.mul_comm. apply Z.mul_div_le. apply Z.pow_pos_nonneg; lia.
  - assert (E : 10 ^ (K - f) = 10 ^ (t - f) * 10 ^ (K - t)) by (rewrite <- Z.pow_add_r by lia; f_equal; lia). rewrite E. lia.
Qed.

Definition decs (ids : list Z) (n : net) (K : Z) (dec : Z -> Z) : Prop := forall k c m, In k ids -> config_at (n k) pda_config c ->
  st_mints (n k) (cf_mint c) = Some m -> mt_decimals m = dec k /\ dec k <= K.

Lemma run_last H s0 tr s e : run H s0 tr s -> In e tr -> exists tr1 tr2, run H s0 tr1 (e_pre e) /\ run H (e_pre e) tr2 s /\ (forall e', In e' tr1 -> In e' tr).
Proof.
  intros R Hin. destruct (In_split_run _ _ _ _ _ R Hin) as (tr2 & tr1 & -> & R1 & Es & R2). exists tr1, (tr2 ++ [e]). split; [exact R1|]. split.
  - eapply run_app; [|exact R2]. destruct e. apply run_step; [constructor|exact Es].
  - intros e' Q. apply in_or_app. right. now right.
Qed.
Lemma config_later H s tr s' a c : reachable H s -> run H s tr s' -> config_at s a c ->
  exists c', config_at s' pda_config c' /\ identity c' = identity c.
Proof. intros Hr R E. apply (config_at_pda _ _ _ _ Hr) in E. exact (config_kept _ _ _ _ _ _ Hr R E). Qed.

Lemma payout_backed H ids n0 h n K dec k e a : net_initial ids n0 -> net_run H ids n0 h n -> decs ids n K dec -> In (k, e) h -> payout e = Some a ->
  exists j e' nm, In j ids /\ In (j, e') h /\ made (n j) e' nm /\ item_of H j nm = a /\ nm_to_chain nm = k /\
    worth K (dec k) (paid_out e) <= worth K (dec j) (deposited e').
Proof.
  intros Hini R Hdec Hin Hpay. pose proof (net_ids _ _ _ _ _ _ _ R Hin) as Hk. pose proof (net_node _ _ _ _ _ R k) as Rk.
  pose proof (ni_nodes _ _ Hini _ Hk) as Hik. pose proof (net_reach Hini _ _ _ R Hk) as Hrk.
  pose proof (initial_reachable H _ Hik) as Hr0. pose proof (proj2 (on_In k e h) Hin) as Hin'.
  destruct (payout_pays _ _ _ _ _ _ Hr0 Rk Hin' Hpay) as (md & x & r & c & it & m & Ei & Ea & P).
  destruct (run_last _ _ _ _ _ Rk Hin') as (tr1 & tr2 & R1 & R2 & Sub1).
  pose proof (py_item _ _ _ _ _ _ _ P) as Hit. rewrite Ea in Hit.
  destruct (content_origin _ _ _ _ _ _ Hik R1 Hit) as (e1 & p & ch & nm & c1 & m1 & Hin1 & D & En & Hc1 & Hm1 & _ & Eam).
  destruct D as (x1 & tm & c1' & rt & pe & Ei1 & D & Etm).
  destruct (run_last _ _ _ _ _ R1 Hin1) as (tr3 & tr4 & R3 & R4 & Sub3).
  pose proof (net_trusted Hini _ _ _ R Hk) as (_ & Tr).
  assert (T1 : trusted ids k (e_pre e1)) by (apply Tr; apply on_In; auto).
  pose proof (tu_reg _ _ _ T1 _ _ (dl_reg _ _ _ _ _ _ _ _ D)) as Hp.
  destruct (message_authentic _ _ _ _ _ _ _ _ Hik R3 Hp (dl_message _ _ _ _ _ _ _ _ D)) as (_ & e2 & xp & v & Hin2 & _ & Hxp & Hvaa).
  assert (T2 : trusted ids k (e_pre e2)) by (apply Tr; apply on_In; auto).
  destruct (tu_xpeer _ _ _ T2 _ _ _ Hp Hxp) as (Hch & p' & Hp' & Exp).
  assert (Hpost : In (Post (pda_emitter p') (PPTransfer tm)) (st_posted (n ch))).
  { rewrite <- Exp. destruct Hvaa as [Q|(e3 & Hin3 & Q)].
    - eapply net_posted; [exact R|]. exact (ni_vaas _ _ Hini _ _ _ _ _ Hk Hch Q).
    - eapply net_attested; [exact R| |exact Q|exact Hch]. apply on_In. eauto. }
  pose proof (net_reach Hini _ _ _ R Hch) as Hrc.
  pose proof (log_ticket _ _ _ _ Hp' Hrc (published_In _ _ _ Hpost)) as Tk. rewrite Etm in Tk.
  pose proof Tk as (o & cj & _ & Hcj & _). pose proof (reachable_inv _ _ Hrc) as Hij.
  destruct (co_prog _ _ (inv_config _ Hij _ Hcj)) as (tp & mj & tj & _ & _ & _ & Hmj & _).
  destruct (ticket_deposit _ _ _ _ _ _ _ _ (ni_nodes _ _ Hini _ Hch) (net_node _ _ _ _ _ R ch) Tk Hcj Hmj) as (e' & Hine & Mk & Hd & Ev & _).
  destruct (Hdec _ _ _ Hch Hcj Hmj) as (Edj & HK).
  exists ch, e', nm. split; [exact Hch|]. split; [apply on_In; exact Hine|]. split; [exact Mk|]. split; [exact En|]. split.
  { rewrite <- Etm, (dl_chain _ _ _ _ _ _ _ _ D). exact (tu_chain _ _ _ T1 _ _ (dl_config _ _ _ _ _ _ _ _ D)). }
  assert (Hre1 : reachable H (e_pre e1)) by (exists (n0 k), tr3; auto).
  pose proof (run_app _ _ _ _ _ _ R4 R2) as R5.
  destruct (config_later _ _ _ _ _ _ Hre1 R5 Hc1) as (ck & Hck & Id).
  destruct (run_mint _ _ _ _ _ _ Hre1 R5 Hm1) as (mk & Hmk & Edk). assert (Emk : cf_mint ck = cf_mint c1) by (unfold identity in Id; congruence).
  rewrite <- Emk in Hmk. destruct (Hdec _ _ _ Hk Hck Hmk) as (Edk' & HKk).
  assert (Epo : paid_out e = local_amount m1 nm).
  { unfold paid_out. rewrite Hpay. unfold amount_of. rewrite Hit. exact Eam. }
  pose proof (vtm_typed _ _ _ _ _ (reachable_inv _ _ Hre1) (dl_message _ _ _ _ _ _ _ _ D)) as (_ & Ty). apply typed_tm_ranges in Ty. rewrite Etm in Ty.
  pose proof (mint_dec _ _ _ (reachable_inv _ _ Hre1) Hm1) as Hd1.
  rewrite Epo. unfold local_amount. rewrite <- Edk, Edk'.
  transitivity (worth K (ta_decimals (nm_amount nm)) (ta_amount (nm_amount nm))).
  - apply convert_worth; [apply Ty|ilia|ilia].
  - unfold worth. rewrite Ev, Edj, <- Z.mul_assoc, <- Z.pow_add_r by lia. apply Z.eq_le_incl. do 2 f_equal. lia.
Qed.

(** ** Sums *)
Lemma sum_of_app {A} (f : A -> Z) l l' : sum_of f (l ++ l') = sum_of f l + sum_of f l'.
Proof. induction l; cbn; [reflexivity|]. fold (sum_of f (l ++ l')). fold (sum_of f l). lia. Qed.
Lemma sum_of_cons {A} (f : A -> Z) x l : sum_of f (x :: l) = f x + sum_of f l. Proof. reflexivity. Qed.
Lemma sum_of_inject {A B C} (P : list A) (D : list B) (key : A -> C) (f : A -> Z) (g : B -> Z) (Rel : A -> B -> Prop) :
  NoDup (map key P) -> (forall d, In d D -> 0 <= g d) -> (forall p p' d, Rel p d -> Rel p' d -> key p = key p') ->
  (forall p, In p P -> exists d, In d D /\ Rel p d /\ f p <= g d) -> sum_of f P <= sum_of g D.
Proof.
  revert D. induction P as [|p P IH]; intros D ND Hg Hf Hex.
  - clear -Hg. induction D as [|d D IH]; [cbn; lia|]. rewrite sum_of_cons. pose proof (Hg d (or_introl eq_refl)). specialize (IH (fun x q => Hg x (or_intror q))). cbn in *. lia.
  - destruct (Hex p (or_introl eq_refl)) as (d & Hd & Rd & Le). apply in_split in Hd. destruct Hd as (D1 & D2 & ->).
    cbn in ND. apply NoDup_cons_iff in ND. destruct ND as (Nin & ND).
    assert (Q : sum_of f P <= sum_of g (D1 ++ D2)).
    { apply IH; [exact ND| |exact Hf|].
      - intros d' Q. apply Hg. apply in_or_app. apply in_app_or in Q. destruct Q; [now left|right; now right].
      - intros p' Hp'. destruct (Hex p' (or_intror Hp')) as (d' & Hd' & Rd' & Le'). exists d'. split; [|auto].
        apply in_app_or in Hd'. apply in_or_app. destruct Hd' as [Q|[Q|Q]]; [now left| |now right]. subst d'. exfalso. apply Nin.
        rewrite (Hf _ _ _ Rd Rd'). now apply in_map. }
    rewrite sum_of_app in Q |- *. rewrite !sum_of_cons. lia.
Qed.
Lemma sum_of_ext {A} (f g : A -> Z) l : (forall x, In x l -> f x = g x) -> sum_of f l = sum_of g l.
Proof. intros E. induction l as [|x l IH]; [reflexivity|]. rewrite !sum_of_cons, (E x), IH; [reflexivity|intros y Hy; apply E; now right|now left]. Qed.
Lemma sum_of_filter {A} (q : A -> bool) (f : A -> Z) l : sum_of f (filter q l) = sum_of (fun x => if q x then f x else 0) l.
Proof. induction l as [|x l IH]; [reflexivity|]. cbn [filter]. rewrite sum_of_cons. destruct (q x); rewrite ?sum_of_cons, IH; lia. Qed.
Lemma sum_of_plus {A} (f g : A -> Z) l : sum_of (fun x => f x + g x) l = sum_of f l + sum_of g l.
Proof. induction l as [|x l IH]; [reflexivity|]. rewrite !sum_of_cons, IH. lia. Qed.

Definition is_payout (x : Z * ev) : bool := match payout (snd x) with Some _ => true | None => false end.
Definition pay_key (x : Z * ev) : Z * option addr := (fst x, payout (snd x)).

Lemma pay_released e a : payout e = Some a -> released (e_pre e) a = false /\ released (e_post e) a = true.
Proof.
  unfold payout. destruct (release_of _) as [x|]; [|discriminate]. destruct (_ && _) eqn:B; [|discriminate]. intros Q. apply Some_inj in Q. subst.
  apply andb_true_iff in B. destruct B as [B1 B2]. apply negb_true_iff in B1. auto.
Qed.
Lemma net_released H ids n0 h n k e a : net_initial ids n0 -> net_run H ids n0 h n -> In (k, e) h -> payout e = Some a -> released (n k) a = true.
Proof.
  intros Hini R Hin Hp. pose proof (net_ids _ _ _ _ _ _ _ R Hin) as Hk.
  destruct (In_split_run _ _ _ _ _ (net_node _ _ _ _ _ R k) (proj2 (on_In _ _ _) Hin)) as (tr2 & tr1 & _ & R1 & Es & R2).
  assert (Hr : reachable H (e_post e)) by (eapply step_reachable; [|exact Es]; exists (n0 k), tr1; split; [apply (ni_nodes _ _ Hini _ Hk)|exact R1]).
  eapply released_kept; [exact Hr|exact R2|apply (pay_released _ _ Hp)].
Qed.
(** An item that is released was paid out by some event. *)
Lemma released_inbox s a : released s a = true -> exists it, inbox_at s a it /\ ib_status it = Released.
Proof.
  unfold released, status_at, inbox_at. destruct (st_accts s a) as [[p d]|]; [|discriminate]. destruct p; try discriminate. destruct d; try discriminate.
  intros Q. exists i. split; [reflexivity|]. destruct (ib_status i); try discriminate. reflexivity.
Qed.
Lemma release_step H s cl s' a : reachable H s -> step H s cl = Ok s' -> released s' a = true -> released s a = true \/ payout (Ev s cl s') = Some a.
Proof.
  intros Hr Hs Q. destruct (released_inbox _ _ Q) as (it' & E' & St').
  assert (Hr' : reachable H s') by (eapply step_reachable; eassumption).
  destruct (item_addr _ _ _ (reachable_inv _ _ Hr') E') as (Ha & _).
  destruct (inbox_dec s a (reachable_inv _ _ Hr) Ha) as [N|(it & E)].
  - destruct (inbox_made _ _ _ _ _ _ Hr Hs N E') as (x & p & ch & tm & c & rt & pe & m & _ & _ & R).
    destruct (rd_status _ _ _ _ _ _ _ _ _ _ _ _ _ R) as [(_ & C & _)|(_ & _ & ? & ? & ? & ? & ? & C & _)]; congruence.
  - destruct (inbox_step _ _ _ _ _ _ Hr Hs E) as [K|[(x & p & ch & tm & c & rt & pe & m & after & _ & Ea & R)|(md & x & r & c & m & t & Ei & Ea & P & _)]].
    + left. unfold inbox_at in *. assert (it = it') by congruence. subst. unfold released. rewrite (status_inbox _ _ _ E), St'. reflexivity.
    + pose proof (rd_after _ _ _ _ _ _ _ _ _ _ _ _ _ R) as A. rewrite <- Ea in A. unfold inbox_at in A, E'. assert (after = it') by congruence. subst after.
      destruct (rd_status _ _ _ _ _ _ _ _ _ _ _ _ _ R) as [(_ & C & _)|(_ & _ & ? & ? & ? & ? & ? & C & _)]; [|congruence].
      left. unfold released. rewrite (status_inbox _ _ _ E), <- C, St'. reflexivity.
    + right. destruct cl as [sg i]. cbn [ins] in Ei. rewrite <- Ea. apply (pays_payout _ _ _ _ _ _ _ _ _ P). subst i. destruct md; reflexivity.
Qed.
Lemma released_by H s0 tr s a : initial s0 -> run H s0 tr s -> released s a = true -> exists e, In e tr /\ payout e = Some a.
Proof.
  intros Hini R. induction R as [|tr s cl s' R IH E]; intros Q.
  - exfalso. destruct (released_inbox _ _ Q) as (it & E & _). unfold inbox_at in E. destruct (ini_accts _ Hini _ _ E) as (_ & C & _). discriminate.
  - assert (Hrs : reachable H s) by (eapply run_reachable; [apply initial_reachable; exact Hini|exact R]).
    destruct (release_step _ _ _ _ _ Hrs E Q) as [Q'|P]; [destruct (IH Q') as (e & Hin & P); exists e; split; [now right|exact P]|].
    eexists. split; [now left|exact P].
Qed.
Lemma pay_keys H ids n0 h n : net_initial ids n0 -> net_run H ids n0 h n -> NoDup (map pay_key (filter is_payout h)).
Proof.
  intros Hini R. induction R as [|h n k c s' R IH Hk Ha Hp E]; [constructor|]. cbn [filter]. destruct (is_payout _) eqn:Q; [|exact IH].
  cbn [map]. constructor; [|exact IH]. intros C. apply in_map_iff in C. destruct C as ((k', e') & Ek & Hin). apply filter_In in Hin. destruct Hin as (Hin & _).
  unfold is_payout in Q. cbn [snd] in Q. destruct (payout _) as [a|] eqn:Q2 in Q; [|discriminate].
  unfold pay_key in Ek. cbn [fst snd] in Ek. rewrite Q2 in Ek. inversion Ek; subst.
  pose proof (net_released _ _ _ _ _ _ _ _ Hini R Hin ltac:(eassumption)) as C1. pose proof (proj1 (pay_released _ _ Q2)) as C2. cbn in C2. congruence.
Qed.

Lemma deposited_nonneg H s0 tr s e : reachable H s0 -> run H s0 tr s -> In e tr -> 0 <= deposited e.
Proof.
  intros Hr R Hin. destruct (event_reachable _ _ _ _ _ Hr R Hin) as (Hre & _). destruct (run_event _ _ _ _ _ R Hin) as (Hse & _).
  unfold deposited. destruct (transfer_of _) as [[[md x] a]|] eqn:Et; [|lia]. destruct e as [s1 [sg i] s2]. cbn [e_pre e_call e_post ins] in *.
  destruct (transfer_done _ _ _ _ _ _ _ _ Hre Hse Et) as (c & m & pe & f & o & v & T). unfold deposit_value.
  rewrite (tr_config _ _ _ _ _ _ _ _ _ _ _ _ T), (tr_peer _ _ _ _ _ _ _ _ _ _ _ _ T), (tr_mint _ _ _ _ _ _ _ _ _ _ _ _ T), <- (tr_value _ _ _ _ _ _ _ _ _ _ _ _ T).
  apply (tr_range _ _ _ _ _ _ _ _ _ _ _ _ T).
Qed.
Lemma worth_nonneg K d x : 0 <= x -> 0 <= worth K d x.
Proof. intros Hx. unfold worth. apply Z.mul_nonneg_nonneg; [exact Hx|apply Z.pow_nonneg; lia]. Qed.

Lemma made_arrived H ids n j e nm : made (n j) e nm -> In (nm_to_chain nm) ids -> arrived H ids n j e = released (n (nm_to_chain nm)) (item_of H j nm).
Proof.
  intros (md & x & ar & Et & o & c & Ho & Hc & ->) Hin. cbn [nm_to_chain] in *. unfold arrived. rewrite Et, Ho, Hc.
  destruct (in_dec _ _ _); [reflexivity|contradiction].
Qed.

(** What is paid out and what is in flight was deposited. *)
Lemma value_backed H ids n0 h n K dec : net_initial ids n0 -> net_run H ids n0 h n -> decs ids n K dec ->
  paid_value K dec h + in_flight H ids K dec n h <= deposited_value K dec h.
Proof.
  intros Hini R Hdec.
  assert (NN : forall x, In x h -> 0 <= worth K (dec (fst x)) (deposited (snd x))).
  { intros (k, e) Hin. cbn [fst snd]. apply worth_nonneg. pose proof (net_ids _ _ _ _ _ _ _ R Hin) as Hk.
    eapply deposited_nonneg; [apply initial_reachable, (ni_nodes _ _ Hini _ Hk)|apply (net_node _ _ _ _ _ R k)|now apply on_In]. }
  assert (E1 : paid_value K dec h = sum_of (fun x => worth K (dec (fst x)) (paid_out (snd x))) (filter is_payout h)).
  { unfold paid_value. rewrite sum_of_filter. apply sum_of_ext. intros (k, e) _. unfold is_payout, paid_out, worth. cbn [fst snd]. destruct (payout e); lia. }
  assert (E2 : deposited_value K dec h = sum_of (fun x => worth K (dec (fst x)) (deposited (snd x))) (filter (fun x => arrived H ids n (fst x) (snd x)) h) + in_flight H ids K dec n h).
  { unfold deposited_value, in_flight. rewrite sum_of_filter, <- sum_of_plus. apply sum_of_ext. intros x _. destruct (arrived _ _ _ _ _); lia. }
  rewrite E1, E2. apply Z.add_le_mono_r.
  apply (sum_of_inject _ _ pay_key _ _ (fun x d => In (fst x) ids /\ exists nm, made (n (fst d)) (snd d) nm /\ nm_to_chain nm = fst x /\ payout (snd x) = Some (item_of H (fst d) nm))).
  - eapply pay_keys; eassumption.
  - intros d Hd. apply filter_In in Hd. apply NN, Hd.
  - intros p p' d (_ & nm & M & C & P) (_ & nm' & M' & C' & P'). pose proof (made_fun _ _ _ _ M M'). subst nm'. unfold pay_key. congruence.
  - intros (k, e) Hin. apply filter_In in Hin. destruct Hin as (Hin & Q). unfold is_payout in Q. cbn [snd] in Q. destruct (payout e) as [a|] eqn:Hp; [|discriminate].
    destruct (payout_backed _ _ _ _ _ _ _ _ _ _ Hini R Hdec Hin Hp) as (j & e' & nm & Hj & Hin' & M & Ea & Ec & Le).
    pose proof (net_ids _ _ _ _ _ _ _ R Hin) as Hk.
    exists (j, e'). cbn [fst snd]. split; [|split; [split; [exact Hk|]; exists nm; rewrite Ea; auto|exact Le]].
    apply filter_In. split; [exact Hin'|]. cbn [fst snd]. rewrite (made_arrived _ _ _ _ _ _ M) by (rewrite Ec; exact Hk). rewrite Ec, Ea.
    eapply net_released; eassumption.
Qed.

(** ** Sums by chain *)
Lemma sum_of_chain (f : Z -> ev -> Z) h : forall ids, NoDup ids -> (forall x, In x h -> In (fst x) ids) ->
  sum_of (fun x => f (fst x) (snd x)) h = sum_of (fun k => sum_of (f k) (on k h)) ids.
Proof.
  intros ids ND. induction h as [|(k, e) h IH]; intros Hin.
  - symmetry. clear. induction ids as [|k l IH]; [reflexivity|]. rewrite sum_of_cons, IH. reflexivity.
  - rewrite sum_of_cons, IH by (intros x Hx; apply Hin; now right). cbn [fst snd].
    assert (Hk : In k ids) by (apply (Hin (k, e)); now left). clear -ND Hk.
    induction ids as [|j l IH]; [contradiction|]. apply NoDup_cons_iff in ND. destruct ND as (Nin & ND). rewrite !sum_of_cons.
    destruct Hk as [->|Hk].
    + rewrite on_cons, Z.eqb_refl, sum_of_cons. rewrite (sum_of_ext (fun j => sum_of (f j) (on j ((k, e) :: h))) (fun j => sum_of (f j) (on j h)) l); [lia|].
      intros j Hj. rewrite on_cons. destruct (k =? j) eqn:Q; [|reflexivity]. apply Z.eqb_eq in Q. subst. contradiction.
    + rewrite on_cons. destruct (k =? j) eqn:Q; [apply Z.eqb_eq in Q; subst; contradiction|]. specialize (IH ND Hk). lia.
Qed.
Lemma sum_of_worth (f : ev -> Z) K d l : sum_of (fun e => worth K d (f e)) l = worth K d (sum f l).
Proof. induction l as [|e l IH]; [reflexivity|]. rewrite sum_of_cons, IH, sum_cons. unfold worth. lia. Qed.

(** ** A deployment from its beginning *)
Lemma sum_app f l l' : sum f (l ++ l') = sum f l + sum f l'.
Proof. induction l as [|e l IH]; [reflexivity|]. cbn [app]. rewrite !sum_cons, IH. lia. Qed.
Lemma before_init H s0 tr s : initial s0 -> run H s0 tr s -> (forall c, ~ config_at s pda_config c) -> sum deposited tr = 0 /\ sum paid_out tr = 0.
Proof.
  intros Hini R Hn.
  assert (K : forall e, In e tr -> deposited e = 0 /\ paid_out e = 0).
  { intros e Hin. destruct (run_last _ _ _ _ _ R Hin) as (tr1 & tr2 & R1 & R2 & _). assert (Hre : reachable H (e_pre e)) by (exists s0, tr1; auto).
    assert (Nc : forall a c, ~ config_at (e_pre e) a c).
    { intros a c E. destruct (config_later _ _ _ _ _ _ Hre R2 E) as (c' & E' & _). exact (Hn _ E'). }
    destruct (run_event _ _ _ _ _ R Hin) as (Hse & _). split.
    - unfold deposited. destruct (transfer_of _) as [[[md x] a]|] eqn:Et; [|reflexivity]. exfalso. destruct e as [s1 [sg i] s2]. cbn [e_pre e_call e_post ins] in *.
      destruct (transfer_done _ _ _ _ _ _ _ _ Hre Hse Et) as (c & m & pe & f & o & v & T). exact (Nc _ _ (tr_config _ _ _ _ _ _ _ _ _ _ _ _ T)).
    - unfold paid_out. destruct (payout e) as [a|] eqn:Hp; [|reflexivity]. exfalso.
      destruct (payout_pays _ _ _ _ _ _ (initial_reachable H _ Hini) R Hin Hp) as (md & x & r & c & it & m & _ & _ & P). exact (Nc _ _ (py_config _ _ _ _ _ _ _ P)). }
  clear -K. induction tr as [|e tr IH]; [auto|]. destruct (K e (or_introl eq_refl)) as (A & B). destruct (IH (fun x q => K x (or_intror q))) as (C & D).
  rewrite !sum_cons. lia.
Qed.

Lemma began_run H s0 tr s b c : initial s0 -> run H s0 tr s -> began tr b -> config_at s pda_config c ->
  exists tr2 c0, run H b tr2 s /\ reachable H b /\ config_at b pda_config c0 /\ identity c = identity c0 /\
    sum deposited tr = sum deposited tr2 /\ sum paid_out tr = sum paid_out tr2 /\ (forall e, In e tr2 -> In e tr).
Proof.
  intros Hini R (e & Hin & <- & d & m & tp & ch & l & md & Ei) Hc.
  destruct (In_split_run _ _ _ _ _ R Hin) as (tr2 & tr1 & -> & R1 & Es & R2). assert (Hr1 : reachable H (e_pre e)) by (exists s0, tr1; auto).
  assert (Hr2 : reachable H (e_post e)) by (eapply step_reachable; eassumption).
  destruct e as [s1 [sg i] s2]. cbn [e_pre e_call e_post ins] in *. subst i.
  pose proof (step_inv _ _ _ _ Es) as (Hsg & _ & He). cbn [signers ins exec] in *.
  destruct (initialize_ok _ _ _ _ _ _ _ _ _ Hsg He) as (mt & s3 & _ & _ & Nc & _ & _ & _ & _ & _ & E2).
  assert (Hb : config_at s2 pda_config (new_config d m tp ch md)).
  { unfold config_at. rewrite E2, get_put_other by discriminate. apply get_put_same. }
  exists tr2, (new_config d m tp ch md). split; [exact R2|]. split; [exact Hr2|]. split; [exact Hb|].
  split; [exact (run_config _ _ _ _ _ _ _ _ Hr2 R2 Hb Hc)|].
  destruct (before_init _ _ _ _ Hini R1) as (D & P). { intros c0 Q. unfold config_at in Q. congruence. }
  rewrite !sum_app, !sum_cons, D, P, no_deposit, no_payout by reflexivity. split; [lia|]. split; [lia|]. intros e Q. apply in_or_app. now left.
Qed.

Lemma burned_nonneg H s0 tr s a : run H s0 tr s -> 0 <= sum (burned_by_holder a) tr.
Proof.
  intros R. induction R as [|tr s c s' R IH E]; [cbn; lia|]. rewrite sum_cons. enough (0 <= burned_by_holder a (Ev s c s')) by lia.
  pose proof (step_inv _ _ _ _ E) as (_ & Ty & _). unfold burned_by_holder. cbn [e_call]. destruct (ins c); try lia. destruct (addr_eq_dec _ _); [|lia].
  cbn in Ty. apply andb_true_iff in Ty. destruct Ty as (_ & Ty). apply u64b_ok in Ty. apply Ty.
Qed.

Lemma worth_mono K d x y : x <= y -> worth K d x <= worth K d y.
Proof. intros L. unfold worth. apply Z.mul_le_mono_nonneg_r; [apply Z.pow_nonneg; lia|exact L]. Qed.

Lemma net_custody H l bs n0 h n K cf dec b : NoDup (l :: bs) -> net_initial (l :: bs) n0 -> net_run H (l :: bs) n0 h n ->
  (forall k, In k (l :: bs) -> managed (n k) (cf k) (dec k) /\ dec k <= K /\ began (on k h) (b k)) ->
  cf_mode (cf l) = Locking -> (forall k, In k bs -> cf_mode (cf k) = Burning) ->
  sum_of (fun k => worth K (dec k) (supply_of (n k) (cf_mint (cf k)) - supply_of (b k) (cf_mint (cf k)))) bs + in_flight H (l :: bs) K dec n h
  <= worth K (dec l) (balance (n l) (cf_custody (cf l)) - balance (b l) (cf_custody (cf l))).
Proof.
  intros ND Hini R Hm Hl Hb.
  assert (Hdec : decs (l :: bs) n K dec).
  { intros k c m Hk Hc Em. destruct (Hm k Hk) as ((Hc' & m' & Em' & Ed) & Le & _). assert (c = cf k) by (unfold config_at in *; congruence). subst c.
    split; [congruence|exact Le]. }
  pose proof (value_backed _ _ _ _ _ _ _ Hini R Hdec) as V.
  assert (Hin : forall x, In x h -> In (fst x) (l :: bs)) by (intros (k, e) Q; exact (net_ids _ _ _ _ _ _ _ R Q)).
  unfold paid_value, deposited_value in V.
  rewrite (sum_of_chain (fun k e => worth K (dec k) (paid_out e)) h _ ND Hin), (sum_of_chain (fun k e => worth K (dec k) (deposited e)) h _ ND Hin) in V.
  rewrite !sum_of_cons, !sum_of_worth in V.
  rewrite (sum_of_ext _ (fun k => worth K (dec k) (sum paid_out (on k h))) bs) in V by (intros; apply sum_of_worth).
  rewrite (sum_of_ext (fun k => sum_of (fun e => worth K (dec k) (deposited e)) (on k h)) (fun k => worth K (dec k) (sum deposited (on k h))) bs) in V by (intros; apply sum_of_worth).
  assert (Lk : worth K (dec l) (sum deposited (on l h) - sum paid_out (on l h)) <= worth K (dec l) (balance (n l) (cf_custody (cf l)) - balance (b l) (cf_custody (cf l)))).
  { apply worth_mono. destruct (Hm l (or_introl eq_refl)) as ((Hc & _) & _ & Bg).
    destruct (began_run _ _ _ _ _ _ (ni_nodes _ _ Hini _ (or_introl eq_refl)) (net_node _ _ _ _ _ R l) Bg Hc) as (tr2 & c0 & R2 & Hr & Hc0 & Id & -> & -> & _).
    unfold identity in Id. assert (Ecu : cf_custody (cf l) = cf_custody c0) by congruence. rewrite Ecu.
    pose proof (custody_run _ _ _ _ _ Hr R2 Hc0 ltac:(congruence)). lia. }
  assert (Bk : forall bs', (forall k, In k bs' -> In k bs) ->
     sum_of (fun k => worth K (dec k) (supply_of (n k) (cf_mint (cf k)) - supply_of (b k) (cf_mint (cf k)))) bs' <=
     sum_of (fun k => worth K (dec k) (sum paid_out (on k h))) bs' - sum_of (fun k => worth K (dec k) (sum deposited (on k h))) bs').
  { induction bs' as [|k bs' IH]; intros Sub; [cbn; lia|]. rewrite !sum_of_cons. specialize (IH (fun x q => Sub x (or_intror q))).
    enough (worth K (dec k) (supply_of (n k) (cf_mint (cf k)) - supply_of (b k) (cf_mint (cf k))) <= worth K (dec k) (sum paid_out (on k h) - sum deposited (on k h))).
    { assert (E : worth K (dec k) (sum paid_out (on k h) - sum deposited (on k h)) = worth K (dec k) (sum paid_out (on k h)) - worth K (dec k) (sum deposited (on k h))) by (unfold worth; lia). lia. }
    apply worth_mono. pose proof (Sub k (or_introl eq_refl)) as Hk. destruct (Hm k (or_intror Hk)) as ((Hc & _) & _ & Bg).
    destruct (began_run _ _ _ _ _ _ (ni_nodes _ _ Hini _ (or_intror Hk)) (net_node _ _ _ _ _ R k) Bg Hc) as (tr2 & c0 & R2 & Hr & Hc0 & Id & -> & -> & _).
    unfold identity in Id. assert (Em : cf_mint (cf k) = cf_mint c0) by congruence. rewrite Em. specialize (Hb k Hk).
    pose proof (supply_run _ _ _ _ _ Hr R2 Hc0 ltac:(congruence)). pose proof (burned_nonneg _ _ _ _ (cf_mint c0) R2). lia. }
  specialize (Bk bs (fun _ q => q)).
  assert (E : worth K (dec l) (sum deposited (on l h) - sum paid_out (on l h)) = worth K (dec l) (sum deposited (on l h)) - worth K (dec l) (sum paid_out (on l h))) by (unfold worth; lia).
  lia.
Qed.

Lemma NoDup_right {A} (l l' : list A) : NoDup (l ++ l') -> NoDup l'.
Proof. induction l as [|x l IH]; [auto|]. cbn. intros Q. apply NoDup_cons_iff in Q. apply IH, Q. Qed.

(** * End-to-end delivery (C76). *)
From Verif Require Export DeliverFacts PropsNet.
Local Open Scope Z_scope.

(** ** C76 *)

(** In every reachable state of the network, a recorded outbound transfer whose source and destination deployments stand ready can be carried to its
    recipient by the seven calls of [route]: after them the inbox item is paid, the recipient has the amount (less the token's own fee), custody or
    supply changed by the amount, no other token account or mint of the destination changed, nothing happened on the other chains, and the only
    waiting was until the release time on the source and, if the inbound limit was exhausted, one day on the destination. *)
Theorem C76_delivery : forall H ids n0 h n j k p a v ci o ri c rt pe xp m irl orl d cu, net_initial ids n0 -> net_run H ids n0 h n ->
  In j ids -> In k ids -> j <> k -> is_ntt_prog p = true ->
  publishable (n j) pda_config a (pda_reg (AProg p)) p ci o ri -> ob_chain o = k -> ob_manager o = AProg PManager ->
  let tm := announcement ci a o in let x := local_amount m (tm_msg tm) in
  let t := Z.max (st_now (n j)) (ob_release o) in let t' := let_go irl (st_now (n k)) x in
  expecting H (n k) p j tm v c rt pe xp m irl orl d cu -> affordable c m d cu x ->
  exists h' n', net_run H ids n0 (h' ++ h) n' /\ calls_in h' = route H j k p a v tm t t' (cf_mode c) (mt_prog m) /\
    released (n' k) (item_of H j (tm_msg tm)) = true /\
    credited_to (n k) (n' k) c m (ata (mt_prog m) (ob_recipient o) (cf_mint c)) d cu x /\
    outbox_at (n' j) a (sent_by o (rt_id ri)) /\ st_now (n' j) = t /\ st_now (n' k) = t' /\
    st_toks (n' j) = st_toks (n j) /\ st_mints (n' j) = st_mints (n j) /\ (forall i, i <> j -> i <> k -> n' i = n i).
Proof. exact delivered. Qed.
Print Assumptions C76_delivery.

(** None of these calls carries a signature: neither the sender nor the recipient nor an administrator can hold the transfer up by not signing. *)
Theorem C76_unsigned : forall H j k p a v tm t t' md tp x, In x (route H j k p a v tm t t' md tp) -> signers (snd x) = [].
Proof. intros H j k p a v tm t t' md tp x Hin. cbn in Hin. repeat (destruct Hin as [<-|Hin]; [destruct md; reflexivity|]). contradiction. Qed.
Print Assumptions C76_unsigned.

(** One locking deployment on [l] and burning ones on [bs], whose mints had no supply at their beginning: custody on [l] holds enough for every
    transfer to [l] that has not been paid, so the funds [affordable] asks for are there. *)
Theorem C76_funded : forall H l bs n0 h n K cf dec b j a o m, NoDup (l :: bs) -> net_initial (l :: bs) n0 -> net_run H (l :: bs) n0 h n ->
  (forall k, In k (l :: bs) -> managed (n k) (cf k) (dec k) /\ dec k <= K /\ began (on k h) (b k)) ->
  cf_mode (cf l) = Locking -> (forall k, In k bs -> cf_mode (cf k) = Burning /\ supply_of (b k) (cf_mint (cf k)) = 0) ->
  In j (l :: bs) -> outbox_at (n j) a o -> ob_chain o = l -> st_mints (n l) (cf_mint (cf l)) = Some m ->
  released (n l) (item_of H j (tm_msg (announcement (cf j) a o))) = false ->
  local_amount m (tm_msg (announcement (cf j) a o)) <= balance (n l) (cf_custody (cf l)).
Proof. exact funded. Qed.
Print Assumptions C76_funded.

(** Both together: back to the hub, a transfer needs no premise about custody. *)
Theorem C76_home : forall H l bs n0 h n K cf dec b j p a v o ri rt pe xp m irl orl d cu, NoDup (l :: bs) -> net_initial (l :: bs) n0 -> net_run H (l :: bs) n0 h n ->
  (forall k, In k (l :: bs) -> managed (n k) (cf k) (dec k) /\ dec k <= K /\ began (on k h) (b k)) ->
  cf_mode (cf l) = Locking -> (forall k, In k bs -> cf_mode (cf k) = Burning /\ supply_of (b k) (cf_mint (cf k)) = 0) ->
  In j bs -> is_ntt_prog p = true -> publishable (n j) pda_config a (pda_reg (AProg p)) p (cf j) o ri -> ob_chain o = l -> ob_manager o = AProg PManager ->
  let tm := announcement (cf j) a o in let x := local_amount m (tm_msg tm) in
  expecting H (n l) p j tm v (cf l) rt pe xp m irl orl d cu ->
  tk_amount d + (x - fee_of m x) <= u64_max -> mt_withheld m + fee_of m x <= u64_max ->
  exists h' n', net_run H (l :: bs) n0 (h' ++ h) n' /\ (forall y, In y (calls_in h') -> signers (snd y) = []) /\
    released (n' l) (item_of H j (tm_msg tm)) = true /\
    credited_to (n l) (n' l) (cf l) m (ata (mt_prog m) (ob_recipient o) (cf_mint (cf l))) d cu x.
Proof.
  intros H l bs n0 h n K cf dec b j p a v o ri rt pe xp m irl orl d cu ND Hini R Hm Hl Hb Hj Hp Pu Hch Hmgr tm x Ex A1 A2.
  assert (Hlj : j <> l) by (intros ->; apply NoDup_cons_iff in ND; tauto).
  pose proof (funded _ _ _ _ _ _ _ _ _ _ _ _ _ _ ND Hini R Hm Hl Hb (or_intror Hj) (pu_item _ _ _ _ _ _ _ _ Pu) Hch (ex_mint _ _ _ _ _ _ _ _ _ _ _ _ _ _ _ Ex) (new_unreleased _ _ (ex_new _ _ _ _ _ _ _ _ _ _ _ _ _ _ _ Ex))) as F.
  unfold balance in F. rewrite (ex_custody _ _ _ _ _ _ _ _ _ _ _ _ _ _ _ Ex) in F.
  destruct (delivered H (l :: bs) n0 h n j l p a v (cf j) o ri (cf l) rt pe xp m irl orl d cu Hini R (or_intror Hj) (or_introl eq_refl) Hlj Hp Pu Hch Hmgr Ex) as (h' & n' & R' & Ec & Rl & Cr & _).
  { split; [exact A1|]. split; [exact A2|]. rewrite Hl. exact F. }
  exists h', n'. split; [exact R'|]. split; [|auto]. intros y Hy. rewrite Ec in Hy. eapply C76_unsigned, Hy.
Qed.
Print Assumptions C76_home.

(** ** The worked network, each transfer recorded but not yet published, the recipient's account made. *)
Definition ready12 : list (Z * call) := setup 1 2 Locking 6 ++ setup 2 1 Burning 9 ++ firstn 2 send12 ++ [(2, Call [] (ECreateAta PToken RCPT MINT))].
Definition ready21 : list (Z * call) := phase2 ++ firstn 2 send21.
Definition RT0 := Registered 0 0 (AProg PManager).
Definition cfg_at (n : net) (k : Z) : config addr := match st_accts (n k) pda_config with Some (Acct _ (DConfig c)) => c | _ => new_config DEPLOYER MINT PToken 0 Locking end.
Definition item_at (n : net) (k : Z) (a : addr) : outbox_item addr :=
  match st_accts (n k) a with Some (Acct _ (DOutboxItem o)) => o | _ => OutboxItem (Trim 0 0) ANull 0 ANull ANull 0 0 end.
Definition mint_at (n : net) (k : Z) : mint := match st_mints (n k) MINT with Some m => m | None => Mint PToken 0 0 None 0 0 0 end.
Definition rl_at (n : net) (k : Z) (a : addr) : rl := match st_accts (n k) a with Some (Acct _ (DInboxRL r)) | Some (Acct _ (DOutboxRL r)) => r | _ => RL 0 0 0 end.
Definition tok_at (n : net) (k : Z) (a : addr) : tok := match st_toks (n k) a with Some t => t | None => Tok PToken ANull ANull 0 None 0 end.
Lemma ready_fine : net_fine H0 two n_start ready12 /\ net_fine H0 two n_start ready21.
Proof. split; vm_compute; repeat split; auto 10. Qed.

(** The premises of [C76_delivery] hold for both transfers. *)
Definition premises (cs : list (Z * call)) (j k : Z) (a v who : addr) : Prop :=
  let n := snd (result_of cs) in let o := item_at n j a in let ci := cfg_at n j in let c := cfg_at n k in let m := mint_at n k in
  let d := tok_at n k (ata PToken who MINT) in let cu := tok_at n k custody in
  publishable (n j) pda_config a (pda_reg (AProg PManager)) PManager ci o RT0 /\ ob_chain o = k /\ ob_manager o = AProg PManager /\
  (exists b1 b2, expecting H0 (n k) PManager j (announcement ci a o) v c RT0 (Peer b1 (AProg PManager) (if j =? 1 then 9 else 6)) (XPeer b2 EM) m
    (rl_at n k (pda_inbox_rl j)) (rl_at n k pda_outbox_rl) d cu) /\
  affordable c m d cu (local_amount m (tm_msg (announcement ci a o))).
Example C76_case12 : premises ready12 1 2 ITEM VAA RCPT.
Proof.
  unfold premises. cbv zeta. split; [constructor; vm_compute; reflexivity|]. split; [vm_compute; reflexivity|]. split; [vm_compute; reflexivity|]. split.
  - do 2 eexists. constructor; try (vm_compute; reflexivity).
    + split; vm_compute; [reflexivity|discriminate].
    + repeat split; vm_compute; discriminate.
    + split; [do 4 eexists; reflexivity|]. repeat split; vm_compute; reflexivity.
    + vm_compute. discriminate.
  - vm_compute. repeat split; discriminate.
Qed.
Example C76_case21 : premises ready21 2 1 BACK VAA USER.
Proof.
  unfold premises. cbv zeta. split; [constructor; vm_compute; reflexivity|]. split; [vm_compute; reflexivity|]. split; [vm_compute; reflexivity|]. split.
  - do 2 eexists. constructor; try (vm_compute; reflexivity).
    + split; vm_compute; [reflexivity|discriminate].
    + repeat split; vm_compute; discriminate.
    + split; [do 4 eexists; reflexivity|]. repeat split; vm_compute; reflexivity.
    + vm_compute. discriminate.
  - vm_compute. repeat split; discriminate.
Qed.
(** Running the route: seven calls happen, the item is paid, and these are the balances of recipient and custody and the supply before and after. *)
Definition the_route (cs : list (Z * call)) (j k : Z) (a : addr) : list (Z * call) :=
  let n := snd (result_of cs) in let o := item_at n j a in let tm := announcement (cfg_at n j) a o in let m := mint_at n k in
  route H0 j k PManager a VAA tm (Z.max (st_now (n j)) (ob_release o)) (let_go (rl_at n k (pda_inbox_rl j)) (st_now (n k)) (local_amount m (tm_msg tm))) (cf_mode (cfg_at n k)) PToken.
Definition figures (n : net) (k : Z) (who : addr) : list Z := [balance (n k) (ata PToken who MINT); balance (n k) custody; supply_of (n k) MINT].
Definition carried (cs : list (Z * call)) (j k : Z) (a who : addr) : nat * list Z * list Z :=
  let n := snd (result_of cs) in let (h', n') := net_exec H0 [] n (the_route cs j k a) in (length h', figures n k who, figures n' k who).
Example C76_run : carried ready12 1 2 ITEM RCPT = (7%nat, [0; 0; 0], [1000000; 0; 1000000]) /\
  carried ready21 2 1 BACK USER = (7%nat, [3999999995 + 5; 1000000000; 5000000000], [4400000000; 600000000; 5000000000]).
Proof. split; vm_compute; reflexivity. Qed.
(** The premises matter: without the recipient's account, with the destination paused, with the attestation's address in use, the route stops early. *)
Definition stops (cs extra : list (Z * call)) : nat := length (fst (net_exec H0 [] (snd (net_exec H0 [] (snd (result_of cs)) extra)) (the_route ready12 1 2 ITEM))).
Example C76_needed : stops (removelast ready12) [] = 6%nat /\
  map (stops ready12) [[(2, Call [DEPLOYER] (ISetPaused pda_config DEPLOYER true))]; [(1, Call [DEPLOYER] (ISetPaused pda_config DEPLOYER true))];
    [(2, Call [] (EPostVaa VAA 7 ANull None))]; []] = [3; 1; 2; 7]%nat.
Proof. split; vm_compute; reflexivity. Qed.
(** A transfer over the inbound limit waits a day: the same with a limit of 400000 units. *)
Example C76_delayed : let cs := ready12 ++ [(2, Call [DEPLOYER] (ISetInboundLimit pda_config DEPLOYER 1 400000))] in
  carried cs 1 2 ITEM RCPT = (7%nat, [0; 0; 0], [1000000; 0; 1000000]) /\ nth_error (the_route cs 1 2 ITEM) 5 = Some (2, Call [] (EClock (1000 + day))).
Proof. split; vm_compute; reflexivity. Qed.
(** The premises of [C76_funded] and [C76_home] about the deployments hold in the worked network. *)
Example C76_hub : NoDup two /\ supply_of (begin_of 2) MINT = 0 /\ cf_mint (config_of 2) = MINT /\ cf_mode (config_of 1) = Locking /\ cf_mode (config_of 2) = Burning.
Proof. split; [repeat constructor; cbn; intuition discriminate|]. repeat split; vm_compute; reflexivity. Qed.

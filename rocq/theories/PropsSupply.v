(** * Supply is what everybody holds; delivery without a premise about money (C77). *)
From Verif Require Export SupplyFacts PropsDeliver.
Local Open Scope Z_scope.

(** ** C77 *)

(** No call creates or destroys units beside the supply: on every chain that began accounted, in every state, for every mint, there is a finite list
    of all its accounts whose holdings and the fees withheld add up to the supply. *)
Theorem C77_supply : forall H s0 tr s, initial s0 -> accounted s0 -> run H s0 tr s -> accounted s.
Proof. intros H s0 tr s Hi A R. eapply acc_run; [apply initial_reachable, Hi|exact R|exact A]. Qed.
Print Assumptions C77_supply.

(** Any list of all the holders gives that sum, and any holders together have no more than the supply. *)
Theorem C77_total : forall H s0 tr s mnt m l, initial s0 -> accounted s0 -> run H s0 tr s -> st_mints s mnt = Some m -> all_holders s mnt l ->
  sum_of (holding s mnt) l + mt_withheld m = mt_supply m.
Proof.
  intros H s0 tr s mnt m l Hi A R. pose proof (initial_reachable H _ Hi) as Hr. eapply all_shares; [eapply run_reachable; eassumption|eapply acc_run; eassumption].
Qed.
Print Assumptions C77_total.
Theorem C77_shares : forall H s0 tr s mnt m l, initial s0 -> accounted s0 -> run H s0 tr s -> st_mints s mnt = Some m -> NoDup l ->
  sum_of (holding s mnt) l + mt_withheld m <= mt_supply m.
Proof.
  intros H s0 tr s mnt m l Hi A R. pose proof (initial_reachable H _ Hi) as Hr. eapply shares; [eapply run_reachable; eassumption|eapply acc_run; eassumption].
Qed.
Print Assumptions C77_shares.

(** So the recipient's balance and the withheld fees always have room for a payment that custody, or the supply's 64 bits, can bear. *)
Theorem C77_room : forall H s0 tr s c m who d cu x, initial s0 -> accounted s0 -> run H s0 tr s -> config_at s pda_config c -> st_mints s (cf_mint c) = Some m ->
  st_toks s (ata (mt_prog m) who (cf_mint c)) = Some d -> who <> token_authority -> st_toks s (cf_custody c) = Some cu -> 0 <= x ->
  funds c m cu x -> affordable c m d cu x.
Proof.
  intros H s0 tr s c m who d cu x Hi A R. pose proof (initial_reachable H _ Hi) as Hr. eapply afford; [eapply run_reachable; eassumption|eapply acc_run; eassumption].
Qed.
Print Assumptions C77_room.

(** [C76_delivery] with [funds] alone. *)
Theorem C77_delivery : forall H ids n0 h n j k p a v ci o ri c rt pe xp m irl orl d cu, net_initial ids n0 -> (forall i, In i ids -> accounted (n0 i)) -> net_run H ids n0 h n ->
  In j ids -> In k ids -> j <> k -> is_ntt_prog p = true ->
  publishable (n j) pda_config a (pda_reg (AProg p)) p ci o ri -> ob_chain o = k -> ob_manager o = AProg PManager ->
  let tm := announcement ci a o in let x := local_amount m (tm_msg tm) in
  let t := Z.max (st_now (n j)) (ob_release o) in let t' := let_go irl (st_now (n k)) x in
  expecting H (n k) p j tm v c rt pe xp m irl orl d cu -> funds c m cu x ->
  exists h' n', net_run H ids n0 (h' ++ h) n' /\ calls_in h' = route H j k p a v tm t t' (cf_mode c) (mt_prog m) /\
    released (n' k) (item_of H j (tm_msg tm)) = true /\
    credited_to (n k) (n' k) c m (ata (mt_prog m) (ob_recipient o) (cf_mint c)) d cu x.
Proof. exact delivered_funds. Qed.
Print Assumptions C77_delivery.

(** In a hub network every transfer between two ready deployments, to a chain whose token has no more decimals than the hub's, can be carried to its
    recipient: no premise about balances, supplies or custody is left. *)
Theorem C77_everywhere : forall H l bs n0 h n K cf dec b j k p a v o ri rt pe xp m irl orl d cu, hub H l bs n0 h n K cf dec b ->
  In j (l :: bs) -> In k (l :: bs) -> j <> k -> dec k <= dec l -> is_ntt_prog p = true ->
  publishable (n j) pda_config a (pda_reg (AProg p)) p (cf j) o ri -> ob_chain o = k -> ob_manager o = AProg PManager ->
  let tm := announcement (cf j) a o in let x := local_amount m (tm_msg tm) in
  let t := Z.max (st_now (n j)) (ob_release o) in let t' := let_go irl (st_now (n k)) x in
  expecting H (n k) p j tm v (cf k) rt pe xp m irl orl d cu ->
  exists h' n', net_run H (l :: bs) n0 (h' ++ h) n' /\ calls_in h' = route H j k p a v tm t t' (cf_mode (cf k)) (mt_prog m) /\
    released (n' k) (item_of H j (tm_msg tm)) = true /\
    credited_to (n k) (n' k) (cf k) m (ata (mt_prog m) (ob_recipient o) (cf_mint (cf k))) d cu x.
Proof. exact hub_delivers. Qed.
Print Assumptions C77_everywhere.

(** Whatever any set of accounts holds on the burning chains, with the fees withheld there and all transfers in flight, custody on the hub covers. *)
Theorem C77_covered : forall H l bs n0 h n K cf dec b who, hub H l bs n0 h n K cf dec b -> (forall k, In k bs -> NoDup (who k)) ->
  sum_of (fun k => worth K (dec k) (sum_of (holding (n k) (cf_mint (cf k))) (who k) + withheld_at (n k) (cf_mint (cf k)))) bs + in_flight H (l :: bs) K dec n h
  <= worth K (dec l) (balance (n l) (cf_custody (cf l))).
Proof. exact hub_covered. Qed.
Print Assumptions C77_covered.

(** ** The worked networks *)
Lemma start_accounted md : accounted (s_start md).
Proof.
  intros mnt m. cbn. rewrite upd_eq. destruct (addr_eq_dec mnt MINT) as [->|]; [|discriminate]. intros E. apply Some_inj in E. subst m.
  exists [user_tok]. split; [|vm_compute; reflexivity]. split; [repeat constructor; cbn; tauto|]. intros a t. cbn. rewrite upd_eq.
  destruct (addr_eq_dec a user_tok) as [->|]; [auto|discriminate].
Qed.
Lemma issue_accounted : accounted s_issue.
Proof.
  intros mnt m. cbn. rewrite upd_eq. destruct (addr_eq_dec mnt MINT) as [->|]; [|discriminate]. intros E. apply Some_inj in E. subst m.
  exists []. split; [split; [constructor|discriminate]|reflexivity].
Qed.
Lemma n_start_accounted k : In k two -> accounted (n_start k).
Proof. intros [<-|[<-|[]]]; [apply start_accounted|apply issue_accounted]. Qed.

(** Holdings of sender, custody and recipient in the single-chain scenario, before, between and after; with a transfer fee (Token-2022) the withheld
    part (4000000 units, 1 % of the payment) is what is missing. *)
Definition who1 : list addr := [user_tok; custody; rcpt_tok].
Definition sums (s : state) : Z * Z * Z := (sum_of (holding s MINT) who1, withheld_at s MINT, supply_of s MINT).
Example C77_case : map (fun k => sums (at_ Locking k)) [0; 7; 13]%nat = [(5000000000, 0, 5000000000); (5000000000, 0, 5000000000); (5000000000, 0, 5000000000)] /\
  map (fun k => sums (at_ Burning k)) [0; 7; 13]%nat = [(5000000000, 0, 5000000000); (4000000000, 0, 4000000000); (4400000000, 0, 4400000000)] /\
  (let s := s_fee' in let who := [ata PToken22 USER MINT; ata PToken22 token_authority MINT; ata PToken22 RCPT MINT] in
   (sum_of (holding s MINT) who + withheld_at s MINT, supply_of s MINT) = (5000000000, 5000000000) /\ withheld_at s MINT = 4000000).
Proof. vm_compute. repeat split; reflexivity. Qed.
(** A ledger that is not accounted for, to see that the notion is not trivial. *)
Example C77_wrong : ~ accounted (State 0 no_accts (upd (fun _ => None) user_tok (Some (Tok PToken MINT USER 5 None 0)))
    (upd (fun _ => None) MINT (Some (Mint PToken 9 4 None 0 0 0))) None []).
Proof.
  intros A. destruct (A MINT _ eq_refl) as (l & (ND & C) & E). cbn [mt_withheld mt_supply] in E.
  pose proof (C user_tok _ eq_refl eq_refl) as Hin.
  assert (Q : 5 <= sum_of (holding (State 0 no_accts (upd (fun _ => None) user_tok (Some (Tok PToken MINT USER 5 None 0))) (upd (fun _ => None) MINT (Some (Mint PToken 9 4 None 0 0 0))) None []) MINT) l).
  { etransitivity; [|apply sum_of_member; [|exact Hin]]; [vm_compute; discriminate|]. intros y _. unfold holding. cbn [st_toks]. rewrite upd_eq.
    destruct (addr_eq_dec y user_tok); [vm_compute; discriminate|lia]. }
  lia.
Qed.

(** The hub's premises, in the states from which both directions are carried. *)
Definition cut (k : Z) : nat := if k =? 1 then 2%nat else 7%nat.
Lemma started cs k : In k two -> net_fine H0 two n_start (firstn (cut k) cs) ->
  (exists e, In (k, e) (fst (result_of (firstn (cut k) cs))) /\ e_post e = begin_of k /\ exists d m tp ch l md, ins (e_call e) = IInitialize d m tp ch l md) ->
  began (on k (fst (result_of cs))) (begin_of k).
Proof.
  intros Hk F (e & Hin & Q). exists e. split; [|exact Q]. apply on_In. rewrite <- (firstn_skipn (cut k) cs). unfold result_of in *.
  rewrite (net_exec_app _ _ _ _ _ _ F). apply net_exec_old, Hin.
Qed.
Definition dec2 (k : Z) : Z := if k =? 1 then 9 else 6.
Lemma hub_of cs : net_fine H0 two n_start cs -> (cs = ready12 \/ cs = ready21) -> hub H0 1 [2] n_start (fst (result_of cs)) (snd (result_of cs)) 9 (cfg_at (snd (result_of cs))) dec2 begin_of.
Proof.
  intros F Hcs. constructor.
  - repeat constructor; cbn; intuition discriminate.
  - exact n_start_initial.
  - exact n_start_accounted.
  - apply net_exec_run; [constructor|exact F].
  - intros k Hk. split; [|split].
    + destruct Hcs as [-> | ->]; destruct Hk as [<-|[<-|[]]]; (split; [vm_compute; reflexivity|eexists; split; [vm_compute; reflexivity|reflexivity]]).
    + destruct Hk as [<-|[<-|[]]]; vm_compute; discriminate.
    + apply started; [exact Hk| |].
      * destruct Hcs as [-> | ->]; destruct Hk as [<-|[<-|[]]]; vm_compute; repeat split; auto 10.
      * destruct Hcs as [-> | ->]; destruct Hk as [<-|[<-|[]]]; (eexists; split; [left; reflexivity|split; [reflexivity|do 6 eexists; reflexivity]]).
  - destruct Hcs as [-> | ->]; vm_compute; reflexivity.
  - intros k [<-|[]]. destruct Hcs as [-> | ->]; split; vm_compute; reflexivity.
Qed.
Example C77_hub12 : hub H0 1 [2] n_start (fst (result_of ready12)) (snd (result_of ready12)) 9 (cfg_at (snd (result_of ready12))) dec2 begin_of.
Proof. exact (hub_of ready12 (proj1 ready_fine) (or_introl eq_refl)). Qed.
Example C77_hub21 : hub H0 1 [2] n_start (fst (result_of ready21)) (snd (result_of ready21)) 9 (cfg_at (snd (result_of ready21))) dec2 begin_of.
Proof. exact (hub_of ready21 (proj2 ready_fine) (or_intror eq_refl)). Qed.
(** With [C76_case12] and [C76_case21] all premises of [C77_everywhere] are met: the first transfer can be carried. *)
Example C77_applies : exists h' n', net_run H0 [1; 2] n_start (h' ++ fst (result_of ready12)) n' /\ balance (n' 2) (ata PToken RCPT MINT) = 1000000.
Proof.
  destruct C76_case12 as (Pu & Hch & Hm & (b1 & b2 & Ex) & _). cbv zeta in *.
  destruct (C77_everywhere H0 1 [2] n_start _ _ 9 _ dec2 begin_of 1 2 PManager ITEM VAA _ RT0 RT0 _ _ _ _ _ _ _ C77_hub12
    (or_introl eq_refl) (or_intror (or_introl eq_refl)) ltac:(lia) ltac:(vm_compute; discriminate) eq_refl Pu Hch Hm Ex) as (h' & n' & R & _ & _ & Cr & _).
  exists h', n'. split; [exact R|]. unfold balance.
  replace (ata PToken RCPT MINT) with (ata (mt_prog (mint_at (snd (result_of ready12)) 2)) (ob_recipient (item_at (snd (result_of ready12)) 1 ITEM)) (cf_mint (cfg_at (snd (result_of ready12)) 2))) by (vm_compute; reflexivity).
  rewrite Cr. vm_compute. reflexivity.
Qed.
(** Holdings on chain 2, withheld there, in flight, and custody on chain 1 (all in units of 9 decimals) while 0.4 is on its way back. *)
Example C77_figures : let n := snd (result_of ready21) in let h := fst (result_of ready21) in
  [worth 9 6 (holding (n 2) MINT (ata PToken RCPT MINT)); withheld_at (n 2) MINT; in_flight H0 two 9 dec2 n h; worth 9 9 (balance (n 1) custody)] =
  [600000000; 0; 400000000; 1000000000].
Proof. vm_compute. reflexivity. Qed.

(** The premise on decimals is needed: from a hub token of 6 decimals, 100 billion whole tokens do not fit 64 bits on a chain with 9 decimals. The
    sender's tokens are locked, and the route stops at the redemption (four calls of seven succeed), on every attempt. *)
Definition s_rich : state := State 0 no_accts (upd (fun _ => None) user_tok (Some (Tok PToken MINT USER 1000000000000000000 None 0)))
  (upd (fun _ => None) MINT (Some (Mint PToken 6 1000000000000000000 (Some ISSUER) 0 0 0))) (Some DEPLOYER) [].
Definition s_fine : state := State 0 no_accts (fun _ => None) (upd (fun _ => None) MINT (Some (Mint PToken 9 0 (Some token_authority) 0 0 0))) (Some DEPLOYER) [].
Definition n_rich : net := fun k => if k =? 1 then s_rich else s_fine.
Definition argsr := TransferArgs 100000000000000000 2 RCPT true.
Definition rich : list (Z * call) := setup 1 2 Locking 9 ++ setup 2 1 Burning 6 ++
  map (pair 1) [Call [USER] (EApprove PToken user_tok USER (pda_session USER (h_args H0 argsr)) 100000000000000000);
                Call [ITEM] (ITransferLock (TransferAccts pda_config user_tok PToken ITEM pda_outbox_rl true) argsr)] ++ [(2, Call [] (ECreateAta PToken RCPT MINT))].
Example C77_decimals : let (h, n) := net_exec H0 [] n_rich rich in
  let o := item_at n 1 ITEM in let tm := announcement (cfg_at n 1) ITEM o in
  (length h, balance (n 1) custody, local_amount (mint_at n 2) (tm_msg tm)) = (13%nat, 100000000000000000, 100000000000000000000) /\
  length (fst (net_exec H0 [] n (route H0 1 2 PManager ITEM VAA tm (1000 + day) 1000 Burning PToken))) = 4%nat.
Proof. vm_compute. split; reflexivity. Qed.

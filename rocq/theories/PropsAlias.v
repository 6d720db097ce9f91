(** * One account in two places: C91. *)
From Coq Require Import String.
From Verif Require Export AliasFacts.
From Verif Require Import Scenario PropsEntry PropsQuoter PropsQEntry.
Import ListNotations.
Local Open Scope Z_scope.
Local Open Scope list_scope.

(** C91: an address never comes to hold accounts of two programs. *)
Theorem C91_one_kind : forall H s0 tr s, initial s0 -> one_kind s0 -> run H s0 tr s -> one_kind s.
Proof. exact one_kind_run. Qed.
Print Assumptions C91_one_kind.

(** In a call that succeeds no account stands in two places of which the function has a copy, but for a release to the custody account itself. *)
Theorem C91_distinct : forall nm ok H s0 tr s p ms data s' g n n' h, initial s0 -> one_kind s0 -> run H s0 tr s ->
  entry nm ok H s p ms data = Ok s' -> offered p g -> wf_call g -> data_of g data ->
  In n (loaded g) -> In n' (loaded g) -> passed p g ms n h -> passed p g ms n' h -> n = n' \/ to_custody s p g ms n n'.
Proof.
  intros nm ok H s0 tr s p ms data s' g n n' h Ini K R. apply two_names.
  - apply (reachable_inv H). exists s0, tr. auto.
  - eapply one_kind_run; eassumption.
Qed.
Print Assumptions C91_distinct.

(** That release is the one whose recipient is the manager's token authority. *)
Theorem C91_exception : forall nm ok H s p ms data s' g r a it h h', reachable H s ->
  entry nm ok H s p ms data = Ok s' -> offered p g -> wf_call g -> data_of g data -> g = GReleaseMint r \/ g = GReleaseUnlock r ->
  passed p g ms "common.inboxItem"%string (HA a) -> st_accts s a = Some (Acct PManager (DInboxItem it)) ->
  passed p g ms "common.recipient"%string h -> passed p g ms "common.custody"%string h' -> (h = h' <-> ib_recipient it = token_authority).
Proof. intros nm ok H s p ms data s' g r a it h h' Hr. apply custody_alias, (reachable_inv H), Hr. Qed.
Print Assumptions C91_exception.

(** An account whose data a call rewrites always has a single copy. *)
Theorem C91_rewritten : forall nm ok H s0 tr s p ms data s' g n n' a, initial s0 -> one_kind s0 -> run H s0 tr s ->
  entry nm ok H s p ms data = Ok s' -> offered p g -> wf_call g -> data_of g data ->
  st_accts s' a <> st_accts s a -> In n (loaded g) -> In n' (loaded g) -> passed p g ms n (HA a) -> passed p g ms n' (HA a) -> n = n'.
Proof.
  intros nm ok H s0 tr s p ms data s' g n n' a Ini K R. apply rewritten_once.
  - apply (reachable_inv H). exists s0, tr. auto.
  - eapply one_kind_run; eassumption.
Qed.
Print Assumptions C91_rewritten.

(** The quoter, without exception. *)
Theorem C91_quoter : forall I nm E q ms data q' g n n' a, q_reachable E q ->
  q_entry I nm E q ms data = Ok q' -> offered AQuoter g -> wf_call g -> data_of g data ->
  In n (q_loaded g) -> In n' (q_loaded g) -> q_passed g ms n a -> q_passed g ms n' a -> n = n'.
Proof. exact q_two_names. Qed.
Print Assumptions C91_quoter.

(** The worked deployment: the eight copies of the transfer. It fails when the custody account stands in for the sender's account or the mint, the
    new item for the config, the rate limits for each other, the peer for the config. *)
Lemma start_one_kind md : one_kind (s_start md).
Proof.
  intros a. split; [intros N; contradiction N; reflexivity|]. cbn [s_start st_toks st_mints]. unfold upd.
  destruct (addr_eqb a user_tok) eqn:E; [intros _|intros N; contradiction N; reflexivity]. apply addr_eqb_eq in E. subst a. reflexivity.
Qed.
Example C91_case :
  let go ms := is_ok (entry nm0 true H0 (at_ Locking 6) AManager ms transfer_data) in
  map (fun n => nth_error (map fl_name (interface AManager (GTransferLock 0 0 [] false))) n) [1; 2; 3; 5; 6; 7; 9; 10]%nat
  = map Some (["common.config.config"; "common.mint"; "common.from"; "common.outboxItem"; "common.outboxRateLimit"; "common.custody"; "inboxRateLimit"; "peer"]%string) /\
  map go [transfer_metas; swap 3 (W_ custody) transfer_metas; swap 2 (W_ custody) transfer_metas; swap 5 (SW_ pda_config) transfer_metas; swap 5 (SW_ user_tok) transfer_metas;
    swap 6 (W_ (pda_inbox_rl 2)) transfer_metas; swap 9 (W_ pda_outbox_rl) transfer_metas; swap 1 (R_ (pda_peer 2)) transfer_metas]
  = [true; false; false; false; false; false; false; false].
Proof. vm_compute. repeat split. Qed.

(** The exception happens: a message from another chain names the token authority as its recipient. Its release succeeds with the custody account in both
    places; the custody account's balance stays as it is. *)
Definition own_msg : tr_msg := TrMsg (ARaw 7) (AProg PManager) (NttMsg (ARaw 20) (ARaw 21) (Trim 40000000 8) (ARaw 22) 1 token_authority).
Definition own_item : addr := pda_inbox (h_msg H0 2 (tm_msg own_msg)).
Definition own_state : state :=
  apply_tx H0 (at_ Locking 7) [Call [] (EPostVaa VAA 2 (ARaw 8) (Some own_msg)); Call [] (IXReceive PManager pda_config VAA); Call [] (IRedeem the_redeem)].
Definition own_metas : list meta :=
  [SW_ USER; R_ pda_config; W_ own_item; W_ custody; R_ token_authority; W_ MINT; R_ (AProg PToken); W_ custody].
Definition own_data : bytes := ftag "release_inbound_unlock" ++ [x01].
Example C91_custody :
  reachable H0 own_state /\
  option_map (fun ac => match ac_data ac with DInboxItem i => Some (ib_recipient i, ib_amount i) | _ => None end) (st_accts own_state own_item) = Some (Some (token_authority, 400000000)) /\
  option_map tk_amount (st_toks own_state custody) = Some 1000000000 /\
  (match entry nm0 true H0 own_state AManager own_metas own_data with
   | Ok s' => (option_map tk_amount (st_toks s' custody), option_map (fun ac => match ac_data ac with DInboxItem i => Some (ib_status i) | _ => None end) (st_accts s' own_item))
   | Err _ => (None, None) end) = (Some 1000000000, Some (Some Released)).
Proof. split; [apply apply_reachable, at_reachable|]. vm_compute. repeat split. Qed.

(** The quoter's relay request, which fails with one account in two of its five places. *)
Example C91_quoter_case :
  let go ms := is_ok (q_entry I0 nm1 E0q (q_at 7) ms relay_data) in
  map go [relay_metas; put_at 1 (qR (QChain 2)) relay_metas; put_at 2 (qR QInst) relay_metas; put_at 3 (qR QInst) relay_metas; put_at 4 (qR (QReq ITEM)) relay_metas;
    put_at 5 (qW (QExt ITEM)) relay_metas; put_at 5 (qW QInst) relay_metas]
  = [true; false; false; false; false; false; false].
Proof. vm_compute. reflexivity. Qed.

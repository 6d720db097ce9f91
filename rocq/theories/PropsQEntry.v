(** * The quoter's entry point (C81) and published interface (C82). *)
From Coq Require Import String.
From Verif Require Import PropsQuoter PropsEntry.
From Verif Require Export QEntryFacts.
Import ListNotations.
Local Open Scope Z_scope.
Local Open Scope list_scope.
Local Strategy 1000 [sha256].

(** C81: a call changes nothing but accounts that the caller has passed as writable; nothing at all of the other programs. *)
Theorem C81_writes : forall I nm E q ms data q', q_entry I nm E q ms data = Ok q' -> q_changes_within ms q q'.
Proof. exact q_entry_writes. Qed.
Print Assumptions C81_writes.

(** It reads nothing but the accounts that the caller has passed. *)
Theorem C81_reads : forall I nm E q t ms data q', q_agree_on I ms q t -> q_entry I nm E q ms data = Ok q' ->
  exists t', q_entry I nm E t ms data = Ok t' /\ q_agree_on I ms q' t' /\ q_changes_within ms q q' /\ q_changes_within ms t t'.
Proof. exact q_entry_reads. Qed.
Print Assumptions C81_reads.

(** Its outcome depends on the signatures only in that missing ones lead to a refusal. *)
Theorem C81_signers : forall I nm E q ms ms' data q', q_fewer_signers ms ms' -> q_entry I nm E q ms data = Ok q' ->
  q_entry I nm E q ms' data = Ok q' \/ q_entry I nm E q ms' data = Err Constraint.
Proof. exact q_entry_signers. Qed.
Print Assumptions C81_signers.

(** Whatever accounts and data are passed, what happens is one of the quoter's instructions of Quoter.v, with the signatures passed ... *)
Theorem C81_step : forall I nm E q ms data q', q_entry I nm E q ms data = Ok q' ->
  exists i sg, q_callable I i /\ (forall a, In a sg <-> q_given_signer ms a) /\ q_step E q (QCall sg i) = Ok q'.
Proof. exact q_entry_step. Qed.
Print Assumptions C81_step.

(** ... and each of those that succeeds there can be called, with no signatures but those it has there. *)
Theorem C81_complete : forall I nm E q sg i q', q_named nm i -> q_callable I i -> q_step E q (QCall sg i) = Ok q' ->
  exists ms data, q_entry I nm E q ms data = Ok q' /\ (forall a, q_given_signer ms a -> In a sg).
Proof. exact q_entry_complete. Qed.
Print Assumptions C81_complete.

(** Two calls of which neither may change an account of the other can be executed in either order, to the same effect. *)
Theorem C81_commute : forall I nm E q ms ms' data data' q1 q2, q_independent ms ms' ->
  q_entry I nm E q ms data = Ok q1 -> q_entry I nm E q1 ms' data' = Ok q2 ->
  exists t1 t2, q_entry I nm E q ms' data' = Ok t1 /\ q_entry I nm E t1 ms data = Ok t2 /\ q_same q2 t2.
Proof. exact q_independent_commute. Qed.
Print Assumptions C81_commute.

(** The same for a call to the quoter after one to the manager or the transceiver that changes none of its accounts. *)
Theorem C81_beside : forall I nm nm' ok E q p ms data qms data' w1 q2,
  (forall a, given_writable ms (HA a) -> ~ q_given qms (QExt a)) ->
  entry nm' ok (qe_hashes E) (q_world q) p ms data = Ok w1 ->
  q_entry I nm E (QState w1 (q_accts q) (q_lamports q) (q_uauth q)) qms data' = Ok q2 ->
  exists t1, q_entry I nm E q qms data' = Ok t1 /\ entry nm' ok (qe_hashes E) (q_world t1) p ms data = Ok (q_world q2) /\
    (forall a, q_lamports q2 a = q_lamports t1 a /\ q_accts q2 a = q_accts t1 a) /\ q_uauth q2 = q_uauth t1.
Proof.
  intros I nm nm' ok E q p ms data qms data' w1 q2 D EM EQ. destruct (q_beside _ _ _ _ _ _ _ _ _ _ _ _ _ D EM EQ) as (t1 & A & B & C & F & U).
  exists t1. split; [exact A|]. split; [exact B|]. split; [|exact U]. intros a. destruct (q_given_writable_dec qms a) as [G|G]; [apply C, q_writable_given, G|apply F, G].
Qed.
Print Assumptions C81_beside.

(** The relay request of the worked deployment with its seven accounts in place: it succeeds, with further accounts behind as well. It fails when
    the payer has not signed or is not writable, when the request's account is not writable, when another account stands in for the chain, the
    deployment, the item or the request, when an account is missing, and when it comes with the data of another function. It does not depend on an
    account it is not given, but on one it is given. *)
Definition I0 : qids := QIds (AProg (PUser 40)) (ARaw 41).
Definition nm1 (b : bytes) : addr := match b with x0b :: _ => AProg PManager | _ => ARaw 7 end.
Definition qR a := QMeta a false false.
Definition qW a := QMeta a false true.
Definition qS a := QMeta (QExt a) true false.
Definition qSW a := QMeta (QExt a) true true.
Definition relay_metas : list qmeta := [qSW USER; qR QInst; qR (QChain 2); qR (QNtt (AProg PManager)); qR (QExt ITEM); qW (QReq ITEM); qR (QExt ANull)].
Definition relay_data : bytes := ftag "request_relay" ++ le_enc 8 1000000 ++ le_enc 8 300000000.
Definition put_at {A} (n : nat) (m : A) (l : list A) : list A := firstn n l ++ m :: skipn (S n) l.
Example C81_case :
  let go ms := is_ok (q_entry I0 nm1 E0q (q_at 7) ms relay_data) in
  (match q_entry I0 nm1 E0q (q_at 7) relay_metas relay_data with Ok q' => (q_accts q' (QReq ITEM), q_lamports q' (QReq ITEM)) | Err _ => (None, 0) end)
    = (Some (QDRequest (RelayRequest 1000000)), 220666666) /\
  map go [relay_metas; relay_metas ++ [qSW RCPT]; put_at 0 (qW (QExt USER)) relay_metas; put_at 0 (qS USER) relay_metas; put_at 5 (qR (QReq ITEM)) relay_metas;
    put_at 2 (qR (QChain 3)) relay_metas; put_at 3 (qR (QNtt (AProg PTransceiver))) relay_metas; put_at 4 (qR (QExt USER)) relay_metas; put_at 5 (qW (QReq USER)) relay_metas;
    removelast relay_metas]
  = [true; true; false; false; false; false; false; false; false; false] /\
  map (fun d => is_ok (q_entry I0 nm1 E0q (q_at 7) relay_metas d)) [ftag "close_relay"; relay_data ++ [x00]; removelast relay_data] = [false; true; false] /\
  map (fun a => is_ok (q_entry I0 nm1 E0q (q_put a None (q_at 7)) relay_metas relay_data)) [QChain 3; QNtt (AProg PManager)] = [true; false].
Proof. cbv zeta. repeat match goal with |- _ /\ _ => split end; vm_compute; reflexivity. Qed.

(** Updating the price of another chain is independent of the request; closing the request is not. *)
Definition prices_metas : list qmeta := [qS ASSIST; qR QInst; qW (QChain 3)].
Definition close_metas : list qmeta := [qS ASSIST; qR QInst; qW RECV; qW (QReq ITEM); qR (QExt ANull)].
Example C81_order : q_independent relay_metas prices_metas /\ ~ q_independent relay_metas close_metas /\
  (forall a, given_writable limit_metas (HA a) -> ~ q_given relay_metas (QExt a)).
Proof.
  split; [|split].
  - split; intros a (m & Hm & K & Wr) (m' & Hm' & K'); cbn in Hm, Hm'; subst a;
    repeat match type of Hm with _ \/ _ => destruct Hm as [<-|Hm] end; try contradiction; try discriminate Wr;
    repeat match type of Hm' with _ \/ _ => destruct Hm' as [<-|Hm'] end; try contradiction; cbn in K'; discriminate K'.
  - intros [K _]. apply (K (QReq ITEM)); [exists (qW (QReq ITEM))|exists (qW (QReq ITEM))]; cbn; auto 10.
  - intros a (m & Hm & K & Wr) (m' & Hm' & K'). cbn in Hm, Hm'.
    repeat match type of Hm with _ \/ _ => destruct Hm as [<-|Hm] end; try contradiction; try discriminate Wr. cbn in K. injection K as <-.
    repeat match type of Hm' with _ \/ _ => destruct Hm' as [<-|Hm'] end; try contradiction; cbn in K'; discriminate K'.
Qed.

(** C82: a call that succeeds does what the published interface says of its data, with the accounts passed under the names given there. *)
Theorem C82_meaning : forall I nm E q ms data q', q_entry I nm E q ms data = Ok q' ->
  exists g i sg, offered AQuoter g /\ wf_call g /\ data_of g data /\ q_asked I nm g ms i /\ (forall a, In a sg <-> q_given_signer ms a) /\ q_step E q (QCall sg i) = Ok q'.
Proof. exact q_entry_meaning. Qed.
Print Assumptions C82_meaning.

(** All its accounts have been passed, with the privileges given there ... *)
Theorem C82_privileges : forall I nm E q ms data q' g k f, q_entry I nm E q ms data = Ok q' -> offered AQuoter g -> wf_call g -> data_of g data ->
  nth_error (q_interface g) k = Some f ->
  exists m, nth_error ms k = Some m /\ (qf_signer f = true -> qm_signer m = true) /\ (qf_writable f = true -> qm_writable m = true).
Proof. exact q_entry_privileges. Qed.
Print Assumptions C82_privileges.

(** ... no other accounts or privileges were needed ... *)
Theorem C82_least : forall I nm E q ms data q' g, q_entry I nm E q ms data = Ok q' -> offered AQuoter g -> wf_call g -> data_of g data ->
  q_entry I nm E q (q_least (q_interface g) ms) data = Ok q'.
Proof. exact q_entry_least. Qed.
Print Assumptions C82_least.

(** ... and the names of the accounts that the program derives or has recorded stand for those. *)
Theorem C82_settled : forall I nm E q ms data q' g n a b, q_reachable E q -> q_entry I nm E q ms data = Ok q' -> offered AQuoter g -> wf_call g -> data_of g data ->
  q_passed g ms n a -> q_settled I nm g q ms n b -> a = b.
Proof. exact q_entry_settled. Qed.
Print Assumptions C82_settled.

Theorem C82_names : forall g ms n a a', q_passed g ms n a -> q_passed g ms n a' -> a = a'.
Proof. exact q_passed_once. Qed.
Print Assumptions C82_names.

(** The optional account: the program's own id in its place leaves the quoter without an assistant; every other account becomes the assistant. *)
Theorem C82_assistant : forall I nm E q ms data q' a, q_reachable E q -> q_entry I nm E q ms data = Ok q' -> data_of Dispatch.QSetAssistant data ->
  q_passed Dispatch.QSetAssistant ms "assistant" a ->
  exists i, instance_at q i /\ stored q q' QInst (QDInstance (Instance (in_owner i) (if qaddr_eqb a (QExt (qd_self I)) then QExt ANull else a) (in_fee_recipient i) (in_sol_price i))).
Proof. exact q_entry_assistant. Qed.
Print Assumptions C82_assistant.

(** The request with more accounts and privileges than needed, and as the interface has it. The assistant of the worked deployment replaced, and
    removed in both ways; without a third account the call fails. *)
Definition q_lavish : list qmeta := map (fun m => QMeta (qm_key m) (qm_signer m) true) relay_metas ++ [qSW RCPT].
Definition the_request : gcall := Dispatch.QRequestRelay 1000000 300000000.
Definition assistant_after (l : list qmeta) : option qaddr :=
  match q_entry I0 nm1 E0q (q_at 7) ([qS DEPLOYER; qW QInst] ++ l) (ftag "set_assistant") with
  | Ok q' => match q_accts q' QInst with Some (QDInstance i) => Some (in_assistant i) | _ => None end
  | Err _ => None
  end.
Example C82_case :
  data_of the_request relay_data /\ offered AQuoter the_request /\ wf_call the_request /\
  q_least (q_interface the_request) q_lavish = relay_metas /\
  (let go ms := is_ok (q_entry I0 nm1 E0q (q_at 7) ms relay_data) in go q_lavish = true /\ go relay_metas = true) /\
  q_settled I0 nm1 the_request (q_at 7) relay_metas "registeredNtt" (QNtt (AProg PManager)) /\
  map assistant_after [[qR (QExt RCPT)]; [qR (QExt (AProg (PUser 40)))]; [qR (QExt ANull)]; [qR QInst]; []] =
    [Some (QExt RCPT); Some (QExt ANull); Some (QExt ANull); Some QInst; None].
Proof.
  split. { exists (ftag "request_relay"), []. split; [left; reflexivity|]. unfold relay_data, the_request. cbn [args_of]. rewrite app_nil_r. reflexivity. }
  split; [reflexivity|]. split; [vm_compute; repeat split; discriminate|]. split; [reflexivity|]. split; [vm_compute; split; reflexivity|]. split; [|vm_compute; reflexivity].
  right; right; right; right; right; right. destruct (st_accts (q_world (q_at 7)) ITEM) as [[p d]|] eqn:V; [|vm_compute in V; discriminate V].
  destruct d; try (vm_compute in V; discriminate V). eexists 1000000, 300000000, ITEM, p, _. split; [reflexivity|]. split; [exists 4%nat, (QField "outboxItem" false false), (qR (QExt ITEM)); repeat split|].
  split; [exact V|]. right. left. split; [reflexivity|]. vm_compute in V. injection V as <- _. reflexivity.
Qed.

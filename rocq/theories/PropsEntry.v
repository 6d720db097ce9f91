(** * The entry point: C73, C74. *)
From Coq Require Import String.
From Verif Require Export EntryFacts.
From Verif Require Import Scenario.
Import ListNotations.
Local Open Scope Z_scope.
Local Open Scope list_scope.

(** C73: a call changes nothing but accounts that the caller has passed as writable. *)
Theorem C73_writes : forall nm ok H s p ms data s', entry nm ok H s p ms data = Ok s' -> changes_within ms s s'.
Proof. exact entry_writes. Qed.
Print Assumptions C73_writes.

(** It reads nothing but the accounts that the caller has passed, and the clock: on a state that agrees on those it succeeds as well, with the
    same new contents and the same messages to the bridge. *)
Theorem C73_reads : forall nm ok H s t p ms data s', agree_on ms s t -> entry nm ok H s p ms data = Ok s' ->
  exists t' l, entry nm ok H t p ms data = Ok t' /\ agree_on ms s' t' /\ changes_within ms s s' /\ changes_within ms t t' /\
    st_posted s' = l ++ st_posted s /\ st_posted t' = l ++ st_posted t.
Proof. exact entry_reads. Qed.
Print Assumptions C73_reads.

(** Its outcome depends on the signatures only in that missing ones lead to a refusal. *)
Theorem C73_signers : forall nm ok H s p ms ms' data s', fewer_signers ms ms' -> entry nm ok H s p ms data = Ok s' ->
  entry nm ok H s p ms' data = Ok s' \/ entry nm ok H s p ms' data = Err Constraint.
Proof. exact entry_signers. Qed.
Print Assumptions C73_signers.

(** Whatever accounts and data are passed, what happens is one of the instructions of Exec.v, with the signatures passed ... *)
Theorem C73_step : forall nm ok H s p ms data s', entry nm ok H s p ms data = Ok s' ->
  s' = s \/ exists i sg, callable i /\ (forall a, In a sg <-> given_signer ms a) /\ step H s (Call sg i) = Ok s'.
Proof. exact entry_step. Qed.
Print Assumptions C73_step.

(** ... and each of those that succeeds there can be called, with no signatures but those it has there and a payer's. *)
Theorem C73_complete : forall nm H s sg i s', named nm i -> callable i -> step H s (Call sg i) = Ok s' ->
  exists ok p ms data, entry nm ok H s p ms data = Ok s' /\ (forall a, given_signer ms a -> In a sg \/ a = AKey 0).
Proof. exact entry_complete. Qed.
Print Assumptions C73_complete.

(** The transfer of the worked deployment with its twelve accounts in place: it succeeds, with further accounts behind as well. It fails when
    the item has not signed, when the custody account is not writable, when another account stands in for the custody account, the peer, the session
    authority or the token program, when an account is missing, and when it is sent to the stand-alone transceiver. *)
Definition nm0 (b : bytes) : addr := match b with x09 :: _ => ARaw 9 | _ => ARaw 7 end.
Definition W_ a := Meta (HA a) false true.
Definition R_ a := Meta (HA a) false false.
Definition S_ a := Meta (HA a) true false.
Definition SW_ a := Meta (HA a) true true.
Definition SYS := Meta (HA ANull) false false.
Definition transfer_metas : list meta :=
  [SW_ USER; R_ pda_config; W_ MINT; W_ user_tok; R_ (AProg PToken); SW_ ITEM; W_ pda_outbox_rl; W_ custody; SYS; W_ (pda_inbox_rl 2); R_ (pda_peer 2);
   R_ (pda_session USER (h_args H0 the_args))].
Definition transfer_data : bytes := ftag "transfer_lock" ++ le_enc 8 1000000005 ++ le_enc 2 2 ++ repeat x09 32 ++ [x00].
Definition swap (n : nat) (m : meta) (l : list meta) : list meta := firstn n l ++ m :: skipn (S n) l.
Example C73_case :
  let s := at_ Locking 6 in
  let go p ms := is_ok (entry nm0 true H0 s p ms transfer_data) in
  (match entry nm0 true H0 s AManager transfer_metas transfer_data with Ok s' => option_map tk_amount (st_toks s' custody) | Err _ => None end) = Some 1000000000 /\
  map (go AManager) [transfer_metas; transfer_metas ++ [R_ RCPT]; swap 5 (W_ ITEM) transfer_metas; swap 7 (R_ custody) transfer_metas; swap 7 (W_ user_tok) transfer_metas;
    swap 10 (R_ (pda_peer 3)) transfer_metas; swap 11 (R_ USER) transfer_metas; swap 4 (R_ (AProg PToken22)) transfer_metas; removelast transfer_metas]
  = [true; true; false; false; false; false; false; false; false] /\
  go ATransceiver transfer_metas = false.
Proof. vm_compute. repeat split. Qed.

(** C74: two calls of which neither may change an account of the other can be executed in either order, to the same effect. *)
Theorem C74_commute : forall nm ok ok' H s p p' ms ms' data data' s1 s2, independent ms ms' ->
  entry nm ok H s p ms data = Ok s1 -> entry nm ok' H s1 p' ms' data' = Ok s2 ->
  exists t1 t2, entry nm ok' H s p' ms' data' = Ok t1 /\ entry nm ok H t1 p ms data = Ok t2 /\ same s2 t2.
Proof. exact independent_commute. Qed.
Print Assumptions C74_commute.

(** Receiving a message and setting the outbound limit are independent; the latter and a transfer are not, and there the order matters. *)
Definition receive_metas : list meta := [SW_ USER; R_ pda_config; R_ (pda_xpeer PManager 2); R_ VAA; W_ (pda_vtm PManager 2 (ARaw 20)); SYS].
Definition limit_metas : list meta := [R_ pda_config; S_ DEPLOYER; W_ pda_outbox_rl].
Definition limit_data : bytes := ftag "set_outbound_limit" ++ le_enc 8 0.
Lemma receive_limit_independent : independent receive_metas limit_metas.
Proof.
  split; intros h (m & I & K & Wr) (m' & I' & K'); cbn in I, I'; subst h;
  repeat match type of I with _ \/ _ => destruct I as [<-|I] end; try contradiction; try discriminate Wr;
  repeat match type of I' with _ \/ _ => destruct I' as [<-|I'] end; try contradiction; cbn in K'; discriminate K'.
Qed.
Example C74_case :
  let e s ms d := entry nm0 true H0 s AManager ms d in
  let twice s ms d ms' d' := is_ok (let? s1 := e s ms d in e s1 ms' d') in
  independent receive_metas limit_metas /\
  twice (at_ Locking 9) receive_metas (ftag "receive_wormhole_message") limit_metas limit_data = true /\
  twice (at_ Locking 9) limit_metas limit_data receive_metas (ftag "receive_wormhole_message") = true /\
  twice (at_ Locking 6) transfer_metas transfer_data limit_metas limit_data = true /\
  twice (at_ Locking 6) limit_metas limit_data transfer_metas transfer_data = false.
Proof. split; [exact receive_limit_independent|]. vm_compute. repeat split. Qed.

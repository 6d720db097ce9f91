(** * The published interface: C75. *)
From Coq Require Import String.
From Verif Require Export IdlFacts.
From Verif Require Import Scenario PropsEntry.
Import ListNotations.
Local Open Scope Z_scope.
Local Open Scope list_scope.
Local Strategy 1000 [sha256].

(** C75: a call that succeeds does what the published interface says of its data, with the accounts passed under the names given there. *)
Theorem C75_meaning : forall nm ok H s p ms data s', entry nm ok H s p ms data = Ok s' ->
  exists g, offered p g /\ wf_call g /\ data_of g data /\
    (constant g /\ s' = s \/ exists i sg, asked nm ok p g ms i /\ (forall a, In a sg <-> given_signer ms a) /\ step H s (Call sg i) = Ok s').
Proof. exact entry_meaning. Qed.
Print Assumptions C75_meaning.

(** All its accounts have been passed, with the privileges given there ... *)
Theorem C75_privileges : forall nm ok H s p ms data s' g k f, entry nm ok H s p ms data = Ok s' -> offered p g -> wf_call g -> data_of g data ->
  nth_error (interface p g) k = Some f ->
  exists m, nth_error ms k = Some m /\ (fl_signer f = true -> me_signer m = true) /\ (fl_writable f = true -> me_writable m = true).
Proof. exact entry_privileges. Qed.
Print Assumptions C75_privileges.

(** ... no other accounts or privileges were needed ... *)
Theorem C75_least : forall nm ok H s p ms data s' g, entry nm ok H s p ms data = Ok s' -> offered p g -> wf_call g -> data_of g data ->
  entry nm ok H s p (least (interface p g) ms) data = Ok s'.
Proof. exact entry_least. Qed.
Print Assumptions C75_least.

(** ... and the names of the programs' own addresses stand for those. *)
Theorem C75_fixed : forall nm ok H s p q ms data s' g n h h', entry nm ok H s p ms data = Ok s' -> offered p g -> wf_call g -> data_of g data -> prog_of p = Some q ->
  passed p g ms n h -> In (n, h') (fixed q) -> h = h'.
Proof. exact entry_fixed. Qed.
Print Assumptions C75_fixed.

(** The session authority of a transfer is that of the owner of the tokens and of the transfer's arguments. *)
Theorem C75_session : forall nm ok H s p ms data s' g a ch to q f h,
  entry nm ok H s p ms data = Ok s' -> g = GTransferLock a ch to q \/ g = GTransferBurn a ch to q -> offered p g -> wf_call g -> data_of g data ->
  passed p g ms "common.from" (HA f) -> passed p g ms "sessionAuthority" h ->
  exists t, st_toks s f = Some t /\ h = HA (pda_session (tk_owner t) (h_args H (TransferArgs a ch (nm to) q))).
Proof. exact entry_session. Qed.
Print Assumptions C75_session.

(** A name stands for one account. *)
Theorem C75_names : forall p g ms n h h', passed p g ms n h -> passed p g ms n h' -> h = h'.
Proof. exact passed_once. Qed.
Print Assumptions C75_names.

(** The worked transfer, with more accounts and privileges than needed, and as the interface has it. The pause of the worked deployment, and its
    end: after data with flag one it is paused, after data with flag zero it is not. *)
Definition lavish : list meta := map (fun m => Meta (me_key m) (me_signer m) true) transfer_metas ++ [SW_ RCPT].
Definition the_call : gcall := GTransferLock 1000000005 2 (repeat x09 32) false.
Definition pause_metas : list meta := [S_ DEPLOYER; W_ pda_config].
Definition pause_data (b : bool) : bytes := ftag "set_paused" ++ flag b.
Definition paused_in (r : result state) : option bool :=
  match r with Ok s => match st_accts s pda_config with Some (Acct _ (DConfig c)) => Some (cf_paused c) | _ => None end | Err _ => None end.
Example C75_case :
  data_of the_call transfer_data /\ offered AManager the_call /\ wf_call the_call /\
  least (interface AManager the_call) lavish = transfer_metas /\
  (let go ms := is_ok (entry nm0 true H0 (at_ Locking 6) AManager ms transfer_data) in go lavish = true /\ go transfer_metas = true) /\
  (let s := at_ Locking 6 in let go b s := entry nm0 true H0 s AManager pause_metas (pause_data b) in
   paused_in (go true s) = Some true /\ paused_in (go false s) = Some false /\ paused_in (let? s' := go true s in go false s') = Some false).
Proof.
  split. { exists (ftag "transfer_lock"), []. split; [left; reflexivity|]. unfold transfer_data, the_call. cbn [args_of flag]. rewrite app_nil_r. reflexivity. }
  vm_compute. repeat split; discriminate.
Qed.

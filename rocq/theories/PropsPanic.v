(** * Where the programs panic: C86. *)
From Verif Require Export PanicFacts PropsSupply PropsQuoter.
From Verif Require Import Governance Hook.
Import ListNotations.
Local Open Scope Z_scope.

(** Overflowing arithmetic, unwrapped options and assertions of the instructions: in every state of every deployment on a ledger accounted for, only two can
    be met, the unwrapped mint authority of [initialize], and a clock behind a rate limiter's last use or within a day of the end of time. (An account of
    the wrong address or contents is refused before: the two panics there, luts.rs:123 and messages.rs:47, 53, are failures of Entry.v and Accounts.v.) *)
Theorem C86_manager : forall H s0 tr s c, initial s0 -> accounted s0 -> run H s0 tr s -> step H s c = Err Panic -> no_mint_authority s c \/ out_of_time s (ins c).
Proof.
  intros H s0 tr s c I A R. apply manager_panics; [exists s0, tr; auto|]. eapply acc_run; [apply initial_reachable, I|exact R|exact A].
Qed.
Print Assumptions C86_manager.

(** The first is exact: initialising in burning mode for a mint without authority panics, where a mint with another authority is refused with an error. *)
Theorem C86_authority : forall H s c, forallb can_sign (signers c) = true -> typed (ins c) = true -> no_mint_authority s c -> step H s c = Err Panic.
Proof. exact authority_panics. Qed.
Print Assumptions C86_authority.

(** A clock that has never gone back, and is a day or more from its end, leaves only the first. *)
Theorem C86_forward : forall H s0 tr s c, initial s0 -> accounted s0 -> run H s0 tr s -> 0 <= st_now s0 -> forward tr -> st_now s + day <= i64_max ->
  step H s c = Err Panic -> no_mint_authority s c.
Proof. exact forward_panics. Qed.
Print Assumptions C86_forward.

(** The quoter: the two sums of the fee, and lamports that no 64 bits hold. *)
Theorem C86_quoter : forall E q c, q_reachable E q -> q_step E q c = Err Panic ->
  sum_overflows q c \/ too_rich q c \/ exists i, q_ins c = QWorld i /\ step (qe_hashes E) (q_world q) (Call (q_signers c) i) = Err Panic.
Proof. exact quoter_panics. Qed.
Print Assumptions C86_quoter.

(** The governance program's assertion never fails: only the program it calls panics. *)
Theorem C86_governance : forall W (E : genv W) n st ctx data, g_exec E n st ctx data = Err Panic -> exists w ix, ge_call E w ix = Err Panic /\ ix_program ix <> GOV_ID.
Proof. intros W E n st ctx data. apply governance_panics. Qed.
Print Assumptions C86_governance.

(** The counter of the tests' hook overflows only after 2^64 - 1 calls. *)
Theorem C86_hook : forall H mints s0 k s w src mnt dst, reachable H s0 -> d_run H mints s0 k s w -> dummy_transfer_hook s w src mnt dst = Err Panic -> 2 ^ 64 <= Z.of_nat (length k) + 1.
Proof. exact dummy_never. Qed.
Print Assumptions C86_hook.

(** ** Each of them happens *)
Definition err_of {A} (r : result A) : option error := match r with Ok _ => None | Err e => Some e end.
(** The issuer gives up the right to mint, the deployer initialises in burning mode; while the issuer has it, the error is another. *)
Definition s_fixed_supply : state := apply_tx H0 (s_start Locking) [Call [ISSUER] (ESetMintAuth PToken MINT ISSUER None)].
Definition burning_init : call := Call [DEPLOYER] (IInitialize DEPLOYER MINT PToken 1 3000000000 Burning).
Example C86_authority_case : no_mint_authority s_fixed_supply burning_init /\ err_of (step H0 s_fixed_supply burning_init) = Some Panic /\
  err_of (step H0 (s_start Locking) burning_init) = Some InvalidMintAuthority.
Proof.
  split; [|vm_compute; auto]. exists DEPLOYER, MINT, PToken, 1, 3000000000, (Mint PToken 9 5000000000 None 0 0 0). vm_compute. repeat split; auto.
Qed.
(** After the first transfer, at time 1000, the clock is set back by a second, not moved, or set forward to a day before its end or its very end, where
    only a transfer beyond the limit needs a later time. *)
Definition again (x : Z) : call := Call [AKey 61] (ITransferLock (TransferAccts pda_config user_tok PToken (AKey 61) pda_outbox_rl true) (TransferArgs x 2 (ARaw 9) true)).
Definition with_clock (t : Z) (l : list call) : state := apply_tx H0 (at_ Locking 7) (Call [] (EClock t) :: l).
Definition approve_again (x : Z) : call := Call [USER] (EApprove PToken user_tok USER (pda_session USER (h_args H0 (TransferArgs x 2 (ARaw 9) true))) x).
Example C86_time_case :
  map (fun t => err_of (step H0 (with_clock t [approve_again 1000000000]) (again 1000000000))) [999; 1000; i64_max - day; i64_max] = [Some Panic; None; None; None] /\
  map (fun t => err_of (step H0 (with_clock t [approve_again 4000000000]) (again 4000000000))) [999; 1000; i64_max - day; i64_max] = [Some Panic; None; None; Some Panic] /\
  out_of_time (with_clock 999 [approve_again 1000000000]) (ins (again 1000000000)).
Proof.
  split; [vm_compute; reflexivity|]. split; [vm_compute; reflexivity|]. exists pda_outbox_rl, (RL 3000000000 2000000000 1000).
  split; [vm_compute; auto|]. split; [left; vm_compute; reflexivity|]. left. vm_compute. reflexivity.
Qed.
(** The worked history's clock goes forward. *)
Fixpoint trace (s : state) (l : list call) (acc : list ev) : list ev :=
  match l with [] => acc | c :: l => match step H0 s c with Ok s' => trace s' l (Ev s c s' :: acc) | Err _ => acc end end.
Lemma trace_run s0 l : forall s acc s', run H0 s0 acc s -> exec_tx H0 s l = Ok s' -> run H0 s0 (trace s l acc) s'.
Proof.
  induction l as [|c l IH]; cbn [exec_tx trace]; intros s acc s' R E; [apply Ok_inj in E; subst; exact R|].
  apply bind_ok in E as (s1 & E1 & E). rewrite E1. apply IH; [econstructor; eassumption|exact E].
Qed.
Example C86_forward_case : let tr := trace (s_start Locking) (calls Locking) [] in
  run H0 (s_start Locking) tr (at_ Locking 13) /\ forward tr /\ length tr = 13%nat /\ st_now (at_ Locking 13) + day <= i64_max.
Proof.
  cbv zeta. split; [|split; [vm_compute; repeat split; discriminate|split; [vm_compute; reflexivity|vm_compute; discriminate]]].
  apply (trace_run _ _ (s_start Locking) []); [constructor|]. unfold at_, apply_tx. change (firstn 13 (calls Locking)) with (calls Locking).
  pose proof (calls_succeed Locking) as K. destruct (exec_tx H0 (s_start Locking) (calls Locking)); [reflexivity|discriminate K].
Qed.
(** A destination whose dropoff the owner leaves unbounded: any user's request can overflow the sum; a dropoff smaller by one is an error instead of a panic. *)
Definition q_wide : qstate := q_apply E0q (q_at 7) [QCall [ASSIST] (QUpdateChainParams QInst ASSIST (QChain 2) u64_max 100000)].
Definition ask (d : Z) : qcall := QCall [USER] (QRequestRelay USER QInst ITEM d u64_max).
Example C86_quoter_case : map (fun d => err_of (q_step E0q q_wide (ask d))) [1000000; u64_max - 10000000; u64_max - 9999999] = [None; Some ScalingOverflow; Some Panic] /\
  sum_overflows q_wide (ask (u64_max - 9999999)).
Proof.
  split; [vm_compute; reflexivity|].
  exists USER, QInst, ITEM, (u64_max - 9999999), u64_max. do 5 eexists. split; [reflexivity|]. split; [vm_compute; reflexivity|]. split; [vm_compute; reflexivity|].
  split; [vm_compute; reflexivity|]. split; [vm_compute; reflexivity|]. left. vm_compute. discriminate.
Qed.

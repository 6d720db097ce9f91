(** * Governance: C53, C54, C60, C61. *)
From Coq Require Import String.
From Verif Require Export GovFacts.
From Verif Require Import Hex SpecWire.
Import ListNotations.
Import String.StringSyntax.
Local Open Scope Z_scope.
Local Open Scope list_scope.

(** ** C53 *)
Theorem C53_round_trip : round_trips read_gov write_gov wf_gov.
Proof. intros m b rest Hw H. apply write_gov_Some in H as [Hs ->]. now apply read_gov_app. Qed.
Print Assumptions C53_round_trip.

(** Accepted strings are exactly the documented packets, followed by anything; each has one reading. *)
Theorem C53_accepted : forall l m rest, read_gov l = Some (m, rest) <->
  l = gov_packet m ++ rest /\ wf_gov m /\ Z.of_nat (List.length (g_accounts m)) <= 65535 /\ Z.of_nat (List.length (g_data m)) <= 65535.
Proof.
  intros l m rest. split; [intros H; apply read_gov_inv in H as (-> & Hw & Hs); auto|]. intros (-> & Hw & Hs). now apply read_gov_app.
Qed.
Print Assumptions C53_accepted.

Theorem C53_fails : forall m, write_gov m = None <-> 65535 < Z.of_nat (List.length (g_accounts m)) \/ 65535 < Z.of_nat (List.length (g_data m)).
Proof. exact write_gov_None. Qed.
Print Assumptions C53_fails.

Theorem C53_encoding : forall m b, write_gov m = Some b -> b = gov_packet m.
Proof. intros m b H. apply write_gov_Some in H. apply H. Qed.
Print Assumptions C53_encoding.

(** The guardian's test vector (governance.rs:283-331); changed module, action and chain; a flag byte of 2. *)
Definition guardian : bytes := hex "000000000000000047656e6572616c507572706f7365476f7665726e616e63650200010e027fbc6b1e61365d4b0680a3179f791b15796f93e24e9b441e3fa04ccda4a000000000000000010000000000000000000000000000000000000000000000000002000000000000000200000000000000000000000000000000000000000000000001010000000000000003000000000000000000000000000000000000000000000000000100050102030405".
Definition unique (n : Z) : bytes := be_enc 8 n ++ be_enc 24 0.
Definition guardian_msg : gov_msg := Gov GOV_ID (unique 1) [Acc (unique 2) true true; Acc (unique 3) false true] [x01; x02; x03; x04; x05]%byte.
Definition poke (i : nat) (b : byte) (l : bytes) : bytes := firstn i l ++ [b] ++ skipn (S i) l.
Definition parses (l : bytes) : bool := match read_gov l with Some _ => true | None => false end.
Example C53_case : read_gov guardian = Some (guardian_msg, []) /\ write_gov guardian_msg = Some guardian /\ wf_gov guardian_msg /\
  map parses [poke 31 x66 guardian; poke 32 x00 guardian; poke 32 x01 guardian; poke 32 x03 guardian; poke 34 x02 guardian; poke 133 x02 guardian; firstn 170 guardian; poke 133 x00 guardian]
  = [false; false; false; false; false; false; false; true].
Proof. split; [vm_compute; reflexivity|]. split; [vm_compute; reflexivity|]. split; [split; [reflexivity|]; split; [reflexivity|repeat constructor]|vm_compute; reflexivity]. Qed.

(** ** C54 *)
(** In every history: each call made with the governance signature was authorised by a posted message and is that message's call;
    no sequence number occurs twice. *)
Theorem C54_authorised : forall W (E : genv W) st, g_reachable E st -> Forall (authorised E) (gs_log st).
Proof. intros W E st Hr. apply (g_reachable_inv _ _ Hr). Qed.
Print Assumptions C54_authorised.

Theorem C54_once : forall W (E : genv W) st, g_reachable E st -> NoDup (map (fun e => v_seq (gv_vaa e)) (gs_log st)).
Proof. intros W E st Hr. apply (g_reachable_inv _ _ Hr). Qed.
Print Assumptions C54_once.

(** What a submission does to the world is the listed calls and nothing else; it makes at least one. *)
Theorem C54_effect : forall W (E : genv W) n st ctx data st', g_reachable E st -> g_exec E n st ctx data = Ok st' ->
  exists new, gs_log st' = new ++ gs_log st /\ effects E (gs_world st) new (gs_world st') /\ new <> [] /\ (forall a, gs_replay st a = true -> gs_replay st' a = true).
Proof. intros W E n st ctx data st' Hr H. eapply g_exec_keeps; [apply g_reachable_inv; exact Hr|exact H]. Qed.
Print Assumptions C54_effect.

(** A message whose replay account is unused is executed, whoever submits it. *)
Theorem C54_live : forall W (E : genv W) st payer gov va prog rep sys rest v m r w,
  let ctx := payer :: gov :: va :: prog :: rep :: sys :: rest in
  let pda := ge_addr E SGovernance in
  let ix := Gix (g_program m) (map (subst_acc pda (ac_key payer)) (g_accounts m)) (g_data m) in
  ac_signer payer = true -> ac_writable payer = true -> ac_key gov = pda -> ac_writable gov = true ->
  ge_posted E (gs_world st) (ac_key va) = Some v -> v_payload v = gov_packet m ++ r -> wf_gov m -> small m -> g_gov m = GOV_ID ->
  v_chain v = 1 -> v_emitter v = GOVERNANCE_EMITTER -> ge_executable E (gs_world st) (ac_key prog) = true ->
  ac_key rep = ge_addr E (SReplay 1 GOVERNANCE_EMITTER (v_seq v)) -> ac_writable rep = true ->
  gs_replay st (ge_addr E (SReplay 1 GOVERNANCE_EMITTER (v_seq v))) = false -> ac_key sys = repeat x00 32 ->
  may_invoke ctx pda ix = true -> g_program m <> GOV_ID -> ge_call E (gs_world st) ix = Ok w ->
  forall data, firstn 8 data = GOV_TAG -> exists st', g_exec E DEPTH st ctx data = Ok st' /\ gs_world st' = w.
Proof. exact @g_live. Qed.
Print Assumptions C54_live.

(** A small world: posted messages by address, and the calls other programs received. *)
Definition W0 : Type := (list (bytes * vaa) * list gix)%type.
Fixpoint lookup (l : list (bytes * vaa)) (a : bytes) : option vaa :=
  match l with [] => None | (k, v) :: l => if bytes_eqb k a then Some v else lookup l a end.
Definition Eg : genv W0 := GEnv W0 (fun p => sha256 (List.concat (seeds p))) (fun w a => lookup (fst w) a) (fun _ _ => true)
  (fun w ix => if bytes_eqb (ix_program ix) (unique 99) then Err Constraint else Ok (fst w, ix :: snd w)).
Definition PDA : bytes := ge_addr Eg SGovernance.
Definition gmsg (p : bytes) (accs : list acc) (d : bytes) : gov_msg := Gov GOV_ID p accs d.
Definition gov_vaa (seq : Z) (m : gov_msg) : vaa := Vaa 1 GOVERNANCE_EMITTER seq (gov_packet m).
Definition target : bytes := unique 7.
Definition admin_call : gov_msg := gmsg target [Acc OWNER true false; Acc PAYER true true; Acc (unique 8) false true] [x2a].
Definition replay_of (seq : Z) : bytes := ge_addr Eg (SReplay 1 GOVERNANCE_EMITTER seq).
Definition ctx (at_ : bytes) (seq : Z) : list acc :=
  [Acc (unique 1) true true; Acc PDA false true; Acc at_ false false; Acc target false false; Acc (replay_of seq) false true; Acc (be_enc 32 0) false false; Acc (unique 8) false true].
(** Message 2 calls this program with message 1; message 3 calls this program with itself. *)
Definition inner (at_ : bytes) (seq : Z) : list acc :=
  [Acc PAYER true true; Acc PDA false true; Acc at_ false false; Acc target false false; Acc (replay_of seq) false true; Acc (be_enc 32 0) false false; Acc (unique 8) false true].
Definition nested : gov_msg := gmsg GOV_ID (inner (unique 101) 1) GOV_TAG.
Definition selfish : gov_msg := gmsg GOV_ID (inner (unique 103) 3) GOV_TAG.
Definition posted0 : list (bytes * vaa) := [
  (unique 101, gov_vaa 1 admin_call); (unique 102, gov_vaa 2 nested); (unique 103, gov_vaa 3 selfish);
  (unique 104, Vaa 2 GOVERNANCE_EMITTER 4 (gov_packet admin_call)); (unique 105, Vaa 1 (be_enc 32 5) 5 (gov_packet admin_call));
  (unique 106, gov_vaa 6 (Gov (unique 6) target [] [])); (unique 107, gov_vaa 7 (gmsg (unique 99) [] []));
  (unique 108, gov_vaa 8 (gmsg target [Acc (unique 8) true false] []));
  (unique 109, gov_vaa 9 (gmsg GOV_ID (Acc PAYER true false :: skipn 1 (inner (unique 101) 1) ++ [Acc PAYER false true]) GOV_TAG));
  (unique 110, gov_vaa 10 (gmsg GOV_ID (Acc PAYER true false :: skipn 1 (inner (unique 101) 1)) GOV_TAG))].
Definition g0 : gstate W0 := GState (posted0, []) (fun _ => false) [].
Definition submit (st : gstate W0) (at_ : bytes) (seq : Z) (more : list acc) : result (gstate W0) := g_exec Eg DEPTH st (ctx at_ seq ++ more) GOV_TAG.
Definition self_more : list acc := [Acc GOV_ID false false; Acc (unique 101) false false; Acc (replay_of 1) false true].
Definition calls_made (r : result (gstate W0)) : option (list gix * list Z) := match r with Ok st => Some (snd (gs_world st), seqs (gs_log st)) | Err _ => None end.
Definition expected : gix := Gix target [Acc PDA true false; Acc (unique 1) true true; Acc (unique 8) false true] [x2a].
(** Message 1 once; again; messages from elsewhere or to another program; a refused call; a signature nobody gave; message 2, which
    runs message 1 inside; then message 1 again; message 3. *)
Example C54_case :
  let one := submit g0 (unique 101) 1 [] in
  let two := submit g0 (unique 102) 2 self_more in
  let again r := match r with Ok st => calls_made (submit st (unique 101) 1 []) | Err _ => None end in
  calls_made one = Some ([expected], [1]) /\ again one = None /\
  calls_made two = Some ([expected], [1; 2]) /\ again two = None /\
  map (fun k => calls_made (submit g0 (unique (100 + k)) k (Acc (unique 99) false false :: self_more))) [3; 4; 5; 6; 7; 8] = [None; None; None; None; None; None].
Proof. cbv zeta. repeat match goal with |- _ /\ _ => split end; vm_compute; reflexivity. Qed.
Lemma submit_ok_reachable : exists st, submit g0 (unique 102) 2 self_more = Ok st /\ g_reachable Eg st /\ List.length (gs_log st) = 2%nat.
Proof.
  destruct (submit g0 (unique 102) 2 self_more) as [st|e] eqn:S; [|vm_compute in S; discriminate]. exists st. split; [reflexivity|]. split.
  - exists g0. split; [split; reflexivity|]. econstructor; [constructor|]. eapply g_submit; [|exact S]. vm_compute. reflexivity.
  - assert (K : match submit g0 (unique 102) 2 self_more with Ok st => List.length (gs_log st) | Err _ => O end = 2%nat) by (vm_compute; reflexivity). rewrite S in K. exact K.
Qed.

(** ** C60 *)
(** [written_size] leaves out the 32 bytes of the governance contract's address, so the statement is false. *)
Theorem C60_refuted : exists m b, wf_gov m /\ write_gov m = Some b /\ gov_wsize m <> Z.of_nat (List.length b).
Proof. exists guardian_msg, guardian. split; [apply C53_case|]. split; [apply C53_case|]. vm_compute. discriminate. Qed.
Print Assumptions C60_refuted.
Theorem C60_partial : forall m b, wf_gov m -> write_gov m = Some b -> gov_wsize m = Z.of_nat (List.length b) - 32.
Proof. exact gov_written. Qed.
Print Assumptions C60_partial.
Example C60_case : gov_wsize guardian_msg = 144 /\ List.length guardian = 176%nat.
Proof. split; vm_compute; reflexivity. Qed.

(** ** C61 *)
(** Marks on the accounts of an executed call: signer only for the governance address and accounts that signed the submission (or the
    governed call around it); writable only for accounts submitted as writable. *)
Theorem C61_privileges : forall W (E : genv W) st e, g_reachable E st -> In e (gs_log st) ->
  (forall a, In a (ix_accounts (gv_ix e)) -> ac_signer a = true ->
    ac_key a = ge_addr E SGovernance \/ exists c, In c (gv_ctx e) /\ ac_key c = ac_key a /\ ac_signer c = true) /\
  (forall a, In a (ix_accounts (gv_ix e)) -> ac_writable a = true -> exists c, In c (gv_ctx e) /\ ac_key c = ac_key a /\ ac_writable c = true).
Proof. intros W E st e Hr Hin. pose proof (gi_forge _ _ (g_reachable_inv _ _ Hr)) as F. rewrite Forall_forall in F. exact (F _ Hin). Qed.
Print Assumptions C61_privileges.
Example C61_case : map (fun k => calls_made (submit g0 (unique (100 + k)) k [])) [8] = [None] /\
  calls_made (g_exec Eg DEPTH g0 (ctx (unique 108) 8 ++ [Acc (unique 8) true false]) GOV_TAG) = Some ([Gix target [Acc (unique 8) true false] []], [8]).
Proof. split; vm_compute; reflexivity. Qed.

(** ** C70 *)
(** A submission at any call depth: it succeeds exactly when it is [submittable] and the governed call succeeds, and then it does that
    call, marks the message as used and nothing else. A message addressed to this program itself runs it again, one level deeper. *)
Theorem C70_submit : forall W (E : genv W) n st ctx data,
  (forall st', g_exec E (S n) st ctx data = Ok st' -> exists payer v m ix, submittable E st ctx data payer v m ix /\
     (g_program m = GOV_ID /\ (exists l, handed (ix_accounts ix) l /\ g_exec E n (entered E st ctx v ix) l (ix_data ix) = Ok st') \/
      g_program m <> GOV_ID /\ ge_call E (gs_world st) ix = Ok (gs_world st') /\ gs_log st' = Gev (gs_world st) v ctx ix :: gs_log st /\
        forall b, gs_replay st' b = true <-> b = replay_addr E v \/ gs_replay st b = true)) /\
  (forall payer v m ix l, submittable E st ctx data payer v m ix -> g_program m = GOV_ID -> handed (ix_accounts ix) l ->
     g_exec E (S n) st ctx data = g_exec E n (entered E st ctx v ix) l (ix_data ix)) /\
  (forall payer v m ix w, submittable E st ctx data payer v m ix -> g_program m <> GOV_ID -> ge_call E (gs_world st) ix = Ok w ->
     exists st', g_exec E (S n) st ctx data = Ok st').
Proof. exact @g_submit_exact. Qed.
Print Assumptions C70_submit.

(** One spoiled condition each: wrong tag, payer not signing, governance account or replay account not writable or another one, system
    program missing, accounts missing; trailing bytes after the tag do not matter. Messages 9 and 10 run message 1 inside, the payer listed once for its
    signature and once as writable, and only for its signature. *)
Definition spoil (i : nat) (a : acc) (l : list acc) : list acc := firstn i l ++ [a] ++ skipn (S i) l.
Example C70_case : let c := ctx (unique 101) 1 in let go c d := calls_made (g_exec Eg DEPTH g0 c d) in
  go c GOV_TAG = Some ([expected], [1]) /\ go c (GOV_TAG ++ [x01]) = Some ([expected], [1]) /\
  map (fun c => go c GOV_TAG) [spoil 0 (Acc (unique 1) false true) c; spoil 1 (Acc PDA false false) c; spoil 1 (Acc (unique 1) false true) c;
    spoil 4 (Acc (replay_of 1) false false) c; spoil 4 (Acc (replay_of 2) false true) c; spoil 5 (Acc (unique 1) false false) c; firstn 5 c; firstn 6 c;
    spoil 3 (Acc (unique 9) false false) c; spoil 6 (Acc (unique 8) false false) c] = repeat None 10 /\
  go c (poke 0 x00 GOV_TAG) = None /\
  map (fun k => calls_made (submit g0 (unique (100 + k)) k self_more)) [9; 10] = [Some ([expected], [1; 9]); None].
Proof. cbv zeta. repeat match goal with |- _ /\ _ => split end; vm_compute; reflexivity. Qed.

(** ** C84 *)
(** Actions are read from exactly the three documented bytes. *)
Theorem C84_read : forall b rest a, read_action (b :: rest) = Some (a, rest) <-> b = match a with Undefined => x00 | EvmCall => x01 | SolanaCall => x02 end.
Proof. exact action_read. Qed.
Print Assumptions C84_read.
(** False of [Undefined]: nothing is written, so what follows is read as the action. *)
Theorem C84_refuted : exists a rest b, write_action a = Some b /\ read_action (b ++ rest) <> Some (a, rest).
Proof. exists Undefined, [x02], []. split; [reflexivity|]. discriminate. Qed.
Print Assumptions C84_refuted.
Theorem C84_partial : forall a, a <> Undefined -> exists b, write_action a = Some [b] /\ forall rest, read_action (b :: rest) = Some (a, rest).
Proof. exact action_written. Qed.
Print Assumptions C84_partial.
Example C84_case : write_action SolanaCall = Some [x02] /\ read_action [x02; x00; x01] = Some (SolanaCall, [x00; x01]) /\ read_action [x03] = None /\ read_action [] = None.
Proof. repeat split; reflexivity. Qed.

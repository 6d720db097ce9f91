(** * Governance messages to the manager and the stand-alone transceiver: C83. *)
From Coq Require Import String.
From Verif Require Export GovCallFacts.
From Verif Require Import Scenario PropsDerive PropsGoverned.
Import ListNotations.
Local Open Scope Z_scope.
Local Open Scope list_scope.

(** What a successful submission does. The last call made is that of a message posted by governance, not to the governance program itself. If it is to
    the manager or the transceiver, then its data are the bytes of one of the program's functions; its accounts, by the names of the published
    interface, and these data make up an instruction; the instruction is executed with the signatures the message marks, no others; nothing is changed
    but accounts the message marks as writable. *)
Theorem C83_meaning : forall N H ok others address posted executable G n st ctx data st',
  let E := world_env N H ok others address posted executable in
  well_named N E G -> g_exec E n st ctx data = Ok st' ->
  exists e log payer m, gs_log st' = e :: log /\ says E e payer m /\ g_program m <> GOV_ID /\
    (forall p, p = AManager \/ p = ATransceiver -> g_program m = gn_id N p ->
      exists ms g, listed N (ge_addr E SGovernance) payer m ms /\ offered p g /\ wf_call g /\ data_of g (g_data m) /\ changes_within ms (gs_world st) (gs_world st') /\
        (constant g /\ gs_world st' = gs_world st \/
         exists b i sg, asked (gn_value N) b p g ms i /\
           (forall a, In a sg <-> exists x, In x (g_accounts m) /\ ac_signer x = true /\ gn_account N (key_for (ge_addr E SGovernance) payer (ac_key x)) = HA a) /\
           step H (gs_world st) (Call sg i) = Ok (gs_world st'))).
Proof. intros *. apply message_meaning. Qed.
Print Assumptions C83_meaning.

(** The assumption of C71 on what called programs do holds of the two programs: without the mark in the message no instruction has governance's
    signature. It remains an assumption on the others. *)
Theorem C83_linked : forall N H ok others address posted executable G,
  let E := world_env N H ok others address posted executable in
  well_named N E G ->
  (forall w ix w', others w ix = Ok w' -> exists tr, run H w tr w' /\ (forall e, In e tr -> In G (signers (e_call e)) -> asks E ix)) -> linked H E G.
Proof. intros *. apply world_linked. Qed.
Print Assumptions C83_linked.

(** If a submission of a message to one of the two programs changes a setting of a deployment that belongs to governance, then the message's data are those
    of an administrative function, the governance address is passed as the function's owner, and the message marks it as a signer. *)
Theorem C83_settings : forall N H ok others address posted executable G st ctx data st' a n,
  let E := world_env N H ok others address posted executable in
  well_named N E G -> reachable H (gs_world st) -> governed G (gs_world st) -> g_exec E n st ctx data = Ok st' ->
  settings (st_accts (gs_world st') a) <> settings (st_accts (gs_world st) a) ->
  exists e log payer m, gs_log st' = e :: log /\ says E e payer m /\
    (forall p, p = AManager \/ p = ATransceiver -> g_program m = gn_id N p ->
      exists ms g nme, listed N (ge_addr E SGovernance) payer m ms /\ offered p g /\ wf_call g /\ data_of g (g_data m) /\ owner_name g = Some nme /\ passed p g ms nme (HA G) /\
        exists x, In x (g_accounts m) /\ ac_signer x = true /\ key_for (ge_addr E SGovernance) payer (ac_key x) = ge_addr E SGovernance).
Proof. intros *. apply settings_message. Qed.
Print Assumptions C83_settings.

(** Governance can do whatever an owner can: for every administrative instruction that succeeds with the governance address's signature alone there is a
    message, with the owner and the payer as its only signers, whose submission has the same effect, whoever submits it and pays. *)
Theorem C83_able : forall N H ok others address posted executable G st i w' hb,
  let E := world_env N H ok others address posted executable in
  well_named N E G -> can_sign G = true -> writable_names N hb (admin_accounts i) -> (forall p, List.length (gn_id N p) = 32%nat) -> named (gn_value N) i ->
  admin_by i = Some G -> step H (gs_world st) (Call [G] i) = Ok w' ->
  exists m, wf_gov m /\ Z.of_nat (List.length (g_accounts m)) <= 65535 /\ Z.of_nat (List.length (g_data m)) <= 65535 /\ g_gov m = GOV_ID /\
    (g_program m = gn_id N AManager \/ g_program m = gn_id N ATransceiver) /\
    (forall a, In a (g_accounts m) -> ac_signer a = true -> ac_key a = str "owner" ++ repeat x00 27 \/ ac_key a = str "payer" ++ repeat x00 27) /\
    forall ctx data payer x v ix, gn_account N payer = HA x -> can_sign x = true -> submittable E st ctx data payer v m ix ->
      exists st', g_exec E DEPTH st ctx data = Ok st' /\ gs_world st' = w'.
Proof. intros *. apply able. Qed.
Print Assumptions C83_able.

(** Such a message, once posted by governance and not used, can be submitted by anyone who signs as payer and passes the accounts it lists. *)
Theorem C83_anyone : forall (E : genv state) st m v at_ payer args r,
  wf_gov m -> Z.of_nat (List.length (g_accounts m)) <= 65535 -> Z.of_nat (List.length (g_data m)) <= 65535 -> g_gov m = GOV_ID ->
  (forall a, In a (g_accounts m) -> ac_signer a = true -> ac_key a = str "owner" ++ repeat x00 27 \/ ac_key a = str "payer" ++ repeat x00 27) ->
  ge_posted E (gs_world st) at_ = Some v -> v_chain v = 1 -> v_emitter v = repeat x00 31 ++ [x04] -> v_payload v = gov_packet m ++ r ->
  ge_executable E (gs_world st) (g_program m) = true -> gs_replay st (replay_addr E v) = false ->
  exists ix, submittable E st (plain_ctx E payer at_ v m) (GOV_TAG ++ args) payer v m ix.
Proof. exact anyone. Qed.
Print Assumptions C83_anyone.

(** ** The worked deployment, handed to governance; accounts and programs by their real bytes *)
Definition bytes_of (a : addr) : bytes := match address real a with Some x => x | None => [] end.
Definition PAYER_ : bytes := two_keys 1.
(** The accounts by their bytes. *)
Definition book : list (bytes * handle) :=
  Eval vm_compute in
  [(PDA_, HA GA); (PAYER_, HA USER); (repeat x00 32, HA ANull); (PropsDerive.loader, HLoader); (word 77, HProgramData)] ++
  map (fun a => (bytes_of a, HA a)) [pda_config; pda_peer 3; pda_inbox_rl 3; pda_xpeer PTransceiver 3; upgrade_lock].
Fixpoint look (l : list (bytes * handle)) (b : bytes) : handle := match l with [] => HOther 1 | (k, h) :: l => if bytes_eqb k b then h else look l b end.
Fixpoint key_in (l : list (bytes * handle)) (h : handle) : bytes := match l with [] => [] | (k, h') :: l => if handle_eqb h' h then k else key_in l h end.
Definition at_book (a : addr) : bytes := key_in book (HA a).
Definition N0 : gnames := GNames (look book) (fun b => ARaw (Z.to_nat (be_dec b)))
  (fun p => match p with AManager => ids PManager | ATransceiver => ids PTransceiver | _ => word 9 end).
(** Messages: set the pause flag; add a peer of the manager; a peer of the transceiver; pause, without the owner's signature; pause, with both accounts
    listed twice and marked once; pause, with the accounts in the wrong order. *)
Definition msg_pause : gov_msg := Gov GOV_ID (ids PManager) [Acc OWNER true false; Acc (at_book pda_config) false true] (ftag "set_paused" ++ [x01]).
Definition msg_peer : gov_msg := Gov GOV_ID (ids PManager)
  [Acc PAYER true true; Acc OWNER true false; Acc (at_book pda_config) false false; Acc (at_book (pda_peer 3)) false true; Acc (at_book (pda_inbox_rl 3)) false true;
   Acc (repeat x00 32) false false] (ftag "set_peer" ++ le_enc 2 3 ++ word 5 ++ le_enc 8 1000 ++ [x08]).
Definition msg_xpeer : gov_msg := Gov GOV_ID (ids PTransceiver)
  [Acc (at_book pda_config) false false; Acc OWNER true false; Acc PAYER true true; Acc (at_book (pda_xpeer PTransceiver 3)) false true; Acc (repeat x00 32) false false]
  (ftag "set_wormhole_peer" ++ le_enc 2 3 ++ word 6).
Definition msg_unsigned : gov_msg := Gov GOV_ID (ids PManager) [Acc OWNER false false; Acc (at_book pda_config) false true] (ftag "set_paused" ++ [x01]).
Definition msg_twice : gov_msg := Gov GOV_ID (ids PManager)
  [Acc OWNER false false; Acc (at_book pda_config) false false; Acc (at_book pda_config) false true; Acc OWNER true false] (ftag "set_paused" ++ [x01]).
Definition msg_wrong : gov_msg := Gov GOV_ID (ids PManager) [Acc (at_book pda_config) false true; Acc OWNER true false] (ftag "set_paused" ++ [x01]).
Definition posts : list (Z * gov_msg) := [(1, msg_pause); (2, msg_peer); (3, msg_xpeer); (4, msg_unsigned); (5, msg_twice); (6, msg_wrong)].
Definition vaa_of (k : Z) (m : gov_msg) : vaa := Vaa 1 GOVERNANCE_EMITTER k (gov_packet m).
Definition post_at (b : bytes) : option vaa :=
  fold_right (fun km r => if bytes_eqb b (word (100 + fst km)) then Some (vaa_of (fst km) (snd km)) else r) None posts.
Definition E0 : genv state := world_env N0 H0 (fun _ _ => true) (fun _ _ => Err Constraint) addr_of (fun _ => post_at) (fun _ b => bytes_eqb b (ids PManager) || bytes_eqb b (ids PTransceiver)).
Definition submits (km : Z * gov_msg) : result (gstate state) :=
  g_exec E0 DEPTH gm0 (plain_ctx E0 PAYER_ (word (100 + fst km)) (vaa_of (fst km) (snd km)) (snd km)) GOV_TAG.
Definition outcome (km : Z * gov_msg) : option (bool * option (addr * Z) * option addr) :=
  match submits km with
  | Ok st => Some (match st_accts (gs_world st) pda_config with Some (Acct PManager (DConfig c)) => cf_paused c | _ => false end,
                   match st_accts (gs_world st) (pda_peer 3) with Some (Acct PManager (DPeer p)) => Some (pe_address p, pe_decimals p) | _ => None end,
                   match st_accts (gs_world st) (pda_xpeer PTransceiver 3) with Some (Acct PTransceiver (DXPeer x)) => Some (xp_address x) | _ => None end)
  | Err _ => None
  end.
Example C83_case : map outcome posts =
  [Some (true, None, None); Some (false, Some (ARaw 5, 8), None); Some (false, None, Some (ARaw 6)); None; Some (true, None, None); None].
Proof. vm_compute. reflexivity. Qed.

(** The premises are met. *)
Local Strategy 1000 [sha256].
Lemma N0_named : well_named N0 E0 GA.
Proof.
  constructor.
  - intros K. vm_compute in K. discriminate K.
  - intros p [-> | ->] K; vm_compute in K; discriminate K.
  - intros b. change (ge_addr E0 SGovernance) with PDA_. cbn [gn_account N0]. split.
    + intros K. assert (S : forall l, (forall k h, In (k, h) l -> h = HA GA -> k = PDA_) -> look l b = HA GA -> b = PDA_).
      { induction l as [|[k h] l IH]; intros Hl L; cbn [look] in L; [discriminate L|]. destruct (bytes_eqb k b) eqn:Q; [apply bytes_eqb_eq in Q; subst k; apply (Hl b h); [now left|exact L]|].
        apply IH; [intros k' h' Hin; apply Hl; now right|exact L]. }
      apply (S book); [|exact K]. intros k h Hin Q. unfold book in Hin. cbn [In] in Hin.
      destruct Hin as [Hin|Hin]; [injection Hin as <- _; vm_compute; reflexivity|].
      repeat (destruct Hin as [Hin|Hin]; [injection Hin as _ <-; discriminate Q|]). destruct Hin.
    + intros ->. vm_compute. reflexivity.
Qed.
Example C83_premises : well_named N0 E0 GA /\ can_sign GA = true /\ governed GA (gs_world gm0) /\ reachable H0 (gs_world gm0) /\ (forall p, List.length (gn_id N0 p) = 32%nat) /\
  (forall i, In i [ISetPaused pda_config GA true; ISetPeer pda_config GA 3 (ARaw 5) 1000 8; IXSetPeer PTransceiver pda_config GA 3 (ARaw 6);
                   ITransferOwnership pda_config GA USER] ->
     writable_names N0 (key_in book) (admin_accounts i) /\ named (gn_value N0) i /\ admin_by i = Some GA /\ is_ok (step H0 (gs_world gm0) (Call [GA] i)) = true) /\
  gn_account N0 PAYER_ = HA USER /\ can_sign USER = true.
Proof.
  split; [exact N0_named|]. split; [reflexivity|]. split; [exact (proj1 (proj2 C71_case))|]. split; [apply apply_reachable, at_reachable|].
  split; [intros p; destruct p; vm_compute; reflexivity|]. split; [|split; vm_compute; reflexivity].
  intros i Hi. cbn [In] in Hi. repeat (destruct Hi as [<-|Hi]; [split; [repeat (constructor; [split; [vm_compute; reflexivity|split; [vm_compute; reflexivity|split; intros K; vm_compute in K; discriminate K]]|]); constructor|
    split; [first [exact Logic.I|exists (word 5); split; vm_compute; reflexivity|exists (word 6); split; vm_compute; reflexivity]|split; [reflexivity|vm_compute; reflexivity]]]|]).
  destruct Hi.
Qed.

(** * Clients that hold an interface of an earlier generation: C106. *)
From Coq Require Import String.
From Verif Require Export OldFacts.
From Verif Require Import Scenario PropsEntry Lut Dispatch.
Import ListNotations.
Local Open Scope string_scope.
Local Open Scope list_scope.
Local Open Scope Z_scope.
Local Strategy 1000 [sha256].

(** C106: accounts hold what the types of an earlier generation say: one written then is read now as what it was, and the other way round. *)
Theorem C106_accounts : forall n p k fs data (a : contents k), entry_for (struct_name k) (old_accounts n p) = Some fs ->
  load k data = Some a <-> exists b rest, data = account_header (struct_name k) ++ b ++ rest /\ encodes_fields (old_types n p) fs (fields_of k a) b.
Proof. exact old_account. Qed.
Print Assumptions C106_accounts.

(** The data of a call made by an earlier interface are taken for that call. *)
Theorem C106_data : forall n p g data, old_data n p g data -> dispatch p data = Some g.
Proof. exact old_call. Qed.
Print Assumptions C106_data.

(** All functions were there, except three of the manager. *)
Theorem C106_which : forall n p g, offered p g -> p <> ATransceiver ->
  (exists fs, entry_for (fst (published g)) (old_arguments n p) = Some fs) \/ g = GMark \/ g = GTransferOwnershipOneStep \/ (n = Gen1 /\ exists z, g = GInitializeLut z).
Proof. exact old_offered. Qed.
Print Assumptions C106_which.

(** The accounts passed for it are those passed now, in the same places and with the same privileges, except for three functions of the first generation. *)
Theorem C106_lists : forall n g l acc, entry_for (fst (published g)) (old_lists n AManager) = Some l -> offered AManager g -> ~ (n = Gen1 /\ rearranged g) ->
  made l acc = made (interface AManager g) (fun s => acc (old_name n s)).
Proof. exact old_list. Qed.
Print Assumptions C106_lists.
Theorem C106_quoter : forall n g l acc, entry_for (fst (published g)) (old_lists n AQuoter) = Some l -> offered AQuoter g -> q_made l acc = q_made_now (q_interface g) acc.
Proof. exact old_q_list. Qed.
Print Assumptions C106_quoter.

(** Of these, transfers are refused in every state, whatever is appended, *)
Theorem C106_transfers : forall nm ok H s g l acc rest data s', old_data Gen1 AManager g data -> entry_for (fst (published g)) (old_lists Gen1 AManager) = Some l ->
  (exists a ch to q, g = GTransferLock a ch to q \/ g = GTransferBurn a ch to q) -> acc "inboxRateLimit" <> HA system_program ->
  entry nm ok H s AManager (made l acc ++ rest) data <> Ok s'.
Proof. exact old_transfer_refused. Qed.
Print Assumptions C106_transfers.
(** and payouts in burning mode are refused in every state; with the custody appended they are the call of today. *)
Theorem C106_mint : forall nm ok H s r l acc data, old_data Gen1 AManager (GReleaseMint r) data -> entry_for "releaseInboundMint" (old_lists Gen1 AManager) = Some l ->
  (forall s', entry nm ok H s AManager (made l acc) data <> Ok s') /\
  made l acc ++ [Meta (acc "custody") false true] = made (interface AManager (GReleaseMint r)) (fun s => acc (old_name Gen1 s)).
Proof. intros. split; [intros; eapply old_mint_refused; eassumption|apply old_mint_completed; assumption]. Qed.
Print Assumptions C106_mint.

(** The worked transfer by names. By the interfaces of the second generation and of today it is done; by the first's it is refused. The question for the
    version, which the library asks by the first interface, is understood. *)
Definition acc0 (s : string) : handle :=
  match entry_for s [("common.payer", HA USER); ("common.config.config", HA pda_config); ("common.mint", HA MINT); ("common.from", HA user_tok); ("common.tokenProgram", HA (AProg PToken));
    ("common.outboxItem", HA ITEM); ("common.outboxRateLimit", HA pda_outbox_rl); ("common.custody", HA custody); ("custody", HA custody); ("common.systemProgram", HA system_program);
    ("inboxRateLimit", HA (pda_inbox_rl 2)); ("peer", HA (pda_peer 2)); ("sessionAuthority", HA (pda_session USER (h_args H0 the_args)))] with
  | Some h => h | None => HLoader end.
Definition the_call : gcall := GTransferLock 1000000005 2 (repeat x09 32) false.
Definition by_generation (n : generation) : option bool :=
  option_map (fun l => is_ok (entry nm0 true H0 (at_ Locking 6) AManager (made l acc0) transfer_data)) (entry_for "transferLock" (old_lists n AManager)).
Example C106_case :
  made (interface AManager the_call) acc0 = transfer_metas /\ by_generation Gen1 = Some false /\ by_generation Gen2 = Some true /\
  old_data Gen1 AManager the_call transfer_data /\ old_data Gen2 AManager the_call transfer_data /\
  old_data Gen1 AManager GVersion (call_header "version") /\
  map (fun g => option_map (@List.length field) (entry_for (fst (published g)) (old_lists Gen1 AManager))) [the_call; GReleaseMint true; GReleaseUnlock true; GMark; GInitializeLut 5]
    = [Some 12; Some 7; Some 8; None; None]%nat.
Proof.
  assert (T : forall n, old_data n AManager the_call transfer_data).
  { intros n. exists [("args", INamed "TransferArgs")]. exists (le_enc 8 1000000005 ++ le_enc 2 2 ++ repeat x09 32 ++ [x00]). split; [destruct n; reflexivity|]. split; [|vm_compute; reflexivity].
    rewrite <- (app_nil_r (le_enc 8 1000000005 ++ _)). unfold the_call. cbn [published snd]. constructor; [|constructor].
    apply en_struct with (fs := [("amount", IU 8); ("recipientChain", INamed "ChainId"); ("recipientAddress", IRaw 32); ("shouldQueue", IBool)]); [destruct n; reflexivity|].
    constructor; [constructor; lia|]. constructor.
    - rewrite <- (app_nil_r (le_enc 2 2)). apply en_struct with (fs := [("id", IU 2)]); [destruct n; reflexivity|]. constructor; [constructor; lia|constructor].
    - constructor; [constructor; reflexivity|]. change [x00] with ([x00] ++ []). constructor; constructor. }
  repeat match goal with |- _ /\ _ => split end; try apply T; try (vm_compute; reflexivity).
  exists [], []. split; [reflexivity|]. split; [constructor|]. now rewrite app_nil_r.
Qed.

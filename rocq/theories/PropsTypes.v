(** * The published types describe accounts and instruction data: C85. *)
From Coq Require Import String.
From Verif Require Export TypesFacts.
From Verif Require Import AccountsFacts Dispatch.
Import ListNotations.
Local Open Scope string_scope.
Local Open Scope list_scope.
Local Open Scope Z_scope.

(** A program reads an account exactly when its data are the account's tag, the fields of the published type in order, and anything after them. *)
Theorem C85_accounts : forall p k fs data (a : contents k), entry_for (struct_name k) (accounts p) = Some fs ->
  load k data = Some a <-> exists b rest, data = account_header (struct_name k) ++ b ++ rest /\ encodes_fields (types p) fs (fields_of k a) b.
Proof. exact published_account. Qed.
Print Assumptions C85_accounts.

(** What it writes is described by the published type as well. *)
Theorem C85_written : forall p k fs data (a : contents k) data', entry_for (struct_name k) (accounts p) = Some fs -> wf_contents k a -> store k data a = Some data' ->
  exists b rest, data' = account_header (struct_name k) ++ b ++ rest /\ encodes_fields (types p) fs (fields_of k a) b.
Proof. exact published_written. Qed.
Print Assumptions C85_written.

(** Every kind of account but the stored transceiver message is published, and all published accounts are modelled except the core bridge's
    [BridgeData], which these programs only read, and the [Counter] of the example hook. *)
Theorem C85_which : forall k, (k = KVtm /\ forall p, entry_for (struct_name k) (accounts p) = None) \/
  (k <> KVtm /\ exists p fs, entry_for (struct_name k) (accounts p) = Some fs).
Proof. exact which_published. Qed.
Print Assumptions C85_which.

Theorem C85_kinds : forall p nm fs, In (nm, fs) (accounts p) ->
  (exists k, nm = struct_name k /\ entry_for nm (accounts p) = Some fs) \/ nm = "BridgeData" \/ nm = "Counter".
Proof. exact published_kinds. Qed.
Print Assumptions C85_kinds.

(** A program runs a function on arguments exactly when the data are the tag of the function's published name and the arguments encoded by the
    published types, with anything after them. The example hook has a second tag, the one of the transfer hook interface. *)
Theorem C85_calls : forall p data g, dispatch p data = Some g <->
  exists fs b rest, entry_for (fst (published g)) (arguments p) = Some fs /\ encodes_fields (types p) fs (snd (published g)) b /\
    (data = call_header (fst (published g)) ++ b ++ rest \/
     (exists a, g = HTransferHook a) /\ data = firstn 8 (sha256 (str "spl-transfer-hook-interface:execute")) ++ b ++ rest).
Proof. exact published_call. Qed.
Print Assumptions C85_calls.

(** Different calls and different contents are published differently. *)
Theorem C85_faithful : (forall p g g', offered p g -> offered p g' -> published g = published g' -> g = g') /\
  (forall p k fs (a a' : contents k), entry_for (struct_name k) (accounts p) = Some fs -> fields_of k a = fields_of k a' -> a = a').
Proof. exact published_inj. Qed.
Print Assumptions C85_faithful.

(** An inbox item waiting for its delay, written by hand from the published type; the same with an unknown status; a quoter's price; data of
    set_peer, whose chain id is a struct in the interface; and that no value of the type [bool] is a 2. *)
Definition item_bytes (tag : byte) : bytes :=
  account_header "InboxItem" ++ [x01] ++ [xfe] ++ le_enc 8 500 ++ repeat x07 32 ++ le_enc 16 5 ++ [tag] ++ le_enc 8 1700000000.
Definition item_read : contents KInboxItem := InboxItem true 254 500 (repeat x07 32) 5 (ReleaseAfter 1700000000).
Example C85_case :
  load KInboxItem (item_bytes x01) = Some item_read /\ load KInboxItem (item_bytes x03) = None /\ List.length (item_bytes x01) = space KInboxItem /\
  map Z_of_byte (account_header "InboxItem") = map Z_of_byte (discriminator KInboxItem) /\
  entry_for "InboxItem" (accounts AManager) = Some [("init", IBool); ("bump", IU 1); ("amount", IU 8); ("recipientAddress", IKey); ("votes", INamed "Bitmap"); ("releaseStatus", INamed "ReleaseStatus")] /\
  dispatch AManager (call_header "setPeer" ++ le_enc 2 2 ++ repeat x07 32 ++ le_enc 8 1000 ++ [x12]) = Some (GSetPeer 2 (repeat x07 32) 1000 18) /\
  published (GSetPeer 2 (repeat x07 32) 1000 18) =
    ("setPeer", [("args", VStruct [("chainId", VStruct [("id", VInt 2)]); ("address", VBytes (repeat x07 32)); ("limit", VInt 1000); ("tokenDecimals", VInt 18)])]) /\
  dispatch AManager (call_header "setPaused" ++ [x02]) = None /\ snake "transferOwnershipOneStepUnchecked" = "transfer_ownership_one_step_unchecked".
Proof. repeat match goal with |- _ /\ _ => split end; vm_compute; reflexivity. Qed.
Example C85_case_bool : ~ exists v, encodes (types AManager) IBool v [x02].
Proof. intros (v & E). inversion E. Qed.
Example C85_case_status : encodes (types AManager) (INamed "ReleaseStatus") (val_status (ReleaseAfter 1700000000)) (x01 :: le_enc 8 1700000000).
Proof.
  assert (R : 1700000000 mod 2 ^ 64 = 1700000000) by reflexivity.
  apply (en_enum _ "ReleaseStatus" [("NotApproved", []); ("ReleaseAfter", [II64]); ("Released", [])] 1 "ReleaseAfter" [II64] [VInt 1700000000]); [vm_compute; reflexivity|reflexivity|].
  rewrite <- (app_nil_r (le_enc 8 _)), <- R. apply ea_cons; [apply en_i64; split; vm_compute; congruence|apply ea_nil].
Qed.

(** * Properties C12-C14: account storage, in-place accessors, derived addresses. *)
From Coq Require String.
From Verif Require Import Base Bytes Wire Accounts AccountsFacts Seeds SeedsFacts Hex.
Import String.StringSyntax.
Local Open Scope Z_scope.

(** ** C12 *)
(** If the account data deserialises as a validated message, every in-place accessor succeeds and returns the
    corresponding field. [data] is arbitrary, so it may carry any padding. *)
Theorem C12_accessors_agree : forall data chain m, load KVtm data = Some (chain, m) ->
  acc_from_chain data = Some chain /\
  exists span, acc_message data = Some span /\
    acc_source span = Some (t_source m) /\ acc_recipient span = Some (t_recipient m) /\ acc_payload span = Some (t_nmm m).
Proof. exact accessors_agree. Qed.
Print Assumptions C12_accessors_agree.

Theorem C12_wrong_discriminator_rejected : forall data, firstn 8 data <> discriminator KVtm ->
  acc_from_chain data = None /\ acc_message data = None /\ load KVtm data = None.
Proof. exact wrong_discriminator_rejected. Qed.
Print Assumptions C12_wrong_discriminator_rejected.

Theorem C12_wrong_owner_rejected : forall (O : Type) (eqb : O -> O -> bool) owner expected data,
  (forall a b, eqb a b = true <-> a = b) -> owner <> expected -> vtm_try_from eqb owner expected data = None.
Proof. exact @wrong_owner_rejected. Qed.
Print Assumptions C12_wrong_owner_rejected.

Definition sample_vtm : vtm := (2, Tmd (repeat x01 32) (repeat x02 32)
  (Nmm (repeat x03 32) (repeat x04 32) (Ntt (Trim 1000 8) (repeat x05 32) 1 (repeat x06 32) tt))).
Definition sample_data : bytes := match store KVtm (repeat xff 341) sample_vtm with Some d => d | None => [] end.
Example C12_case : load KVtm sample_data = Some sample_vtm /\ length sample_data = 341%nat /\ acc_from_chain sample_data = Some 2.
Proof. repeat split; vm_compute; reflexivity. Qed.
Example C12_case_rejected : firstn 8 (x00 :: skipn 1 sample_data) <> discriminator KVtm /\ Z.eqb 1 2 = false.
Proof. split; [intros H; vm_compute in H; discriminate|reflexivity]. Qed.

(** ** C13 *)
(** A record within its field ranges can be written into an account of the allocated space (the length does not change),
    over any previous contents, and reads back unchanged. *)
Theorem C13_storage_fits : forall k data (a : contents k),
  wf_contents k a -> (space k <= length data)%nat -> exists data', store k data a = Some data' /\ length data' = length data.
Proof. exact store_fits. Qed.
Print Assumptions C13_storage_fits.

Theorem C13_storage_round_trip : forall k data (a : contents k) data',
  wf_contents k a -> store k data a = Some data' -> load k data' = Some a.
Proof. exact load_store. Qed.
Print Assumptions C13_storage_round_trip.

Theorem C13_kinds_not_confused : forall k k' data (a : contents k) data',
  k <> k' -> store k data a = Some data' -> load k' data' = None.
Proof. exact load_wrong_kind. Qed.
Print Assumptions C13_kinds_not_confused.

Theorem C13_unwritten_is_no_kind : forall k n, load k (repeat x00 n) = None.
Proof. exact load_zeroed. Qed.
Print Assumptions C13_unwritten_is_no_kind.

(** The allocated sizes, and the discriminator of Config as published in its IDL. *)
Example C13_case : map space all_kinds = [192; 42; 139; 32; 75; 33; 42; 41; 341; 41; 112; 41; 14; 16; 9]%nat
  /\ map Z_of_byte (discriminator KConfig) = [155; 12; 170; 224; 30; 250; 204; 130].
Proof. split; vm_compute; reflexivity. Qed.
Definition sample_config : config bytes :=
  Config 255 (repeat x01 32) (Some (repeat x02 32)) (repeat x03 32) (repeat x04 32) Burning 1 3 2 7 false (repeat x05 32).
Example C13_case_config : wf_contents KConfig sample_config /\
  (exists d, store KConfig (repeat xee 192) sample_config = Some d /\ load KConfig d = Some sample_config).
Proof. split; [repeat split; cbn; try ilia; reflexivity|]. eexists. split; vm_compute; reflexivity. Qed.

(** ** C14 *)
(** The string hashed to derive an address determines the program, the purpose, its parameters and the bump. *)
Theorem C14_addresses_separated : forall prog prog' p p' b b',
  length prog = 32%nat -> length prog' = 32%nat -> wf_purpose p -> wf_purpose p' ->
  pda_preimage prog p b = pda_preimage prog' p' b' -> prog = prog' /\ p = p' /\ b = b'.
Proof. exact pda_inj. Qed.
Print Assumptions C14_addresses_separated.

Theorem C14_seeds_within_limits : forall p,
  wf_purpose p -> (length (seeds p) + 1 <= 16)%nat /\ Forall (fun s => (length s <= 32)%nat) (seeds p).
Proof. exact seeds_allowed. Qed.
Print Assumptions C14_seeds_within_limits.
Example C14_case : wf_purpose (SPeer 26985) /\ length (concat (seeds (SPeer 26985))) = length (concat (seeds SConfig))
  /\ length (concat (seeds (SXPeer 2))) = length (concat (seeds SOutboxSigner)).
Proof. split; [cbn; ilia|]. split; reflexivity. Qed.

(** * Properties C06-C11: wire formats and digests. *)
From Coq Require String.
From Verif Require Import Base Bytes Wire SpecWire WireFacts Hex.
Import String.StringSyntax.
Local Open Scope Z_scope.

(** ** C06 *)
(** A lawful additional payload makes the transfer a lawful payload of the manager message, and so on outward. *)
Theorem C06_native_token_transfer : forall (A : Type) (c : payload A) (wf : A -> Prop),
  lawful_payload c wf -> round_trips (read_ntt c) (write_ntt c) (wf_ntt wf).
Proof. exact @ntt_round_trips. Qed.
Print Assumptions C06_native_token_transfer.

Theorem C06_manager_message : forall (A : Type) (c : payload A) (wf : A -> Prop),
  lawful_payload c wf -> round_trips (read_nmm c) (write_nmm c) (wf_nmm wf).
Proof. exact @nmm_round_trips. Qed.
Print Assumptions C06_manager_message.

Theorem C06_transceiver_message : forall (A : Type) (prefix : bytes) (c : payload A) (wf : A -> Prop),
  length prefix = 4%nat -> lawful_payload c wf -> round_trips (read_tmsg prefix c) (write_tmsg prefix c) (wf_tmsg wf).
Proof. exact @tmsg_round_trips. Qed.
Print Assumptions C06_transceiver_message.

Theorem C06_transfer_is_lawful_payload : forall (A : Type) (c : payload A) (wf : A -> Prop),
  lawful_payload c wf -> lawful_payload (ntt_payload c) (wf_ntt wf).
Proof. exact @ntt_lawful. Qed.
Print Assumptions C06_transfer_is_lawful_payload.

Theorem C06_empty_payload : lawful_payload empty_payload no_constraint.
Proof. exact empty_lawful. Qed.
Print Assumptions C06_empty_payload.

Theorem C06_transceiver_info : round_trips read_wt_info write_wt_info wf_info.
Proof. exact info_round_trips. Qed.
Print Assumptions C06_transceiver_info.

Theorem C06_registration : round_trips read_wt_reg write_wt_reg wf_reg.
Proof. exact reg_round_trips. Qed.
Print Assumptions C06_registration.

(** Non-vacuity: a payload type with content, and the repository's four test vectors (evm/test/payloads). *)
Definition payload32 : payload bytes := Payload bytes (Some 32) None (take 32) (fun b => Some b) (fun _ => 32).
Definition raw_none : payload unit := Payload unit None None (rret tt) (fun _ => Some []) (fun _ => 0).

Example C06_payload32_lawful : lawful_payload payload32 (fun b => length b = 32%nat).
Proof.
  split; [|discriminate]. intros a b rest Ha H. cbn in H. injection H as <-. now apply Bytes_take_app.
Qed.

Definition vec1 : bytes := hex "9945ff10042942fafabe0000000000000000000000000000000000000000000000000000042942fababe00000000000000000000000000000000000000000000000000000091128434bafe23430000000000000000000000000000000000ce00aa00000000004667921341234300000000000000000000000000000000000000000000000000004f994e545407000000000012d687beefface00000000000000000000000000000000000000000000000000000000feebcafe0000000000000000000000000000000000000000000000000000000000110000".
Definition msg1 {A} (p : A) : tmsg (ntt A) :=
  Tmsg (Tmd (hex "042942fafabe0000000000000000000000000000000000000000000000000000") (hex "042942fababe0000000000000000000000000000000000000000000000000000")
    (Nmm (hex "128434bafe23430000000000000000000000000000000000ce00aa0000000000") (hex "4667921341234300000000000000000000000000000000000000000000000000")
      (Ntt (Trim 1234567 7) (hex "beefface00000000000000000000000000000000000000000000000000000000") 17
        (hex "feebcafe00000000000000000000000000000000000000000000000000000000") p))) [].

Example C06_vector_plain : wf_tmsg (wf_ntt no_constraint) (msg1 tt)
  /\ write_tmsg WH_PREFIX (ntt_payload empty_payload) (msg1 tt) = Some vec1
  /\ read_tmsg WH_PREFIX (ntt_payload empty_payload) (vec1 ++ [x2a]) = Some (msg1 tt, [x2a]).
Proof. split; [repeat split; cbn; try ilia; reflexivity|]. split; vm_compute; reflexivity. Qed.

Example C06_vector_32byte_payload :
  write_tmsg WH_PREFIX (ntt_payload payload32) (msg1 (hex "deadbeef000000000000000000000000000000000000000000000000deadbeef"))
  = Some (hex "9945ff10042942fafabe0000000000000000000000000000000000000000000000000000042942fababe000000000000000000000000000000000000000000000000000000b3128434bafe23430000000000000000000000000000000000ce00aa000000000046679213412343000000000000000000000000000000000000000000000000000071994e545407000000000012d687beefface00000000000000000000000000000000000000000000000000000000feebcafe0000000000000000000000000000000000000000000000000000000000110020deadbeef000000000000000000000000000000000000000000000000deadbeef0000").
Proof. vm_compute. reflexivity. Qed.

Example C06_vector_empty_payload :
  write_tmsg WH_PREFIX (ntt_payload raw_none) (msg1 tt)
  = Some (hex "9945ff10042942fafabe0000000000000000000000000000000000000000000000000000042942fababe00000000000000000000000000000000000000000000000000000093128434bafe23430000000000000000000000000000000000ce00aa000000000046679213412343000000000000000000000000000000000000000000000000000051994e545407000000000012d687beefface00000000000000000000000000000000000000000000000000000000feebcafe00000000000000000000000000000000000000000000000000000000001100000000").
Proof. vm_compute. reflexivity. Qed.

Definition info1 : wt_info := WtInfo (hex "babababababa0000000000000000000000000000000000000000000000000000") Locking
  (hex "dedededededede00000000000000000000000000000000000000000000000000") 16.
Example C06_vector_info : wf_info info1 /\ write_wt_info info1
  = Some (hex "9c23bd3bbabababababa000000000000000000000000000000000000000000000000000000dedededededede0000000000000000000000000000000000000000000000000010").
Proof. split; [repeat split; cbn; try ilia; reflexivity|vm_compute; reflexivity]. Qed.

Definition reg1 : wt_reg := WtReg 23 (hex "bababafefe000000000000000000000000000000000000000000000000000000").
Example C06_vector_registration : wf_reg reg1 /\ write_wt_reg reg1 = Some (hex "18fc67c20017bababafefe000000000000000000000000000000000000000000000000000000").
Proof. split; [repeat split; cbn; try ilia; reflexivity|vm_compute; reflexivity]. Qed.

(** ** C07 *)
Theorem C07_transfer_layout : forall (m : ntt unit) b,
  wf_ntt no_constraint m -> write_ntt empty_payload m = Some b -> ntt_layout b m.
Proof. exact ntt_layout_ok. Qed.
Print Assumptions C07_transfer_layout.

Theorem C07_transfer_layout_with_payload : forall (A : Type) (c : payload A) wf (m : ntt A) b,
  p_type c = None -> sized_on wf (p_write c) (p_wsize c) -> p_size c <> Some 0 ->
  wf_ntt wf m -> write_ntt c m = Some b ->
  exists p, p_write c (n_payload m) = Some p /\ ntt_layout_ext b m p.
Proof. exact @ntt_layout_ext_ok. Qed.
Print Assumptions C07_transfer_layout_with_payload.

Theorem C07_manager_message_layout : forall (A : Type) (c : payload A) wf (m : nmm A) b,
  p_type c = None -> sized_on wf (p_write c) (p_wsize c) ->
  wf_nmm wf m -> write_nmm c m = Some b ->
  exists p, p_write c (m_payload m) = Some p /\ nmm_layout b m p.
Proof. exact @nmm_layout_ok. Qed.
Print Assumptions C07_manager_message_layout.

Theorem C07_transceiver_message_layout : forall (A : Type) prefix (c : payload A) wf (m : tmsg A) b,
  length prefix = 4%nat -> p_type c = None -> sized_on wf (p_write c) (p_wsize c) ->
  wf_tmsg wf m -> write_tmsg prefix c m = Some b ->
  exists p, write_nmm c (t_nmm (t_data m)) = Some p /\ tmsg_layout prefix b m p.
Proof. exact @tmsg_layout_ok. Qed.
Print Assumptions C07_transceiver_message_layout.

Theorem C07_info_layout : forall i b, wf_info i -> write_wt_info i = Some b -> info_layout b i.
Proof. exact info_layout_ok. Qed.
Print Assumptions C07_info_layout.

Theorem C07_registration_layout : forall r b, wf_reg r -> write_wt_reg r = Some b -> reg_layout b r.
Proof. exact reg_layout_ok. Qed.
Print Assumptions C07_registration_layout.

Example C07_case : sized_on (fun b : bytes => length b = 32%nat) (p_write payload32) (p_wsize payload32)
  /\ num 153 1 vec1 = 0 /\ num 141 8 vec1 = 1234567 /\ num 213 2 vec1 = 17.
Proof. split; [intros a b Ha H; cbn in H; injection H as <-; cbn; lia|]. repeat split; vm_compute; reflexivity. Qed.

(** ** C08 *)
(** The decoder is a total function returning [None] or a message and the rest; it returns [m] and [r] exactly when
    the input is [m]'s encoding with two arbitrary two-byte fields in place of the inner lengths, followed by [r]. *)
Theorem C08_accepts_exactly : forall l m r,
  read_std l = Some (m, r) <->
  wf_tmsg (wf_ntt no_constraint) m /\ Z.of_nat (length (t_payload m)) <= u16_max /\
  exists l1 l2, length l1 = 2%nat /\ length l2 = 2%nat /\ l = accepted_std l1 l2 m ++ r.
Proof. exact read_std_inv. Qed.
Print Assumptions C08_accepts_exactly.

(** Against the encoder: an accepted string differs from the encoding at most at offsets 68, 69, 134, 135. *)
Theorem C08_agrees_with_encoder : forall l m, read_std l = Some (m, []) ->
  exists b, write_std m = Some b /\ length b = length l /\
  forall k, k <> 68%nat -> k <> 69%nat -> k <> 134%nat -> k <> 135%nat -> nth_error b k = nth_error l k.
Proof. exact read_std_write. Qed.
Print Assumptions C08_agrees_with_encoder.

Theorem C08_truncated_rejected : forall l, (length l < 217)%nat -> read_std l = None.
Proof. exact read_std_short. Qed.
Print Assumptions C08_truncated_rejected.

Theorem C08_wrong_prefix_rejected : forall l m r, read_std l = Some (m, r) ->
  sub 0 4 l = [x99; x45; xff; x10]%byte /\ sub 136 4 l = [x99; x4e; x54; x54]%byte.
Proof. exact read_std_prefix. Qed.
Print Assumptions C08_wrong_prefix_rejected.
Example C08_case : read_std vec1 = Some (msg1 tt, []) /\ length vec1 = 217%nat /\ read_std (firstn 216 vec1) = None
  /\ read_std (x98 :: skipn 1 vec1) = None.
Proof. repeat split; vm_compute; reflexivity. Qed.

(** ** C09: false. The two inner lengths are read and ignored. *)
Theorem C09_unique_encoding_refuted :
  exists b1 b2 m, b1 <> b2 /\ read_std b1 = Some (m, []) /\ read_std b2 = Some (m, []).
Proof. exact non_canonical. Qed.
Print Assumptions C09_unique_encoding_refuted.

(** ** C10 *)
Theorem C10_transfer_size : forall (A : Type) (c : payload A) wf,
  p_type c = None -> sized_on wf (p_write c) (p_wsize c) -> sized_on (wf_ntt wf) (write_ntt c) (ntt_wsize c).
Proof. exact @ntt_sized. Qed.
Print Assumptions C10_transfer_size.

Theorem C10_manager_message_size : forall (A : Type) (c : payload A) wf,
  p_type c = None -> sized_on wf (p_write c) (p_wsize c) -> sized_on (wf_nmm wf) (write_nmm c) (nmm_wsize c).
Proof. exact @nmm_sized. Qed.
Print Assumptions C10_manager_message_size.

(** The announced size of a transceiver message is always too small, by 34 bytes and the transceiver payload. *)
Theorem C10_transceiver_message_size_gap : forall (A : Type) prefix (c : payload A) wf,
  length prefix = 4%nat -> p_type c = None -> sized_on wf (p_write c) (p_wsize c) ->
  forall m b, wf_tmsg wf m -> write_tmsg prefix c m = Some b ->
  Z.of_nat (length b) = tmsg_wsize c m + 34 + Z.of_nat (length (t_payload m)).
Proof. exact @tmsg_size_gap. Qed.
Print Assumptions C10_transceiver_message_size_gap.
Example C10_case : tmsg_wsize (ntt_payload empty_payload) (msg1 tt) = 183 /\ length vec1 = 217%nat. Proof. split; reflexivity. Qed.

Theorem C10_info_size_gap : forall i b, wf_info i -> write_wt_info i = Some b -> Z.of_nat (length b) = wt_info_wsize i + 4.
Proof. exact info_size_gap. Qed.
Print Assumptions C10_info_size_gap.

Theorem C10_registration_size_gap : forall r b, wf_reg r -> write_wt_reg r = Some b -> Z.of_nat (length b) = wt_reg_wsize r + 4.
Proof. exact reg_size_gap. Qed.
Print Assumptions C10_registration_size_gap.

(** Hence the statement is false for these three types. *)
Theorem C10_announced_sizes_refuted :
  (exists m b, wf_tmsg (wf_ntt no_constraint) m /\ write_std m = Some b /\ tmsg_wsize std_payload m <> Z.of_nat (length b)) /\
  (exists i b, wf_info i /\ write_wt_info i = Some b /\ wt_info_wsize i <> Z.of_nat (length b)) /\
  (exists r b, wf_reg r /\ write_wt_reg r = Some b /\ wt_reg_wsize r <> Z.of_nat (length b)).
Proof.
  split; [exists (msg1 tt), vec1|split; [exists info1|exists reg1]].
  - split; [repeat split; cbn; try ilia; reflexivity|]. split; [vm_compute; reflexivity|vm_compute; discriminate].
  - eexists. split; [repeat split; cbn; try ilia; reflexivity|]. split; [vm_compute; reflexivity|vm_compute; discriminate].
  - eexists. split; [repeat split; cbn; try ilia; reflexivity|]. split; [vm_compute; reflexivity|vm_compute; discriminate].
Qed.
Print Assumptions C10_announced_sizes_refuted.

(** Encoding the programs' transceiver message fails exactly when the transceiver payload exceeds 65535 bytes, and
    otherwise yields the documented string. *)
Theorem C10_encoding_fails_iff_too_long : forall m,
  write_std m =
    if Z.of_nat (length (t_payload m)) <=? u16_max
    then Some (accepted_std (be_enc 2 145) (be_enc 2 79) m) else None.
Proof. exact write_std_eq. Qed.
Print Assumptions C10_encoding_fails_iff_too_long.
Example C10_fail_case : write_std (Tmsg (t_data (msg1 tt)) (repeat x00 (Z.to_nat 65536))) = None.
Proof. vm_compute. reflexivity. Qed.

(** ** C11 *)
Theorem C11_message_digest : forall (A : Type) (c : payload A) wf ch ch' m m' b,
  lawful_payload c wf -> is_u16 ch -> is_u16 ch' -> wf_nmm wf m -> wf_nmm wf m' ->
  nmm_preimage c ch m = Some b -> nmm_preimage c ch' m' = Some b -> ch = ch' /\ m = m'.
Proof. exact @preimage_inj. Qed.
Print Assumptions C11_message_digest.
Example C11_case : nmm_preimage (ntt_payload empty_payload) 2 (t_nmm (t_data (msg1 tt))) = Some (hex "0002" ++ firstn 145 (skipn 70 vec1)).
Proof. vm_compute. reflexivity. Qed.

Theorem C11_intent_digest : forall a a', wf_args a -> wf_args a' -> args_preimage a = args_preimage a' -> a = a'.
Proof. exact args_preimage_inj. Qed.
Print Assumptions C11_intent_digest.
Example C11_intent_case : wf_args (TArgs 1000 2 (repeat x07 32) true) /\ length (args_preimage (TArgs 1000 2 (repeat x07 32) true)) = 43%nat.
Proof. split; [repeat split; cbn; try ilia; reflexivity|reflexivity]. Qed.

(** * Agreement with the EVM side (C92, C93). *)
From Verif Require Export EvmLink.
From Verif Require Import PropsWire PropsBytes.
Local Open Scope Z_scope.

(** ** C92 *)

(** The two encoders give the same bytes for the same transfer, or both refuse. *)
Theorem C92_same_bytes : forall m, wf_tmsg (wf_ntt no_constraint) m ->
  e_sent (t_source (t_data m)) (t_recipient (t_data m)) (m_id (t_nmm (t_data m))) (m_sender (t_nmm (t_data m))) (e_of m) (t_payload m) = write_std m.
Proof. exact same_bytes. Qed.
Print Assumptions C92_same_bytes.

(** What Solana encodes the EVM side reads, with the same content and the same hashed bytes. *)
Theorem C92_to_evm : forall m b, wf_tmsg (wf_ntt no_constraint) m -> write_std m = Some b ->
  exists t n p, e_arrives b = Some (t, n, p) /\ same_transfer m t n p /\ e_plain n /\ ee_extra p = [] /\ et_payload t = t_payload m /\
    forall chain, e_preimage chain n = nmm_preimage std_payload chain (t_nmm (t_data m)).
Proof. exact arrives_evm. Qed.
Print Assumptions C92_to_evm.

(** What the EVM side reads Solana reads, with the same content. An additional payload is taken for the transceiver's payload, and that one is
    left unread. *)
Theorem C92_from_evm : forall b t n p, e_arrives b = Some (t, n, p) ->
  exists m rest, read_std b = Some (m, rest) /\ same_transfer m t n p /\
    (e_plain n /\ ee_extra p = [] /\ t_payload m = et_payload t /\ rest = [] /\ et_manager t = inner m \/
     ~ e_plain n /\ length (en_payload n) = (81 + length (ee_extra p))%nat /\
       t_payload m = ee_extra p /\ rest = be_enc 2 (Z.of_nat (length (et_payload t))) ++ et_payload t).
Proof. exact arrives_solana. Qed.
Print Assumptions C92_from_evm.

(** The two sides hash the same bytes exactly when there is no additional payload. *)
Theorem C92_digest : forall b t n p m rest chain, e_arrives b = Some (t, n, p) -> read_std b = Some (m, rest) ->
  e_preimage chain n = Some (be_enc 2 chain ++ et_manager t) /\
  (e_plain n <-> nmm_preimage std_payload chain (t_nmm (t_data m)) = e_preimage chain n).
Proof. exact digests. Qed.
Print Assumptions C92_digest.

(** The strings the EVM side reads as plain transfers are those Solana writes. *)
Theorem C92_both : forall b,
  (exists t n p, e_arrives b = Some (t, n, p) /\ e_plain n) <-> exists m, wf_tmsg (wf_ntt no_constraint) m /\ write_std m = Some b.
Proof. exact evm_reads. Qed.
Print Assumptions C92_both.

(** Everything a transceiver ever published is read by the EVM side, with the content of the message. *)
Theorem C92_published_transfer : forall H s p m key, reachable H s -> is_ntt_prog p = true -> keys32 key -> posted_by s p (PPTransfer m) ->
  exists b t n q, wire_payload key (PPTransfer m) = Some b /\ e_arrives b = Some (t, n, q) /\
    et_source t = key (tm_source m) /\ et_recipient t = key (tm_recipient m) /\ et_payload t = [] /\
    en_id n = key (nm_id (tm_msg m)) /\ en_sender n = key (nm_sender (tm_msg m)) /\
    same_amount (nm_amount (tm_msg m)) (ee_amount q) /\ ee_token q = key (nm_token (tm_msg m)) /\
    ee_to q = key (nm_to (tm_msg m)) /\ ee_chain q = nm_to_chain (tm_msg m) /\ ee_extra q = [].
Proof. exact published_transfer. Qed.
Print Assumptions C92_published_transfer.

Theorem C92_published_info : forall H s p mgr md tok dec key, reachable H s -> is_ntt_prog p = true -> keys32 key -> posted_by s p (PPInfo mgr md tok dec) ->
  exists b, wire_payload key (PPInfo mgr md tok dec) = Some b /\
    e_decode_init b = Some (EInit E_INIT_PREFIX (key mgr) (e_mode md) (key tok) dec).
Proof. exact published_info. Qed.
Print Assumptions C92_published_info.

Theorem C92_published_peer : forall H s p ch a key, reachable H s -> is_ntt_prog p = true -> keys32 key -> posted_by s p (PPReg ch a) ->
  exists b, wire_payload key (PPReg ch a) = Some b /\ e_decode_reg b = Some (EReg E_REGISTRATION_PREFIX ch (key a)).
Proof. exact published_reg. Qed.
Print Assumptions C92_published_peer.

(** The test vector of the repository; the one with 32 bytes of additional payload, which both sides read, Solana taking it for the transceiver's
    payload; that vector with another inner length, which only Solana reads. *)
Definition extra32 : bytes := [xde; xad; xbe; xef]%byte ++ repeat x00 24 ++ [xde; xad; xbe; xef]%byte.
Definition vec2 : option bytes := write_tmsg WH_PREFIX (ntt_payload payload32) (msg1 extra32).
Definition e_msg1 (extra tp : bytes) : option bytes :=
  let d := t_data (msg1 tt) in
  let p := e_of (msg1 tt) in
  e_sent (t_source d) (t_recipient d) (m_id (t_nmm d)) (m_sender (t_nmm d)) (ENtt (ee_amount p) (ee_token p) (ee_to p) (ee_chain p) extra) tp.
Example C92_case :
  e_msg1 [] [] = Some vec1 /\ e_msg1 extra32 [] = vec2 /\
  option_map (fun x => (en_payload (snd (fst x)), snd x)) (e_arrives vec1) = Some (head_of (msg1 tt), e_of (msg1 tt)) /\
  (match vec2 with Some b => option_map (fun x => ee_extra (snd x)) (e_arrives b) | None => None end) = Some extra32 /\
  (match vec2 with Some b => read_std b | None => None end) = Some (Tmsg (t_data (msg1 tt)) extra32, [x00; x00]) /\
  e_arrives (vec1 ++ [x00]) = None /\
  read_std (firstn 69 vec1 ++ [x92] ++ skipn 70 vec1) = Some (msg1 tt, []) /\ e_arrives (firstn 69 vec1 ++ [x92] ++ skipn 70 vec1) = None.
Proof. repeat split; vm_compute; reflexivity. Qed.

(** ** C93 *)

(** Trimming agrees on amounts of 64 bits; where Solana refuses because of the exponent the EVM side may get zero. *)
Theorem C93_trim : forall a f t, is_u64 a -> is_u8 f -> is_u8 t ->
  (forall x, trim a f t = Ok x -> e_trim a f t = Some (e_pack (ta_amount x) (ta_decimals x))) /\
  (forall v, e_trim a f t = Some v ->
     (exists x, trim a f t = Ok x /\ v = e_pack (ta_amount x) (ta_decimals x)) \/
     trim a f t = Err OverflowExponent /\ 20 <= f - e_decimals v /\ e_amount v = 0).
Proof. exact trim_agrees. Qed.
Print Assumptions C93_trim.

(** Solana's untrimming is the EVM side's, as far as 64 bits reach. *)
Theorem C93_untrim : forall x t a, wf_trimmed x -> is_u8 t ->
  untrim x t = Ok a <->
  e_untrim (e_pack (ta_amount x) (ta_decimals x)) t = Some a /\ a <= u64_max /\ Z.abs (ta_decimals x - t) < 20.
Proof. exact untrim_agrees. Qed.
Print Assumptions C93_untrim.

(** What is paid out on Solana is worth what was taken on the EVM side, or less where Solana's token has fewer decimals than the message. *)
Theorem C93_from_evm : forall A f t v g, 0 <= A -> is_u8 f -> is_u8 t -> is_u8 g -> e_send A f t = Some v ->
  let x := Trim (e_amount v) (e_decimals v) in
  wf_trimmed x /\ e_decimals v <= 8 /\ e_decimals v <= f /\ e_decimals v <= t /\
  e_amount v * 10 ^ f = A * 10 ^ e_decimals v /\
  (forall a, untrim x g = Ok a -> a * 10 ^ f <= A * 10 ^ g /\ (e_decimals v <= g -> a * 10 ^ f = A * 10 ^ g)).
Proof. exact evm_to_solana. Qed.
Print Assumptions C93_from_evm.

(** With the right decimals set for the peer it can be paid out exactly when the value fits into 64 bits. *)
Theorem C93_from_evm_iff : forall A f g v a, 0 <= A -> is_u8 f -> is_u8 g -> e_send A f g = Some v -> g - e_decimals v < 20 ->
  untrim (Trim (e_amount v) (e_decimals v)) g = Ok a <-> a * 10 ^ f = A * 10 ^ g /\ a <= u64_max.
Proof. exact evm_arrives_iff. Qed.
Print Assumptions C93_from_evm_iff.

(** What is paid out on the EVM side is worth what was taken on Solana, or less where the EVM token has fewer decimals than the message; and
    the EVM side refuses exactly when the amount brought to eight decimals (or those of its token, if fewer) exceeds 64 bits. *)
Theorem C93_to_evm : forall A f t g A' x, is_u64 A -> is_u8 f -> is_u8 t -> is_u8 g -> g <= 57 -> remove_dust A f t = Ok (A', x) ->
  (forall a, e_receive (e_pack (ta_amount x) (ta_decimals x)) g = Some a ->
     a * 10 ^ f <= A' * 10 ^ g /\ (ta_decimals x <= g -> a * 10 ^ f = A' * 10 ^ g)) /\
  (e_receive (e_pack (ta_amount x) (ta_decimals x)) g = None <->
     ta_decimals x < g /\ u64_max < ta_amount x * 10 ^ (Z.min 8 g - ta_decimals x)).
Proof. exact solana_to_evm. Qed.
Print Assumptions C93_to_evm.

(** 1.5 tokens each way between 9 and 18 decimals; a Solana token of 5 decimals, of which 184467440737 can be redeemed on the EVM side and
    184467440738 cannot, though Solana takes them. *)
Example C93_case :
  e_send 1500000000000000000 18 9 = Some (e_pack 150000000 8) /\ e_send 1500000000000000001 18 9 = None /\
  untrim (Trim 150000000 8) 9 = Ok 1500000000 /\
  remove_dust 1500000001 9 18 = Ok (1500000000, Trim 150000000 8) /\ e_receive (e_pack 150000000 8) 18 = Some 1500000000000000000 /\
  remove_dust 18446744073700000 5 18 = Ok (18446744073700000, Trim 18446744073700000 5) /\
  e_receive (e_pack 18446744073700000 5) 18 = Some 184467440737000000000000000000 /\
  remove_dust 18446744073800000 5 18 = Ok (18446744073800000, Trim 18446744073800000 5) /\
  e_receive (e_pack 18446744073800000 5) 18 = None.
Proof. repeat split; vm_compute; reflexivity. Qed.

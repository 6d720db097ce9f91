(** * Account storage.

    Anchor's [#[account]] storage: eight discriminator bytes, the Borsh encoding, then whatever padding the allocated
    space leaves. Records with [K := bytes] (32-byte keys). *)
From Coq Require Import String.
From Verif Require Export Borsh AccountTypes Sha256.
Import ListNotations.
Local Open Scope Z_scope.

(** config.rs:27-58 *)
Definition c_mode : codec mode :=
  Codec (fun m => [match m with Locking => x00 | Burning => x01 end])
        (do b <- take 1; match b with [x00] => rret Locking | [x01] => rret Burning | _ => rfail end) 1.
Definition c_config : codec (config bytes) :=
  c_iso (fun '(a, (b, (c, (d, (e, (f, (g, (h, (i, (j, (k, l))))))))))) => Config a b c d e f g h i j k l)
        (fun c => (cf_bump c, (cf_owner c, (cf_pending c, (cf_mint c, (cf_token_program c, (cf_mode c, (cf_chain c,
           (cf_next c, (cf_threshold c, (cf_enabled c, (cf_paused c, cf_custody c))))))))))))
        (c_u8 ** c_b32 ** c_option c_b32 ** c_b32 ** c_b32 ** c_mode ** c_u16 ** c_u8 ** c_u8 ** c_u128 ** c_bool ** c_b32).

(** peer.rs:3-10 *)
Definition c_peer : codec (peer bytes) :=
  c_iso (fun '(a, (b, c)) => Peer a b c) (fun p => (pe_bump p, (pe_address p, pe_decimals p))) (c_u8 ** c_b32 ** c_u8).

(** queue/rate_limit.rs:5-18 *)
Definition c_rl : codec rl :=
  c_iso (fun '(a, (b, c)) => RL a b c) (fun r => (rl_limit r, (rl_cap r, rl_last r))) (c_u64 ** c_u64 ** c_i64).

(** queue/outbox.rs:43-47 *)
Definition c_outbox_rl : codec rl := c_rl.
(** queue/inbox.rs:64-71: bump, rate limit *)
Definition c_inbox_rl : codec (Z * rl) := c_u8 ** c_rl.

(** ntt-messages trimmed_amount.rs: amount, decimals *)
Definition c_trimmed : codec trimmed :=
  c_iso (fun '(a, d) => Trim a d) (fun t => (ta_amount t, ta_decimals t)) (c_u64 ** c_u8).

(** queue/outbox.rs:10-21 *)
Definition c_outbox_item : codec (outbox_item bytes) :=
  c_iso (fun '(a, (b, (c, (d, (e, (f, g)))))) => OutboxItem a b c d e f g)
        (fun o => (ob_amount o, (ob_sender o, (ob_chain o, (ob_manager o, (ob_recipient o, (ob_release o, ob_released o)))))))
        (c_trimmed ** c_b32 ** c_u16 ** c_b32 ** c_b32 ** c_i64 ** c_u128).

(** queue/inbox.rs:27-32 *)
Definition c_status : codec release_status :=
  Codec (fun s => match s with
                  | NotApproved => [x00]
                  | ReleaseAfter t => x01 :: c_enc c_i64 t
                  | Released => [x02] end)
        (do b <- take 1; match b with
                         | [x00] => rret NotApproved
                         | [x01] => do t <- c_dec c_i64; rret (ReleaseAfter t)
                         | [x02] => rret Released
                         | _ => rfail end) (1 + 8).
(** queue/inbox.rs:9-21 *)
Definition c_inbox_item : codec (inbox_item bytes) :=
  c_iso (fun '(a, (b, (c, (d, (e, f))))) => InboxItem a b c d e f)
        (fun i => (ib_init i, (ib_bump i, (ib_amount i, (ib_recipient i, (ib_votes i, ib_status i))))))
        (c_bool ** c_u8 ** c_u64 ** c_b32 ** c_u128 ** c_status).

(** registered_transceiver.rs:3-9 *)
Definition c_registered : codec (registered bytes) :=
  c_iso (fun '(a, (b, c)) => Registered a b c) (fun r => (rt_bump r, (rt_id r, rt_address r))) (c_u8 ** c_u8 ** c_b32).

(** transceivers/accounts/peer.rs:3-9 *)
Definition c_xpeer : codec (xpeer bytes) :=
  c_iso (fun '(a, b) => XPeer a b) (fun p => (xp_bump p, xp_address p)) (c_u8 ** c_b32).
(** instructions/luts.rs:31-36 *)
Definition c_lut : codec (lut bytes) :=
  c_iso (fun '(a, b) => Lut a b) (fun p => (lu_bump p, lu_address p)) (c_u8 ** c_b32).

(** ntt-messages ntt.rs:15-27 (Borsh order: amount, source_token, to_chain, to, additional_payload = EmptyPayload). *)
Definition c_ntt : codec std_ntt :=
  c_iso (fun '(a, (s, (c, (t, p)))) => Ntt a s c t p)
        (fun m => (n_amount m, (n_source_token m, (n_to_chain m, (n_to m, n_payload m)))))
        (c_trimmed ** c_b32 ** c_u16 ** c_b32 ** c_unit).
(** ntt-messages ntt_manager.rs:15-19 *)
Definition c_nmm : codec std_nmm :=
  c_iso (fun '(i, (s, p)) => Nmm i s p) (fun m => (m_id m, (m_sender m, m_payload m))) (c_b32 ** c_b32 ** c_ntt).
(** ntt-messages transceiver.rs:20-24 *)
Definition c_tmd : codec (tmd (ntt unit)) :=
  c_iso (fun '(s, (r, m)) => Tmd s r m) (fun t => (t_source t, (t_recipient t, t_nmm t))) (c_b32 ** c_b32 ** c_nmm).
(** messages.rs:8-13 (and programs/ntt-transceiver/src/messages.rs:5-10): from_chain, message. The allocated space is that of
    the doubly wrapped type named in receive_message.rs:47. *)
Definition vtm := (Z * tmd (ntt unit))%type.
Definition c_vtm : codec vtm :=
  let c := c_u16 ** c_tmd in Codec (c_enc c) (c_dec c) (2 + (32 + 32 + (32 + 32 + c_space c_tmd))).

(** ntt-quoter/src/state.rs *)
Definition c_instance : codec (instance bytes) :=
  c_iso (fun '(a, (b, (c, d))) => Instance a b c d)
        (fun i => (in_owner i, (in_assistant i, (in_fee_recipient i, in_sol_price i)))) (c_b32 ** c_b32 ** c_b32 ** c_u64).
Definition c_reg_chain : codec reg_chain :=
  c_iso (fun '(a, (b, (c, (d, e)))) => RegChain a b c d e)
        (fun r => (rc_bump r, (rc_max_dropoff r, (rc_base_price r, (rc_native_price r, rc_gas_price r)))))
        (c_u8 ** c_u64 ** c_u64 ** c_u64 ** c_u64).
Definition c_reg_ntt : codec reg_ntt :=
  c_iso (fun '(a, (b, c)) => RegNtt a b c) (fun r => (rn_bump r, (rn_index r, rn_gas_cost r))) (c_u8 ** c_u8 ** c_u32).
Definition c_relay_request : codec relay_request := c_iso RelayRequest rr_dropoff c_u64.
(** wormhole-governance governance.rs:28-32 *)
Definition c_replay : codec Z := c_u8.

(** ** Kinds of accounts *)
Inductive kind :=
  | KConfig | KPeer | KOutboxItem | KOutboxRateLimit | KInboxItem | KInboxRateLimit | KRegistered | KXPeer | KVtm | KLut
  | KInstance | KRegChain | KRegNtt | KRelayRequest | KReplay.

Definition contents (k : kind) : Type :=
  match k with
  | KConfig => config bytes | KPeer => peer bytes | KOutboxItem => outbox_item bytes | KOutboxRateLimit => rl
  | KInboxItem => inbox_item bytes | KInboxRateLimit => Z * rl | KRegistered => registered bytes
  | KXPeer => xpeer bytes | KVtm => vtm | KLut => lut bytes
  | KInstance => instance bytes | KRegChain => reg_chain | KRegNtt => reg_ntt | KRelayRequest => relay_request | KReplay => Z
  end.

Definition codec_of (k : kind) : codec (contents k) :=
  match k with
  | KConfig => c_config | KPeer => c_peer | KOutboxItem => c_outbox_item | KOutboxRateLimit => c_outbox_rl
  | KInboxItem => c_inbox_item | KInboxRateLimit => c_inbox_rl | KRegistered => c_registered
  | KXPeer => c_xpeer | KVtm => c_vtm | KLut => c_lut
  | KInstance => c_instance | KRegChain => c_reg_chain | KRegNtt => c_reg_ntt | KRelayRequest => c_relay_request | KReplay => c_replay
  end.

(** The Rust struct name, from which Anchor derives the discriminator. *)
Definition struct_name (k : kind) : string :=
  match k with
  | KConfig => "Config" | KPeer => "NttManagerPeer" | KOutboxItem => "OutboxItem" | KOutboxRateLimit => "OutboxRateLimit"
  | KInboxItem => "InboxItem" | KInboxRateLimit => "InboxRateLimit" | KRegistered => "RegisteredTransceiver"
  | KXPeer => "TransceiverPeer" | KVtm => "ValidatedTransceiverMessage" | KLut => "LUT"
  | KInstance => "Instance" | KRegChain => "RegisteredChain" | KRegNtt => "RegisteredNtt" | KRelayRequest => "RelayRequest"
  | KReplay => "ReplayProtection"
  end%string.

Definition discriminator (k : kind) : bytes := firstn 8 (sha256 (str "account:" ++ str (struct_name k))).

(** [space = 8 + T::INIT_SPACE] in every [init] constraint. *)
Definition space (k : kind) : nat := 8 + c_space (codec_of k).

(** [AccountSerialize::try_serialize] at instruction exit: discriminator and encoding over the front of the data. *)
Definition overwrite (data new : bytes) : option bytes :=
  if (length new <=? length data)%nat then Some (new ++ skipn (length new) data) else None.
Definition store (k : kind) (data : bytes) (a : contents k) : option bytes :=
  overwrite data (discriminator k ++ c_enc (codec_of k) a).

(** [AccountDeserialize::try_deserialize]: check the discriminator, decode, ignore the rest. *)
Definition load (k : kind) (data : bytes) : option (contents k) :=
  if (8 <=? length data)%nat && bytes_eqb (firstn 8 data) (discriminator k)
  then match c_dec (codec_of k) (skipn 8 data) with Some (a, _) => Some a | None => None end
  else None.

(** ** In-place accessors of validated messages *)
(** messages.rs:18-27 *)
Definition discriminator_check (data : bytes) : bool :=
  (8 <=? length data)%nat && bytes_eqb (firstn 8 data) (discriminator KVtm).
(** slicing [&data[a..b]]: [None] is the out-of-bounds panic *)
Definition slice (a b : nat) (l : bytes) : option bytes :=
  if (a <=? b)%nat && (b <=? length l)%nat then Some (firstn (b - a) (skipn a l)) else None.
Definition slice_from (a : nat) (l : bytes) : option bytes := slice a (length l) l.
(** messages.rs:41-49 *)
Definition acc_from_chain (data : bytes) : option Z :=
  if discriminator_check data then option_map Bytes.le_dec (slice 8 10 data) else None.
(** messages.rs:51-54 *)
Definition acc_message (data : bytes) : option bytes :=
  if discriminator_check data then slice_from 10 data else None.
(** transceiver.rs:39-41, 43-45, 47-52 on the span *)
Definition acc_source (span : bytes) : option bytes := slice 0 32 span.
Definition acc_recipient (span : bytes) : option bytes := slice 32 64 span.
Definition acc_payload (span : bytes) : option std_nmm :=
  match slice_from 64 span with
  | Some l => option_map fst (c_dec c_nmm l)
  | None => None
  end.
(** messages.rs:29-39 [try_from]: owner check then [try_deserialize] *)
Definition vtm_try_from {O} (owner_eqb : O -> O -> bool) (owner expected : O) (data : bytes) : option vtm :=
  if owner_eqb owner expected then load KVtm data else None.

(** ** Field ranges of the Rust types *)
Definition wf_rl_fields (r : rl) : Prop := is_u64 (rl_limit r) /\ is_u64 (rl_cap r) /\ is_i64 (rl_last r).
Definition wf_contents (k : kind) : contents k -> Prop :=
  match k with
  | KConfig => fun c => is_u8 (cf_bump c) /\ is32 (cf_owner c) /\ (match cf_pending c with Some p => is32 p | None => True end)
      /\ is32 (cf_mint c) /\ is32 (cf_token_program c) /\ is_u16 (cf_chain c) /\ is_u8 (cf_next c) /\ is_u8 (cf_threshold c)
      /\ is_u128 (cf_enabled c) /\ is32 (cf_custody c)
  | KPeer => fun p => is_u8 (pe_bump p) /\ is32 (pe_address p) /\ is_u8 (pe_decimals p)
  | KOutboxItem => fun o => wf_trimmed (ob_amount o) /\ is32 (ob_sender o) /\ is_u16 (ob_chain o) /\ is32 (ob_manager o)
      /\ is32 (ob_recipient o) /\ is_i64 (ob_release o) /\ is_u128 (ob_released o)
  | KOutboxRateLimit => wf_rl_fields
  | KInboxItem => fun i => is_u8 (ib_bump i) /\ is_u64 (ib_amount i) /\ is32 (ib_recipient i) /\ is_u128 (ib_votes i)
      /\ (match ib_status i with ReleaseAfter t => is_i64 t | _ => True end)
  | KInboxRateLimit => fun p => is_u8 (fst p) /\ wf_rl_fields (snd p)
  | KRegistered => fun r => is_u8 (rt_bump r) /\ is_u8 (rt_id r) /\ is32 (rt_address r)
  | KXPeer => fun p => is_u8 (xp_bump p) /\ is32 (xp_address p)
  | KVtm => fun v => is_u16 (fst v) /\ is32 (t_source (snd v)) /\ is32 (t_recipient (snd v)) /\ wf_nmm (wf_ntt no_constraint) (t_nmm (snd v))
  | KLut => fun p => is_u8 (lu_bump p) /\ is32 (lu_address p)
  | KInstance => fun i => is32 (in_owner i) /\ is32 (in_assistant i) /\ is32 (in_fee_recipient i) /\ is_u64 (in_sol_price i)
  | KRegChain => fun r => is_u8 (rc_bump r) /\ is_u64 (rc_max_dropoff r) /\ is_u64 (rc_base_price r) /\ is_u64 (rc_native_price r) /\ is_u64 (rc_gas_price r)
  | KRegNtt => fun r => is_u8 (rn_bump r) /\ is_u8 (rn_index r) /\ 0 <= rn_gas_cost r < 2 ^ 32
  | KRelayRequest => fun r => is_u64 (rr_dropoff r)
  | KReplay => fun z => is_u8 z
  end.

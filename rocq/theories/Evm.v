(** * The EVM side of the protocol: its codecs and its arithmetic of amounts.

    Source: evm/src/libraries/TransceiverStructs.sol, evm/src/libraries/TrimmedAmount.sol, evm/src/NttManager/NttManager.sol,
    evm/src/Transceiver/WormholeTransceiver/WormholeTransceiverState.sol. [None] is a revert. [bytes4], [bytes32] are byte lists; [uint8], [uint16], [uint64],
    [uint256] are numbers. Not part of the programs under verification; written down to say that the two sides agree (C92, C93). *)
From Verif Require Export Wire.
Local Open Scope Z_scope.

(** ** Bytes. [abi.encodePacked] puts values one after the other, numbers big-endian. The readers of wormhole-solidity-sdk's BytesParsing (not in the
    repository) do not check bounds; they move an offset, which [checkLength] compares with the length in the end. So reading beyond the end
    reverts, at the latest there, and so does anything left over. *)
Definition e_whole {A} (r : reader A) (b : bytes) : option A := match r b with Some (a, []) => Some a | _ => None end.
(** [if (x.length > type(uint16).max) revert PayloadTooLong(x.length)], then [uint16(x.length)] *)
Definition e_length (x : bytes) : option bytes := if Z.of_nat (length x) <=? u16_max then Some (be_enc 2 (Z.of_nat (length x))) else None.

(** ** TrimmedAmount.sol: a [uint72], the amount in the upper 64 bits *)
(** TrimmedAmount.sol:32-41 *)
Definition e_pack (amount decimals : Z) : Z := Z.lor (Z.shiftl amount 8) decimals.
(** 98-113 *)
Definition e_amount (v : Z) : Z := Z.shiftr v 8 mod 2 ^ 64.
Definition e_decimals (v : Z) : Z := Z.land v 255.

(** Checked arithmetic of Solidity 0.8; [10 ** n] has the type [uint256]. *)
Definition u256_max : Z := 2 ^ 256 - 1.
Definition e_checked (z : Z) : option Z := if z <=? u256_max then Some z else None.
Notation "'let!' x := e 'in' b" := (match e with Some x => b | None => None end) (at level 200, x pattern, right associativity).
(** 147-161 *)
Definition e_scale (amount from to : Z) : option Z :=
  if from =? to then Some amount
  else if to <? from then let! f := e_checked (10 ^ (from - to)) in Some (amount / f)
  else let! f := e_checked (10 ^ (to - from)) in e_checked (amount * f).
(** [SafeCast.toUint64] *)
Definition e_u64 (z : Z) : option Z := if z <=? u64_max then Some z else None.
(** 24, 14-16, 186-197 *)
Definition e_trim (amount from to : Z) : option Z :=
  let to' := Z.min (Z.min 8 from) to in
  let! a := e_scale amount from to' in
  let! a := e_u64 a in Some (e_pack a to').
(** 199-205 *)
Definition e_untrim (v to : Z) : option Z := e_scale (e_amount v) (e_decimals v) to.

(** NttManager.sol:663-685: what a transfer of [amount] puts into the message; [from] is [tokenDecimals()], [to] what the peer was said to have. *)
Definition e_send (amount from to : Z) : option Z :=
  if to =? 0 then None
  else
    let! v := e_trim amount from to in
    let! a := e_untrim v from in
    if a =? amount then Some v else None.
(** NttManager.sol:241-243, 616-638: what the recipient gets for the amount [v] of a message *)
Definition e_receive (v decimals : Z) : option Z :=
  let! a := e_untrim v decimals in
  let! w := e_trim a decimals decimals in
  e_untrim w decimals.

(** ** TransceiverStructs.sol *)
(** 37-39 *)
Definition E_NTT_PREFIX : bytes := be_enc 4 0x994E5454.
(** WormholeTransceiverState.sol:41, 45, 49 *)
Definition E_PAYLOAD_PREFIX : bytes := be_enc 4 0x9945FF10.
Definition E_INIT_PREFIX : bytes := be_enc 4 0x9c23bd3b.
Definition E_REGISTRATION_PREFIX : bytes := be_enc 4 0x18fc67c2.

(** NativeTokenTransfer, 97-119 *)
Record e_ntt := ENtt { ee_amount : Z; ee_token : bytes; ee_to : bytes; ee_chain : Z; ee_extra : bytes }.
(** 121-151 *)
Definition e_encode_ntt (m : e_ntt) : option bytes :=
  let b := E_NTT_PREFIX ++ be_enc 1 (e_decimals (ee_amount m)) ++ be_enc 8 (e_amount (ee_amount m)) ++ ee_token m ++ ee_to m ++ be_enc 2 (ee_chain m) in
  match ee_extra m with
  | [] => Some b
  | x => let! n := e_length x in Some (b ++ n ++ x)
  end.
(** 156-187 *)
Definition e_parse_ntt : bytes -> option e_ntt := e_whole (
  do prefix <- take 4; do _ <- rguard (bytes_eqb prefix E_NTT_PREFIX);
  do d <- be_u8; do a <- be_u64; do token <- take 32; do to <- take 32; do chain <- be_u16;
  do extra <- (fun l => if (2 <=? length l)%nat then (do n <- be_u16; take (Z.to_nat n)) l else Some ([], l));
  rret (ENtt (e_pack a d) token to chain extra)).

(** NttManagerMessage, 41-56 *)
Record e_nmm := ENmm { en_id : bytes; en_sender : bytes; en_payload : bytes }.
(** 72-80 *)
Definition e_encode_nmm (m : e_nmm) : option bytes := let! n := e_length (en_payload m) in Some (en_id m ++ en_sender m ++ n ++ en_payload m).
(** 85-95 *)
Definition e_parse_nmm : bytes -> option e_nmm := e_whole (
  do id <- take 32; do sender <- take 32; do n <- be_u16; do p <- take (Z.to_nat n); rret (ENmm id sender p)).
(** 58-70: the bytes that are hashed *)
Definition e_preimage (chain : Z) (m : e_nmm) : option bytes := let! b := e_encode_nmm m in Some (be_enc 2 chain ++ b).

(** TransceiverMessage, 189-207 *)
Record e_tm := ETm { et_source : bytes; et_recipient : bytes; et_manager : bytes; et_payload : bytes }.
(** 215-238 *)
Definition e_encode_tm (prefix : bytes) (m : e_tm) : option bytes :=
  let! n := e_length (et_manager m) in
  let! k := e_length (et_payload m) in
  Some (prefix ++ et_source m ++ et_recipient m ++ n ++ et_manager m ++ k ++ et_payload m).
(** 262-288 *)
Definition e_parse_tm (prefix : bytes) : bytes -> option e_tm := e_whole (
  do px <- take 4; do _ <- rguard (bytes_eqb px prefix);
  do s <- take 32; do r <- take 32; do n <- be_u16; do m <- take (Z.to_nat n); do k <- be_u16; do p <- take (Z.to_nat k);
  rret (ETm s r m p)).

(** A transfer as it leaves (NttManager.sol:521-590 [_transfer], WormholeTransceiver.sol:178-196, whose own payload is empty) and as it arrives
    (WormholeTransceiver.sol:70-74 with TransceiverStructs.sol:294-308, then NttManager.sol:234-235). *)
Definition e_sent (source recipient id sender : bytes) (p : e_ntt) (tp : bytes) : option bytes :=
  let! b := e_encode_ntt p in
  let! m := e_encode_nmm (ENmm id sender b) in
  e_encode_tm E_PAYLOAD_PREFIX (ETm source recipient m tp).
Definition e_arrives (b : bytes) : option (e_tm * e_nmm * e_ntt) :=
  let! t := e_parse_tm E_PAYLOAD_PREFIX b in
  let! m := e_parse_nmm (et_manager t) in
  let! p := e_parse_ntt (en_payload m) in
  Some (t, m, p).

(** TransceiverInit, 409-439; TransceiverRegistration, 441-465. The mode is IManagerBase.sol:11-14, [LOCKING], [BURNING]. *)
Record e_init := EInit { ei_prefix : bytes; ei_manager : bytes; ei_mode : Z; ei_token : bytes; ei_decimals : Z }.
Definition e_encode_init (i : e_init) : bytes := ei_prefix i ++ ei_manager i ++ be_enc 1 (ei_mode i) ++ ei_token i ++ be_enc 1 (ei_decimals i).
Definition e_decode_init : bytes -> option e_init := e_whole (
  do p <- take 4; do m <- take 32; do md <- be_u8; do t <- take 32; do d <- be_u8; rret (EInit p m md t d)).
Record e_reg := EReg { er_prefix : bytes; er_chain : Z; er_address : bytes }.
Definition e_encode_reg (r : e_reg) : bytes := er_prefix r ++ be_enc 2 (er_chain r) ++ er_address r.
Definition e_decode_reg : bytes -> option e_reg := e_whole (do p <- take 4; do c <- be_u16; do a <- take 32; rret (EReg p c a)).

(** * The client library: its layouts, its digests and the addresses it derives.

    Source: sdk/definitions/src/layouts/*.ts, sdk/definitions/src/ntt.ts, solana/ts/lib/ntt.ts, solana/ts/lib/utils.ts, solana/ts/lib/quoter.ts
    (TypeScript). Not part of the programs under verification; written down to say that client and programs agree (C94). [None] is a thrown error.
    The interpreter of layouts is @wormhole-foundation/sdk-base's [serializeLayout] and [deserializeLayout] (not in the repository), of which the
    items used here are modelled; it reads a string to its end or throws. *)
From Coq Require Import String.
From Verif Require Export Wire Seeds.
Import ListNotations.
Local Open Scope Z_scope.

(** What an item holds: a number or bytes. An object is the list of the values of its items, objects inside it spliced in. *)
Inductive cval := VN (z : Z) | VB (b : bytes).

Inductive layout :=
  | LEnd
  (** prefix.ts:2-8: given bytes, not part of the object *)
  | LConst (b : bytes) (rest : layout)
  (** [binary: "uint", size] *)
  | LUint (size : nat) (rest : layout)
  (** the same, [endianness: "little"] *)
  | LUintLe (size : nat) (rest : layout)
  (** [layoutItems.chainItem()]: two bytes, one of the chains the library knows *)
  | LChain (rest : layout)
  (** [binary: "bytes", size]; [layoutItems.universalAddressItem] has 32 *)
  | LBytes (size : nat) (rest : layout)
  (** [binary: "bytes", lengthSize] with a layout, and with given bytes *)
  | LSized (lengthSize : nat) (inner rest : layout)
  | LFixed (lengthSize : nat) (b : bytes) (rest : layout)
  (** transfer.ts:32-49 [optionalAdditionalPayloadItem], which takes all that is left *)
  | LExtra
  (** [binary: "bytes"] without a size: all that is left *)
  | LRest
  (** utils.ts:49-65: [binary: "switch", idSize: 1] with an empty layout for 0 and [some] for 1 *)
  | LOption (some : layout) (rest : layout).

(** transfer.ts:35-41 *)
Definition extra_to (b : bytes) : bytes :=
  if (2 <=? List.length b)%nat then firstn (Z.to_nat (be_dec (firstn 2 b))) (skipn 2 b) else [].
(** transfer.ts:42-47 *)
Definition extra_from (b : bytes) : option bytes :=
  match b with
  | [] => Some []
  | _ => if Z.of_nat (List.length b) <? 65536 then Some (be_enc 2 (Z.of_nat (List.length b)) ++ b) else None
  end.

Section Layouts.
(** The chains the library knows. *)
Context (known : Z -> bool).

Fixpoint c_read (l : layout) : reader (list cval) :=
  match l with
  | LEnd => rret []
  | LConst b k => do x <- take (List.length b); do _ <- rguard (bytes_eqb x b); c_read k
  | LUint n k => do z <- be_u n; do v <- c_read k; rret (VN z :: v)
  | LUintLe n k => do z <- le_u n; do v <- c_read k; rret (VN z :: v)
  | LChain k => do z <- be_u 2; do _ <- rguard (known z); do v <- c_read k; rret (VN z :: v)
  | LBytes n k => do x <- take n; do v <- c_read k; rret (VB x :: v)
  | LSized n s k =>
      do z <- be_u n; do x <- take (Z.to_nat z);
      do a <- (fun r => match c_read s x with Some (a, []) => Some (a, r) | _ => None end);
      do v <- c_read k; rret (a ++ v)
  | LFixed n b k => do z <- be_u n; do x <- take (Z.to_nat z); do _ <- rguard (bytes_eqb x b); do v <- c_read k; rret (VB x :: v)
  | LExtra => fun r => Some ([VB (extra_to r)], [])
  | LRest => fun r => Some ([VB r], [])
  | LOption s k =>
      do z <- be_u 1;
      match z with
      | 0 => do v <- c_read k; rret (VN 0 :: v)
      | 1 => do a <- c_read s; do v <- c_read k; rret (VN 1 :: a ++ v)
      | _ => rfail
      end
  end.
Definition c_deserialize (l : layout) (b : bytes) : option (list cval) := match c_read l b with Some (v, []) => Some v | _ => None end.

Notation "'let!' x := e 'in' b" := (match e with Some x => b | None => None end) (at level 200, x pattern, right associativity).
Definition fits_in (n : nat) (z : Z) : bool := (0 <=? z) && (z <? 256 ^ Z.of_nat n).
(** The bytes, and the values left over. *)
Fixpoint c_write (l : layout) (v : list cval) : option (bytes * list cval) :=
  match l, v with
  | LEnd, _ => Some ([], v)
  | LConst b k, _ => let! (x, r) := c_write k v in Some (b ++ x, r)
  | LUint n k, VN z :: v => if fits_in n z then let! (x, r) := c_write k v in Some (be_enc n z ++ x, r) else None
  | LUintLe n k, VN z :: v => if fits_in n z then let! (x, r) := c_write k v in Some (le_enc n z ++ x, r) else None
  | LChain k, VN z :: v => if fits_in 2 z && known z then let! (x, r) := c_write k v in Some (be_enc 2 z ++ x, r) else None
  | LBytes n k, VB b :: v => if (List.length b =? n)%nat then let! (x, r) := c_write k v in Some (b ++ x, r) else None
  | LSized n s k, _ =>
      let! (x, r) := c_write s v in
      if fits_in n (Z.of_nat (List.length x)) then let! (y, r) := c_write k r in Some (be_enc n (Z.of_nat (List.length x)) ++ x ++ y, r) else None
  | LFixed n b k, VB x :: v =>
      if bytes_eqb x b && fits_in n (Z.of_nat (List.length x)) then let! (y, r) := c_write k v in Some (be_enc n (Z.of_nat (List.length x)) ++ x ++ y, r)
      else None
  | LExtra, VB b :: v => let! x := extra_from b in Some (x, v)
  | LRest, VB b :: v => Some (b, v)
  | LOption s k, VN z :: v =>
      match z with
      | 0 => let! (x, r) := c_write k v in Some (be_enc 1 0 ++ x, r)
      | 1 => let! (x, r) := c_write s v in let! (y, r) := c_write k r in Some (be_enc 1 1 ++ x ++ y, r)
      | _ => None
      end
  | _, _ => None
  end.
Definition c_serialize (l : layout) (v : list cval) : option bytes := match c_write l v with Some (b, []) => Some b | _ => None end.
End Layouts.

(** ** The layouts *)
(** amount.ts:5-13, in place *)
Definition c_amount (rest : layout) : layout := LUint 1 (LUint 8 rest).
(** transfer.ts:55-62 [nativeTokenTransferLayout] *)
Definition c_ntt : layout :=
  LConst [x99; x4e; x54; x54]%byte (c_amount (LBytes 32 (LBytes 32 (LChain LExtra)))).
(** manager.ts:12-21 [nttManagerMessageLayout], with that payload *)
Definition c_nmm : layout := LBytes 32 (LBytes 32 (LSized 2 c_ntt LEnd)).
(** transceiver.ts:15-35 [transceiverMessageLayout] with wormhole.ts:11-20, index.ts:14-16: the transceiver's payload is given as empty *)
Definition c_wh : layout := LConst [x99; x45; xff; x10]%byte (LBytes 32 (LBytes 32 (LSized 2 c_nmm (LFixed 2 [] LEnd)))).
(** transceiver.ts:38-44, 50-54 *)
Definition c_info : layout := LConst [x9c; x23; xbd; x3b]%byte (LBytes 32 (LUint 1 (LBytes 32 (LUint 1 LEnd)))).
Definition c_reg : layout := LConst [x18; xfc; x67; xc2]%byte (LChain (LBytes 32 LEnd)).

(** ** Digests *)
(** [encoding.bignum.toBytes(z, n)] *)
Definition to_bytes (z : Z) (n : nat) : option bytes := if fits_in n z then Some (be_enc n z) else None.
(** definitions/src/ntt.ts:115-125 [messageDigest]: the hashed bytes *)
Definition c_preimage (known : Z -> bool) (chain : Z) (v : list cval) : option bytes := to_bytes chain 2 +++ c_serialize known c_nmm v.

(** [BN.toArray()]: big-endian, without leading zeros, at least one byte *)
Fixpoint to_array (fuel : nat) (z : Z) : bytes :=
  match fuel with
  | O => []
  | S f => if z <? 256 then [byte_of_Z z] else to_array f (z / 256) ++ [byte_of_Z (z mod 256)]
  end.
(** [encoding.bytes.zpad(b, n)]: zeros in front *)
Definition zpad (b : bytes) (n : nat) : option bytes :=
  if (List.length b <=? n)%nat then Some (repeat x00 (n - List.length b) ++ b) else None.
(** ts/lib/ntt.ts:106-124 [sessionAuthority]: the hashed bytes. A [u64] has at most eight bytes; 32 leave room for any number of 256 bits. *)
Definition c_args_preimage (a : transfer_args) : option bytes :=
  zpad (to_array 32 (a_amount a)) 8 +++ to_bytes (a_chain a) 2 +++ Some (a_recipient a) +++ Some [if a_queue a then x01 else x00].

(** ** Addresses: the lists of seeds given to [derivePda] (utils.ts:88-98), by what the library calls them *)
Inductive c_address :=
  (** ts/lib/ntt.ts:84-124 *)
  | configAccount | inboxRateLimitAccount (chain : Z) | inboxItemAccount (digest : bytes) | outboxRateLimitAccount | tokenAuthority
  | peerAccount (chain : Z) | registeredTransceiver (transceiver : bytes) | lutAccount | lutAuthority | sessionAuthority (sender digest : bytes)
  (** ts/lib/ntt.ts:144-155 *)
  | emitterAccount | outboxItemSigner | transceiverPeerAccount (chain : Z) | transceiverMessageAccount (chain : Z) (id : bytes)
  | wormholeMessageAccount (item : bytes)
  (** ts/lib/utils.ts:103-111; ts/lib/quoter.ts:53, 412-431 *)
  | instanceAccount | registeredNttAccount (program : bytes) | relayRequestAccount (item : bytes) | registeredChainAccount (chain : Z).

Definition c_seeds (a : c_address) : option (list bytes) :=
  let chain_seed s c := match to_bytes c 2 with Some b => Some [str s; b] | None => None end in
  match a with
  | configAccount => Some [str "config"]
  | inboxRateLimitAccount c => chain_seed "inbox_rate_limit"%string c
  | inboxItemAccount d => Some [str "inbox_item"; d]
  | outboxRateLimitAccount => Some [str "outbox_rate_limit"]
  | tokenAuthority => Some [str "token_authority"]
  | peerAccount c => chain_seed "peer"%string c
  | registeredTransceiver t => Some [str "registered_transceiver"; t]
  | lutAccount => Some [str "lut"]
  | lutAuthority => Some [str "lut_authority"]
  | sessionAuthority s d => Some [str "session_authority"; s; d]
  | emitterAccount => Some [str "emitter"]
  | outboxItemSigner => Some [str "outbox_item_signer"]
  | transceiverPeerAccount c => chain_seed "transceiver_peer"%string c
  | transceiverMessageAccount c i => match to_bytes c 2 with Some b => Some [str "transceiver_message"; b; i] | None => None end
  | wormholeMessageAccount i => Some [str "message"; i]
  | instanceAccount => Some [str "instance"]
  | registeredNttAccount p => Some [str "registered_ntt"; p]
  | relayRequestAccount i => Some [str "relay_request"; i]
  | registeredChainAccount c => chain_seed "registered_chain"%string c
  end.

(** ** Program data *)
(** ts/lib/utils.ts:45-67 [programDataLayout] *)
Definition c_program_data : layout := LUintLe 8 (LOption (LBytes 32 LEnd) LEnd).
(** ts/lib/utils.ts:68-71 [programVersionLayout] *)
Definition c_version : layout := LUintLe 4 LRest.

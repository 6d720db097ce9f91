(** * Transactions as bytes.

    The library sends a transaction as the bytes that [VersionedTransaction.serialize] of @solana/web3.js 1.x makes of the message of Compress.v (ts/sdk/ntt.ts:885-893,
    1012-1021; the library is not in the repository: transaction/versioned.ts, message/v0.ts, utils/shortvec-encoding.ts). [None] is a thrown error. [receive] is how a
    validator (1.18) reads a packet (perf/src/packet.rs and sdk/program/src/message/versions/mod.rs, sdk/program/src/short_vec.rs, with bincode); [None]: it is dropped.
    Left out: what is in the signatures. *)
From Coq Require Import Arith.
From Verif Require Export Compress.
Import ListNotations.
Local Open Scope nat_scope.

Definition b8 (n : nat) : byte := byte_of_Z (Z.of_nat n).
Definition n8 (b : byte) : nat := Z.to_nat (Z_of_byte b).

(** A transaction: the signatures, the recent block hash, whether the message has a version, the message over the bytes of the keys. *)
Record tx := Tx { tx_signatures : list bytes; tx_hash : bytes; tx_v0 : bool; tx_message : message bytes }.

(** ** Writing *)

(** shortvec-encoding.ts [encodeLength]: seven bits to a byte, the lowest first, the eighth set on all but the last. *)
Fixpoint encode_length (fuel n : nat) : bytes :=
  match fuel with
  | O => []
  | S fuel => if n / 128 =? 0 then [b8 (n mod 128)] else b8 (n mod 128 + 128) :: encode_length fuel (n / 128)
  end.
Definition w_length (n : nat) : option bytes := Some (encode_length 8 n).
(** buffer-layout's [u8] throws if the number does not fit; its blobs throw if the length is another. *)
Definition w_u8 (n : nat) : option bytes := if n <? 256 then Some [b8 n] else None.
Definition w_blob (size : nat) (b : bytes) : option bytes := if length b =? size then Some b else None.
Fixpoint w_all {A} (w : A -> option bytes) (l : list A) : option bytes := match l with [] => Some [] | x :: l => w x +++ w_all w l end.
Definition w_vec {A} (w : A -> option bytes) (l : list A) : option bytes := w_length (length l) +++ w_all w l.
(** v0.ts [serializeInstructions], [serializeAddressTableLookups], [serialize]; PACKET_DATA_SIZE is 1232. *)
Definition w_ix (x : nat * list nat * bytes) : option bytes :=
  let '(p, is, d) := x in w_u8 p +++ w_vec w_u8 is +++ (w_length (length d) +++ Some d).
Definition w_lookup (x : lookup_ bytes) : option bytes := w_blob 32 (lk_table x) +++ w_vec w_u8 (lk_writable x) +++ w_vec w_u8 (lk_readonly x).
Definition w_message (hash : bytes) (v0 : bool) (g : message bytes) : option bytes :=
  Some (if v0 then [b8 128] else []) +++ w_u8 (mg_signatures g) +++ w_u8 (mg_ro_signed g) +++ w_u8 (mg_ro_unsigned g) +++
  w_vec (w_blob 32) (mg_static g) +++ w_blob 32 hash +++ w_vec w_ix (mg_ixs g) +++ (if v0 then w_vec w_lookup (mg_lookups g) else Some []).
(** versioned.ts [serialize] *)
Definition serialize (t : tx) : option bytes :=
  match w_message (tx_hash t) (tx_v0 t) (tx_message t) with
  | Some m =>
    if length m <=? 1232 then
      match w_vec (w_blob 64) (tx_signatures t) with
      | Some s => if length (s ++ m) <=? 2048 then Some (s ++ m) else None
      | None => None
      end
    else None
  | None => None
  end.

(** ** Reading *)
Definition r_u8 : reader nat := fun l => match l with [] => None | b :: l => Some (n8 b, l) end.
(** short_vec.rs [visit_byte]: at most three bytes, no zero byte after the first, at most 65535. *)
Definition r_length : reader nat :=
  do a <- r_u8;
  if a <? 128 then rret a else
  do b <- r_u8;
  if b =? 0 then rfail else
  if b <? 128 then rret (a - 128 + 128 * b) else
  do c <- r_u8;
  if (c =? 0) || negb (c <? 128) then rfail else
  let v := a - 128 + 128 * (b - 128) + 128 * 128 * c in
  if v <? 256 * 256 then rret v else rfail.
Fixpoint r_all {A} (r : reader A) (n : nat) : reader (list A) :=
  match n with O => rret [] | S n => do x <- r; do l <- r_all r n; rret (x :: l) end.
Definition r_vec {A} (r : reader A) : reader (list A) := do n <- r_length; r_all r n.
Definition r_ix : reader (nat * list nat * bytes) := do p <- r_u8; do is <- r_vec r_u8; do n <- r_length; do d <- take n; rret (p, is, d).
Definition r_lookup : reader (lookup_ bytes) := do k <- take 32; do ws <- r_vec r_u8; do rs <- r_vec r_u8; rret (Lookup k ws rs).
(** versions/mod.rs: a first byte from 128 on is a version, of which only 0 is known; a smaller one is the number of signatures of a message without tables. *)
Definition r_body (n : nat) (v0 : bool) : reader (bytes * bool * message bytes) :=
  do a <- r_u8; do b <- r_u8; do ks <- r_vec (take 32); do h <- take 32; do is <- r_vec r_ix;
  if v0 then do ls <- r_vec r_lookup; rret (h, true, Message n a b ks is ls) else rret (h, false, Message n a b ks is []).
Definition r_message : reader (bytes * bool * message bytes) :=
  do a <- r_u8;
  if a <? 128 then r_body a false
  else if a =? 128 then do n <- r_u8; r_body n true
  else rfail.
Definition r_tx : reader tx := do s <- r_vec (take 64); do m <- r_message; rret (Tx s (fst (fst m)) (snd (fst m)) (snd m)).
(** packet.rs [deserialize_slice]: the whole packet, of at most 1232 bytes; transaction/versioned/mod.rs [sanitize]: as many signatures as the message asks for. *)
Definition receive (b : bytes) : option tx :=
  if length b <=? 1232 then
    match r_tx b with
    | Some (t, []) => if length (tx_signatures t) =? mg_signatures (tx_message t) then Some t else None
    | _ => None
    end
  else None.

(** The message with the bytes of the keys. *)
Definition render {K} (key : K -> bytes) (g : message K) : message bytes :=
  Message (mg_signatures g) (mg_ro_signed g) (mg_ro_unsigned g) (map key (mg_static g)) (mg_ixs g)
    (map (fun x => Lookup (key (lk_table x)) (lk_writable x) (lk_readonly x)) (mg_lookups g)).

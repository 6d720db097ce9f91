(** * From the bytes of a transaction to the new state.

    TxWire.v reads a packet as a transaction, Compress.v loads its instructions, Entry.v runs an instruction of the manager and of the
    stand-alone transceiver. This file puts them together as the cluster does: the signatures are checked against all bytes after them, tables are
    looked up, and the instructions run one after the other, all or none. Instructions of any other program are left open: such a program
    can do whatever the model's surroundings can (Exec.v, token programs included) and can call our programs in turn, with the signatures it was
    given and those of addresses derived from third-party programs, but no others. Fees, the age of the block hash and the cluster's memory of
    transactions already seen are left out: they only keep transactions from being run. *)
From Verif Require Export TxWire Entry SpecEntry.
From Coq Require Import List.
Import ListNotations.

(** agave sdk/src/transaction/versioned/mod.rs [verify_with_results]: the n-th signature is one of the n-th key for the bytes of the message. *)
Definition genuine (ed25519 : bytes -> bytes -> bytes -> bool) (t : tx) : bool :=
  match w_message (tx_hash t) (tx_v0 t) (tx_message t) with
  | Some m => forallb (fun x => ed25519 (fst x) m (snd x)) (combine (mg_static (tx_message t)) (tx_signatures t))
  | None => false
  end.

(** [hn] says which account a key is. *)
Definition metas_in (hn : bytes -> handle) (x : cix bytes) : list meta := map (fun a => Meta (hn (ac_key a)) (ac_signer a) (ac_writable a)) (cx_accounts x).
Definition program_at (hn : bytes -> handle) (k : bytes) : option program :=
  match hn k with HA (AProg PManager) => Some AManager | HA (AProg PTransceiver) => Some ATransceiver | _ => None end.
(** Addresses that a third-party program can sign for. *)
Definition third_party (a : addr) : Prop := exists n t z x y, a = APda (PUser n) t z x y.
(** What a program with the accounts [ms] may call. *)
Definition permitted (ms : list meta) (c : call) : Prop :=
  (forall t, ins c <> EClock t) /\ (forall a, In a (signers c) -> given_signer ms a \/ third_party a).

Section Submit.
Context (ed25519 : bytes -> bytes -> bytes -> bool) (hn : bytes -> handle) (nm : bytes -> addr) (H : hashes).

(** One instruction. [ok] is the answer of the programs that ours call, as in Entry.v. *)
Inductive ix_run (x : cix bytes) (s s' : state) : Prop :=
  | ix_ours p ok : program_at hn (cx_program x) = Some p -> entry nm ok H s p (metas_in hn x) (cx_data x) = Ok s' -> ix_run x s s'
  | ix_other tr : program_at hn (cx_program x) = None -> run H s tr s' -> Forall (fun e => permitted (metas_in hn x) (e_call e)) tr -> ix_run x s s'.
Inductive ixs_run : list (cix bytes) -> state -> state -> Prop :=
  | ixs_nil s : ixs_run [] s s
  | ixs_cons x l s s1 s' : ix_run x s s1 -> ixs_run l s1 s' -> ixs_run (x :: l) s s'.

(** A packet that is accepted and run, with the tables as they are. *)
Definition bytes_dec : forall a b : bytes, {a = b} + {a <> b} := list_eq_dec Byte.byte_eq_dec.
Definition lands (tables : bytes -> option (list bytes)) (b : bytes) (s s' : state) : Prop :=
  exists t payer ixs, receive b = Some t /\ genuine ed25519 t = true /\ Compress.load bytes_dec (tx_message t) tables = Some (payer, ixs) /\ ixs_run ixs s s'.

(** Packets one after the other, newest first, and time passing. *)
Inductive chain (s0 : state) : list bytes -> state -> Prop :=
  | chain_nil : chain s0 [] s0
  | chain_time l s t s' : chain s0 l s -> step H s (Call [] (EClock t)) = Ok s' -> chain s0 l s'
  | chain_packet l s tables b s' : chain s0 l s -> lands tables b s s' -> chain s0 (b :: l) s'.
End Submit.

(** ** What it means to have agreed to something, in bytes *)

(** The packet [b] starts with signatures; [k] is a key, and one of the signatures is one of [k] for all the bytes after the signatures. *)
Definition signed_by (ed25519 : bytes -> bytes -> bytes -> bool) (b k : bytes) : Prop :=
  exists sigs m sig, b = encode_length 8 (length sigs) ++ concat sigs ++ m /\ Forall (fun s => length s = 64) sigs /\ In sig sigs /\ ed25519 k m sig = true.
(** The account [o] has signed [b], under some key. *)
Definition agreed (ed25519 : bytes -> bytes -> bytes -> bool) (hn : bytes -> handle) (b : bytes) (o : addr) : Prop :=
  exists k, hn k = HA o /\ signed_by ed25519 b k.

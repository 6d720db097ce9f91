(** * The bytes of symbolic addresses.

    Chain.v writes a program-derived address as a constructor. Here every symbolic address gets its 32 bytes, as the code and Solana compute
    them: seeds, bump search, hash. The hash (SHA-256 in Solana) and the test for points of the curve (ed25519) are parameters. *)
From Coq Require Import String.
From Verif Require Export Chain Seeds.
Import ListNotations.
Local Open Scope Z_scope.

(** Bytes of key pairs, other strings and program ids; [n_seed]: concatenated seeds of derived addresses of programs other than the modelled ones. *)
Record names := Names {
  n_hash : bytes -> bytes;
  n_curve : bytes -> bool;
  n_key : nat -> bytes;
  n_raw : nat -> bytes;
  n_prog : prog -> bytes;
  n_seed : prog -> tag -> Z -> bytes -> bytes -> bytes }.

(** ** Derivation: solana-program 1.18 pubkey.rs *)

(** [create_program_address]: the hash of seeds, program id and marker, which must not be a point of the curve. The limits on number and
    length of the seeds are C14. *)
Definition create (N : names) (seed program : bytes) : option bytes :=
  let x := n_hash N (seed ++ program ++ str "ProgramDerivedAddress") in
  if n_curve N x then None else Some x.
(** [try_find_program_address]: bump seeds 255, 254, ..., 1. *)
Fixpoint find_from (N : names) (seed program : bytes) (bump : nat) : option (bytes * Z) :=
  match bump with
  | O => None
  | S k =>
      match create N (seed ++ be_enc 1 (Z.of_nat bump)) program with
      | Some x => Some (x, Z.of_nat bump)
      | None => find_from N seed program k
      end
  end.
Definition find_address (N : names) (seed program : bytes) : option (bytes * Z) := find_from N seed program 255.

(** Which seeds a tag of Chain.v stands for. *)
Definition purpose_of (t : tag) (z : Z) (a b : bytes) : option purpose :=
  match t with
  | TConfig => Some SConfig
  | TOutboxRL => Some SOutboxRateLimit
  | TTokenAuthority => Some STokenAuthority
  | TInboxRL => Some (SInboxRateLimit z)
  | TPeer => Some (SPeer z)
  | TSession => Some (SSession a b)
  | TInbox => Some (SInboxItem a)
  | TUpgradeLock => Some SUpgradeLock
  | TReg => Some (SRegistered a)
  | TOutboxSigner => Some SOutboxSigner
  | TLut => Some SLut
  | TLutAuthority => Some SLutAuthority
  | TXPeer => Some (SXPeer z)
  | TVtm => Some (SVtm z a)
  | TMessage => Some (SMessage a)
  | TEmitter => Some SEmitter
  | TAta | TUser _ => None
  end.
(** Manager and transceiver: Seeds.v. Associated token accounts: wallet, token program, mint (spl-associated-token-account). Lookup tables:
    authority and slot (address lookup table program, which is [PUser 0] in Lut.v). *)
Definition seed_bytes (N : names) (p : prog) (t : tag) (z : Z) (a b : bytes) : bytes :=
  match p, t with
  | PManager, _ | PTransceiver, _ => match purpose_of t z a b with Some u => List.concat (seeds u) | None => [] end
  | PAta, _ => a ++ n_prog N (if z =? 0 then PToken else PToken22) ++ b
  | PUser O, TLut => a ++ le_enc 8 z
  | _, _ => n_seed N p t z a b
  end.
Fixpoint address (N : names) (a : addr) : option bytes :=
  match a with
  | ANull => Some (repeat x00 32)
  | AKey n => Some (n_key N n)
  | ARaw n => Some (n_raw N n)
  | AProg p => Some (n_prog N p)
  | APda p t z x y =>
      match address N x, address N y with
      | Some u, Some v => option_map fst (find_address N (seed_bytes N p t z u v) (n_prog N p))
      | _, _ => None
      end
  end.

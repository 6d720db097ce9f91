(** * What stored bumps are for. *)
From Coq Require Import String.
From Verif Require Export Bump.
Import ListNotations.
Local Open Scope Z_scope.

(** Accounts with a bump field: config.rs:28, peer.rs:7, queue/inbox.rs:16, 69, registered_transceiver.rs:6, luts.rs:34, transceivers/accounts/peer.rs:7 and
    programs/ntt-transceiver/src/peer.rs:7, programs/ntt-quoter/src/state.rs:26, 40. *)
Definition bump_field (d : data) : bool := match d with DConfig _ | DPeer _ | DInboxItem _ | DInboxRL _ | DReg _ | DLut _ | DXPeer _ => true | _ => false end.
Definition stores (q : qstate) (a : qaddr) : Prop :=
  (exists x p d, a = QExt x /\ st_accts (q_world q) x = Some (Acct p d) /\ (p = PManager \/ p = PTransceiver) /\ bump_field d = true) \/
  (exists c, q_accts q a = Some (QDChain c)) \/ (exists n, q_accts q a = Some (QDNtt n)).

(** Hashes, ids and keys have 32 bytes. *)
Definition wide (N : names) (Q : bytes) : Prop :=
  let k (x : bytes) := List.length x = 32%nat in
  (forall u, k (n_hash N u)) /\ (forall p, k (n_prog N p)) /\ (forall n, k (n_key N n)) /\ (forall n, k (n_raw N n)) /\ k Q.

(** The string hashed for the address of [k] and the string hashed in the check differ and have the same hash. *)
Definition hashed_of (s : purpose) (bump : Z) (program : bytes) : bytes := (List.concat (seeds s) ++ be_enc 1 bump) ++ program ++ str "ProgramDerivedAddress".
Definition forged (N : names) (Q : bytes) (b : bstate) (k : qaddr) (p : pin) : Prop :=
  exists program s bump, place N Q k = Some (program, s) /\ bump_at N Q k = Some bump /\
    let m := hashed_of s bump program in let m' := hashed_of (pn_seeds p) (b_bump b k) (pin_program N Q (pn_kind p)) in
    m <> m' /\ n_hash N m = n_hash N m'.

(** [k] is the account [a]; two registered programs are the same when their ids are. *)
Definition same_place (N : names) (k a : qaddr) : Prop := k = a \/ exists p p', k = QNtt p /\ a = QNtt p' /\ address N p = address N p'.

(** Argument types. *)
Definition typed_args (i : qinstr) : Prop := q_typed i = true /\ (forall j, i = QWorld j -> typed j = true).

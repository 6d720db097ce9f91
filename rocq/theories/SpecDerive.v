(** * What it takes for symbolic addresses to be told apart by their bytes. *)
From Coq Require Import String.
From Verif Require Export Derive Bridge.
Import ListNotations.
Local Open Scope Z_scope.

(** The strings that are hashed to derive [a] and the addresses among its seeds, and the names among them: finitely many. *)
Definition hashed_string (N : names) (p : prog) (seed : bytes) (b : Z) : bytes := (seed ++ be_enc 1 b) ++ n_prog N p ++ str "ProgramDerivedAddress".
Fixpoint hashed (N : names) (a : addr) : list bytes :=
  match a with
  | APda p t z x y =>
      hashed N x ++ hashed N y ++
      match address N x, address N y with
      | Some u, Some v => match find_address N (seed_bytes N p t z u v) (n_prog N p) with Some (_, b) => [hashed_string N p (seed_bytes N p t z u v) b] | None => [] end
      | _, _ => []
      end
  | _ => []
  end.
Fixpoint names_in (a : addr) : list addr := match a with APda _ _ _ x y => names_in x ++ names_in y | _ => [a] end.
(** Two different ones of these strings have the same hash, or one of them has a name as its hash. (Collisions as such exist, hashes being shorter than what is
    hashed; these would be given by the two addresses.) *)
Definition strings_clash (N : names) (a b : addr) : Prop := exists u v, In u (hashed N a) /\ In v (hashed N b) /\ u <> v /\ n_hash N u = n_hash N v.
Definition hits (N : names) (a b : addr) : Prop := exists c u, In c (names_in a) /\ In u (hashed N b) /\ address N c = Some (n_hash N u).
Definition exposed (N : names) (a b : addr) : Prop := strings_clash N a b \/ hits N a b \/ hits N b a.
(** Programs whose derived addresses are left to [n_seed]. *)
Definition foreign (p : prog) : bool := match p with PWormhole | PUser (S _) => true | _ => false end.
Definition base (a : addr) : bool := match a with APda _ _ _ _ _ => false | _ => true end.

(** The names in use ([D], finitely many in any execution) are 32 bytes and differ; the hash has 32 bytes; other programs separate their seeds. *)
Record apart (N : names) (D : addr -> Prop) : Prop := {
  ap_hash : forall u, length (n_hash N u) = 32%nat;
  ap_length : forall a x, D a -> base a = true -> address N a = Some x -> length x = 32%nat;
  ap_distinct : forall a b, D a -> D b -> base a = true -> base b = true -> address N a = address N b -> a = b;
  ap_seed : forall p t z a b t' z' a' b', D (AProg p) -> foreign p = true -> length a = 32%nat -> length b = 32%nat -> length a' = 32%nat -> length b' = 32%nat ->
    n_seed N p t z a b = n_seed N p t' z' a' b' -> t = t' /\ z = z' /\ a = a' /\ b = b' }.

(** Addresses as the model writes them, over names of [D]: parameters within their types, unused ones empty. *)
Fixpoint regular (D : addr -> Prop) (a : addr) : Prop :=
  match a with
  | APda p t z x y =>
      D (AProg p) /\
      match p, t with
      | PManager, (TConfig | TOutboxRL | TTokenAuthority | TUpgradeLock | TLut | TLutAuthority | TOutboxSigner | TEmitter)
      | PTransceiver, (TConfig | TOutboxRL | TTokenAuthority | TUpgradeLock | TLut | TLutAuthority | TOutboxSigner | TEmitter) => z = 0 /\ x = ANull /\ y = ANull
      | PManager, (TPeer | TInboxRL | TXPeer) | PTransceiver, (TPeer | TInboxRL | TXPeer) => is_u16 z /\ x = ANull /\ y = ANull
      | PManager, (TReg | TInbox | TMessage) | PTransceiver, (TReg | TInbox | TMessage) => z = 0 /\ regular D x /\ y = ANull
      | PManager, TVtm | PTransceiver, TVtm => is_u16 z /\ regular D x /\ y = ANull
      | PManager, TSession | PTransceiver, TSession => z = 0 /\ regular D x /\ regular D y
      | PAta, TAta => (z = 0 /\ D (AProg PToken) \/ z = 1 /\ D (AProg PToken22)) /\ regular D x /\ regular D y
      | PUser O, TLut => is_u64 z /\ regular D x /\ y = ANull
      | PManager, _ | PTransceiver, _ | PToken, _ | PToken22, _ | PAta, _ | PUser O, _ => False
      | _, _ => regular D x /\ regular D y
      end
  | _ => D a
  end.

(** Every address of a message. *)
Definition parts (m : ntt_msg) : list addr := [nm_id m; nm_sender m; nm_token m; nm_to m].
Definition exposed_msg (N : names) (m m' : ntt_msg) : Prop := exists a b, In (a, b) (combine (parts m) (parts m')) /\ exposed N a b.
Definition regular_msg (D : addr -> Prop) (m : ntt_msg) : Prop :=
  regular D (nm_id m) /\ regular D (nm_sender m) /\ regular D (nm_token m) /\ regular D (nm_to m).

(** Which program derives which account of the code from which seeds (the [seeds = ...] of the code, in bytes), for programs with any ids. *)
Definition derived (N : names) (a : addr) (p : prog) (u : purpose) : Prop :=
  address N a = option_map fst (find_address N (List.concat (seeds u)) (n_prog N p)).

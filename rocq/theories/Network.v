(** * Several deployments on several chains, connected by the core bridge (C48).

    Each chain of the network runs the model of Exec.v: one manager (and the stand-alone transceiver) at the same program
    address on every chain. The chains share nothing but the messages the guardians attest. A guardian set signs what the core
    bridge of a chain has recorded and nothing else (solana/programs/example-native-token-transfers/src/transceivers/wormhole/
    instructions/receive_message.rs:16-80 takes such an attestation as an account of the core bridge); whether, when, in which
    order and how often it is delivered is up to the environment. *)
From Verif Require Export SpecTransfer.
Local Open Scope Z_scope.

(** The state of every chain, by chain id. *)
Definition net := Z -> state.
Definition net_upd (n : net) (k : Z) (s : state) : net := fun j => if j =? k then s else n j.
(** What happened, newest first: chain and event. *)
Definition history := list (Z * ev).
Definition on (k : Z) (h : history) : list ev := map snd (filter (fun x => fst x =? k) h).

(** Guardians: a message of a chain of the network is attested only if the core bridge of that chain recorded it. Messages
    of other chains may say anything. *)
Definition attestation (ids : list Z) (n : net) (c : call) : Prop :=
  match ins c with
  | EPostVaa _ j e (Some tm) => In j ids -> In (Post e (PPTransfer tm)) (st_posted (n j))
  | _ => True
  end.
(** Administrators: a deployment is told its own chain id; only the built-in and the stand-alone Wormhole transceiver are
    registered (instructions/admin.rs:220-271); the transceiver peers are transceivers of the network (transceivers/wormhole/instructions/admin.rs:6-48). *)
Definition proper (ids : list Z) (k : Z) (c : call) : Prop :=
  match ins c with
  | IInitialize _ _ _ ch _ _ => ch = k
  | IRegisterTransceiver _ _ t => t = AProg PManager \/ t = AProg PTransceiver
  | IXSetPeer _ _ _ j a => In j ids /\ (a = pda_emitter PManager \/ a = pda_emitter PTransceiver)
  | _ => True
  end.

Inductive net_run (H : hashes) (ids : list Z) (n0 : net) : history -> net -> Prop :=
  | net_nil : net_run H ids n0 [] n0
  | net_step h n k c s' : net_run H ids n0 h n -> In k ids -> attestation ids n c -> proper ids k c ->
      step H (n k) c = Ok s' -> net_run H ids n0 ((k, Ev (n k) c s') :: h) (net_upd n k s').

Record net_initial (ids : list Z) (n : net) : Prop := {
  ni_nodes : forall k, In k ids -> initial (n k);
  ni_vaas : forall k a j e tm, In k ids -> In j ids -> st_accts (n k) a = Some (Acct PWormhole (DVaa j e (Some tm))) ->
              In (Post e (PPTransfer tm)) (st_posted (n j)) }.

(** ** Vocabulary of C48 *)
(** Value of [x] units of [dec] decimals in common units of [K] decimals. *)
Definition worth (K dec x : Z) : Z := x * 10 ^ (K - dec).
Definition sum_of {A} (f : A -> Z) (l : list A) : Z := fold_right (fun x n => f x + n) 0 l.

(** Whether the transfer made by event [e] of chain [j] has been paid out on the chain it is for. *)
Definition arrived (H : hashes) (ids : list Z) (n : net) (j : Z) (e : ev) : bool :=
  match transfer_of (ins (e_call e)) with
  | Some (_, x, _) =>
      match st_accts (n j) (xa_outbox_item x), st_accts (n j) pda_config with
      | Some (Acct PManager (DOutboxItem o)), Some (Acct PManager (DConfig c)) =>
          if in_dec Z.eq_dec (ob_chain o) ids
          then released (n (ob_chain o)) (item_of H j (NttMsg (xa_outbox_item x) (ob_sender o) (ob_amount o) (cf_mint c) (ob_chain o) (ob_recipient o)))
          else false
      | _, _ => false
      end
  | None => false
  end.

(** Total value deposited and paid out in a history, on all chains, and what was deposited and not yet paid out. *)
Definition deposited_value (K : Z) (dec : Z -> Z) (h : history) : Z := sum_of (fun x => worth K (dec (fst x)) (deposited (snd x))) h.
Definition paid_value (K : Z) (dec : Z -> Z) (h : history) : Z := sum_of (fun x => worth K (dec (fst x)) (paid_out (snd x))) h.
Definition in_flight (H : hashes) (ids : list Z) (K : Z) (dec : Z -> Z) (n : net) (h : history) : Z :=
  sum_of (fun x => if arrived H ids n (fst x) (snd x) then 0 else worth K (dec (fst x)) (deposited (snd x))) h.

(** The state in which the deployment on a chain began: right after its initialisation. *)
Definition began (tr : list ev) (b : state) : Prop :=
  exists e, In e tr /\ e_post e = b /\ exists d m tp ch l md, ins (e_call e) = IInitialize d m tp ch l md.

(** A token of [d] decimals is what the deployment in state [s] with configuration [c] manages. *)
Definition managed (s : state) (c : config addr) (d : Z) : Prop :=
  config_at s pda_config c /\ exists m, st_mints s (cf_mint c) = Some m /\ mt_decimals m = d.

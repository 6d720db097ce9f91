(** * Stored bumps.

    The rest of the model takes every derived address for the one with the canonical bump, and stores 0 for every bump. The code
    stores the bump that Anchor found ([ctx.bumps.x]) when it creates an account, and checks some accounts later with the stored bump
    ([seeds = ..., bump = x.bump]): [create_program_address] with that bump must give the account's address. Here is a second machine beside
    Quoter.v's (which contains Exec.v's) with the bump byte of every account, and with these checks.
    An account passed to such a check may be any account of the chain. *)
From Coq Require Import String.
From Verif Require Export Derive Quoter.
Import ListNotations.
Local Open Scope Z_scope.

Record bstate := BState { b_q : qstate; b_bump : qaddr -> Z }.

(** The id of the program and the seeds an address is derived from; [Q]: the quoter's id. *)
Definition place (N : names) (Q : bytes) (a : qaddr) : option (bytes * purpose) :=
  match a with
  | QInst => Some (Q, SInstance)
  | QChain c => Some (Q, SRegChain c)
  | QNtt p => option_map (fun u => (Q, SRegNtt u)) (address N p)
  | QReq i => option_map (fun u => (Q, SRelayRequest u)) (address N i)
  | QExt (APda PManager t z x y) | QExt (APda PTransceiver t z x y) =>
      let p := match a with QExt (APda p _ _ _ _) => p | _ => PManager end in
      match address N x, address N y with Some u, Some v => option_map (fun s => (n_prog N p, s)) (purpose_of t z u v) | _, _ => None end
  | QExt _ => None
  end.
Definition found_at (N : names) (Q : bytes) (a : qaddr) : option (bytes * Z) :=
  match place N Q a with Some (program, s) => find_address N (List.concat (seeds s)) program | None => None end.
Definition bytes_at (N : names) (Q : bytes) (a : qaddr) : option bytes := match a with QExt x => address N x | _ => option_map fst (found_at N Q a) end.
Definition bump_at (N : names) (Q : bytes) (a : qaddr) : option Z := option_map snd (found_at N Q a).

(** ** Checks with a stored bump *)
Inductive pinned := PinPeer | PinInbox | PinXPeer (p : prog) | PinChain | PinNtt.
(** Anchor's [Account<T>]: owner and type. *)
Definition pin_type (q : qstate) (k : pinned) (a : qaddr) : bool :=
  match k, a with
  | PinPeer, QExt x => match st_accts (q_world q) x with Some (Acct PManager (DPeer _)) => true | _ => false end
  | PinInbox, QExt x => match st_accts (q_world q) x with Some (Acct PManager (DInboxRL _)) => true | _ => false end
  | PinXPeer p, QExt x => match st_accts (q_world q) x with Some (Acct o (DXPeer _)) => prog_eqb o p | _ => false end
  | PinChain, _ => match q_accts q a with Some (QDChain _) => true | _ => false end
  | PinNtt, _ => match q_accts q a with Some (QDNtt _) => true | _ => false end
  | _, _ => false
  end.
Definition pin_program (N : names) (Q : bytes) (k : pinned) : bytes :=
  match k with PinPeer | PinInbox => n_prog N PManager | PinXPeer p => n_prog N p | PinChain | PinNtt => Q end.

(** The account with its type, the seeds of the code, and the account the rest of the model works on. *)
Record pin := Pin { pn_kind : pinned; pn_seeds : purpose; pn_at : qaddr }.
(** transfer.rs:121-133, 269-281 (both transfers); redeem.rs:31-36; admin.rs:303-310; receive_message.rs:23-27 (of both transceivers);
    programs/ntt-quoter/src/processor: request_relay.rs:43-60, admin.rs:180-186. The seeds of [redeem] and [receive_message] are read from an
    account; without it, or with an account of another type, these fail. *)
Definition pins (N : names) (q : qstate) (i : qinstr) : list pin :=
  match i with
  | QWorld (ITransferLock _ a) | QWorld (ITransferBurn _ a) =>
      [Pin PinInbox (SInboxRateLimit (ar_chain a)) (QExt (pda_inbox_rl (ar_chain a))); Pin PinPeer (SPeer (ar_chain a)) (QExt (pda_peer (ar_chain a)))]
  | QWorld (IRedeem x) =>
      match st_accts (q_world q) (ra_message x) with Some (Acct _ (DVtm c _)) => [Pin PinPeer (SPeer c) (QExt (pda_peer c))] | _ => [] end
  | QWorld (ISetInboundLimit _ _ c _) => [Pin PinInbox (SInboxRateLimit c) (QExt (pda_inbox_rl c))]
  | QWorld (IXReceive p _ v) =>
      match st_accts (q_world q) v with Some (Acct PWormhole (DVaa c _ _)) => [Pin (PinXPeer p) (SXPeer c) (QExt (pda_xpeer p c))] | _ => [] end
  | QRequestRelay _ _ it _ _ =>
      match st_accts (q_world q) it with
      | Some (Acct p (DOutboxItem o)) => [Pin PinChain (SRegChain (ob_chain o)) (QChain (ob_chain o)); Pin PinNtt (SRegNtt (n_prog N p)) (QNtt (AProg p))]
      | _ => []
      end
  | QDeregisterNtt _ _ p => match address N p with Some u => [Pin PinNtt (SRegNtt u) (QNtt p)] | None => [] end
  | _ => []
  end.
(** anchor-lang 0.29, generated code for [seeds] with [bump = x.bump]: [create_program_address] with the stored bump, compared with the account's key. *)
Definition passes (N : names) (Q : bytes) (b : bstate) (k : qaddr) (p : pin) : Prop :=
  pin_type (b_q b) (pn_kind p) k = true /\
  exists x, create N (List.concat (seeds (pn_seeds p)) ++ be_enc 1 (b_bump b k)) (pin_program N Q (pn_kind p)) = Some x /\ bytes_at N Q k = Some x.

(** ** Where bumps are written *)
(** initialize.rs:100; luts.rs:129; admin.rs:207, 213, 257; redeem.rs:130-133 (only in a new item); transceivers' admin.rs:42; programs/ntt-quoter/src/processor/admin.rs:122, 158.
    (The governance program's, governance.rs:461, is never read.) *)
Definition writes (E : qenv) (q : qstate) (i : qinstr) : list qaddr :=
  match i with
  | QWorld (IInitialize _ _ _ _ _ _) => [QExt pda_config]
  | QWorld (IInitializeLut _ _ _ _) => [QExt pda_lut]
  | QWorld (ISetPeer _ _ c _ _ _) => [QExt (pda_peer c); QExt (pda_inbox_rl c)]
  | QWorld (IRegisterTransceiver _ _ t) => [QExt (pda_reg t)]
  | QWorld (IRedeem x) =>
      match st_accts (q_world q) (ra_message x) with
      | Some (Acct _ (DVtm c m)) =>
          let a := pda_inbox (h_msg (qe_hashes E) c (tm_msg m)) in
          match st_accts (q_world q) a with
          | None => [QExt a]
          | Some (Acct _ (DInboxItem i)) => if ib_init i then [] else [QExt a]
          | _ => []
          end
      | _ => []
      end
  | QWorld (IXSetPeer p _ _ c _) => [QExt (pda_xpeer p c)]
  | QRegisterChain _ _ c => [QChain c]
  | QRegisterNtt _ _ p _ _ => [QNtt p]
  | _ => []
  end.
(** Data that other programs write has any byte there. *)
Definition scribbles (i : qinstr) (a : qaddr) : Prop := exists n x d, i = QWorld (EWrite n x d) /\ a = QExt x.

(** A step: the accounts for the pinned places are the right ones and pass, then the model's step, with the bumps written. What the code would do with other accounts is not
    modelled; C105 shows that none pass. *)
Record b_step (N : names) (Q : bytes) (E : qenv) (b : bstate) (c : qcall) (b' : bstate) : Prop := {
  bs_pins : Forall (fun p => passes N Q b (pn_at p) p) (pins N (b_q b) (q_ins c));
  bs_step : q_step E (b_q b) c = Ok (b_q b');
  bs_written : forall a, In a (writes E (b_q b) (q_ins c)) -> bump_at N Q a = Some (b_bump b' a);
  bs_kept : forall a, ~ In a (writes E (b_q b) (q_ins c)) -> ~ scribbles (q_ins c) a -> b_bump b' a = b_bump b a }.

Inductive b_run (N : names) (Q : bytes) (E : qenv) (b0 : bstate) : list qcall -> bstate -> Prop :=
  | b_run_nil : b_run N Q E b0 [] b0
  | b_run_step cs b c b' : b_run N Q E b0 cs b -> b_step N Q E b c b' -> b_run N Q E b0 (c :: cs) b'.
(** Before both deployments. *)
Definition b_initial (E : qenv) (b : bstate) : Prop := q_initial E (b_q b) /\ initial (q_world (b_q b)).
Definition b_reachable (N : names) (Q : bytes) (E : qenv) (b : bstate) : Prop := exists b0 cs, b_initial E b0 /\ b_run N Q E b0 cs b.

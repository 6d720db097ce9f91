(** * What the runtime lets an instruction of the quoter do (C81): read the accounts it is given, change those it is given as writable, and count
    on the signatures of those it is given as signers. And the quoter's published interface (C82). *)
From Coq Require Import String.
From Verif Require Export SpecDispatch SpecEntry QEntry.
Import ListNotations.
Local Open Scope Z_scope.

Definition q_given (ms : list qmeta) (a : qaddr) : Prop := exists m, In m ms /\ qm_key m = a.
Definition q_given_writable (ms : list qmeta) (a : qaddr) : Prop := exists m, In m ms /\ qm_key m = a /\ qm_writable m = true.
Definition q_given_signer (ms : list qmeta) (a : addr) : Prop := exists m, In m ms /\ qm_key m = QExt a /\ qm_signer m = true.

(** Contents of an account: lamports, the quoter's data, and for other programs' accounts what they hold. *)
Definition q_same_at (q t : qstate) (a : qaddr) : Prop :=
  q_lamports q a = q_lamports t a /\ q_accts q a = q_accts t a /\ match a with QExt b => same_at (q_world q) (q_world t) b | _ => True end.
Definition q_agree_on (I : qids) (ms : list qmeta) (q t : qstate) : Prop :=
  (forall a, q_given ms a -> q_same_at q t a) /\ (q_given ms (QExt (qd_data I)) -> q_uauth q = q_uauth t).
(** Nothing but accounts given as writable has changed: of the other programs and of the upgrade authority nothing at all. *)
Definition q_changes_within (ms : list qmeta) (q t : qstate) : Prop :=
  (forall a, ~ q_given_writable ms a -> q_lamports q a = q_lamports t a /\ q_accts q a = q_accts t a) /\ q_world q = q_world t /\ q_uauth q = q_uauth t.
Definition q_same (q t : qstate) : Prop :=
  (forall a, q_lamports q a = q_lamports t a /\ q_accts q a = q_accts t a) /\ same (q_world q) (q_world t) /\ q_uauth q = q_uauth t.

Definition q_independent (ms ms' : list qmeta) : Prop :=
  (forall a, q_given_writable ms a -> ~ q_given ms' a) /\ (forall a, q_given_writable ms' a -> ~ q_given ms a).
Definition q_fewer_signers (ms ms' : list qmeta) : Prop :=
  Forall2 (fun m m' => qm_key m' = qm_key m /\ qm_writable m' = qm_writable m /\ (qm_signer m' = true -> qm_signer m = true)) ms ms'.

(** The quoter's own instructions. Its own id cannot be named as the assistant. *)
Definition q_callable (I : qids) (i : qinstr) : Prop :=
  match i with
  | QSetAssistant _ _ a => a <> Some (QExt (qd_self I))
  | QWorld _ | QSend _ _ _ | QSetUpgradeAuthority _ _ => False
  | _ => True
  end.
Definition q_named (nm : bytes -> addr) (i : qinstr) : Prop :=
  match i with QRegisterNtt _ _ p _ _ | QDeregisterNtt _ _ p => exists b, is32 b /\ nm b = p | _ => True end.

(** ** The published interface: solana/ts/idl/3_0_0/json/ntt_quoter.json *)
Record q_field := QField { qf_name : string; qf_signer : bool; qf_writable : bool }.
Local Notation R n := (QField n%string false false).
Local Notation W n := (QField n%string false true).
Local Notation S n := (QField n%string true false).
Local Notation SW n := (QField n%string true true).
Definition q_interface (g : gcall) : list q_field :=
  match g with
  | Dispatch.QRequestRelay _ _ => [SW "payer"; R "instance"; R "registeredChain"; R "registeredNtt"; R "outboxItem"; W "relayRequest"; R "systemProgram"]
  | Dispatch.QCloseRelay => [S "authority"; R "instance"; W "feeRecipient"; W "relayRequest"; R "systemProgram"]
  | Dispatch.QInitialize => [SW "owner"; W "instance"; R "feeRecipient"; W "programData"; R "systemProgram"]
  | Dispatch.QSetAssistant => [S "owner"; W "instance"; R "assistant"]
  | Dispatch.QSetFeeRecipient => [S "owner"; W "instance"; R "feeRecipient"]
  | Dispatch.QRegisterChain _ => [SW "authority"; R "instance"; W "registeredChain"; R "systemProgram"]
  | Dispatch.QRegisterNtt _ _ _ => [SW "authority"; R "instance"; W "registeredNtt"; R "systemProgram"]
  | Dispatch.QDeregisterNtt _ => [SW "authority"; R "instance"; W "registeredNtt"; R "systemProgram"]
  | Dispatch.QUpdateSolPrice _ => [S "authority"; W "instance"]
  | Dispatch.QUpdateChainPrices _ _ => [S "authority"; R "instance"; W "registeredChain"]
  | Dispatch.QUpdateChainParams _ _ => [S "authority"; R "instance"; W "registeredChain"]
  | _ => []
  end%list.

(** The account passed under a name. *)
Definition q_passed (g : gcall) (ms : list qmeta) (n : string) (a : qaddr) : Prop :=
  exists k f m, nth_error (q_interface g) k = Some f /\ qf_name f = n /\ nth_error ms k = Some m /\ qm_key m = a.

(** What a function does, its accounts by name. *)
Local Open Scope string_scope.
Definition q_asked (I : qids) (nm : bytes -> addr) (g : gcall) (ms : list qmeta) (i : qinstr) : Prop :=
  let A n a := q_passed g ms n a in
  let X n a := q_passed g ms n (QExt a) in
  match g with
  | Dispatch.QRequestRelay d f => exists p inst it, X "payer" p /\ A "instance" inst /\ X "outboxItem" it /\ i = QRequestRelay p inst it d f
  | Dispatch.QCloseRelay => exists au inst r x, X "authority" au /\ A "instance" inst /\ A "feeRecipient" r /\ A "relayRequest" x /\ i = QCloseRelay inst au r x
  | Dispatch.QInitialize => exists o r, X "owner" o /\ A "feeRecipient" r /\ i = QInitialize o r
  | Dispatch.QSetAssistant => exists o inst a, X "owner" o /\ A "instance" inst /\ A "assistant" a /\
      (a = QExt (qd_self I) /\ i = QSetAssistant inst o None \/ a <> QExt (qd_self I) /\ i = QSetAssistant inst o (Some a))
  | Dispatch.QSetFeeRecipient => exists o inst r, X "owner" o /\ A "instance" inst /\ A "feeRecipient" r /\ i = QSetFeeRecipient inst o r
  | Dispatch.QRegisterChain ch => exists au inst, X "authority" au /\ A "instance" inst /\ i = QRegisterChain inst au ch
  | Dispatch.QRegisterNtt p x c => exists au inst, X "authority" au /\ A "instance" inst /\ i = QRegisterNtt inst au (nm p) x c
  | Dispatch.QDeregisterNtt p => exists au inst, X "authority" au /\ A "instance" inst /\ i = QDeregisterNtt inst au (nm p)
  | Dispatch.QUpdateSolPrice p => exists au inst, X "authority" au /\ A "instance" inst /\ i = QUpdateSolPrice inst au p
  | Dispatch.QUpdateChainPrices n x => exists au inst c, X "authority" au /\ A "instance" inst /\ A "registeredChain" c /\ i = QUpdateChainPrices inst au c n x
  | Dispatch.QUpdateChainParams m b => exists au inst c, X "authority" au /\ A "instance" inst /\ A "registeredChain" c /\ i = QUpdateChainParams inst au c m b
  | _ => False
  end.
Local Close Scope string_scope.

(** The accounts named in the interface with the privileges named there, and no others. *)
Fixpoint q_least (fs : list q_field) (ms : list qmeta) : list qmeta :=
  match fs, ms with
  | f :: fs, m :: ms => QMeta (qm_key m) (qf_signer f) (qf_writable f) :: q_least fs ms
  | _, _ => []
  end%list.

(** The account a name stands for, where the function and the accounts already settle it: the addresses the program derives. *)
Definition q_settled (I : qids) (nm : bytes -> addr) (g : gcall) (q : qstate) (ms : list qmeta) (n : string) (a : qaddr) : Prop :=
  (n = "instance"%string /\ a = QInst) \/ (n = "systemProgram"%string /\ a = QExt ANull) \/ (n = "programData"%string /\ a = QExt (qd_data I)) \/
  (n = "feeRecipient"%string /\ g = Dispatch.QCloseRelay /\ exists i, q_accts q QInst = Some (QDInstance i) /\ a = in_fee_recipient i) \/
  (n = "registeredChain"%string /\ exists ch, g = Dispatch.QRegisterChain ch /\ a = QChain ch) \/
  (n = "registeredNtt"%string /\ exists p, (g = Dispatch.QDeregisterNtt p \/ exists x c, g = Dispatch.QRegisterNtt p x c) /\ a = QNtt (nm p)) \/
  (exists d f it p o, g = Dispatch.QRequestRelay d f /\ q_passed g ms "outboxItem" (QExt it) /\ st_accts (q_world q) it = Some (Acct p (DOutboxItem o)) /\
     (n = "registeredChain"%string /\ a = QChain (ob_chain o) \/ n = "registeredNtt"%string /\ a = QNtt (AProg p) \/ n = "relayRequest"%string /\ a = QReq it)).

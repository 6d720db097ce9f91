(** * What the runtime lets an instruction do (C73, C74): read the accounts it is given, change those it is given as writable, and count on the
    signatures of those it is given as signers. *)
From Verif Require Export Entry.
From Verif Require Import Lut.
Import ListNotations.
Local Open Scope Z_scope.

Definition given (ms : list meta) (h : handle) : Prop := exists m, In m ms /\ me_key m = h.
Definition given_writable (ms : list meta) (h : handle) : Prop := exists m, In m ms /\ me_key m = h /\ me_writable m = true.
Definition given_signer (ms : list meta) (a : addr) : Prop := exists m, In m ms /\ me_key m = HA a /\ me_signer m = true.

(** Contents of an account: [st_accts], [st_toks], [st_mints] at an address; the upgrade authority; the bridge's log for the bridge account. *)
Definition same_at (s t : state) (a : addr) : Prop := st_accts s a = st_accts t a /\ st_toks s a = st_toks t a /\ st_mints s a = st_mints t a.
Definition same (s t : state) : Prop :=
  st_now s = st_now t /\ (forall a, same_at s t a) /\ st_uauth s = st_uauth t /\ st_posted s = st_posted t.

(** The states agree on the accounts the call is given (and show the same clock). *)
Definition agree_on (ms : list meta) (s t : state) : Prop :=
  st_now s = st_now t /\ (forall a, given ms (HA a) -> same_at s t a) /\ (given ms HProgramData -> st_uauth s = st_uauth t).

(** Nothing but accounts given as writable has changed. *)
Definition changes_within (ms : list meta) (s t : state) : Prop :=
  st_now s = st_now t /\ (forall a, ~ given_writable ms (HA a) -> same_at s t a) /\
  (~ given_writable ms HProgramData -> st_uauth s = st_uauth t) /\ (~ given_writable ms HBridge -> st_posted s = st_posted t).

(** Two calls without common accounts, except ones that neither may change: what lets the runtime execute them at the same time. *)
Definition independent (ms ms' : list meta) : Prop :=
  (forall h, given_writable ms h -> ~ given ms' h) /\ (forall h, given_writable ms' h -> ~ given ms h).

(** The same accounts with the same write privileges, of which fewer have signed. *)
Definition fewer_signers (ms ms' : list meta) : Prop :=
  Forall2 (fun m m' => me_key m' = me_key m /\ me_writable m' = me_writable m /\ (me_signer m' = true -> me_signer m = true)) ms ms'.

(** The instructions of the two programs; the token program is one of the two, the lookup table the derived one. *)
Definition callable (i : instr) : Prop :=
  match i with
  | IInitialize _ _ tp _ _ _ => is_token_prog tp = true
  | ITransferLock x _ | ITransferBurn x _ => is_token_prog (xa_tp x) = true
  | IReleaseMint x _ | IReleaseUnlock x _ => is_token_prog (la_tp x) = true
  | IInitializeLut _ _ a _ => exists slot, is_u64 slot /\ a = lut_at lut_authority slot
  | IRedeem _ | ITransferOwnership _ _ _ | ITransferOwnershipOneStep _ _ _ | IClaimOwnership _ _ | ISetPaused _ _ _
  | ISetPeer _ _ _ _ _ _ | IRegisterTransceiver _ _ _ | ISetOutboundLimit _ _ _ _ | ISetInboundLimit _ _ _ _ | IMark _ _ _ _
  | IXSetPeer _ _ _ _ _ | IXReceive _ _ _ | IXRelease _ _ _ _ _ _ | IXBroadcastId _ _ _ _ | IXBroadcastPeer _ _ _ _ _ => True
  | _ => False
  end.
(** The addresses among the arguments have a name. *)
Definition named (nm : bytes -> addr) (i : instr) : Prop :=
  match i with
  | ITransferLock _ a | ITransferBurn _ a => exists b, is32 b /\ nm b = ar_to a
  | ISetPeer _ _ _ a _ _ | IXSetPeer _ _ _ _ a => exists b, is32 b /\ nm b = a
  | _ => True
  end.

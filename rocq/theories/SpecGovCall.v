(** * What a governance message says to the manager or the transceiver (C83). *)
From Coq Require Import String.
From Verif Require Export GovCall SpecIdl.
From Verif Require Import Lut.
Import ListNotations.
Local Open Scope list_scope.
Local Open Scope Z_scope.

(** The two programs have different ids, also from the governance program's; the governance address [G] has one string of bytes. *)
Record well_named (N : gnames) (E : genv state) (G : addr) : Prop := {
  wn_ids : gn_id N AManager <> gn_id N ATransceiver;
  wn_gov : forall p, p = AManager \/ p = ATransceiver -> gn_id N p <> GOV_ID;
  wn_owner : forall b, gn_account N b = HA G <-> b = ge_addr E SGovernance }.

(** The accounts a message lists, placeholders replaced. An account listed several times has the privileges of all its entries. *)
Definition listed (N : gnames) (pda payer : bytes) (m : gov_msg) (ms : list meta) : Prop :=
  let key a := key_for pda payer (ac_key a) in
  Forall2 (fun a me => me_key me = gn_account N (key a) /\
    (me_signer me = true <-> exists b, In b (g_accounts m) /\ key b = key a /\ ac_signer b = true) /\
    (me_writable me = true <-> exists b, In b (g_accounts m) /\ key b = key a /\ ac_writable b = true)) (g_accounts m) ms.

(** [e], the last call a submission has made, is that of message [m], which was posted by governance; the payer signed. *)
Definition says (E : genv state) (e : gev state) (payer : bytes) (m : gov_msg) : Prop :=
  (exists at_ rest, ge_posted E (gv_world e) at_ = Some (gv_vaa e) /\ v_payload (gv_vaa e) = gov_packet m ++ rest) /\
  v_chain (gv_vaa e) = 1 /\ v_emitter (gv_vaa e) = repeat x00 31 ++ [x04] /\ wf_gov m /\ g_gov m = GOV_ID /\
  (exists c, In c (gv_ctx e) /\ ac_key c = payer /\ ac_signer c = true) /\ call_of (ge_addr E SGovernance) payer m (gv_ix e).

(** The administrative functions, and the name of the account that must be the owner (or the new one). *)
Definition owner_name (g : gcall) : option string :=
  match g with
  | GTransferOwnership | GTransferOwnershipOneStep | GSetPaused _ | GSetPeer _ _ _ _ | GRegisterTransceiver | GSetOutboundLimit _ | GSetInboundLimit _ _
  | GSetWormholePeer _ _ => Some "owner"%string
  | GClaimOwnership => Some "newOwner"%string
  | _ => None
  end.

(** The accounts such an instruction needs, beside the owner and a payer. *)
Definition admin_accounts (i : instr) : list handle :=
  match i with
  | ITransferOwnership cfg _ n | ITransferOwnershipOneStep cfg _ n => [HA cfg; HA n; HA upgrade_lock; HProgramData; HLoader]
  | IClaimOwnership cfg _ => [HA cfg; HA upgrade_lock; HProgramData; HLoader]
  | ISetPaused cfg _ _ => [HA cfg]
  | ISetPeer cfg _ ch _ _ _ => [HA cfg; HA (pda_peer ch); HA (pda_inbox_rl ch); HA system_program]
  | IRegisterTransceiver cfg _ t => [HA cfg; HA t; HA (pda_reg t); HA system_program]
  | ISetOutboundLimit cfg _ r _ => [HA cfg; HA r]
  | ISetInboundLimit cfg _ ch _ => [HA cfg; HA (pda_inbox_rl ch)]
  | IXSetPeer p cfg _ ch _ => [HA cfg; HA (pda_xpeer p ch); HA system_program]
  | _ => []
  end.
(** [hb] gives these accounts' 32 bytes, which are not a placeholder. *)
Definition writable_names (N : gnames) (hb : handle -> bytes) (hs : list handle) : Prop :=
  Forall (fun h => gn_account N (hb h) = h /\ List.length (hb h) = 32%nat /\ hb h <> str "owner" ++ repeat x00 27 /\ hb h <> str "payer" ++ repeat x00 27) hs.

(** A submission of the message posted at [at_] by someone who passes what the message lists and signs for nobody but themselves. *)
Definition plain_ctx (E : genv state) (payer at_ : bytes) (v : vaa) (m : gov_msg) : list acc :=
  let pda := ge_addr E SGovernance in
  [Acc payer true true; Acc pda false true; Acc at_ false false; Acc (g_program m) false false; Acc (replay_addr E v) false true; Acc (repeat x00 32) false false] ++
  map (fun a => Acc (key_for pda payer (ac_key a)) false (ac_writable a)) (g_accounts m).

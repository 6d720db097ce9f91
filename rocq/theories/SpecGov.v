(** * Specification vocabulary for governance. *)
From Coq Require Import String.
From Verif Require Export Governance.
Import ListNotations.
Local Open Scope list_scope.
Local Open Scope Z_scope.

(** Values of the Rust types. *)
Definition wf_gov (m : gov_msg) : Prop :=
  List.length (g_gov m) = 32%nat /\ List.length (g_program m) = 32%nat /\ Forall (fun a => List.length (ac_key a) = 32%nat) (g_accounts m).

(** The documented packet: header (module, action 2, chain 1), governance contract, then the call. *)
Definition flag_byte (b : bool) : byte := if b then x01 else x00.
Definition acc_bytes (a : acc) : bytes := ac_key a ++ [flag_byte (ac_signer a); flag_byte (ac_writable a)].
Definition gov_packet (m : gov_msg) : bytes :=
  repeat x00 8 ++ str "GeneralPurposeGovernance" ++ [x02; x00; x01]%byte ++ g_gov m ++ g_program m
  ++ be_enc 2 (Z.of_nat (List.length (g_accounts m))) ++ List.concat (map acc_bytes (g_accounts m))
  ++ be_enc 2 (Z.of_nat (List.length (g_data m))) ++ g_data m.

(** The account a message's entry stands for. *)
Definition key_for (pda payer k : bytes) : bytes :=
  if bytes_eqb k (str "owner" ++ repeat x00 27) then pda else if bytes_eqb k (str "payer" ++ repeat x00 27) then payer else k.
(** The call a message stands for: program and data as written, accounts as written up to placeholders. *)
Definition call_of (pda payer : bytes) (m : gov_msg) (ix : gix) : Prop :=
  ix_program ix = g_program m /\ ix_data ix = g_data m /\
  Forall2 (fun a b => ac_key b = key_for pda payer (ac_key a) /\ ac_signer b = ac_signer a /\ ac_writable b = ac_writable a) (g_accounts m) (ix_accounts ix).

(** An executed call was authorised: a posted message from the governance emitter on Solana, addressed to this program. *)
Definition authorised {W} (E : genv W) (e : gev W) : Prop :=
  exists at_ payer m rest, ge_posted E (gv_world e) at_ = Some (gv_vaa e) /\
    v_chain (gv_vaa e) = 1 /\ v_emitter (gv_vaa e) = repeat x00 31 ++ [x04] /\
    v_payload (gv_vaa e) = gov_packet m ++ rest /\ wf_gov m /\ g_gov m = GOV_ID /\
    (exists c, In c (gv_ctx e) /\ ac_key c = payer /\ ac_signer c = true) /\
    call_of (ge_addr E SGovernance) payer m (gv_ix e).

(** The world moves only by the listed calls, oldest last; a call of this program to itself has no effect but the calls it makes. *)
Inductive effects {W} (E : genv W) (w : W) : list (gev W) -> W -> Prop :=
  | eff_nil : effects E w [] w
  | eff_step l w1 w2 e : effects E w l w1 -> gv_world e = w1 ->
      (ix_program (gv_ix e) = GOV_ID /\ w2 = w1 \/ ix_program (gv_ix e) <> GOV_ID /\ ge_call E w1 (gv_ix e) = Ok w2) -> effects E w (e :: l) w2.

(** ** Exact conditions of a submission (C70) *)
(** Accounts and privileges the runtime lets this program hand on: its own signature, and what it was given. *)
Definition may_hand_on (ctx : list acc) (pda : bytes) (a : acc) : Prop :=
  (exists c, In c ctx /\ ac_key c = ac_key a) /\
  (ac_writable a = true -> exists c, In c ctx /\ ac_key c = ac_key a /\ ac_writable c = true) /\
  (ac_signer a = true -> ac_key a = pda \/ exists c, In c ctx /\ ac_key c = ac_key a /\ ac_signer c = true).

Definition replay_addr {W} (E : genv W) (v : vaa) : bytes := ge_addr E (SReplay 1 (repeat x00 31 ++ [x04]) (v_seq v)).

Record submittable {W} (E : genv W) (st : gstate W) (ctx : list acc) (data : bytes) (payer : bytes) (v : vaa) (m : gov_msg) (ix : gix) : Prop := {
  sb_tag : exists args, data = GOV_TAG ++ args;
  sb_accounts : exists p gov va prog rep sys rest, ctx = p :: gov :: va :: prog :: rep :: sys :: rest /\
    ac_key p = payer /\ ac_signer p = true /\ ac_writable p = true /\
    ac_key gov = ge_addr E SGovernance /\ ac_writable gov = true /\
    ge_posted E (gs_world st) (ac_key va) = Some v /\
    ge_executable E (gs_world st) (ac_key prog) = true /\
    ac_key rep = replay_addr E v /\ ac_writable rep = true /\
    ac_key sys = repeat x00 32;
  sb_source : v_chain v = 1 /\ v_emitter v = repeat x00 31 ++ [x04];
  sb_message : exists rest, v_payload v = gov_packet m ++ rest /\ wf_gov m /\
    Z.of_nat (List.length (g_accounts m)) <= 65535 /\ Z.of_nat (List.length (g_data m)) <= 65535;
  sb_addressed : g_gov m = GOV_ID;
  sb_unused : gs_replay st (replay_addr E v) = false;
  sb_call : call_of (ge_addr E SGovernance) payer m ix;
  sb_privileges : Forall (may_hand_on ctx (ge_addr E SGovernance)) (ix_accounts ix);
  sb_program : exists c, In c ctx /\ ac_key c = ix_program ix }.

(** The state in which the governed call runs: the message is marked as used. *)
Definition entered {W} (E : genv W) (st : gstate W) (ctx : list acc) (v : vaa) (ix : gix) : gstate W :=
  GState (gs_world st) (fun b => bytes_eqb b (replay_addr E v) || gs_replay st b) (Gev (gs_world st) v ctx ix :: gs_log st).

(** The accounts as the called program sees them: an account listed several times has the privileges of all its entries. *)
Definition handed (l l' : list acc) : Prop :=
  Forall2 (fun a b => ac_key b = ac_key a /\ (ac_signer b = true <-> exists c, In c l /\ ac_key c = ac_key a /\ ac_signer c = true) /\
    (ac_writable b = true <-> exists c, In c l /\ ac_key c = ac_key a /\ ac_writable c = true)) l l'.

(** * A manager deployment administered by the governance program (C71).

    Governance.v lets the rest of the chain be any world; here the world is the state of the manager and transceiver programs
    (Exec.v). The governance program's derived address [G] appears among the signers of a manager or transceiver instruction only
    when the governance program hands its signature on (programs/wormhole-governance/src/instructions/governance.rs:455-482,
    [invoke_signed]), since nobody holds a key for it. The programs a message calls may be anything and may call the manager any
    number of times. *)
From Coq Require Import String.
From Verif Require Export SpecGov SpecAdmin.
Import ListNotations.
Local Open Scope Z_scope.

(** The executed call carries the governance signature. *)
Definition asks (E : genv state) (ix : gix) : Prop :=
  exists a, In a (ix_accounts ix) /\ ac_signer a = true /\ ac_key a = ge_addr E SGovernance.

(** What a called program does to the modelled programs is a sequence of their instructions (and of those of the platform); [G]
    signs only if the call carries the signature. *)
Definition linked (H : hashes) (E : genv state) (G : addr) : Prop :=
  forall w ix w', ge_call E w ix = Ok w' -> exists tr, run H w tr w' /\ (forall e, In e tr -> In G (signers (e_call e)) -> asks E ix).

(** A call of the governance program, or anything else that happens on the chain, not signed by [G]. *)
Inductive gm_step (H : hashes) (E : genv state) (G : addr) : gstate state -> gstate state -> Prop :=
  | gm_submit st ctx data st' :
      forallb (fun a => negb (ac_signer a && bytes_eqb (ac_key a) (ge_addr E SGovernance))) ctx = true ->
      g_exec E DEPTH st ctx data = Ok st' -> gm_step H E G st st'
  | gm_other st c w : ~ In G (signers c) -> step H (gs_world st) c = Ok w -> gm_step H E G st (GState w (gs_replay st) (gs_log st)).
Inductive gm_steps (H : hashes) (E : genv state) (G : addr) (st : gstate state) : gstate state -> Prop :=
  | gm_nil : gm_steps H E G st st
  | gm_cons st1 st2 : gm_steps H E G st st1 -> gm_step H E G st1 st2 -> gm_steps H E G st st2.
Definition gm_reachable (H : hashes) (E : genv state) (G : addr) (st : gstate state) : Prop :=
  exists st0, g_initial st0 /\ reachable H (gs_world st0) /\ gm_steps H E G st0 st.

(** The deployment belongs to the governance address, and so does the right to upgrade it; no offer of ownership stands. *)
Definition governed (G : addr) (s : state) : Prop :=
  exists a c, config_at s a c /\ cf_owner c = G /\ cf_pending c = None /\ st_uauth s = Some G.

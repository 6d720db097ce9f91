(** * The governance program (programs/wormhole-governance).

    The message codec is modelled on bytes. The instruction is modelled on the list of accounts it is called with; the programs it
    calls, the posted messages of the core bridge and the accounts of everyone else are a world [W] about which nothing is assumed.
    Keys are 32-byte strings.
    Simplified: lamports (the rent of the replay account), bumps, the order of Anchor's checks, compute limits. *)
From Coq Require Import String.
From Verif Require Export Bytes Wire Seeds.
Import ListNotations.
Local Open Scope Z_scope.

(** governance.rs:407-412 [Acc], and [AccountMeta] of solana-program: the conversions 414-453 copy the fields. *)
Record acc := Acc { ac_key : bytes; ac_signer : bool; ac_writable : bool }.
(** governance.rs:98-104 *)
Record gov_msg := Gov { g_gov : bytes; g_program : bytes; g_accounts : list acc; g_data : bytes }.
(** governance.rs:348-352 *)
Inductive gov_action := Undefined | EvmCall | SolanaCall.

(** wormhole-io's [bool]: one byte, 0 or 1. *)
Definition read_bool : reader bool := do b <- be_u8; if b =? 0 then rret false else if b =? 1 then rret true else rfail.
Definition write_bool (b : bool) : option bytes := Some (be_enc 1 (if b then 1 else 0)).

(** governance.rs:108-112 *)
Definition MODULE : bytes := [
  x00; x00; x00; x00; x00; x00; x00; x00; x47; x65; x6e; x65; x72; x61; x6c;
  x50; x75; x72; x70; x6f; x73; x65; x47; x6f; x76; x65; x72; x6e; x61; x6e;
  x63; x65]%byte.

(** governance.rs:120-130: the loop *)
Definition read_acc : reader acc := do k <- take 32; do s <- read_bool; do w <- read_bool; rret (Acc k s w).
Fixpoint read_accs (n : nat) : reader (list acc) :=
  match n with O => rret [] | S n => do a <- read_acc; do l <- read_accs n; rret (a :: l) end.
(** governance.rs:114-141 *)
Definition read_body (gov : bytes) : reader gov_msg :=
  do p <- take 32; do n <- be_u16; do accs <- read_accs (Z.to_nat n);
  do len <- be_u16; do data <- take (Z.to_nat len);
  rret (Gov gov p accs data).

(** governance.rs:159-163: the loop; 146-170 *)
Definition write_acc (a : acc) : option bytes := Some (ac_key a) +++ write_bool (ac_signer a) +++ write_bool (ac_writable a).
Fixpoint write_accs (l : list acc) : option bytes := match l with [] => Some [] | a :: l => write_acc a +++ write_accs l end.
Definition write_body (m : gov_msg) : option bytes :=
  Some (g_program m) +++ w_u16_checked (Z.of_nat (List.length (g_accounts m))) +++ write_accs (g_accounts m)
  +++ w_u16_checked (Z.of_nat (List.length (g_data m))) +++ Some (g_data m).

(** governance.rs:354-372, 378-388 *)
Definition read_action : reader gov_action :=
  do b <- be_u8; if b =? 0 then rret Undefined else if b =? 1 then rret EvmCall else if b =? 2 then rret SolanaCall else rfail.
Definition write_action (a : gov_action) : option bytes :=
  match a with Undefined => Some [] | EvmCall => Some (be_enc 1 1) | SolanaCall => Some (be_enc 1 2) end.
Definition is_solana_call (a : gov_action) : bool := match a with SolanaCall => true | _ => false end.

(** [Chain::Solana] of wormhole-sdk: 1; [Chain::from] is injective (unknown numbers are kept). *)
Definition SOLANA : Z := 1.
(** [GOVERNANCE_EMITTER] of wormhole-sdk *)
Definition GOVERNANCE_EMITTER : bytes := be_enc 32 4.

(** governance.rs:196-224 *)
Definition read_gov : reader gov_msg :=
  do m <- take 32; do _ <- rguard (bytes_eqb m MODULE);
  do a <- read_action; do _ <- rguard (is_solana_call a);
  do c <- be_u16; do _ <- rguard (c =? SOLANA);
  do g <- take 32; read_body g.
(** governance.rs:240-249 *)
Definition write_gov (m : gov_msg) : option bytes :=
  Some MODULE +++ write_action SolanaCall +++ Some (be_enc 2 SOLANA) +++ Some (g_gov m) +++ write_body m.
(** governance.rs:228-238 *)
Definition gov_wsize (m : gov_msg) : Z :=
  32 + 1 + 2 + 32 + 2 + 34 * Z.of_nat (List.length (g_accounts m)) + 2 + Z.of_nat (List.length (g_data m)).

(** ** The instruction *)
(** governance.rs:484-494, 25-26 *)
Definition sentinel (s : bytes) : bytes := s ++ repeat x00 (32 - List.length s).
Definition OWNER : bytes := sentinel (str "owner").
Definition PAYER : bytes := sentinel (str "payer").

(** lib.rs:3: wgvEiKVzX9yyEoh41jZAdC6JqGUTS4CFXbFGBV5TKdZ *)
Definition GOV_ID : bytes := [
  x0e; x02; x7f; xbc; x6b; x1e; x61; x36; x5d; x4b; x06; x80; xa3; x17; x9f; x79;
  x1b; x15; x79; x6f; x93; xe2; x4e; x9b; x44; x1e; x3f; xa0; x4c; xcd; xa4; xa0]%byte.
(** Anchor's tag of the instruction (lib.rs:14) *)
Definition GOV_TAG : bytes := firstn 8 (sha256 (str "global:governance")).

(** A posted message as read by [PostedVaa]; the payload is what follows its length field. *)
Record vaa := Vaa { v_chain : Z; v_emitter : bytes; v_seq : Z; v_payload : bytes }.
(** [Instruction] of solana-program *)
Record gix := Gix { ix_program : bytes; ix_accounts : list acc; ix_data : bytes }.

(** What the program relies on: derived addresses of this program; the posted message at an address (an account owned by the core
    bridge with its tag); which accounts are executable; what other programs do when called. *)
Record genv (W : Type) := GEnv {
  ge_addr : purpose -> bytes;
  ge_posted : W -> bytes -> option vaa;
  ge_executable : W -> bytes -> bool;
  ge_call : W -> gix -> result W }.
Arguments ge_addr {W}. Arguments ge_posted {W}. Arguments ge_executable {W}. Arguments ge_call {W}.

(** [gs_log]: ghost, the calls made with the governance signature, newest first, with the world at the time of the call, the
    message and the accounts the program was called with. *)
Record gev (W : Type) := Gev { gv_world : W; gv_vaa : vaa; gv_ctx : list acc; gv_ix : gix }.
Arguments Gev {W}. Arguments gv_world {W}. Arguments gv_vaa {W}. Arguments gv_ctx {W}. Arguments gv_ix {W}.
Record gstate (W : Type) := GState { gs_world : W; gs_replay : bytes -> bool; gs_log : list (gev W) }.
Arguments GState {W}. Arguments gs_world {W}. Arguments gs_replay {W}. Arguments gs_log {W}.

(** governance.rs:462-470 *)
Definition subst_acc (pda payer : bytes) (a : acc) : acc :=
  if bytes_eqb (ac_key a) OWNER then Acc pda (ac_signer a) (ac_writable a)
  else if bytes_eqb (ac_key a) PAYER then Acc payer (ac_signer a) (ac_writable a) else a.

(** [invoke_signed]: the runtime refuses accounts the caller was not given, and signer or writable marks the caller does not have;
    the seeds add the signature of [pda]. *)
Definition granted (ctx : list acc) (pda : bytes) (a : acc) : bool :=
  existsb (fun c => bytes_eqb (ac_key c) (ac_key a)) ctx &&
  (negb (ac_writable a) || existsb (fun c => bytes_eqb (ac_key c) (ac_key a) && ac_writable c) ctx) &&
  (negb (ac_signer a) || bytes_eqb (ac_key a) pda || existsb (fun c => bytes_eqb (ac_key c) (ac_key a) && ac_signer c) ctx).
Definition may_invoke (ctx : list acc) (pda : bytes) (ix : gix) : bool :=
  forallb (granted ctx pda) (ix_accounts ix) && existsb (fun c => bytes_eqb (ac_key c) (ix_program ix)) ctx.

(** The runtime gives an account that is listed several times the privileges of all its entries ([prepare_instruction]). *)
Definition joined (l : list acc) (a : acc) : acc :=
  Acc (ac_key a) (existsb (fun c => bytes_eqb (ac_key c) (ac_key a) && ac_signer c) l) (existsb (fun c => bytes_eqb (ac_key c) (ac_key a) && ac_writable c) l).
Definition merge (l : list acc) : list acc := map (joined l) l.

Definition mark (f : bytes -> bool) (a : bytes) : bytes -> bool := fun b => bytes_eqb b a || f b.

(** governance.rs:39-78 (accounts), 380-396 (conversion, with its assertion), 455-482. [fuel] is the call depth left: a program
    may call itself (and no program below it on the stack), so a governed call to this program runs this function again. *)
Fixpoint g_exec {W} (E : genv W) (fuel : nat) (st : gstate W) (ctx : list acc) (data : bytes) : result (gstate W) :=
  match fuel with
  | O => Err Constraint
  | S fuel =>
    match ctx with
    | payer :: gov :: va :: prog :: rep :: sys :: _ =>
      let pda := ge_addr E SGovernance in
      let? _ := require (bytes_eqb (firstn 8 data) GOV_TAG) Constraint in
      let? _ := require (ac_signer payer && ac_writable payer) Constraint in
      let? _ := require (bytes_eqb (ac_key gov) pda && ac_writable gov) Constraint in
      let? v := ok_or (ge_posted E (gs_world st) (ac_key va)) Constraint in
      let? mr := ok_or (read_gov (v_payload v)) Constraint in
      let m := fst mr in
      let? _ := require (v_chain v =? SOLANA) InvalidGovernanceChain in
      let? _ := require (bytes_eqb (v_emitter v) GOVERNANCE_EMITTER) InvalidGovernanceEmitter in
      let? _ := require (bytes_eqb (g_gov m) GOV_ID) InvalidGovernanceProgram in
      let? _ := require (ge_executable E (gs_world st) (ac_key prog)) Constraint in
      let replay := ge_addr E (SReplay (v_chain v) (v_emitter v) (v_seq v)) in
      let? _ := require (bytes_eqb (ac_key rep) replay && ac_writable rep && negb (gs_replay st replay)) Constraint in
      let? _ := require (bytes_eqb (ac_key sys) (be_enc 32 0)) Constraint in
      let? _ := require (bytes_eqb (g_gov m) GOV_ID) Panic in
      let ix := Gix (g_program m) (map (subst_acc pda (ac_key payer)) (g_accounts m)) (g_data m) in
      let? _ := require (may_invoke ctx pda ix) Constraint in
      let st1 := GState (gs_world st) (mark (gs_replay st) replay) (Gev (gs_world st) v ctx ix :: gs_log st) in
      if bytes_eqb (ix_program ix) GOV_ID then g_exec E fuel st1 (merge (ix_accounts ix)) (ix_data ix)
      else let? w := ge_call E (gs_world st) ix in Ok (GState w (gs_replay st1) (gs_log st1))
    | _ => Err Constraint
    end
  end.

(** Solana's instruction stack is at most 5 high. *)
Definition DEPTH : nat := 5.

(** A transaction's call of the program by anyone (a derived address does not sign), and anything else that happens. *)
Inductive g_step {W} (E : genv W) : gstate W -> gstate W -> Prop :=
  | g_submit st ctx data st' :
      forallb (fun a => negb (ac_signer a && bytes_eqb (ac_key a) (ge_addr E SGovernance))) ctx = true ->
      g_exec E DEPTH st ctx data = Ok st' -> g_step E st st'
  | g_other st w : g_step E st (GState w (gs_replay st) (gs_log st)).
Inductive g_steps {W} (E : genv W) (st : gstate W) : gstate W -> Prop :=
  | g_nil : g_steps E st st
  | g_cons st1 st2 : g_steps E st st1 -> g_step E st1 st2 -> g_steps E st st2.
(** Before the program is deployed: no replay account. *)
Definition g_initial {W} (st : gstate W) : Prop := (forall a, gs_replay st a = false) /\ gs_log st = [].
Definition g_reachable {W} (E : genv W) (st : gstate W) : Prop := exists st0, g_initial st0 /\ g_steps E st0 st.

(** * The client library: the quoter.

    Source: solana/ts/lib/quoter.ts, solana/ts/lib/utils.ts, solana/ts/sdk/ntt.ts (TypeScript), with the quoter's interface of SpecQEntry.v (the library
    uses solana/ts/idl/2_0_0/json/ntt_quoter.json, whose instructions are those of 3_0_0). Not part of the programs under verification (C98, C99).
    [None] is a thrown error, except where said otherwise. Numbers in JavaScript are floating-point: where the library computes with fractions, the
    exact fraction is given here, and what is close to it in the specification; sizes are bounded as the library's big numbers bound them. *)
From Coq Require Import String.
From Verif Require Import Client.
From Verif Require Export Builder SpecQEntry.
Import ListNotations.
Local Open Scope Z_scope.

(** An instruction of the quoter: data and accounts. *)
Record qix := QIx { qx_data : bytes; qx_metas : list qmeta }.
Definition q_accounts := list (string * qaddr).
Fixpoint q_lookup (n : string) (l : q_accounts) : option qaddr :=
  match l with [] => None | (m, h) :: l => if String.eqb n m then Some h else q_lookup n l end.
(** Anchor's [MethodsBuilder], as in Builder.v. Of the names [.accounts] adds, this interface has one. *)
Definition q_place (find : string -> option qaddr) : list q_field -> option (list qmeta) :=
  fix go fs := match fs with
  | [] => Some []
  | f :: fs => match find (qf_name f), go fs with
               | Some h, Some ms => Some (QMeta h (qf_signer f) (qf_writable f) :: ms)
               | _, _ => None
               end
  end.
Definition q_strict (l : q_accounts) (n : string) : option qaddr := q_lookup n l.
Definition q_resolved (l : q_accounts) (n : string) : option qaddr :=
  match q_lookup n l with Some h => Some h | None => q_lookup n [("systemProgram"%string, q_system)] end.
Definition q_build (find : string -> option qaddr) (g : gcall) : option qix :=
  match q_place find (q_interface g) with Some ms => Some (QIx (encoded g) ms) | None => None end.

(** utils.ts:72-84 [U64]. [to]: [new BN(n)] of a number throws from 2^53 on, so that the check for 64 bits never does; [z] is the rounded product.
    [from]: [BN.toNumber] throws from 2^53 on. *)
Definition u64_to (z : Z) : option Z := if (0 <=? z) && (z <? 2 ^ 53) then Some z else None.
Definition safe (z : Z) : bool := z <? 2 ^ 53.

(** ** Reading *)
(** [program.account.….fetch]: a missing account is an error that can be told apart. *)
Inductive outcome (A : Type) := Gives (a : A) | Missing | Throws.
Arguments Gives {A}. Arguments Missing {A}. Arguments Throws {A}.

(** quoter.ts:170-178 *)
Definition getInstance (q : qstate) : outcome (instance qaddr) :=
  match q_accts q QInst with
  | None => Missing
  | Some (QDInstance i) => if safe (in_sol_price i) then Gives i else Throws
  | Some _ => Throws
  end.
(** quoter.ts:180-192; with [paused]. All fields are computed, so each can throw. *)
Definition getRegisteredChain (q : qstate) (ch : Z) : outcome (reg_chain * bool) :=
  match q_accts q (QChain ch) with
  | None => Missing
  | Some (QDChain c) =>
    if safe (rc_max_dropoff c) && safe (rc_base_price c) && safe (rc_native_price c) && safe (rc_gas_price c) then Gives (c, rc_base_price c =? u64_max) else Throws
  | Some _ => Throws
  end.
(** quoter.ts:194-203 *)
Definition getRegisteredNtt (q : qstate) (p : addr) : outcome reg_ntt :=
  match q_accts q (QNtt p) with None => Missing | Some (QDNtt n) => Gives n | Some _ => Throws end.
(** quoter.ts:207-215. [Some None]: no relay was requested. *)
Definition wasRelayRequested (q : qstate) (item : addr) : option (option Z) :=
  match q_accts q (QReq item) with
  | None => Some None
  | Some (QDRequest r) => if safe (rr_dropoff r) then Some (Some (rr_dropoff r)) else None
  | Some _ => None
  end.
(** quoter.ts:58-68; sdk/ntt.ts:527-530 *)
Definition isRelayEnabled (q : qstate) (ch : Z) : option bool :=
  match getRegisteredChain q ch with Gives (_, paused) => Some (negb paused) | Missing => Some false | Throws => None end.

(** quoter.ts:108-141, sdk/ntt.ts:532-545 (whose check of [isRelayEnabled] lacks an [await] and so never throws): the price before the 5% on top, in
    lamports, as the fraction of the two numbers given. [wei] is [options.gasDropoff]; [evm] the platform of the chain. In the library's
    units: prices / 10^6, drop-off in wei / 10^18 and / 10^9, gas price / 10^9. *)
Definition quoteDeliveryPrice (evm : Z -> bool) (E : qenv) (q : qstate) (ntt : addr) (ch wei : Z) : option (Z * Z) :=
  if negb (evm ch) then None else
  match getRegisteredChain q ch, getInstance q, getRegisteredNtt q ntt with
  | Gives (c, _), Gives i, Gives n =>
    if (rc_native_price c =? 0) || (in_sol_price i =? 0) || (rc_max_dropoff c * 10 ^ 9 <? wei) then None
    else Some (qe_rent E 16 * (in_sol_price i * 10 ^ 9) + (rc_base_price c * 10 ^ 18 + rc_native_price c * (wei + rc_gas_price c * rn_gas_cost n)),
               in_sol_price i * 10 ^ 9)
  | _, _, _ => None
  end.

(** quoter.ts:70-100: the same price for any chain and program, without the 5% and without looking for zero prices: a denominator of 0 stands for the
    [Infinity] that division by a price of 0 gives. [dropoff] in wei as above. *)
Definition calcRelayCostInSol (E : qenv) (q : qstate) (ntt : addr) (ch wei : Z) : option (Z * Z) :=
  match getRegisteredChain q ch, getRegisteredNtt q ntt, getInstance q with
  | Gives (c, _), Gives n, Gives i =>
    if rc_max_dropoff c * 10 ^ 9 <? wei then None
    else Some (qe_rent E 16 * (in_sol_price i * 10 ^ 9) + (rc_base_price c * 10 ^ 18 + rc_native_price c * (wei + rc_gas_price c * rn_gas_cost n)),
               in_sol_price i * 10 ^ 9)
  | _, _, _ => None
  end.

(** ** Building *)
Section Builders.
Context (I : qids) (nm : bytes -> addr).
Local Open Scope string_scope.

(** quoter.ts:143-166; [ntt] is the manager the library was set up for *)
Definition createRequestRelay (payer item ntt : addr) (ch max_fee dropoff : Z) : option qix :=
  match u64_to max_fee, u64_to dropoff with
  | Some f, Some d =>
    q_build (q_strict [("payer", QExt payer); ("instance", QInst); ("registeredChain", QChain ch); ("outboxItem", QExt item); ("relayRequest", QReq item);
                       ("systemProgram", q_system); ("registeredNtt", QNtt ntt)]) (Dispatch.QRequestRelay d f)
  | _, _ => None
  end.
(** quoter.ts:217-244; [data] is the quoter's program data account. Its first check lacks an [await] and never throws. *)
Definition createInitializeQuoter (known : Z -> bool) (data : option bytes) (recipient : qaddr) : option qix :=
  match data with
  | None => None
  | Some b =>
    match c_deserialize known c_program_data b with
    | Some [_; VN 1; VB owner] =>
      q_build (q_resolved [("owner", QExt (nm owner)); ("instance", QInst); ("feeRecipient", recipient); ("programData", QExt (qd_data I)); ("systemProgram", q_system)])
        Dispatch.QInitialize
    | _ => None
    end
  end.
(** quoter.ts:246-259 *)
Definition createSetAssistant (q : qstate) (assistant : qaddr) : option qix :=
  match getInstance q with
  | Gives i => if qaddr_eqb (in_assistant i) assistant then None
               else q_build (q_resolved [("owner", in_owner i); ("instance", QInst); ("assistant", assistant)]) Dispatch.QSetAssistant
  | _ => None
  end.
(** quoter.ts:261-278 *)
Definition createSetFeeRecipient (q : qstate) (recipient : qaddr) : option qix :=
  if qaddr_eqb recipient (QExt ANull) then None else
  match getInstance q with
  | Gives i => if qaddr_eqb (in_fee_recipient i) recipient then None
               else q_build (q_resolved [("owner", in_owner i); ("instance", QInst); ("feeRecipient", recipient)]) Dispatch.QSetFeeRecipient
  | _ => None
  end.
(** quoter.ts:280-291 *)
Definition createRegisterChain (authority : addr) (ch : Z) : option qix :=
  q_build (q_resolved [("authority", QExt authority); ("instance", QInst); ("registeredChain", QChain ch); ("systemProgram", q_system)]) (Dispatch.QRegisterChain ch).
(** quoter.ts:293-312 *)
Definition createRegisterNtt (authority : addr) (program : bytes) (gas_cost index : Z) : option qix :=
  q_build (q_resolved [("authority", QExt authority); ("instance", QInst); ("registeredNtt", QNtt (nm program)); ("systemProgram", q_system)])
    (Dispatch.QRegisterNtt program index gas_cost).
(** quoter.ts:314-327 *)
Definition createDeregisterNtt (authority : addr) (program : bytes) : option qix :=
  q_build (q_resolved [("authority", QExt authority); ("instance", QInst); ("registeredNtt", QNtt (nm program)); ("systemProgram", q_system)])
    (Dispatch.QDeregisterNtt program).
(** quoter.ts:329-342 *)
Definition createUpdateSolPrice (authority : addr) (price : Z) : option qix :=
  match u64_to price with
  | Some p => q_build (q_resolved [("authority", QExt authority); ("instance", QInst)]) (Dispatch.QUpdateSolPrice p)
  | None => None
  end.
(** quoter.ts:344-361 *)
Definition createUpdateChainParams (authority : addr) (ch dropoff base : Z) : option qix :=
  match u64_to dropoff, u64_to base with
  | Some d, Some b =>
    q_build (q_resolved [("authority", QExt authority); ("instance", QInst); ("registeredChain", QChain ch)]) (Dispatch.QUpdateChainParams d b)
  | _, _ => None
  end.
(** quoter.ts:363-378 *)
Definition createPauseRelayForChain (authority : addr) (ch : Z) : option qix :=
  q_build (q_resolved [("authority", QExt authority); ("instance", QInst); ("registeredChain", QChain ch)]) (Dispatch.QUpdateChainParams 0 u64_max).
(** quoter.ts:380-397 *)
Definition createUpdateChainPrices (authority : addr) (ch native gas : Z) : option qix :=
  match u64_to native, u64_to gas with
  | Some n, Some g =>
    q_build (q_resolved [("authority", QExt authority); ("instance", QInst); ("registeredChain", QChain ch)]) (Dispatch.QUpdateChainPrices n g)
  | _, _ => None
  end.
(** quoter.ts:399-411 *)
Definition createCloseRelay (authority item : addr) : option qix :=
  q_build (q_resolved [("authority", QExt authority); ("instance", QInst); ("relayRequest", QReq item)]) Dispatch.QCloseRelay.
End Builders.

(** ** The automatic transfer: sdk/ntt.ts:790-897 with [options.automatic]. [items] is the transfer (Builder.v), [b] the request, which comes last. The request
    gives none of the transfer's accounts a privilege it has not got there already (the payer); the other way around it may. *)
Definition q_raise (all : list meta) (m : qmeta) : qmeta :=
  let has f := match qm_key m with QExt a => existsb (fun n => handle_eqb (me_key n) (HA a) && f n) all | _ => false end in
  QMeta (qm_key m) (qm_signer m || has me_signer) (qm_writable m || has me_writable).
Definition submit_automatic (I : qids) (nm : bytes -> addr) (E : qenv) (payer : addr) (q : qstate) (items : list (tx_item * bool)) (b : option qix) : result qstate :=
  match b with
  | None => Err Constraint
  | Some x =>
    let all := Meta (HA payer) true true :: flat_map (fun i => metas_of (fst i)) items in
    let? w := submit nm (qe_hashes E) payer (q_world q) items in
    q_entry I nm E (QState w (q_accts q) (q_lamports q) (q_uauth q)) (map (q_raise all) (qx_metas x)) (qx_data x)
  end.

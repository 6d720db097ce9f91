(** * The relay quoter (programs/ntt-quoter), beside the manager and transceiver programs.

    The quoter has its own accounts and moves lamports, which the rest of the model does not have; it only reads one account of the
    other programs, the outbox item. So its state is the state of the other programs plus its own accounts, the lamport balances
    and the upgrade authority of the quoter program.
    Addresses: the quoter's derived addresses are [QInst], [QChain], [QNtt], [QReq] (seeds at byte level: Seeds.v); every other
    address is [QExt]. Accounts that the code does not pin by seeds or address are taken from the caller.
    Simplified: bumps are canonical and stored as 0; the order of Anchor's checks; refusals of the runtime to leave an account below
    rent exemption. *)
From Verif Require Export Exec.
Local Open Scope Z_scope.

Inductive qaddr := QInst | QChain (c : Z) | QNtt (program : addr) | QReq (item : addr) | QExt (a : addr).
Definition qaddr_eq_dec (a b : qaddr) : {a = b} + {a <> b}.
Proof. decide equality; auto using Z.eq_dec, addr_eq_dec. Defined.
Definition qaddr_eqb (a b : qaddr) : bool := if qaddr_eq_dec a b then true else false.

(** state.rs *)
Inductive qdata := QDInstance (i : instance qaddr) | QDChain (c : reg_chain) | QDNtt (n : reg_ntt) | QDRequest (r : relay_request).

Record qstate := QState { q_world : state; q_accts : qaddr -> option qdata; q_lamports : qaddr -> Z; q_uauth : option addr }.

(** Platform parameters: the hash functions, and the rent-exempt minimum for an account of given size (the rent sysvar). *)
Record qenv := QEnv { qe_hashes : hashes; qe_rent : Z -> Z }.

Definition qupd {A} (m : qaddr -> A) (a : qaddr) (v : A) : qaddr -> A := fun b => if qaddr_eqb b a then v else m b.
Definition q_put (a : qaddr) (d : option qdata) (q : qstate) : qstate := QState (q_world q) (qupd (q_accts q) a d) (q_lamports q) (q_uauth q).
Definition q_set (a : qaddr) (x : Z) (q : qstate) : qstate := QState (q_world q) (q_accts q) (qupd (q_lamports q) a x) (q_uauth q).

(** Account sizes: 8 + INIT_SPACE of state.rs. *)
Definition size_instance : Z := 112.
Definition size_chain : Z := 41.
Definition size_ntt : Z := 14.
Definition size_request : Z := 16.

(** Anchor's [Account<T>] *)
Definition q_instance (q : qstate) (a : qaddr) : result (instance qaddr) := match q_accts q a with Some (QDInstance i) => Ok i | _ => Err Constraint end.
Definition q_chain (q : qstate) (a : qaddr) : result reg_chain := match q_accts q a with Some (QDChain c) => Ok c | _ => Err Constraint end.
Definition q_ntt (q : qstate) (a : qaddr) : result reg_ntt := match q_accts q a with Some (QDNtt n) => Ok n | _ => Err Constraint end.
Definition q_request (q : qstate) (a : qaddr) : result relay_request := match q_accts q a with Some (QDRequest r) => Ok r | _ => Err Constraint end.

(** System program [transfer]. *)
Definition lamport_transfer (q : qstate) (src dst : qaddr) (x : Z) : result qstate :=
  let? _ := require (x <=? q_lamports q src) Constraint in
  let q1 := q_set src (q_lamports q src - x) q in
  let? y := ok_or (checked u64_max (q_lamports q1 dst + x)) Constraint in
  Ok (q_set dst y q1).

(** Anchor's [init] (anchor-lang 0.29, generated code): an address without lamports is created with the rent minimum; one that
    already holds some is topped up to the minimum (at least 1) and then allocated and assigned. *)
Definition init_cost (rent cur : Z) : Z := if cur =? 0 then rent else sat_sub (Z.max rent 1) cur.
Definition q_init (E : qenv) (q : qstate) (payer a : qaddr) (size : Z) (d : qdata) : result qstate :=
  let? _ := require (match q_accts q a with None => true | Some _ => false end) Constraint in
  let? q1 := lamport_transfer q payer a (init_cost (qe_rent E size) (q_lamports q a)) in
  Ok (q_put a (Some d) q1).

(** Anchor's [close = dst] (constraint: not the account itself), at the end of the instruction: all lamports move, the account is gone. *)
Definition q_close (q : qstate) (a dst : qaddr) : result qstate :=
  let? _ := require (negb (qaddr_eqb a dst)) Constraint in
  let? y := plain u64_max (q_lamports q dst + q_lamports q a) in
  Ok (q_put a None (q_set a 0 (q_set dst y q))).

(** state.rs:18-20 *)
Definition is_authorized (i : instance qaddr) (a : qaddr) : bool := qaddr_eqb (in_owner i) a || qaddr_eqb (in_assistant i) a.

(** Accounts [authority: Signer] with constraint [instance.is_authorized(authority)], and [instance]: admin.rs:101-107, 137-143,
    172-178; update_prices.rs:14-21, 41-45, 67-71; close_relay.rs:10-13. *)
Definition authorized (q : qstate) (sg : list addr) (inst : qaddr) (auth : addr) : result (instance qaddr) :=
  let? i := q_instance q inst in
  let? _ := require (signed sg auth) Constraint in
  let? _ := require (is_authorized i (QExt auth)) NotAuthorized in Ok i.
(** [owner: Signer] with [address = instance.owner]: admin.rs:52-56, 72-76. *)
Definition owned (q : qstate) (sg : list addr) (inst : qaddr) (owner : addr) : result (instance qaddr) :=
  let? i := q_instance q inst in
  let? _ := require (signed sg owner && qaddr_eqb (in_owner i) (QExt owner)) Constraint in Ok i.

Definition is_default (a : qaddr) : bool := qaddr_eqb a (QExt ANull).

(** processor/admin.rs:9-47. A new account's other fields are zero: assistant is the default key, the price is 0. *)
Definition qi_initialize (E : qenv) (q : qstate) (sg : list addr) (owner : addr) (recipient : qaddr) : result qstate :=
  let? _ := require (signed sg owner) Constraint in
  let? _ := require (negb (is_default recipient)) FeeRecipientCannotBeDefault in
  let? _ := require (oaddr_eqb (q_uauth q) owner) Constraint in
  q_init E q (QExt owner) QInst size_instance (QDInstance (Instance (QExt owner) (QExt ANull) recipient 0)).

(** processor/admin.rs:51-68 *)
Definition qi_set_fee_recipient (q : qstate) (sg : list addr) (inst : qaddr) (owner : addr) (recipient : qaddr) : result qstate :=
  let? i := owned q sg inst owner in
  let? _ := require (negb (is_default recipient)) FeeRecipientCannotBeDefault in
  Ok (q_put inst (Some (QDInstance (Instance (in_owner i) (in_assistant i) recipient (in_sol_price i)))) q).

(** processor/admin.rs:71-91. A missing optional account stands for the default key. *)
Definition qi_set_assistant (q : qstate) (sg : list addr) (inst : qaddr) (owner : addr) (assistant : option qaddr) : result qstate :=
  let? i := owned q sg inst owner in
  let a := match assistant with Some a => a | None => QExt ANull end in
  Ok (q_put inst (Some (QDInstance (Instance (in_owner i) a (in_fee_recipient i) (in_sol_price i)))) q).

(** processor/admin.rs:94-125 *)
Definition qi_register_chain (E : qenv) (q : qstate) (sg : list addr) (inst : qaddr) (auth : addr) (chain : Z) : result qstate :=
  let? _ := authorized q sg inst auth in
  q_init E q (QExt auth) (QChain chain) size_chain (QDChain (RegChain 0 0 u64_max 0 0)).

(** processor/admin.rs:128-162 *)
Definition qi_register_ntt (E : qenv) (q : qstate) (sg : list addr) (inst : qaddr) (auth : addr) (program : addr) (index gas_cost : Z) : result qstate :=
  let? _ := authorized q sg inst auth in
  q_init E q (QExt auth) (QNtt program) size_ntt (QDNtt (RegNtt 0 index gas_cost)).

(** processor/admin.rs:165-193 *)
Definition qi_deregister_ntt (q : qstate) (sg : list addr) (inst : qaddr) (auth : addr) (program : addr) : result qstate :=
  let? _ := authorized q sg inst auth in
  let? _ := q_ntt q (QNtt program) in
  q_close q (QNtt program) (QExt auth).

(** processor/update_prices.rs:8-31 *)
Definition qi_update_sol_price (q : qstate) (sg : list addr) (inst : qaddr) (auth : addr) (price : Z) : result qstate :=
  let? i := authorized q sg inst auth in
  let? _ := require (negb (price =? 0)) PriceCannotBeZero in
  Ok (q_put inst (Some (QDInstance (Instance (in_owner i) (in_assistant i) (in_fee_recipient i) price))) q).

(** processor/update_prices.rs:34-57 *)
Definition qi_update_chain_prices (q : qstate) (sg : list addr) (inst : qaddr) (auth : addr) (a : qaddr) (native gas : Z) : result qstate :=
  let? _ := authorized q sg inst auth in
  let? c := q_chain q a in
  Ok (q_put a (Some (QDChain (RegChain (rc_bump c) (rc_max_dropoff c) (rc_base_price c) native gas))) q).

(** processor/update_prices.rs:60-83 *)
Definition qi_update_chain_params (q : qstate) (sg : list addr) (inst : qaddr) (auth : addr) (a : qaddr) (dropoff base : Z) : result qstate :=
  let? _ := authorized q sg inst auth in
  let? c := q_chain q a in
  Ok (q_put a (Some (QDChain (RegChain (rc_bump c) dropoff base (rc_native_price c) (rc_gas_price c)))) q).

(** processor/request_relay.rs:85, native_token.rs of solana-program *)
Definition GWEI : Z := 1000000000.
Definition LAMPORTS_PER_SOL : Z := 1000000000.

(** processor/request_relay.rs:100-111. The product of two u64 always fits u128. *)
Definition mul_div (scalar numerator denominator : Z) : result Z :=
  if denominator =? 0 then Err DivByZero
  else if (scalar =? 0) || (numerator =? 0) then Ok 0
  else let? p := plain u128_max (scalar * numerator) in ok_or (checked u64_max (p / denominator)) ScalingOverflow.

(** processor/request_relay.rs:122-144: the fee block of [request_relay] *)
Definition relay_fee (i : instance qaddr) (c : reg_chain) (n : reg_ntt) (dropoff : Z) : result Z :=
  let? gas := mul_div (rc_gas_price c) (rn_gas_cost n) GWEI in
  let? gwei := plain u64_max (dropoff + gas) in
  let? native_usd := mul_div (rc_native_price c) gwei GWEI in
  let? usd := plain u64_max (native_usd + rc_base_price c) in
  mul_div usd LAMPORTS_PER_SOL (in_sol_price i).

(** processor/request_relay.rs:15-30: [OutboxItem::try_deserialize] checks the discriminator, not the owner; the owner [p] is the
    seed of [registered_ntt] (57-61). *)
Definition outbox_view (w : state) (item : addr) : result (prog * outbox_item addr) :=
  match st_accts w item with Some (Acct p (DOutboxItem o)) => Ok (p, o) | _ => Err Constraint end.

(** processor/request_relay.rs:32-78 (accounts), 113-173 *)
Definition qi_request_relay (E : qenv) (q : qstate) (sg : list addr) (payer : addr) (inst : qaddr) (item : addr) (dropoff max_fee : Z) : result qstate :=
  let? _ := require (signed sg payer) Constraint in
  let? i := q_instance q inst in
  let? _ := require (negb (in_sol_price i =? 0)) PriceCannotBeZero in
  let? po := outbox_view (q_world q) item in
  let? n := q_ntt q (QNtt (AProg (fst po))) in
  let? r := bm_get (ob_released (snd po)) (rn_index n) in
  let? _ := require r OutboxItemNotReleased in
  let? c := q_chain q (QChain (ob_chain (snd po))) in
  let? _ := require (negb (rc_base_price c =? u64_max)) RelayingToChainDisabled in
  let? q1 := q_init E q (QExt payer) (QReq item) size_request (QDRequest (RelayRequest 0)) in
  let? _ := require (dropoff <=? rc_max_dropoff c) ExceedsMaxGasDropoff in
  let? fee := relay_fee i c n dropoff in
  let rent := qe_rent E size_request in
  let extra := sat_sub fee rent in
  let? total := plain u64_max (extra + rent) in
  let? _ := require (total <=? max_fee) ExceedsUserMaxFee in
  let q2 := q_put (QReq item) (Some (QDRequest (RelayRequest dropoff))) q1 in
  if 0 <? extra then lamport_transfer q2 (QExt payer) (QReq item) extra else Ok q2.

(** processor/close_relay.rs *)
Definition qi_close_relay (q : qstate) (sg : list addr) (inst : qaddr) (auth : addr) (recipient request : qaddr) : result qstate :=
  let? i := authorized q sg inst auth in
  let? _ := require (qaddr_eqb recipient (in_fee_recipient i)) InvalidFeeRecipient in
  let? _ := q_request q request in
  q_close q request recipient.

(** lib.rs:26-77. The last two are the rest of the platform: a step of the other programs, and a lamport transfer of anyone. *)
Inductive qinstr :=
  | QInitialize (owner : addr) (recipient : qaddr)
  | QSetFeeRecipient (inst : qaddr) (owner : addr) (recipient : qaddr)
  | QSetAssistant (inst : qaddr) (owner : addr) (assistant : option qaddr)
  | QRegisterChain (inst : qaddr) (auth : addr) (chain : Z)
  | QRegisterNtt (inst : qaddr) (auth : addr) (program : addr) (index gas_cost : Z)
  | QDeregisterNtt (inst : qaddr) (auth : addr) (program : addr)
  | QUpdateSolPrice (inst : qaddr) (auth : addr) (price : Z)
  | QUpdateChainPrices (inst : qaddr) (auth : addr) (chain : qaddr) (native gas : Z)
  | QUpdateChainParams (inst : qaddr) (auth : addr) (chain : qaddr) (dropoff base : Z)
  | QRequestRelay (payer : addr) (inst : qaddr) (item : addr) (dropoff max_fee : Z)
  | QCloseRelay (inst : qaddr) (auth : addr) (recipient request : qaddr)
  | QWorld (c : instr)
  | QSend (src : addr) (dst : qaddr) (x : Z)
  | QSetUpgradeAuthority (cur : addr) (new : option addr).

Definition fits (max z : Z) : bool := (0 <=? z) && (z <=? max).
Definition q_typed (i : qinstr) : bool :=
  match i with
  | QRegisterChain _ _ c => fits u16_max c
  | QRegisterNtt _ _ _ i g => fits u8_max i && fits u32_max g
  | QUpdateSolPrice _ _ p => fits u64_max p
  | QUpdateChainPrices _ _ _ a b | QUpdateChainParams _ _ _ a b => fits u64_max a && fits u64_max b
  | QRequestRelay _ _ _ a b => fits u64_max a && fits u64_max b
  | QSend _ _ x => fits u64_max x
  | _ => true
  end.

Record qcall := QCall { q_signers : list addr; q_ins : qinstr }.

Definition q_exec (E : qenv) (q : qstate) (sg : list addr) (i : qinstr) : result qstate :=
  match i with
  | QInitialize o r => qi_initialize E q sg o r
  | QSetFeeRecipient a o r => qi_set_fee_recipient q sg a o r
  | QSetAssistant a o r => qi_set_assistant q sg a o r
  | QRegisterChain a o c => qi_register_chain E q sg a o c
  | QRegisterNtt a o p i g => qi_register_ntt E q sg a o p i g
  | QDeregisterNtt a o p => qi_deregister_ntt q sg a o p
  | QUpdateSolPrice a o p => qi_update_sol_price q sg a o p
  | QUpdateChainPrices a o c x y => qi_update_chain_prices q sg a o c x y
  | QUpdateChainParams a o c x y => qi_update_chain_params q sg a o c x y
  | QRequestRelay p a it d m => qi_request_relay E q sg p a it d m
  | QCloseRelay a o r x => qi_close_relay q sg a o r x
  | QWorld c => let? w := step (qe_hashes E) (q_world q) (Call sg c) in Ok (QState w (q_accts q) (q_lamports q) (q_uauth q))
  | QSend a b x => let? _ := require (signed sg a) Constraint in lamport_transfer q (QExt a) b x
  | QSetUpgradeAuthority cur new =>
      let? _ := require (signed sg cur && oaddr_eqb (q_uauth q) cur) LoaderErr in Ok (QState (q_world q) (q_accts q) (q_lamports q) new)
  end.

Definition q_step (E : qenv) (q : qstate) (c : qcall) : result qstate :=
  let? _ := require (forallb can_sign (q_signers c) && q_typed (q_ins c)) Constraint in
  q_exec E q (q_signers c) (q_ins c).

(** ** Histories, newest event first. *)
Record qev := QEv { qe_pre : qstate; qe_call : qcall; qe_post : qstate }.
Inductive q_run (E : qenv) (q0 : qstate) : list qev -> qstate -> Prop :=
  | q_run_nil : q_run E q0 [] q0
  | q_run_step tr q c q' : q_run E q0 tr q -> q_step E q c = Ok q' -> q_run E q0 (QEv q c q' :: tr) q'.

(** Before the quoter is deployed: no account of its own; the other programs in any state they can reach; any lamports. *)
Record q_initial (E : qenv) (q : qstate) : Prop := {
  qi_world : reachable (qe_hashes E) (q_world q);
  qi_accts : forall a, q_accts q a = None;
  qi_lamports : forall a, is_u64 (q_lamports q a);
  qi_rent : forall n, is_u64 (qe_rent E n) }.
Definition q_reachable (E : qenv) (q : qstate) : Prop := exists q0 tr, q_initial E q0 /\ q_run E q0 tr q.

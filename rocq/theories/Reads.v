(** * The client library: what it reads and reports.

    Source: solana/ts/sdk/ntt.ts:216-228, 461-505, 574-607, 1026-1069, 1089-1143, 1187-1255, solana/ts/lib/ntt.ts:854-869,
    sdk/route/src/types.ts:210-228, sdk/route/src/manual.ts:101-181, 374-421, sdk/route/src/automatic.ts:405-457.
    [None] is a thrown error. *)
From Verif Require Export Upkeep.
Import ListNotations.
Local Open Scope Z_scope.

(** Anchor's [fetch]: the account's data after its discriminator, whoever owns the account. [Broken] is an account that exists but does not hold such
    data. [alive a] says that the cluster has an account at [a] that none of the programs has written, such as one that somebody sent lamports to. *)
Inductive answer (A : Type) := Found (x : A) | Missing | Broken.
Arguments Found {A}. Arguments Missing {A}. Arguments Broken {A}.
Definition fetch {A} (f : data -> option A) (alive : addr -> bool) (s : state) (a : addr) : answer A :=
  match st_accts s a with
  | Some (Acct _ d) => match f d with Some x => Found x | None => Broken end
  | None => if alive a then Broken else Missing
  end.
(** A read that throws when there is nothing, [fetchNullable], and the reads that catch "Account does not exist". *)
Definition needed {A B} (r : answer A) (f : A -> B) : option B := match r with Found x => Some (f x) | _ => None end.
Definition nullable {A B} (r : answer A) (none : B) (f : A -> option B) : option B :=
  match r with Found x => f x | Missing => Some none | Broken => None end.

Definition as_config (d : data) := match d with DConfig c => Some c | _ => None end.
Definition as_peer (d : data) := match d with DPeer p => Some p | _ => None end.
Definition as_xpeer (d : data) := match d with DXPeer p => Some p | _ => None end.
Definition as_item (d : data) := match d with DInboxItem i => Some i | _ => None end.
Definition as_orl (d : data) := match d with DOutboxRL r => Some r | _ => None end.
Definition as_irl (d : data) := match d with DInboxRL r => Some r | _ => None end.

Section Reads.
Context (H : hashes) (alive : addr -> bool) (s : state).

(** sdk/ntt.ts:1089-1143, for attestations whose payload is a [WormholeTransfer]. *)
Definition read_item (ch : Z) (m : ntt_msg) : answer (inbox_item addr) := fetch as_item alive s (pda_inbox (h_msg H ch m)).
Definition getIsExecuted (ch : Z) (m : ntt_msg) : option bool :=
  nullable (read_item ch m) false (fun i => Some (match ib_status i with Released => true | _ => false end)).
Definition getIsTransferInboundQueued (ch : Z) (m : ntt_msg) : option bool :=
  nullable (read_item ch m) false (fun i => Some (match ib_status i with ReleaseAfter _ => true | _ => false end)).
Definition getIsApproved (ch : Z) (m : ntt_msg) : option bool := nullable (read_item ch m) false (fun i => Some (ib_init i)).
(** sdk/ntt.ts:1187-1214: recipient, amount and time; [toNumber] throws for numbers of more than 53 bits. *)
Definition to_number (t : Z) : option Z := if Z.abs t <? 2 ^ 53 then Some t else None.
Definition getInboundQueuedTransfer (ch : Z) (m : ntt_msg) : option (option (addr * Z * Z)) :=
  nullable (read_item ch m) None (fun i =>
    match ib_status i with
    | ReleaseAfter t => match to_number t with Some t => Some (Some (ib_recipient i, ib_amount i, t)) | None => None end
    | _ => Some None
    end).

(** sdk/ntt.ts:1026-1038, 1053-1069 *)
Definition getCurrentOutboundCapacity : option Z := needed (fetch as_orl alive s pda_outbox_rl) rl_cap.
Definition getOutboundLimit : option Z := needed (fetch as_orl alive s pda_outbox_rl) rl_limit.
Definition getCurrentInboundCapacity (ch : Z) : option Z := needed (fetch as_irl alive s (pda_inbox_rl ch)) rl_cap.
Definition getInboundLimit (ch : Z) : option Z := needed (fetch as_irl alive s (pda_inbox_rl ch)) rl_limit.
Definition getRateLimitDuration : Z := 24 * 60 * 60.

(** sdk/ntt.ts:588-603: address, decimals and inbound limit; 216-228: the peer of transceiver [x]. *)
Definition getPeer (ch : Z) : option (option (addr * Z * Z)) :=
  nullable (fetch as_peer alive s (pda_peer ch)) None (fun p =>
    match getInboundLimit ch with Some l => Some (Some (pe_address p, pe_decimals p, l)) | None => None end).
Definition getTransceiverPeer (x : prog) (ch : Z) : option (option addr) :=
  nullable (fetch as_xpeer alive s (pda_xpeer x ch)) None (fun p => Some (Some (xp_address p))).

(** sdk/ntt.ts:574-577, lib/ntt.ts:854-859: the configuration is read once; [memo] is what the object holds. *)
Definition getConfig (memo : option (config addr)) : option (config addr) :=
  match memo with Some c => Some c | None => needed (fetch as_config alive s pda_config) (fun c => c) end.
End Reads.

(** sdk/ntt.ts:461-469, 497-505, 605-607 *)
Definition getMode (c : config addr) : mode := cf_mode c.
Definition isPaused (c : config addr) : bool := cf_paused c.
Definition getThreshold (c : config addr) : Z := cf_threshold c.
Definition getOwner (c : config addr) : addr := cf_owner c.
Definition getCustodyAddress (c : config addr) : addr := cf_custody c.
(** sdk/ntt.ts:1216-1255: the chain's token and transceiver where they differ from those the object was made with. The manager's address is always that of
    the program, on both sides. *)
Definition verifyAddresses (c : config addr) (token : addr) (x : option prog) : option (option addr * option addr) :=
  let t := if addr_eqb (cf_mint c) token then None else Some (cf_mint c) in
  let w := match x with
           | Some x => if addr_eqb (pda_emitter PManager) (pda_emitter x) then None else Some (pda_emitter PManager)
           | None => Some (pda_emitter PManager)
           end in
  match t, w with None, None => None | _, _ => Some (t, w) end.

(** ** Routes *)

(** sdk/route/src/manual.ts:374-421, automatic.ts:405-457 [track], once the attestation is known: the last receipt it yields, from receipt [r]. *)
Inductive progress := RAttested | RInitiated | RQueued (t : Z) | RFinalized.
Definition track (H : hashes) (alive : addr -> bool) (s : state) (ch : Z) (m : ntt_msg) (r : progress) : option progress :=
  let! r := match r with
            | RAttested => let! ok := getIsApproved H alive s ch m in Some (if ok : bool then RInitiated else RAttested)
            | _ => Some r
            end in
  match r with
  | RInitiated | RQueued _ =>
    let! q := getInboundQueuedTransfer H alive s ch m in
    match q with
    | Some (_, _, t) => Some (RQueued t)
    | None => let! done := getIsExecuted H alive s ch m in Some (if done : bool then RFinalized else r)
    end
  | _ => Some r
  end.

(** sdk/route/src/types.ts:210-216 *)
Definition isCapacityThresholdExceeded (amount capacity : Z) : bool := capacity * 95 / 100 <? amount.
(** sdk/route/src/types.ts:218-228, manual.ts:108-112: [a] units of a token of [f] decimals for a token of [t]. @wormhole-foundation/sdk's [truncate]
    and [scale] are read as clearing digits, and as moving the decimal point and dropping digits. *)
Definition truncate (a f d : Z) : Z := if d <? f then a / 10 ^ (f - d) * 10 ^ (f - d) else a.
Definition scale_to (a f t : Z) : Z := if f <? t then a * 10 ^ (t - f) else a / 10 ^ (f - t).
Definition trimAmount (a f t : Z) : Z := truncate a f (Z.min (Z.min f t) 8).
(** manual.ts:143-181: the amount quoted at the destination, and whether it comes with a warning. *)
Definition quote_amount (a f t : Z) : Z := scale_to (trimAmount a f t) f t.
Definition quote_warns (alive : addr -> bool) (s : state) (ch a f t : Z) : option bool :=
  if 0 <? getRateLimitDuration then let! cap := getCurrentInboundCapacity alive s ch in Some (isCapacityThresholdExceeded (quote_amount a f t) cap) else Some false.

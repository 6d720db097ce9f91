(** * The client library: the instructions it builds.

    Source: solana/ts/lib/ntt.ts, solana/ts/sdk/ntt.ts (TypeScript), with the interfaces of SpecIdl.v (solana/ts/idl/3_0_0/json). Not part of the
    programs under verification; written down to say what the programs make of these instructions (C96, C97). [None] is a thrown error.
    An account is given under its name; names of nested structs with dots. The extra accounts of a transfer hook, which come behind, are left out.
    Versions of the programs before 3.0.0 are left out. *)
From Coq Require Import String Ascii.
From Verif Require Export SpecIdl.
From Verif Require Import Lut.
Import ListNotations.
Local Open Scope Z_scope.

Definition named_accounts := list (string * handle).
Fixpoint lookup (n : string) (l : named_accounts) : option handle :=
  match l with [] => None | (m, h) :: l => if String.eqb n m then Some h else lookup n l end.

(** An instruction: program, data, accounts. *)
Record ix := Ix { ix_program : program; ix_data : bytes; ix_metas : list meta }.

(** Anchor's [MethodsBuilder]. The data: the first eight bytes of the hash of the function's name, then the arguments. *)
Definition encoded (g : gcall) : bytes := firstn 8 (sha256 (str "global:" ++ str (name_of g))) ++ args_of g.
(** [.accountsStrict]: the accounts in the order and with the privileges of the interface; one that is missing is an error, one too many is not. *)
Definition place (find : string -> option handle) : list field -> option (list meta) :=
  fix go fs := match fs with
  | [] => Some []
  | f :: fs => match find (fl_name f), go fs with
               | Some h, Some ms => Some (Meta h (fl_signer f) (fl_writable f) :: ms)
               | _, _ => None
               end
  end.
Definition strict (l : named_accounts) (n : string) : option handle := lookup n l.
(** [.accounts]: the same after [AccountsResolver], which adds the accounts of five names. (The sixth rule, the provider's wallet for a signer,
    does not apply: the library's providers are [{ connection }], lib/bindings.ts:70, 83. The interfaces hold no seeds and no relations.) *)
Fixpoint last_part (acc n : string) : string :=
  match n with
  | EmptyString => acc
  | String c r => if Ascii.eqb c "."%char then last_part EmptyString r else last_part (acc ++ String c EmptyString)%string r
  end.
Definition well_known : named_accounts :=
  [("systemProgram", HA system_program); ("rent", HA sysvar_rent); ("clock", HA sysvar_clock); ("tokenProgram", HA (AProg PToken));
   ("associatedTokenProgram", HA (AProg PAta))]%string.
Definition resolved (l : named_accounts) (n : string) : option handle :=
  match lookup n l with Some h => Some h | None => lookup (last_part EmptyString n) well_known end.

(** [idl]: the program whose interface is used; [p]: the program called. *)
Definition build (find : string -> option handle) (idl p : program) (g : gcall) : option ix :=
  match place find (interface idl g) with Some ms => Some (Ix p (encoded g) ms) | None => None end.

(** sdk/ntt.ts:377-408: the transceiver is the manager itself if its emitter was configured, else the program configured. The interface of the
    stand-alone transceiver is used for both (lib/bindings.ts:74-85). *)
Definition program_of (x : prog) : program := match x with PManager => AManager | _ => ATransceiver end.

(** [getWormholeDerivedAccounts] (not in the repository): the accounts of the core bridge, [sequence] for the emitter of program [x] *)
Definition wormhole_full (prefix : string) (x : prog) : named_accounts :=
  [(prefix ++ "bridge", HBridge); (prefix ++ "feeCollector", HFeeCollector); (prefix ++ "sequence", HSequence x); (prefix ++ "program", HA (AProg PWormhole));
   (prefix ++ "systemProgram", HA system_program); (prefix ++ "clock", HA sysvar_clock); (prefix ++ "rent", HA sysvar_rent)]%string.
Definition wormhole_short (x : prog) : named_accounts :=
  [("wormhole.bridge", HBridge); ("wormhole.feeCollector", HFeeCollector); ("wormhole.sequence", HSequence x); ("wormhole.program", HA (AProg PWormhole))]%string.

(** lib/ntt.ts:898-918 [custodyAccountAddress]: the associated token account of the token authority. Token programs are given by their address. *)
Definition assoc (tp w m : addr) : handle := match tp with AProg p => HA (ata p w m) | _ => HOther 0 end.
Definition custody_address (tp m : addr) : handle := assoc tp token_authority m.

Section Builders.
Context (nm : bytes -> addr) (H : hashes).
Local Open Scope string_scope.

(** lib/ntt.ts:234-275 *)
Definition createInitialize (payer owner mnt tp : addr) (chain limit : Z) (md : mode) : option ix :=
  build (strict [("payer", HA payer); ("deployer", HA owner); ("programData", HProgramData); ("config", HA pda_config); ("mint", HA mnt);
                 ("rateLimit", HA pda_outbox_rl); ("tokenProgram", HA tp); ("tokenAuthority", HA token_authority); ("custody", custody_address tp mnt);
                 ("bpfLoaderUpgradeableProgram", HLoader); ("associatedTokenProgram", HA (AProg PAta)); ("systemProgram", HA system_program)])
        AManager AManager (GInitialize chain limit md).

(** lib/ntt.ts:279-373; the address lookup table program is [HOther 1]. Whether it is built at all is [Upkeep.update_needed]. *)
Definition initializeOrUpdateLUT (payer : addr) (c : config addr) (x : prog) (slot : Z) : option ix :=
  build (strict ([("payer", HA payer); ("authority", HA lut_authority); ("lutAddress", HA (lut_at lut_authority slot)); ("lut", HA pda_lut); ("lutProgram", HOther 1);
                  ("systemProgram", HA system_program); ("entries.config", HA pda_config); ("entries.custody", HA (cf_custody c));
                  ("entries.tokenProgram", HA (cf_token_program c)); ("entries.mint", HA (cf_mint c)); ("entries.tokenAuthority", HA token_authority);
                  ("entries.outboxRateLimit", HA pda_outbox_rl)] ++ wormhole_full "entries.wormhole." x)%list)
        AManager AManager (GInitializeLut slot).

(** lib/ntt.ts:375-414, 455-493. [args.transferArgs] as amount, chain, recipient, flag. *)
Definition transfer_common (payer from item : addr) (c : config addr) : named_accounts :=
  [("common.payer", HA payer); ("common.config.config", HA pda_config); ("common.mint", HA (cf_mint c)); ("common.from", HA from);
   ("common.tokenProgram", HA (cf_token_program c)); ("common.outboxItem", HA item); ("common.outboxRateLimit", HA pda_outbox_rl);
   ("common.systemProgram", HA system_program); ("common.custody", custody_address (cf_token_program c) (cf_mint c))].
Definition createTransferBurn (payer from authority item : addr) (c : config addr) (amount chain : Z) (to : bytes) (q : bool) : option ix :=
  build (strict (transfer_common payer from item c ++
                 [("peer", HA (pda_peer chain)); ("inboxRateLimit", HA (pda_inbox_rl chain));
                  ("sessionAuthority", HA (pda_session authority (h_args H (TransferArgs amount chain (nm to) q)))); ("tokenAuthority", HA token_authority)])%list)
        AManager AManager (GTransferBurn amount chain to q).
Definition createTransferLock (payer from authority item : addr) (c : config addr) (amount chain : Z) (to : bytes) (q : bool) : option ix :=
  if cf_paused c then None else
  build (strict (transfer_common payer from item c ++
                 [("peer", HA (pda_peer chain)); ("inboxRateLimit", HA (pda_inbox_rl chain));
                  ("sessionAuthority", HA (pda_session authority (h_args H (TransferArgs amount chain (nm to) q))));
                  ("custody", custody_address (cf_token_program c) (cf_mint c))])%list)
        AManager AManager (GTransferLock amount chain to q).

(** lib/ntt.ts:534-573, 614-654. [recipient] is given or read from the inbox item. *)
Definition release_common (payer recipient : addr) (c : config addr) (chain : Z) (m : ntt_msg) : named_accounts :=
  [("common.payer", HA payer); ("common.config.config", HA pda_config); ("common.inboxItem", HA (pda_inbox (h_msg H chain m)));
   ("common.recipient", assoc (cf_token_program c) recipient (cf_mint c)); ("common.mint", HA (cf_mint c)); ("common.tokenAuthority", HA token_authority);
   ("common.tokenProgram", HA (cf_token_program c)); ("common.custody", custody_address (cf_token_program c) (cf_mint c))].
Definition createReleaseInboundMint (payer recipient : addr) (c : config addr) (chain : Z) (m : ntt_msg) (r : bool) : option ix :=
  build (strict (release_common payer recipient c chain m)) AManager AManager (GReleaseMint r).
Definition createReleaseInboundUnlock (payer recipient : addr) (c : config addr) (chain : Z) (m : ntt_msg) (r : bool) : option ix :=
  build (strict (release_common payer recipient c chain m ++ [("custody", custody_address (cf_token_program c) (cf_mint c))])%list) AManager AManager (GReleaseUnlock r).

(** lib/ntt.ts:696-711 *)
Definition createTransferOwnership (new_owner : addr) : option ix :=
  build (resolved [("config", HA pda_config); ("newOwner", HA new_owner)]) AManager AManager GTransferOwnership.
(** lib/ntt.ts:713-741 *)
Definition createSetPeer (payer owner : addr) (chain : Z) (address : bytes) (limit decimals : Z) : option ix :=
  build (resolved [("payer", HA payer); ("owner", HA owner); ("config", HA pda_config); ("peer", HA (pda_peer chain)); ("inboxRateLimit", HA (pda_inbox_rl chain))])
        AManager AManager (GSetPeer chain address limit decimals).
(** lib/ntt.ts:744-760 *)
Definition createSetPaused (owner : addr) (paused : bool) : option ix :=
  build (strict [("owner", HA owner); ("config", HA pda_config)]) AManager AManager (GSetPaused paused).
(** lib/ntt.ts:762-781 *)
Definition createSetOutboundLimit (owner : addr) (limit : Z) : option ix :=
  build (resolved [("owner", HA owner); ("config", HA pda_config); ("rateLimit", HA pda_outbox_rl)]) AManager AManager (GSetOutboundLimit limit).
(** lib/ntt.ts:783-804 *)
Definition setInboundLimit (owner : addr) (chain limit : Z) : option ix :=
  build (resolved [("owner", HA owner); ("config", HA pda_config); ("rateLimit", HA (pda_inbox_rl chain))]) AManager AManager (GSetInboundLimit limit chain).
(** lib/ntt.ts:806-842; [chain] and [m] are those of the delivered message *)
Definition createRedeem (payer : addr) (c : config addr) (x : prog) (chain : Z) (m : ntt_msg) : option ix :=
  build (resolved [("payer", HA payer); ("config", HA pda_config); ("peer", HA (pda_peer chain)); ("transceiverMessage", HA (pda_vtm x chain (nm_id m)));
                   ("transceiver", HA (pda_reg (AProg x))); ("mint", HA (cf_mint c)); ("inboxItem", HA (pda_inbox (h_msg H chain m)));
                   ("inboxRateLimit", HA (pda_inbox_rl chain)); ("outboxRateLimit", HA pda_outbox_rl)])
        AManager AManager GRedeem.

(** sdk/ntt.ts:723-746 *)
Definition createRegisterTransceiver (payer owner : addr) (x : prog) : option ix :=
  build (strict [("payer", HA payer); ("owner", HA owner); ("config", HA pda_config); ("transceiver", HA (AProg x));
                 ("registeredTransceiver", HA (pda_reg (AProg x))); ("systemProgram", HA system_program)])
        AManager AManager GRegisterTransceiver.
(** sdk/ntt.ts:99-121; [vaa] is where the core bridge keeps the message *)
Definition createReceive (payer vaa : addr) (x : prog) (chain : Z) (m : ntt_msg) : option ix :=
  build (resolved [("payer", HA payer); ("config.config", HA pda_config); ("peer", HA (pda_xpeer x chain)); ("vaa", HA vaa);
                   ("transceiverMessage", HA (pda_vtm x chain (nm_id m)))])
        ATransceiver (program_of x) GReceive.
(** sdk/ntt.ts:185-198 *)
Definition createSetWormholePeer (sender : addr) (x : prog) (chain : Z) (address : bytes) : option ix :=
  build (resolved [("payer", HA sender); ("owner", HA sender); ("config", HA pda_config); ("peer", HA (pda_xpeer x chain))])
        ATransceiver (program_of x) (GSetWormholePeer chain address).
(** sdk/ntt.ts:230-259 *)
Definition createBroadcastWormholeId (payer msg : addr) (c : config addr) (x : prog) : option ix :=
  build (strict ([("payer", HA payer); ("config", HA pda_config); ("mint", HA (cf_mint c)); ("wormholeMessage", HA msg); ("emitter", HA (pda_emitter x))] ++
                 wormhole_full "wormhole." x)%list)
        ATransceiver (program_of x) GBroadcastId.
(** sdk/ntt.ts:261-287 *)
Definition createBroadcastWormholePeer (payer msg : addr) (x : prog) (chain : Z) : option ix :=
  build (resolved ([("payer", HA payer); ("config", HA pda_config); ("peer", HA (pda_xpeer x chain)); ("wormholeMessage", HA msg); ("emitter", HA (pda_emitter x))] ++
                   wormhole_short x)%list)
        ATransceiver (program_of x) (GBroadcastPeer chain).
(** sdk/ntt.ts:289-328 *)
Definition createReleaseWormholeOutbound (payer item : addr) (x : prog) (r : bool) : option ix :=
  build (resolved ([("payer", HA payer); ("config.config", HA pda_config); ("outboxItem", HA item); ("wormholeMessage", HA (pda_message x item));
                    ("emitter", HA (pda_emitter x)); ("transceiver", HA (pda_reg (AProg x)))] ++ wormhole_short x ++
                   [("manager", HA (AProg PManager)); ("outboxItemSigner", HA (pda_outbox_signer x))])%list)
        ATransceiver (program_of x) (GReleaseOutbound r).

(** ** Transactions (sdk/ntt.ts). Instructions of other programs that are part of them: [splToken.createApproveInstruction]. *)
Inductive tx_item := Ours (i : option ix) | Approve (tp account delegate owner : addr) (amount : Z).

(** sdk/ntt.ts:790-897 without the relay request: one transceiver [x], the library supports no more *)
Definition client_transfer (sender : addr) (amount chain : Z) (to : bytes) (q : bool) (outbox_item : addr) (c : config addr) (x : prog) : option (list tx_item) :=
  if cf_paused c then None else
  match assoc (cf_token_program c) sender (cf_mint c) with
  | HA from =>
    Some [Approve (cf_token_program c) from (pda_session sender (h_args H (TransferArgs amount chain (nm to) q))) sender amount;
          Ours (match cf_mode c with
                | Locking => createTransferLock sender from sender outbox_item c amount chain to q
                | Burning => createTransferBurn sender from sender outbox_item c amount chain to q
                end);
          Ours (createReleaseWormholeOutbound sender outbox_item x (negb q))]
  | _ => None
  end.
(** sdk/ntt.ts:933-1024: the last of its transactions, after the payer's token account was created and the message posted at [vaa] *)
Definition client_redeem (payer vaa : addr) (chain : Z) (m : ntt_msg) (c : config addr) (x : prog) : option (list tx_item) :=
  if cf_paused c then None else
  Some [Ours (createReceive payer vaa x chain m); Ours (createRedeem payer c x chain m);
        Ours (match cf_mode c with
              | Locking => createReleaseInboundUnlock payer (nm_to m) c chain m false
              | Burning => createReleaseInboundMint payer (nm_to m) c chain m false
              end)].
(** sdk/ntt.ts:1145-1185 *)
Definition completeInboundQueuedTransfer (payer : addr) (chain : Z) (m : ntt_msg) (c : config addr) : option (list tx_item) :=
  if cf_paused c then None else
  Some [Ours (match cf_mode c with
              | Locking => createReleaseInboundUnlock payer (nm_to m) c chain m false
              | Burning => createReleaseInboundMint payer (nm_to m) c chain m false
              end)].
(** sdk/ntt.ts:693-721 *)
Definition registerWormholeTransceiver (payer owner msg : addr) (c : config addr) (x : prog) : option (list tx_item) :=
  if cf_paused c then None else
  Some [Ours (createRegisterTransceiver payer owner x); Ours (createBroadcastWormholeId payer msg c x)].
(** sdk/ntt.ts:185-214 *)
Definition setTransceiverPeer (sender msg : addr) (x : prog) (chain : Z) (address : bytes) : option (list tx_item) :=
  Some [Ours (createSetWormholePeer sender x chain address); Ours (createBroadcastWormholePeer sender msg x chain)].
End Builders.

(** A transaction gives an account that signs, or is writable, in one of its instructions the same privilege in all of them. [ok] is the answer of
    the programs that our programs call, one for each instruction. An instruction that could not be built is an error of the library. *)
Definition metas_of (i : tx_item) : list meta :=
  match i with
  | Ours (Some i) => ix_metas i
  | Ours None => []
  | Approve tp a d o _ => [Meta (HA a) false true; Meta (HA d) false false; Meta (HA o) true false] (* @solana/spl-token approve.ts *)
  end.
Definition raise_ (all : list meta) (m : meta) : meta :=
  let has f := existsb (fun n => handle_eqb (me_key n) (me_key m) && f n) all in
  Meta (me_key m) (has me_signer) (has me_writable).
Definition submit1 (nm : bytes -> addr) (H : hashes) (all : list meta) (ok : bool) (s : state) (i : tx_item) : result state :=
  match i with
  | Ours (Some i) => entry nm ok H s (ix_program i) (map (raise_ all) (ix_metas i)) (ix_data i)
  | Ours None => Err Constraint
  | Approve tp a d o n => match tp with AProg p => step H s (Call (signers_of all) (EApprove p a o d n)) | _ => Err Constraint end
  end.
Fixpoint submit_ (nm : bytes -> addr) (H : hashes) (all : list meta) (s : state) (l : list (tx_item * bool)) : result state :=
  match l with
  | [] => Ok s
  | (i, ok) :: l => let? s' := submit1 nm H all ok s i in submit_ nm H all s' l
  end.
(** The payer of the transaction's fee signs and is writable as well. *)
Definition submit (nm : bytes -> addr) (H : hashes) (payer : addr) (s : state) (l : list (tx_item * bool)) : result state :=
  submit_ nm H (Meta (HA payer) true true :: flat_map (fun x => metas_of (fst x)) l) s l.

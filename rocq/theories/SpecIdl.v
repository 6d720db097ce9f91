(** * The published interface of the two programs (C75): for each function the names of its accounts in order, and which of them sign and are
    writable, as in solana/ts/idl/3_0_0/json/example_native_token_transfers.json and ntt_transceiver.json (nested structs with dots). *)
From Coq Require Import String.
From Verif Require Export SpecEntry SpecDispatch.
From Verif Require Import Lut.
Import ListNotations.
Local Open Scope Z_scope.
Local Open Scope list_scope.

Record field := Field { fl_name : string; fl_signer : bool; fl_writable : bool }.
Local Notation R n := (Field n%string false false).
Local Notation W n := (Field n%string false true).
Local Notation S n := (Field n%string true false).
Local Notation SW n := (Field n%string true true).
Definition interface (p : program) (g : gcall) : list field :=
  match g with
  | GInitialize _ _ _ =>
    [SW "payer"; S "deployer"; R "programData"; W "config"; R "mint"; W "rateLimit"; R "tokenAuthority"; W "custody"; R "tokenProgram";
     R "associatedTokenProgram"; R "bpfLoaderUpgradeableProgram"; R "systemProgram"]
  | GInitializeLut _ =>
    [SW "payer"; R "authority"; W "lutAddress"; W "lut"; R "lutProgram"; R "systemProgram"; R "entries.config"; R "entries.custody";
     R "entries.tokenProgram"; R "entries.mint"; R "entries.tokenAuthority"; R "entries.outboxRateLimit"; W "entries.wormhole.bridge";
     W "entries.wormhole.feeCollector"; W "entries.wormhole.sequence"; R "entries.wormhole.program"; R "entries.wormhole.systemProgram";
     R "entries.wormhole.clock"; R "entries.wormhole.rent"]
  | GTransferBurn _ _ _ _ =>
    [SW "common.payer"; R "common.config.config"; W "common.mint"; W "common.from"; R "common.tokenProgram"; SW "common.outboxItem";
     W "common.outboxRateLimit"; W "common.custody"; R "common.systemProgram"; W "inboxRateLimit"; R "peer"; R "sessionAuthority"; R "tokenAuthority"]
  | GTransferLock _ _ _ _ =>
    [SW "common.payer"; R "common.config.config"; W "common.mint"; W "common.from"; R "common.tokenProgram"; SW "common.outboxItem";
     W "common.outboxRateLimit"; W "common.custody"; R "common.systemProgram"; W "inboxRateLimit"; R "peer"; R "sessionAuthority"]
  | GRedeem =>
    [SW "payer"; R "config"; R "peer"; R "transceiverMessage"; R "transceiver"; R "mint"; W "inboxItem"; W "inboxRateLimit"; W "outboxRateLimit";
     R "systemProgram"]
  | GReleaseMint _ =>
    [SW "common.payer"; R "common.config.config"; W "common.inboxItem"; W "common.recipient"; R "common.tokenAuthority"; W "common.mint";
     R "common.tokenProgram"; W "common.custody"]
  | GReleaseUnlock _ =>
    [SW "common.payer"; R "common.config.config"; W "common.inboxItem"; W "common.recipient"; R "common.tokenAuthority"; W "common.mint";
     R "common.tokenProgram"; W "common.custody"]
  | GTransferOwnership =>
    [W "config"; S "owner"; R "newOwner"; R "upgradeLock"; W "programData"; R "bpfLoaderUpgradeableProgram"]
  | GTransferOwnershipOneStep =>
    [W "config"; S "owner"; R "newOwner"; R "upgradeLock"; W "programData"; R "bpfLoaderUpgradeableProgram"]
  | GClaimOwnership =>
    [W "config"; R "upgradeLock"; S "newOwner"; W "programData"; R "bpfLoaderUpgradeableProgram"]
  | GSetPaused _ =>
    [S "owner"; W "config"]
  | GSetPeer _ _ _ _ =>
    [SW "payer"; S "owner"; R "config"; W "peer"; W "inboxRateLimit"; R "systemProgram"]
  | GRegisterTransceiver =>
    [W "config"; S "owner"; SW "payer"; R "transceiver"; W "registeredTransceiver"; R "systemProgram"]
  | GSetOutboundLimit _ =>
    [R "config"; S "owner"; W "rateLimit"]
  | GSetInboundLimit _ _ =>
    [R "config"; S "owner"; W "rateLimit"]
  | GMark =>
    [S "signer"; R "config.config"; W "outboxItem"; R "transceiver"]
  | GSetWormholePeer _ _ =>
    [R "config"; S "owner"; SW "payer"; W "peer"; R "systemProgram"]
  | GReceive =>
    [SW "payer"; R "config.config"; R "peer"; R "vaa"; W "transceiverMessage"; R "systemProgram"]
  | GReleaseOutbound _ =>
    [SW "payer"; R "config.config"; W "outboxItem"; R "transceiver"; W "wormholeMessage"; R "emitter"; W "wormhole.bridge"; W "wormhole.feeCollector";
     W "wormhole.sequence"; R "wormhole.program"; R "wormhole.systemProgram"; R "wormhole.clock"; R "wormhole.rent"] ++
    match p with ATransceiver => [R "manager"; R "outboxItemSigner"] | _ => [] end
  | GBroadcastId =>
    [SW "payer"; R "config"; R "mint"; SW "wormholeMessage"; R "emitter"; W "wormhole.bridge"; W "wormhole.feeCollector"; W "wormhole.sequence";
     R "wormhole.program"; R "wormhole.systemProgram"; R "wormhole.clock"; R "wormhole.rent"]
  | GBroadcastPeer _ =>
    [SW "payer"; R "config"; R "peer"; SW "wormholeMessage"; R "emitter"; W "wormhole.bridge"; W "wormhole.feeCollector"; W "wormhole.sequence";
     R "wormhole.program"; R "wormhole.systemProgram"; R "wormhole.clock"; R "wormhole.rent"]
  | _ => []
  end.

(** The account passed under a name. *)
Definition passed (p : program) (g : gcall) (ms : list meta) (n : string) (h : handle) : Prop :=
  exists k f m, nth_error (interface p g) k = Some f /\ fl_name f = n /\ nth_error ms k = Some m /\ me_key m = h.

(** What a function does, its accounts by name. [tp] is one of the two token programs. *)
Local Open Scope string_scope.
Definition asked (nm : bytes -> addr) (ok : bool) (p : program) (g : gcall) (ms : list meta) (i : instr) : Prop :=
  let A n a := passed p g ms n (HA a) in
  let me q := match q with PManager => p = AManager | PTransceiver => p = ATransceiver | _ => False end in
  match g with
  | GInitialize ch l md => exists d m tp, A "deployer" d /\ A "mint" m /\ A "tokenProgram" (AProg tp) /\ i = IInitialize d m tp ch l md
  | GInitializeLut slot => exists cfg orl, A "entries.config" cfg /\ A "entries.outboxRateLimit" orl /\ A "lutAddress" (lut_at lut_authority slot) /\
      i = IInitializeLut cfg orl (lut_at lut_authority slot) ok
  | GTransferBurn a ch to q => exists cfg f tp it orl, A "common.config.config" cfg /\ A "common.from" f /\ A "common.tokenProgram" (AProg tp) /\
      A "common.outboxItem" it /\ A "common.outboxRateLimit" orl /\ i = ITransferBurn (TransferAccts cfg f tp it orl ok) (TransferArgs a ch (nm to) q)
  | GTransferLock a ch to q => exists cfg f tp it orl, A "common.config.config" cfg /\ A "common.from" f /\ A "common.tokenProgram" (AProg tp) /\
      A "common.outboxItem" it /\ A "common.outboxRateLimit" orl /\ i = ITransferLock (TransferAccts cfg f tp it orl ok) (TransferArgs a ch (nm to) q)
  | GRedeem => exists cfg m tr orl, A "config" cfg /\ A "transceiverMessage" m /\ A "transceiver" tr /\ A "outboxRateLimit" orl /\
      i = IRedeem (RedeemAccts cfg m tr orl)
  | GReleaseMint r => exists cfg it tp, A "common.config.config" cfg /\ A "common.inboxItem" it /\ A "common.tokenProgram" (AProg tp) /\
      i = IReleaseMint (ReleaseAccts cfg it tp ok) r
  | GReleaseUnlock r => exists cfg it tp, A "common.config.config" cfg /\ A "common.inboxItem" it /\ A "common.tokenProgram" (AProg tp) /\
      i = IReleaseUnlock (ReleaseAccts cfg it tp ok) r
  | GTransferOwnership => exists cfg o n, A "config" cfg /\ A "owner" o /\ A "newOwner" n /\ i = ITransferOwnership cfg o n
  | GTransferOwnershipOneStep => exists cfg o n, A "config" cfg /\ A "owner" o /\ A "newOwner" n /\ i = ITransferOwnershipOneStep cfg o n
  | GClaimOwnership => exists cfg n, A "config" cfg /\ A "newOwner" n /\ i = IClaimOwnership cfg n
  | GSetPaused b => exists cfg o, A "config" cfg /\ A "owner" o /\ i = ISetPaused cfg o b
  | GSetPeer ch a l d => exists cfg o, A "config" cfg /\ A "owner" o /\ i = ISetPeer cfg o ch (nm a) l d
  | GRegisterTransceiver => exists cfg o t, A "config" cfg /\ A "owner" o /\ A "transceiver" t /\ i = IRegisterTransceiver cfg o t
  | GSetOutboundLimit l => exists cfg o r, A "config" cfg /\ A "owner" o /\ A "rateLimit" r /\ i = ISetOutboundLimit cfg o r l
  | GSetInboundLimit l ch => exists cfg o, A "config" cfg /\ A "owner" o /\ i = ISetInboundLimit cfg o ch l
  | GMark => exists sn cfg it tr, A "signer" sn /\ A "config.config" cfg /\ A "outboxItem" it /\ A "transceiver" tr /\ i = IMark sn cfg it tr
  | GSetWormholePeer ch a => exists q cfg o, me q /\ A "config" cfg /\ A "owner" o /\ i = IXSetPeer q cfg o ch (nm a)
  | GReceive => exists q cfg v, me q /\ A "config.config" cfg /\ A "vaa" v /\ i = IXReceive q cfg v
  | GReleaseOutbound r => exists q cfg it tr, me q /\ A "config.config" cfg /\ A "outboxItem" it /\ A "transceiver" tr /\ i = IXRelease q cfg it tr r ok
  | GBroadcastId => exists q cfg m, me q /\ A "config" cfg /\ A "wormholeMessage" m /\ i = IXBroadcastId q cfg m ok
  | GBroadcastPeer ch => exists q cfg m, me q /\ A "config" cfg /\ A "wormholeMessage" m /\ i = IXBroadcastPeer q cfg ch m ok
  | _ => False
  end.

Local Close Scope string_scope.

(** Names that always stand for the same account of program [q]. *)
Definition fixed (q : prog) : list (string * handle) :=
  [("programData", HProgramData); ("upgradeLock", HA upgrade_lock); ("tokenAuthority", HA token_authority); ("common.tokenAuthority", HA token_authority);
   ("entries.tokenAuthority", HA token_authority); ("authority", HA lut_authority); ("lut", HA pda_lut); ("associatedTokenProgram", HA (AProg PAta));
   ("emitter", HA (pda_emitter q)); ("manager", HA (AProg PManager)); ("outboxItemSigner", HA (pda_outbox_signer q));
   ("wormhole.bridge", HBridge); ("wormhole.feeCollector", HFeeCollector); ("wormhole.sequence", HSequence q); ("wormhole.program", HA (AProg PWormhole));
   ("entries.wormhole.program", HA (AProg PWormhole)); ("bpfLoaderUpgradeableProgram", HLoader); ("systemProgram", HA system_program);
   ("common.systemProgram", HA system_program); ("wormhole.systemProgram", HA system_program); ("wormhole.clock", HA sysvar_clock); ("wormhole.rent", HA sysvar_rent);
   ("entries.wormhole.systemProgram", HA system_program); ("entries.wormhole.clock", HA sysvar_clock); ("entries.wormhole.rent", HA sysvar_rent)]%string.

(** The accounts named in the interface with the privileges named there, and no others. *)
Fixpoint least (fs : list field) (ms : list meta) : list meta :=
  match fs, ms with
  | f :: fs, m :: ms => Meta (me_key m) (fl_signer f) (fl_writable f) :: least fs ms
  | _, _ => []
  end.
(** A function that only returns a constant. *)
Definition constant (g : gcall) : Prop := g = GVersion \/ g = GTransceiverType.

(** * Vocabulary of the lamport properties (C79). *)
From Verif Require Export Lamport SpecTransfer.
From Verif Require Import SpecAdmin.
Import ListNotations.
Local Open Scope Z_scope.

(** What an account of the programs holds decides its size. *)
Definition kind_of (d : data) : option kind :=
  match d with
  | DConfig _ => Some KConfig | DPeer _ => Some KPeer | DOutboxItem _ => Some KOutboxItem | DOutboxRL _ => Some KOutboxRateLimit
  | DInboxItem _ => Some KInboxItem | DInboxRL _ => Some KInboxRateLimit | DReg _ => Some KRegistered | DLut _ => Some KLut
  | DXPeer _ => Some KXPeer | DVtm _ _ => Some KVtm | DVaa _ _ _ | DPosted | DOther _ => None
  end.
(** An account of the programs of [n] bytes at [a]. *)
Definition program_account (s : state) (a : addr) (n : Z) : Prop :=
  exists p d k, st_accts s a = Some (Acct p d) /\ (p = PManager \/ p = PTransceiver) /\ kind_of d = Some k /\ n = 8 + Z.of_nat (c_space (codec_of k)).

(** New in [s']: an account of the programs, or a token account, of [n] bytes at [a]. *)
Definition opened (E : lenv) (s s' : state) (a : addr) (n : Z) : Prop :=
  (st_accts s a = None /\ program_account s' a n) \/
  (st_toks s a = None /\ exists t, st_toks s' a = Some t /\ n = le_tok_size E (tk_mint t)).
(** A message has been handed to the bridge. *)
Definition posted (s s' : state) : bool := negb (Nat.eqb (length (st_posted s')) (length (st_posted s))).

(** What is missing at [a] to the rent-exempt minimum of [n] bytes. *)
Definition lacking (E : lenv) (p : purse) (a : addr) (n : Z) : Z := Z.max 0 (le_rent E n - p (HA a)).
(** What the bridge and the lookup table program take for the accounts they create. *)
Definition extras (s s' : state) (i : instr) (take : Z * Z) : list (handle * Z) :=
  match i with
  | IInitializeLut _ _ a _ => [(HA a, fst take)]
  | IXRelease p _ it _ _ _ => if posted s s' then [(HSequence p, fst take); (HA (pda_message p it), snd take)] else []
  | IXBroadcastId p _ m _ | IXBroadcastPeer p _ _ m _ => [(HSequence p, fst take); (HA m, snd take)]
  | _ => []
  end.
(** The bill of an instruction that leads from [l] to chain state [s']: what is missing at the new accounts, the bridge's fee if a message is posted, and
    what the other programs take. *)
Definition bill (E : lenv) (l : fstate) (s' : state) (i : instr) (take : Z * Z) (b : list (handle * Z)) : Prop :=
  exists news : list (addr * Z), NoDup (map fst news) /\ (forall a n, In (a, n) news <-> opened E (f_world l) s' a n) /\
    b = map (fun an => (HA (fst an), lacking E (f_purse l) (fst an) (snd an))) news
        ++ (if posted (f_world l) s' then [(HFeeCollector, f_fee l)] else []) ++ extras (f_world l) s' i take.
Definition total_of (b : list (handle * Z)) : Z := fold_right (fun hx n => snd hx + n) 0 b.
Definition share (b : list (handle * Z)) (h : handle) : Z := fold_right (fun hx n => (if handle_eqb (fst hx) h then snd hx else 0) + n) 0 b.

(** The payer has signed, is not to become one of the accounts, and can pay: enough lamports and no data. *)
Definition has_payer (i : instr) : bool :=
  match i with
  | IInitialize _ _ _ _ _ _ | IInitializeLut _ _ _ _ | ITransferLock _ _ | ITransferBurn _ _ | IRedeem _ | IReleaseMint _ _ | IReleaseUnlock _ _
  | ISetPeer _ _ _ _ _ _ | IRegisterTransceiver _ _ _ | IXSetPeer _ _ _ _ _ | IXReceive _ _ _ | IXRelease _ _ _ _ _ _ | IXBroadcastId _ _ _ _
  | IXBroadcastPeer _ _ _ _ _ => true
  | _ => false
  end.
Definition bare (s : state) (a : addr) : Prop :=
  st_accts s a = None /\ st_toks s a = None /\ st_mints s a = None /\ (forall p, a <> AProg p) /\ a <> ANull.
Definition pays (E : lenv) (l : fstate) (s' : state) (sg : list addr) (i : instr) (payer : addr) (b : list (handle * Z)) : Prop :=
  has_payer i = true -> In payer sg /\ (forall n, ~ opened E (f_world l) s' payer n) /\ (total_of b = 0 \/ bare (f_world l) payer) /\ total_of b <= f_purse l (HA payer).
(** Everybody gets their share, at the payer's expense. *)
Definition settled (p p' : purse) (payer : addr) (b : list (handle * Z)) : Prop :=
  forall h, p' h = p h + share b h - (if handle_eqb h (HA payer) then total_of b else 0).

(** More lamports everywhere, in particular at addresses where accounts are to be created. *)
Definition richer (l l2 : fstate) : Prop :=
  f_world l2 = f_world l /\ f_fee l2 = f_fee l /\ forall h, f_purse l h <= f_purse l2 h.

(** Instructions that create nothing and send nothing. *)
Definition costs_nothing (i : instr) : bool :=
  match i with
  | IReleaseMint _ _ | IReleaseUnlock _ _ | ITransferOwnership _ _ _ | ITransferOwnershipOneStep _ _ _ | IClaimOwnership _ _ | ISetPaused _ _ _ | ISetOutboundLimit _ _ _ _
  | ISetInboundLimit _ _ _ _ | IMark _ _ _ _ => true
  | _ => false
  end.

(** Who decides over lamports, without any of the programs: of an account of another program that program, of a token account also its owner, of an address
    without data its holder. *)
Definition may_draw (s : state) (sg : list addr) (h : handle) : Prop :=
  match h with
  | HA a => (forall ac, st_accts s a = Some ac -> ac_owner ac <> PManager /\ ac_owner ac <> PTransceiver) /\
            (forall t, st_toks s a = Some t -> In (tk_owner t) sg) /\
            (st_accts s a = None -> st_toks s a = None -> st_mints s a = None -> In a sg)
  | HBridge | HFeeCollector | HSequence _ => False
  | HProgramData | HLoader | HOther _ => True
  end.

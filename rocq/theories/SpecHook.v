(** * Vocabulary of the transfer-hook properties (C78). *)
From Verif Require Export Hook SpecTransfer.
Import ListNotations.
Local Open Scope Z_scope.

(** The call a movement of [x] tokens owes to the hook: none if the mint has no hook or source and destination are the same. *)
Definition owed (hooked : addr -> bool) (s : state) (src mnt dst auth : addr) (x : Z) : list hookcall :=
  match st_mints s mnt with
  | Some m =>
      match mt_prog m with
      | PToken22 => if hooked mnt && negb (addr_eqb src dst) then [HookCall src mnt dst auth x] else []
      | _ => []
      end
  | None => []
  end.

(** The calls an instruction owes in state [s]: an outbound transfer moves the sender's tokens to custody in the name of the session
    authority, a release due by the clock moves the item's amount from custody to the recipient's associated account. *)
Definition due (hooked : addr -> bool) (H : hashes) (s : state) (i : instr) : list hookcall :=
  match i with
  | ITransferLock x a | ITransferBurn x a =>
      match st_accts s (xa_config x), st_toks s (xa_from x) with
      | Some (Acct _ (DConfig c)), Some f =>
          owed hooked s (xa_from x) (cf_mint c) (cf_custody c) (pda_session (tk_owner f) (h_args H a)) (deposit_value s x a)
      | _, _ => []
      end
  | IReleaseMint x _ | IReleaseUnlock x _ =>
      match st_accts s (la_config x), st_accts s (la_item x) with
      | Some (Acct _ (DConfig c)), Some (Acct _ (DInboxItem it)) =>
          match ib_status it with
          | ReleaseAfter t =>
              if t <=? st_now s
              then owed hooked s (cf_custody c) (cf_mint c) (ata (la_tp x) (ib_recipient it) (cf_mint c)) token_authority (ib_amount it)
              else []
          | _ => []
          end
      | _, _ => []
      end
  | ETransfer _ src mnt dst auth x => owed hooked s src mnt dst auth x
  | _ => []
  end.

(** The hook's answers to a list of calls, all made in the chain state [s]. *)
Fixpoint answers {W} (h : hook W) (s : state) (w : W) (l : list hookcall) : option W :=
  match l with
  | [] => Some w
  | c :: r => match hk_execute h s w c with Some w' => answers h s w' r | None => None end
  end.

(** Tokens of mint [m] in account [a]. *)
Definition held (s : state) (m a : addr) : Z :=
  match st_toks s a with Some t => if addr_eqb (tk_mint t) m then tk_amount t else 0 | None => 0 end.
(** What calls of the hook say about account [a] and mint [m]: what came in, less the fee of the mint at the time, and what went out. *)
Definition told_one (s : state) (m a : addr) (c : hookcall) : Z :=
  if addr_eqb (hc_mint c) m then
    (if addr_eqb (hc_dest c) a then hc_amount c - match st_mints s m with Some mt => fee_of mt (hc_amount c) | None => 0 end else 0)
    - (if addr_eqb (hc_source c) a then hc_amount c else 0)
  else 0.
Definition told (s : state) (m a : addr) (l : list hookcall) : Z := fold_right (fun c n => told_one s m a c + n) 0 l.

(** What others than the programs do to the held without a transfer: mint, burn, withdraw withheld fees. *)
Definition elsewhere (m a : addr) (i : instr) : Z :=
  match i with
  | EMintTo _ mnt dst _ x => if addr_eqb mnt m && addr_eqb dst a then x else 0
  | EBurn _ src mnt _ x => if addr_eqb mnt m && addr_eqb src a then - x else 0
  | EWithdrawFees _ mnt dst x => if addr_eqb mnt m && addr_eqb dst a then x else 0
  | _ => 0
  end.

(** Not the custody account of a deployment that burns and mints. *)
Definition not_burnt_from (s : state) (a : addr) : Prop := forall c, config_at s pda_config c -> cf_mode c = Burning -> cf_custody c <> a.
(** The mint exists, belongs to Token-2022 and names the hook. *)
Definition has_hook (hooked : addr -> bool) (s : state) (m : addr) : Prop :=
  hooked m = true /\ exists mt, st_mints s m = Some mt /\ mt_prog mt = PToken22.

Definition htotal (f : hev -> Z) (tr : list hev) : Z := fold_right (fun e n => f e + n) 0 tr.

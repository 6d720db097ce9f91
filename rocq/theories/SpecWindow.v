(** * Vocabulary of the rate limits over histories (C110). *)
From Verif Require Export SpecTransfer.
Local Open Scope Z_scope.

(** The value of an outbound transfer to a chain in [sel] that may leave at once: the item it makes is due the moment it is made. *)
Definition out_at_once (sel : Z -> bool) (e : ev) : Z :=
  match transfer_of (ins (e_call e)) with
  | Some (_, x, a) =>
      match st_accts (e_post e) (xa_outbox_item x) with
      | Some (Acct PManager (DOutboxItem o)) => if sel (ar_chain a) && (ob_release o =? st_now (e_pre e)) then deposit_value (e_pre e) x a else 0
      | _ => 0
      end
  | None => 0
  end.

(** The value of a message, in units of the mint that the settings at [cfg] name. *)
Definition message_value (s : state) (cfg : addr) (nm : ntt_msg) : Z :=
  match st_accts s cfg with
  | Some (Acct _ (DConfig c)) => match st_mints s (cf_mint c) with Some m => local_amount m nm | None => 0 end
  | _ => 0
  end.
Definition scheduled (s : state) (a : addr) : option Z :=
  match status_at s a with Some (ReleaseAfter t) => Some t | _ => None end.

(** The item that a redemption of a message from a chain in [sel] schedules to be paid at once, with the value of the message:
    it was not scheduled before, and is due the moment it is scheduled. *)
Definition item_at_once (H : hashes) (sel : Z -> bool) (e : ev) : list (addr * Z) :=
  match ins (e_call e) with
  | IRedeem x =>
      match st_accts (e_pre e) (ra_message x) with
      | Some (Acct _ (DVtm ch tm)) =>
          match scheduled (e_pre e) (item_of H ch (tm_msg tm)), scheduled (e_post e) (item_of H ch (tm_msg tm)) with
          | None, Some t =>
              if sel ch && (t =? st_now (e_pre e)) then [(item_of H ch (tm_msg tm), message_value (e_pre e) (ra_config x) (tm_msg tm))] else []
          | _, _ => []
          end
      | _ => []
      end
  | _ => []
  end.
Definition total (l : list (addr * Z)) : Z := fold_right (fun p n => snd p + n) 0 l.
Definition in_at_once (H : hashes) (sel : Z -> bool) (e : ev) : Z := total (item_at_once H sel e).

Definition one (ch : Z) : Z -> bool := Z.eqb ch.
Definition every (_ : Z) : bool := true.

(** What a limiter has to give at time [t0], in units of a token per day: what was left, and what came back since, at most a full limit. *)
Definition room (r : rl) (t0 : Z) : Z := Z.min (rl_cap r * day + Z.max 0 (t0 - rl_last r) * rl_limit r) (rl_limit r * day).

(** The owner's instructions that set the limiters. *)
Definition sets_inbound (ch : Z) (i : instr) : Prop :=
  (exists cfg o l, i = ISetInboundLimit cfg o ch l) \/ (exists cfg o a l d, i = ISetPeer cfg o ch a l d).
Definition sets_outbound (i : instr) : Prop := exists cfg o b l, i = ISetOutboundLimit cfg o b l.

(** All of [tr] happens at clock readings between [t0] and [t1]. *)
Definition during (t0 t1 : Z) (tr : list ev) : Prop := forall e, In e tr -> t0 <= st_now (e_pre e) <= t1.

(** Item [a] is not scheduled yet in [s], nor paid. *)
Definition open_in (s : state) (a : addr) : Prop := scheduled s a = None /\ released s a = false.
(** Item [a] belongs to a message from chain [ch] that was delivered in [all], and was paid out in [tr]. *)
Definition paid_for (H : hashes) (ch : Z) (all tr : list ev) (a : addr) : Prop :=
  (exists e, In e tr /\ payout e = Some a) /\ exists e p nm, In e all /\ delivery e p ch nm /\ item_of H ch nm = a.
Definition amounts (s : state) (l : list addr) : Z := fold_right (fun a n => amount_of s a + n) 0 l.
(** The owner's instruction that ends a pause. *)
Definition unpauses (i : instr) : Prop := exists cfg o, i = ISetPaused cfg o false.
Definition paused_in (s : state) : Prop := exists c, config_at s pda_config c /\ cf_paused c = true.

(** The value of an outbound transfer whose item some transceiver has published by the time of [s] (it sets its bit in the item, C46). *)
Definition sent_value (s : state) (e : ev) : Z :=
  match transfer_of (ins (e_call e)) with
  | Some (_, x, a) =>
      match st_accts s (xa_outbox_item x) with
      | Some (Acct PManager (DOutboxItem o)) => if ob_released o =? 0 then 0 else deposit_value (e_pre e) x a
      | _ => 0
      end
  | None => 0
  end.

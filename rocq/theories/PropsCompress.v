(** * Transactions with the lookup table (C101) and the table's upkeep (C102). *)
From Coq Require Import String.
From Verif Require Export UpkeepFacts.
From Verif Require Import Scenario PropsEntry PropsTx PropsLut.
Import ListNotations.
Local Open Scope Z_scope.
Local Open Scope list_scope.
Local Strategy 1000 [sha256].

(** ** C101 *)

(** Whatever the instructions and the tables: from the compiled message the runtime loads the same instructions, in the same order, with the same data and
    the same accounts in the same places; an account has a privilege if some instruction, or paying the fee, gives it. It does so as well with tables that have been
    extended since. *)
Theorem C101_same : forall (K : Type) (eq_dec : forall a b : K, {a = b} + {a <> b}) payer l tables now g, grown tables now -> ~ invoked l payer ->
  Compress.compile eq_dec payer l tables = Some g -> Compress.load eq_dec g now = Some (payer, map (merged eq_dec payer l) l).
Proof. exact @compile_load. Qed.
Print Assumptions C101_same.

(** What the runtime accepts at all: some signature allows for writing (the payer's), the keys without table suffice for the header, no table is named in vain, all tables are there, and
    there are at most 256 keys, each once. *)
Theorem C101_accepted : forall (K : Type) (eq_dec : forall a b : K, {a = b} + {a <> b}) (g : message K) now r, Compress.load eq_dec g now = Some r ->
  (mg_ro_signed g < mg_signatures g)%nat /\ (mg_signatures g + mg_ro_unsigned g <= List.length (mg_static g))%nat /\
  (forall x, In x (mg_lookups g) -> (lk_writable x <> [] \/ lk_readonly x <> []) /\ now (lk_table x) <> None) /\
  exists keys n w, load_keys g now = Some (keys, n, w) /\ (List.length keys <= 256)%nat /\ NoDup keys /\ nth_error keys 0 = Some (fst r).
Proof. exact @load_accepts. Qed.
Print Assumptions C101_accepted.

(** Only the number of accounts is limited. *)
Theorem C101_compiles : forall (K : Type) (eq_dec : forall a b : K, {a = b} + {a <> b}) payer l tables, Forall (fun t => (List.length (snd t) <= 256)%nat) tables ->
  (Compress.compile eq_dec payer l tables <> None <-> (List.length (nodup eq_dec (keys_of payer l)) <= 256)%nat).
Proof. exact @compile_iff. Qed.
Print Assumptions C101_compiles.

(** What stays in the message: signers, programs called, and what no table has. *)
Theorem C101_static : forall (K : Type) (eq_dec : forall a b : K, {a = b} + {a <> b}) payer l tables now g, grown tables now -> Compress.compile eq_dec payer l tables = Some g ->
  NoDup (mg_static g) /\ forall k, In k (mg_static g) <-> In k (keys_of payer l) /\
    (privileged eq_dec payer l ac_signer k = true \/ invoked l k \/ forall t en, In (t, en) tables -> ~ In k en).
Proof. exact @compile_static. Qed.
Print Assumptions C101_static.

(** Its size with at most one table. *)
Theorem C101_size : forall (K : Type) (eq_dec : forall a b : K, {a = b} + {a <> b}) payer l tables g, (List.length tables <= 1)%nat -> Compress.compile eq_dec payer l tables = Some g ->
  let keys := List.length (nodup eq_dec (keys_of payer l)) in
  (keys < 128)%nat -> (List.length l < 128)%nat -> (forall x, In x l -> (List.length (cx_accounts x) < 128 /\ List.length (cx_data x) < 128)%nat) ->
  (wire_size g <= 74 + 64 * mg_signatures g + 31 * List.length (mg_static g) + keys + list_sum (map (fun x => 3 + List.length (cx_accounts x) + List.length (cx_data x)) l) /\
   List.length (mg_static g) <= keys /\
   mg_signatures g = List.length (nodup eq_dec (filter (privileged eq_dec payer l ac_signer) (keys_of payer l))))%nat.
Proof. exact @compile_size. Qed.
Print Assumptions C101_size.

(** The library's transfers, compiled with the recorded table of any earlier state [l0]: this succeeds, the message fits a packet, and in every later
    state [l] sending it does what C97 says of the instructions. The same for redemptions. *)
Theorem C101_transfer : forall nm H hn l0 cs l c tp sender amount chain to q item x items, l_reachable H l0 -> l_run H l0 cs l ->
  cf_paused c = false -> cf_token_program c = AProg tp -> can_sign sender = true -> can_sign item = true -> (forall p, sender <> AProg p) -> is_ntt_prog x = true -> is32 to ->
  client_transfer nm H sender amount chain to q item c x = Some items ->
  exists g, pack sender items (luts hn l0) = Some g /\ (wire_size g <= 1232)%nat /\
    forall oks, List.length oks = List.length items -> send nm H hn l (combine items oks) g = submit nm H sender (l_world l) (combine items oks).
Proof. exact transfer_packed. Qed.
Print Assumptions C101_transfer.
Theorem C101_redeem : forall nm H hn l0 cs l c tp payer vaa ch msg x items, l_reachable H l0 -> l_run H l0 cs l ->
  cf_paused c = false -> cf_token_program c = AProg tp -> can_sign payer = true -> (forall p, payer <> AProg p) -> is_ntt_prog x = true ->
  client_redeem H payer vaa ch msg c x = Some items ->
  exists g, pack payer items (luts hn l0) = Some g /\ (wire_size g <= 1232)%nat /\
    forall oks, List.length oks = List.length items -> send nm H hn l (combine items oks) g = submit nm H payer (l_world l) (combine items oks).
Proof. exact redeem_packed. Qed.
Print Assumptions C101_redeem.

(** ** C102 *)

(** The library offers an update exactly if no table is recorded or the recorded one lacks a wanted address; it never throws. *)
Theorem C102_needed : forall H l c e, l_reachable H l ->
  update_needed l c e <> None /\ (update_needed l c e = Some false <-> exists a t, recorded l a t /\ incl (wanted c e) (lt_entries t)).
Proof. exact update_iff. Qed.
Print Assumptions C102_needed.
Theorem C102_wanted : forall H l c b f q, l_reachable H l ->
  (update_needed l c (b, f, q) = Some false <-> exists a t, recorded l a t /\ forall k, In k (lt_entries t) \/
    ~ (k = pda_config \/ k = cf_custody c \/ k = cf_token_program c \/ k = cf_mint c \/ k = token_authority \/ k = pda_outbox_rl \/ k = b \/ k = f \/ k = q \/ k = AProg PWormhole \/
       k = system_program \/ k = sysvar_clock \/ k = sysvar_rent)).
Proof.
  intros H l c b f q R. rewrite (proj2 (update_iff H l c (b, f, q) R)). split; intros (a & t & Rc & I); exists a, t; (split; [exact Rc|]).
  - intros k. destruct (in_dec addr_eq_dec k (lt_entries t)) as [J|J]; [left; exact J|right]. intros D. apply J, I. unfold wanted. cbn [In]. decompose [or] D; subst k; tauto.
  - intros k Hk. destruct (I k) as [J|J]; [exact J|exfalso]. apply J. unfold wanted in Hk. cbn [In] in Hk. decompose [or] Hk; subst; tauto.
Qed.
Print Assumptions C102_wanted.

(** Only the three addresses of the core bridge can ever be missing from a recorded table. *)
Theorem C102_only_bridge : forall H l c b f q, l_reachable H l -> config_at (l_world l) pda_config c ->
  (update_needed l c (b, f, q) = Some false <-> exists a t, recorded l a t /\ incl [b; f; q] (lt_entries t)).
Proof. exact update_exact. Qed.
Print Assumptions C102_only_bridge.

(** The update works for any signer, and after it none is needed, whatever others had recorded before. *)
Theorem C102_heals : forall H l c r payer e slot, l_reachable H l -> config_at (l_world l) pda_config c ->
  st_accts (l_world l) pda_outbox_rl = Some (Acct PManager (DOutboxRL r)) -> can_sign payer = true -> is_u64 slot -> l_recent l slot = true ->
  (forall t, l_tabs l (lut_at lut_authority slot) = Some t -> Z.of_nat (List.length (lt_entries t)) <= 242) ->
  exists l', l_step H l (LCall [payer] (LInit (update_accts payer c e) slot)) = Ok l' /\ update_needed l' c e = Some false.
Proof. exact update_heals. Qed.
Print Assumptions C102_heals.

(** It stays so until someone records another table. *)
Theorem C102_stays : forall H l cs l' c e, l_reachable H l -> l_run H l cs l' -> (forall k x slot, In k cs -> l_ins k <> LInit x slot) ->
  update_needed l c e = Some false -> update_needed l' c e = Some false.
Proof. exact update_stays. Qed.
Print Assumptions C102_stays.

(** ** The worked deployment *)
Definition name_key (a : addr) : handle :=
  if addr_eqb a BRIDGE then HBridge else if addr_eqb a FEE then HFeeCollector else if addr_eqb a SEQ then HSequence PManager else HA a.
Definition world_at (l : lstate) (s : state) : lstate := LState s (l_tabs l) (l_recent l).
Definition l_with : lstate := l_apply (deploy ++ [init_by USER FEE SEQ 120]).
Definition l_without : lstate := l_apply deploy.
Definition the_transfer (md : mode) (x : prog) : list tx_item :=
  match client_transfer nm0 H0 USER 1000000005 2 (repeat x09 32) false ITEM (config_of (at_ md 5)) x with Some l => l | None => [] end.
Definition the_redeem (md : mode) (x : prog) : list tx_item := match client_redeem H0 USER VAA 2 (tm_msg in_msg) (config_of (at_ md 5)) x with Some l => l | None => [] end.
Definition size_of (l : lstate) (items : list tx_item) : option (nat * nat) :=
  option_map (fun g => (wire_size g, List.length (mg_static g))) (pack USER items (luts name_key l)).

(** Bytes and keys of the message, with and without table. *)
Example C101_case :
  (size_of l_without (the_transfer Locking PManager), size_of l_with (the_transfer Locking PManager)) = (Some (1012, 23), Some (705, 12))%nat /\
  (size_of l_without (the_transfer Burning PTransceiver), size_of l_with (the_transfer Burning PTransceiver)) = (Some (1077, 25), Some (770, 14))%nat /\
  (size_of l_without (the_redeem Burning PTransceiver), size_of l_with (the_redeem Burning PTransceiver)) = (Some (738, 18), Some (555, 11))%nat.
Proof. repeat split; vm_compute; reflexivity. Qed.

(** A transfer compiled with the table, sent after the table was extended; sent where there is no such table it is refused. *)
Definition l_more : lstate := l_apply (deploy ++ [init_by USER FEE SEQ 120; init_by (AKey 66) (AKey 66) SEQ 120]).
Definition sent_at (l0 l : lstate) : option (option Z * nat) :=
  let items := the_transfer Locking PManager in
  match pack USER items (luts name_key l0) with
  | Some g => match send nm0 H0 name_key l (map (fun i => (i, true)) items) g with Ok s => Some (option_map tk_amount (st_toks s custody), List.length (st_posted s)) | Err _ => None end
  | None => None
  end.
Example C101_sent : sent_at l_with l_more = Some (Some 1000000000, 1%nat) /\ sent_at l_without l_more = Some (Some 1000000000, 1%nat) /\ sent_at l_with l_without = None.
Proof. repeat split; vm_compute; reflexivity. Qed.

(** An update is needed at first, not after it was made, again after someone else recorded a table with another address, and not after the next one. *)
Definition again (e : addr * addr * addr) (cs : list lcall) : option bool := let l := l_apply (deploy ++ cs) in update_needed l (config_of (l_world l)) e.
Definition update_by (payer : addr) (slot : Z) : lcall := LCall [payer] (LInit (update_accts payer (config_of (l_world l_without)) (BRIDGE, FEE, SEQ)) slot).
Example C102_case : let e := (BRIDGE, FEE, SEQ) in let junk := init_by (AKey 66) (AKey 66) SEQ 130 in
  (again e [], again e [update_by USER 120], again e [update_by USER 120; junk], again e [update_by USER 120; junk; update_by USER 130], again e [update_by USER 120; init_by (AKey 66) (AKey 66) SEQ 120])
  = (Some true, Some false, Some true, Some false, Some false).
Proof. vm_compute. reflexivity. Qed.

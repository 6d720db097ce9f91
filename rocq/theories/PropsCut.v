(** * What happens after a peer is replaced (C114). *)
From Verif Require Export CutFacts.
From Verif Require Import Scenario SpecEffect PropsFlow PropsWindow PropsEffect.
Import ListNotations.
Local Open Scope Z_scope.
Local Open Scope list_scope.

(** The owner's call puts the new manager in place, and it stays until the owner's next such call for the chain. *)
Theorem C114_set : forall H s sg cfg o ch a l d s' tr s2, reachable H s -> forallb can_sign sg = true -> is_u16 ch -> is_u64 l -> is_u8 d ->
  step H s (Call sg (ISetPeer cfg o ch a l d)) = Ok s' -> run H s' tr s2 -> (forall e, In e tr -> ~ sets_peer ch (ins (e_call e))) ->
  peer_at s2 ch (Peer 0 a d).
Proof.
  intros H s sg cfg o ch a l d s' tr s2 Hr Cs Uc Ul Ud Hs R N. destruct (C66_set_peer H s sg cfg o ch a l d Hr Cs Uc Ul Ud) as (_ & E).
  destruct (E _ Hs) as (c & _ & Hp & _). exact (proj1 (peer_run _ _ _ _ _ _ R Hp N)).
Qed.
Print Assumptions C114_set.

(** From then on every message that is delivered from the chain names it as source; one that names another is refused. *)
Theorem C114_in : forall H s tr s' ch P e x p tm c rt pe, run H s tr s' -> peer_at s ch P -> (forall e, In e tr -> ~ sets_peer ch (ins (e_call e))) ->
  In e tr -> delivers (e_pre e) x p ch tm c rt pe -> tm_source tm = pe_address P.
Proof. exact cut_in. Qed.
Print Assumptions C114_in.
Theorem C114_refused : forall H s tr s' ch P sg x p tm s2, reachable H s -> run H s tr s' -> peer_at s ch P -> (forall e, In e tr -> ~ sets_peer ch (ins (e_call e))) ->
  st_accts s' (ra_message x) = Some (Acct p (DVtm ch tm)) -> tm_source tm <> pe_address P -> step H s' (Call sg (IRedeem x)) <> Ok s2.
Proof. exact cut_refused. Qed.
Print Assumptions C114_refused.

(** What is paid and was not scheduled before was delivered since, and if from this chain, by the new manager. *)
Theorem C114_paid : forall H s0 tr0 s tr s' ch P e a, initial s0 -> run H s0 tr0 s -> run H s tr s' -> peer_at s ch P -> (forall e, In e tr -> ~ sets_peer ch (ins (e_call e))) ->
  In e tr -> payout e = Some a -> open_in s a ->
  exists e1 x p k tm c rt pe, In e1 tr /\ ins (e_call e1) = IRedeem x /\ delivers (e_pre e1) x p k tm c rt pe /\ item_of H k (tm_msg tm) = a /\ (k = ch -> tm_source tm = pe_address P).
Proof. exact cut_paid. Qed.
Print Assumptions C114_paid.

(** Transfers to the chain are addressed to the new manager. *)
Theorem C114_out : forall H s tr s' ch P e md x a, reachable H s -> run H s tr s' -> peer_at s ch P -> (forall e, In e tr -> ~ sets_peer ch (ins (e_call e))) ->
  In e tr -> transfer_of (ins (e_call e)) = Some (md, x, a) -> ar_chain a = ch ->
  exists o, outbox_at (e_post e) (xa_outbox_item x) o /\ ob_chain o = ch /\ ob_manager o = pe_address P.
Proof. exact cut_out. Qed.
Print Assumptions C114_out.

(** The contract whose messages a transceiver takes from a chain cannot be replaced at all. *)
Theorem C114_emitter : forall H s tr s' p ch a, reachable H s -> run H s tr s' -> is_ntt_prog p = true -> emitter_at s p ch a -> emitter_at s' p ch a.
Proof. exact emitter_run. Qed.
Print Assumptions C114_emitter.

(** ** Cases.  A message of the old manager that was redeemed before is still paid; one that was only received is not redeemed; the new manager's is redeemed and
    paid; a transfer names the new manager; and the emitter cannot be set again. *)
Definition replace : call := Call [DEPLOYER] (ISetPeer pda_config DEPLOYER 2 (ARaw 70) 3000000000 18).
Definition ahead : list call := Call [] (ECreateAta PToken RCPT MINT) :: come 1 100000000 ++ firstn 2 (come 2 100000000) ++ [replace].
Definition replaced : state := apply_tx H0 (at_ Burning 5) ahead.
Definition fresh_msg : tr_msg := TrMsg (ARaw 70) (AProg PManager) (NttMsg (ARaw 59) (ARaw 21) (Trim 100000000 8) (ARaw 22) 1 RCPT).
Definition fresh_come : list call :=
  [ Call [] (EPostVaa (vaa 9) 2 (ARaw 8) (Some fresh_msg)); Call [] (IXReceive PManager pda_config (vaa 9));
    Call [] (IRedeem (RedeemAccts pda_config (pda_vtm PManager 2 (ARaw 59)) (pda_reg (AProg PManager)) pda_outbox_rl));
    Call [] (IReleaseMint (ReleaseAccts pda_config (item_of H0 2 (tm_msg fresh_msg)) PToken true) true) ].
Definition manager_of (s : state) (a : addr) : option addr := match st_accts s a with Some (Acct PManager (DOutboxItem o)) => Some (ob_manager o) | _ => None end.
Example C114_case : run H0 (at_ Burning 5) (events H0 (at_ Burning 5) ahead) replaced /\ peer_at (at_ Burning 5) 2 (Peer 0 (ARaw 7) 18) /\ peer_at replaced 2 (Peer 0 (ARaw 70) 18) /\
  map (fun l => is_ok (exec_tx H0 replaced l)) [[pay 1 100000000]; skipn 2 (come 2 100000000); fresh_come; send 50 1000000000] = [true; false; true; true] /\
  is_ok (exec_tx H0 (at_ Burning 5) (firstn 6 ahead ++ skipn 2 (come 2 100000000))) = true /\
  manager_of (apply_tx H0 replaced (send 50 1000000000)) (AKey 50) = Some (ARaw 70) /\ manager_of (apply_tx H0 (at_ Burning 5) (send 50 1000000000)) (AKey 50) = Some (ARaw 7) /\
  emitter_at replaced PManager 2 (ARaw 8) /\ is_ok (step H0 replaced (Call [DEPLOYER] (IXSetPeer PManager pda_config DEPLOYER 2 (ARaw 80)))) = false.
Proof.
  split; [apply tx_run; vm_compute; reflexivity|]. repeat (split; [vm_compute; reflexivity|]). split; [exists 0; vm_compute; reflexivity|vm_compute; reflexivity].
Qed.

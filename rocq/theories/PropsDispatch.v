(** * Instruction data: C72. *)
From Coq Require Import String.
From Verif Require Export DispatchFacts.
From Verif Require Import Governance.
Import ListNotations.
Local Open Scope Z_scope.
Local Open Scope list_scope.

(** A program runs a function on arguments exactly when it offers the function and the data are its tag, the documented encoding of the
    arguments, and anything after it; all other data are refused. *)
Theorem C72_dispatch : forall p data g, dispatch p data = Some g <-> offered p g /\ wf_call g /\ data_of g data.
Proof. exact dispatch_exact. Qed.
Print Assumptions C72_dispatch.

(** So no data can be taken for two calls. *)
Theorem C72_unambiguous : forall p g g' data, offered p g -> wf_call g -> data_of g data -> offered p g' -> wf_call g' -> data_of g' data -> g = g'.
Proof. exact dispatch_unique. Qed.
Print Assumptions C72_unambiguous.

(** The tags of a program's functions differ from one another and from the one Anchor's idl instructions use. *)
Theorem C72_tags : forall p, NoDup (le_enc 8 0x0a69e9a778bcf440 :: map (fun e => firstn 8 (sha256 (str "global:" ++ str (fst e)))) (functions p)).
Proof. exact tags_distinct. Qed.
Print Assumptions C72_tags.

(** The well-known tags of Anchor's [initialize] and of the transfer hook interface, the governance tag, and data: set_peer, a truncated one, a flag that is neither 0 nor 1, trailing bytes, the standalone transceiver refusing a
    manager instruction, both answering to the wormhole instructions, the hook's two headers. *)
Definition zs (b : bytes) : list Z := map Z_of_byte b.
Definition peer_data : bytes := ftag "set_peer" ++ le_enc 2 2 ++ repeat x07 32 ++ le_enc 8 1000 ++ [x12].
Example C72_case :
  zs (ftag "initialize") = [175; 175; 109; 31; 13; 152; 155; 237] /\ zs EXECUTE_TAG = [105; 37; 101; 197; 75; 251; 102; 26] /\
  GOV_TAG = ftag "governance" /\
  dispatch AManager peer_data = Some (GSetPeer 2 (repeat x07 32) 1000 18) /\ dispatch AManager (peer_data ++ [x01]) = Some (GSetPeer 2 (repeat x07 32) 1000 18) /\
  dispatch AManager (removelast peer_data) = None /\ dispatch ATransceiver peer_data = None /\
  map (fun b => dispatch AManager (ftag "set_paused" ++ [b])) [x00; x01; x02] = [Some (GSetPaused false); Some (GSetPaused true); None] /\
  map (fun p => dispatch p (ftag "broadcast_wormhole_peer" ++ [x02; x00])) [AManager; ATransceiver; AQuoter] = [Some (GBroadcastPeer 2); Some (GBroadcastPeer 2); None] /\
  map (fun h => dispatch AHook (h ++ le_enc 8 5)) [ftag "transfer_hook"; EXECUTE_TAG; ftag "redeem"] = [Some (HTransferHook 5); Some (HTransferHook 5); None] /\
  dispatch AManager (ftag "initialize" ++ le_enc 2 1 ++ le_enc 8 77 ++ [x01]) = Some (GInitialize 1 77 Burning) /\ dispatch AQuoter (ftag "initialize") = Some QInitialize.
Proof. repeat match goal with |- _ /\ _ => split end; vm_compute; reflexivity. Qed.

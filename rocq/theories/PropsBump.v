(** * Stored bumps (C105). *)
From Coq Require Import String.
From Verif Require Export BumpFacts PropsQuoter.
From Verif Require Import Quoter Seeds ChainFacts DeriveFacts.
Import ListNotations.
Local Open Scope Z_scope.
Local Strategy 1000 [sha256].

(** Every bump field of an account of the programs holds the canonical bump of its address: the first one, from 255 down, whose hash is off the curve. *)
Theorem C105_canonical : forall N Q E b a, b_reachable N Q E b -> stores (b_q b) a -> bump_at N Q a = Some (b_bump b a).
Proof. intros N Q E b a R. exact (proj2 (b_reach _ _ _ _ R) a). Qed.
Print Assumptions C105_canonical.

(** So an account that passes a check with its stored bump is the one at the canonical address for the seeds of the check, which the rest of the model works on, unless
    the strings hashed for its address and in the check collide. (Numbers among the seeds within their types.) *)
Theorem C105_pinned : forall N Q E b i p k, b_reachable N Q E b -> wide N Q -> typed_args i -> In p (pins N (b_q b) i) -> wf_purpose (pn_seeds p) -> passes N Q b k p ->
  same_place N k (pn_at p) \/ forged N Q b k p.
Proof. exact sound. Qed.
Print Assumptions C105_pinned.

(** Conversely the checks refuse no step of the rest of the model: it goes through with the bumps written. *)
Theorem C105_complete : forall N Q E b c q', b_reachable N Q E b -> q_step E (b_q b) c = Ok q' -> (forall a, In a (writes E (b_q b) (q_ins c)) -> bump_at N Q a <> None) ->
  exists b', b_step N Q E b c b' /\ b_q b' = q'.
Proof. intros N Q E b c q' R. exact (complete N Q E b c q' (proj2 (b_reach _ _ _ _ R))). Qed.
Print Assumptions C105_complete.

(** The histories with bumps are those without, as far as bumps exist. *)
Theorem C105_histories : forall N Q E b0, b_initial E b0 ->
  (forall cs b, b_run N Q E b0 cs b -> exists tr, q_run E (b_q b0) tr (b_q b) /\ map qe_call tr = cs) /\
  (forall tr q, q_run E (b_q b0) tr q -> (forall e a, In e tr -> In a (writes E (qe_pre e) (q_ins (qe_call e))) -> bump_at N Q a <> None) ->
     exists b, b_run N Q E b0 (map qe_call tr) b /\ b_q b = q).
Proof. intros N Q E b0 I. split; [exact (projects N Q E b0)|intros tr q; exact (lifts N Q E b0 tr q I)]. Qed.
Print Assumptions C105_histories.

(** ** Worked deployment, with a toy hash that keeps bump, program and the end of the seeds; half of its results are points of the curve. *)
Definition toy_hash (u : bytes) : bytes :=
  let r := skipn 21 (rev u) in let s := skipn 32 r in
  firstn 32 (nth 0 s x00 :: nth 0 r x00 :: skipn 1 s ++ repeat x00 32).
Definition toy_id (k : Z) : bytes := repeat x00 31 ++ be_enc 1 k.
Definition toy : names := Names toy_hash (fun x => 128 <=? be_dec (firstn 1 x)) (fun n => repeat x01 31 ++ be_enc 1 (Z.of_nat n)) (fun n => repeat x02 31 ++ be_enc 1 (Z.of_nat n))
  (fun p => toy_id (match p with PManager => 1 | PTransceiver => 2 | PToken => 3 | PToken22 => 4 | PAta => 5 | PWormhole => 6 | PUser n => 7 + Z.of_nat n end)) (fun _ _ z a b => be_enc 8 z ++ a ++ b).
Definition QID : bytes := toy_id 100.
Lemma toy_wide : wide toy QID.
Proof.
  repeat match goal with |- wide _ _ => unfold wide; cbv zeta | |- _ /\ _ => split end; intros; try reflexivity; cbn [toy n_hash n_prog n_key n_raw].
  - unfold toy_hash. cbv zeta. rewrite firstn_length. cbn [List.length]. rewrite app_length, repeat_length. lia.
Qed.
Definition b_start : bstate := BState (QState (s_start Locking) (fun _ => None) (q_lamports q_start) (Some DEPLOYER)) (fun _ => 0).
Definition b_calls : list qcall := map (fun c => QCall (signers c) (QWorld (ins c))) (firstn 8 (calls Locking)) ++ firstn 8 q_calls.
Fixpoint derivable (q : qstate) (l : list qcall) : bool :=
  match l with
  | [] => true
  | c :: l => forallb (fun a => match bump_at toy QID a with Some _ => true | None => false end) (writes E0q q (q_ins c)) &&
      match q_step E0q q c with Ok q' => derivable q' l | Err _ => false end
  end.
Lemma b_extend l : forall b, b_reachable toy QID E0q b -> derivable (b_q b) l = true -> exists b', b_reachable toy QID E0q b' /\ b_q b' = q_apply E0q (b_q b) l.
Proof.
  induction l as [|c l IH]; intros b R D; [exists b; auto|]. cbn [derivable q_apply] in *. apply andb_true_iff in D as [W D]. destruct (q_step E0q (b_q b) c) as [q'|] eqn:S; [|discriminate].
  destruct (C105_complete _ _ _ _ _ _ R S) as (b' & S' & <-).
  { intros a I. rewrite forallb_forall in W. specialize (W a I). destruct (bump_at toy QID a); discriminate. }
  apply IH; [|exact D]. destruct R as (b0 & cs & I & R). exists b0, (c :: cs). split; [exact I|econstructor; eassumption].
Qed.
Lemma b_start_initial : b_initial E0q b_start.
Proof. split; [constructor; [exists (s_start Locking), []; split; [apply s_start_initial|constructor]|reflexivity|apply q_start_initial|apply q_start_initial]|apply s_start_initial]. Qed.
(** The bump of all is 127. The registered chain passes the check of a relay request, another number fails it; so does the same account had another bump been
    stored, though that bump derives an address too. *)
Example C105_case : exists b, b_reachable toy QID E0q b /\ b_q b = q_apply E0q (b_q b_start) b_calls /\ 
  (forall a, In a [QChain 2; QNtt (AProg PManager); QExt (pda_peer 2); QExt (pda_inbox_rl 2); QExt pda_config] -> stores (b_q b) a /\ b_bump b a = 127) /\
  (exists p r, pins toy (b_q b) (QRequestRelay USER QInst ITEM 1000000 300000000) = p :: r /\ wf_purpose (pn_seeds p) /\ passes toy QID b (QChain 2) p /\ ~ passes toy QID b (QChain 3) p /\
     ~ passes toy QID b (QChain 2) (Pin PinChain (SRegChain 3) (QChain 3)) /\
     ~ passes toy QID (BState (b_q b) (fun _ => 126)) (QChain 2) p /\ create toy (List.concat (seeds (SRegChain 2)) ++ be_enc 1 126) QID <> None).
Proof.
  destruct (b_extend b_calls b_start) as (b & R & Q); [exists b_start, []; split; [apply b_start_initial|constructor]|vm_compute; reflexivity|].
  exists b. split; [exact R|]. split; [exact Q|].
  assert (S : forall a, In a [QChain 2; QNtt (AProg PManager); QExt (pda_peer 2); QExt (pda_inbox_rl 2); QExt pda_config] -> stores (b_q b) a /\ b_bump b a = 127).
  { intros a I. cbn [In] in I. assert (St : stores (b_q b) a).
    { rewrite Q. repeat destruct I as [<-|I]; try contradiction I;
        [right; left; eexists; vm_compute; reflexivity|right; right; eexists; vm_compute; reflexivity|..];
        left; do 3 eexists; (split; [reflexivity|]); (split; [vm_compute; reflexivity|]); split; [left; reflexivity|reflexivity|left; reflexivity|reflexivity|left; reflexivity|reflexivity]. }
    split; [exact St|]. pose proof (C105_canonical _ _ _ _ _ R St) as B. repeat destruct I as [<-|I]; try contradiction I; vm_compute in B; apply Some_inj in B; symmetry; exact B. }
  split; [exact S|]. destruct (S (QChain 2)) as [_ B]; [left; reflexivity|].
  eexists. eexists. split; [rewrite Q; vm_compute; reflexivity|]. split; [vm_compute; split; discriminate|].
  split; [split; [rewrite Q; vm_compute; reflexivity|rewrite B; eexists; split; vm_compute; reflexivity]|].
  split; [intros [T _]; rewrite Q in T; vm_compute in T; discriminate|].
  split; [intros [_ (x & X & Y)]; rewrite B in X; vm_compute in X, Y; rewrite <- X in Y; discriminate|].
  split; [intros [_ (x & X & Y)]; cbn [b_bump] in X; vm_compute in X, Y; rewrite <- X in Y; discriminate|vm_compute; discriminate].
Qed.

From Coq Require Import String.
From Verif Require Import Bytes BytesFacts Seeds.
Import ListNotations.
Local Open Scope Z_scope.

Definition tag (p : purpose) : nat :=
  match p with
  | SConfig => 0 | SOutboxRateLimit => 1 | STokenAuthority => 2 | SInboxRateLimit _ => 3 | SPeer _ => 4 | SSession _ _ => 5
  | SInboxItem _ => 6 | SUpgradeLock => 7 | SRegistered _ => 8 | SOutboxSigner => 9 | SLutAuthority => 10 | SLut => 11
  | SXPeer _ => 12 | SVtm _ _ => 13 | SMessage _ => 14 | SEmitter => 15 | SInstance => 16 | SRegChain _ => 17
  | SRegNtt _ => 18 | SRelayRequest _ => 19 | SGovernance => 20 | SReplay _ _ _ => 21
  end.
Definition table : list (string * nat) :=
  [("config", 0); ("outbox_rate_limit", 0); ("token_authority", 0); ("inbox_rate_limit", 2); ("peer", 2); ("session_authority", 64);
   ("inbox_item", 32); ("upgrade_lock", 0); ("registered_transceiver", 32); ("outbox_item_signer", 0); ("lut_authority", 0);
   ("lut", 0); ("transceiver_peer", 2); ("transceiver_message", 34); ("message", 32); ("emitter", 0); ("instance", 0);
   ("registered_chain", 2); ("registered_ntt", 32); ("relay_request", 32); ("governance", 0); ("replay", 42)]%string%nat.
Definition row (p : purpose) : string * nat := nth (tag p) table (""%string, 0%nat).
Definition params (p : purpose) : bytes := List.concat (tl (seeds p)).

Lemma seeds_split p : List.concat (seeds p) = str (fst (row p)) ++ params p.
Proof. destruct p; reflexivity. Qed.

Lemma params_length p : wf_purpose p -> List.length (params p) = snd (row p).
Proof.
  destruct p; cbn -[be_enc]; intros H; rewrite ?app_nil_r, ?app_length, ?be_enc_length;
    repeat match goal with H : _ /\ _ |- _ => destruct H end; try reflexivity; try assumption; try lia.
  all: rewrite ?app_length, ?be_enc_length, ?app_nil_r; cbn [List.length]; try lia.
Qed.

Definition first_byte (s : string) : option byte := hd_error (str s).
Definition clash (a b : string * nat) : bool :=
  (List.length (str (fst a)) + snd a =? List.length (str (fst b)) + snd b)%nat &&
  match first_byte (fst a), first_byte (fst b) with Some x, Some y => Byte.eqb x y | _, _ => true end.

Lemma no_clash : forall i j, (i < 22)%nat -> (j < 22)%nat ->
  clash (nth i table (""%string, 0%nat)) (nth j table (""%string, 0%nat)) = true -> i = j.
Proof.
  assert (G : forallb (fun i => forallb (fun j =>
     implb (clash (nth i table (""%string, 0%nat)) (nth j table (""%string, 0%nat))) (i =? j)%nat) (seq 0 22)) (seq 0 22) = true)
    by (vm_compute; reflexivity).
  intros i j Hi Hj H. rewrite forallb_forall in G. specialize (G i ltac:(apply in_seq; lia)).
  rewrite forallb_forall in G. specialize (G j ltac:(apply in_seq; lia)). rewrite H in G. now apply Nat.eqb_eq in G.
Qed.

Lemma tag_lt p : (tag p < 22)%nat. Proof. destruct p; cbn; lia. Qed.

Lemma app_suffix_inj {A} (a b c d : list A) : List.length b = List.length d -> a ++ b = c ++ d -> a = c /\ b = d.
Proof.
  intros Hl H. assert (List.length a = List.length c).
  { apply (f_equal (@List.length A)) in H. rewrite !app_length in H. lia. }
  now apply app_inj_length.
Qed.

Lemma str_first s r : s <> ""%string -> hd_error (str s ++ r) = first_byte s.
Proof. destruct s; [congruence|reflexivity]. Qed.

Lemma row_nonempty p : fst (row p) <> ""%string.
Proof. destruct p; discriminate. Qed.

Lemma concat_tag p p' : wf_purpose p -> wf_purpose p' -> List.concat (seeds p) = List.concat (seeds p') -> tag p = tag p'.
Proof.
  intros Hp Hp' H. apply no_clash; try apply tag_lt. fold (row p) (row p'). unfold clash.
  rewrite !seeds_split in H. apply andb_true_iff. split.
  - apply Nat.eqb_eq. apply (f_equal (@List.length byte)) in H. rewrite !app_length, !params_length in H by assumption. exact H.
  - apply (f_equal (@hd_error byte)) in H. rewrite !str_first in H by apply row_nonempty. rewrite H.
    destruct (first_byte (fst (row p'))); [|reflexivity]. now apply Byte.byte_dec_lb.
Qed.

Lemma concat_inj p p' : wf_purpose p -> wf_purpose p' -> List.concat (seeds p) = List.concat (seeds p') -> p = p'.
Proof.
  intros Hp Hp' H. pose proof (concat_tag p p' Hp Hp' H) as Ht.
  assert (params p = params p') as E.
  { rewrite !seeds_split in H. unfold row in H. rewrite Ht in H. now apply app_inv_head in H. }
  assert (B : forall n a b, 0 <= a < 256 ^ Z.of_nat n -> 0 <= b < 256 ^ Z.of_nat n -> be_enc n a = be_enc n b -> a = b)
    by apply be_enc_inj.
  destruct p, p'; try discriminate Ht; try reflexivity; clear Ht H; cbn [params seeds tl List.concat] in E;
    cbn [wf_purpose] in Hp, Hp'; rewrite ?app_nil_r in E; cbv zeta in *;
    repeat match goal with H : _ /\ _ |- _ => destruct H end; f_equal;
    try (apply (B 2%nat); try apply u16_pow; assumption); try assumption;
    repeat match goal with
    | E : _ ++ _ = _ ++ _ |- _ => let E1 := fresh "E" in let E2 := fresh "E" in
        apply app_inj_length in E as [E1 E2]; [|rewrite ?be_enc_length; congruence]
    end; try assumption; try (apply (B 2%nat); try apply u16_pow; assumption); try (apply (B 8%nat); try apply u64_pow; assumption).
Qed.

Lemma pda_inj prog prog' p p' b b' :
  List.length prog = 32%nat -> List.length prog' = 32%nat -> wf_purpose p -> wf_purpose p' ->
  pda_preimage prog p b = pda_preimage prog' p' b' -> prog = prog' /\ p = p' /\ b = b'.
Proof.
  intros Hl Hl' Hp Hp' H. unfold pda_preimage in H.
  apply app_suffix_inj in H as [H1 H]; [|rewrite !app_length, Hl, Hl'; reflexivity].
  apply app_inj_length in H as [H2 H]; [|reflexivity]. apply app_suffix_inj in H as [H3 _]; [|reflexivity].
  split; [assumption|]. split; [now apply concat_inj|congruence].
Qed.

(** Solana's limits: at most 16 seeds (with the bump) of at most 32 bytes each. *)
Lemma seeds_allowed p : wf_purpose p -> (List.length (seeds p) + 1 <= 16)%nat /\ Forall (fun s => (List.length s <= 32)%nat) (seeds p).
Proof.
  intros H. destruct p; cbn [seeds wf_purpose] in *; cbv zeta in H;
    repeat match goal with H : _ /\ _ |- _ => destruct H end;
    (split; [cbn [List.length]; lia|]); repeat (apply Forall_cons; [rewrite ?be_enc_length; cbn [str List.length]; lia|]); apply Forall_nil.
Qed.

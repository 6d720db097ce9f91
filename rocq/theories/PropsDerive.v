(** * Symbolic addresses and their bytes (C80). *)
From Coq Require Import String Ascii.
From Verif Require Export DeriveFacts Lut.
From Verif Require Import BytesFacts ChainFacts.
Import ListNotations.
Local Open Scope Z_scope.
Local Strategy 1000 [sha256].

(** ** C80 *)

(** The search finds the address with the largest bump for which the hash is no point of the curve; that bump derives it. *)
Theorem C80_found : forall N seed program x b, find_address N seed program = Some (x, b) <->
  1 <= b <= 255 /\ create N (seed ++ be_enc 1 b) program = Some x /\ forall c, b < c <= 255 -> create N (seed ++ be_enc 1 c) program = None.
Proof. exact found. Qed.
Print Assumptions C80_found.

(** Every account of the manager and the transceivers is derived by the program and from the seeds of the code. *)
Theorem C80_manager : forall N, derived N pda_config PManager Seeds.SConfig /\ derived N pda_outbox_rl PManager SOutboxRateLimit /\
  derived N token_authority PManager STokenAuthority /\ derived N upgrade_lock PManager SUpgradeLock /\
  derived N pda_lut PManager SLut /\ derived N lut_authority PManager SLutAuthority /\
  (forall ch, derived N (pda_peer ch) PManager (Seeds.SPeer ch) /\ derived N (pda_inbox_rl ch) PManager (SInboxRateLimit ch)) /\
  (forall t x, address N t = Some x -> derived N (pda_reg t) PManager (Seeds.SRegistered x)) /\
  (forall d x, address N d = Some x -> derived N (pda_inbox d) PManager (SInboxItem x)) /\
  (forall o d x y, address N o = Some x -> address N d = Some y -> derived N (pda_session o d) PManager (SSession x y)).
Proof. exact manager_addresses. Qed.
Print Assumptions C80_manager.

Theorem C80_transceiver : forall N p, p = PManager \/ p = PTransceiver ->
  derived N (pda_emitter p) p SEmitter /\ derived N (pda_outbox_signer p) p SOutboxSigner /\
  (forall ch, derived N (pda_xpeer p ch) p (Seeds.SXPeer ch)) /\
  (forall it x, address N it = Some x -> derived N (pda_message p it) p (SMessage x)) /\
  (forall ch i x, address N i = Some x -> derived N (pda_vtm p ch i) p (SVtm ch x)).
Proof. exact transceiver_addresses. Qed.
Print Assumptions C80_transceiver.

Theorem C80_associated : forall N p w m x y, p = PToken \/ p = PToken22 -> address N w = Some x -> address N m = Some y ->
  address N (ata p w m) = option_map fst (find_address N (x ++ n_prog N p ++ y) (n_prog N PAta)).
Proof. exact ata_address. Qed.
Print Assumptions C80_associated.

(** Lookup tables: authority and slot. *)
Theorem C80_lookup_table : forall N a x slot, address N a = Some x ->
  address N (lut_at a slot) = option_map fst (find_address N (x ++ le_enc 8 slot) (n_prog N (PUser 0))).
Proof. intros N a x slot E. unfold lut_at. cbn [address]. rewrite E. reflexivity. Qed.
Print Assumptions C80_lookup_table.

(** All of these are [regular], so [C80_distinct] applies to them. *)
Theorem C80_regular : forall D : addr -> Prop, D (AProg PManager) ->
  regular D pda_config /\ regular D pda_outbox_rl /\ regular D token_authority /\ regular D upgrade_lock /\ regular D pda_lut /\ regular D lut_authority /\
  (forall ch, is_u16 ch -> regular D (pda_peer ch) /\ regular D (pda_inbox_rl ch)) /\
  (forall a, regular D a -> regular D (pda_reg a) /\ regular D (pda_inbox a)) /\
  (forall a b, regular D a -> regular D b -> regular D (pda_session a b)) /\
  (forall p, p = PManager \/ p = PTransceiver -> D (AProg p) -> regular D (pda_emitter p) /\ regular D (pda_outbox_signer p) /\
    (forall ch, is_u16 ch -> regular D (pda_xpeer p ch)) /\ (forall a, regular D a -> regular D (pda_message p a)) /\
    (forall ch a, is_u16 ch -> regular D a -> regular D (pda_vtm p ch a))) /\
  (forall p a b, p = PToken \/ p = PToken22 -> D (AProg p) -> D (AProg PAta) -> regular D a -> regular D b -> regular D (ata p a b)).
Proof. exact regular_addresses. Qed.
Print Assumptions C80_regular.

(** Different symbolic addresses have different bytes, unless the strings hashed for these two exhibit a collision, or one of the names is such a hash. The latter
    cannot happen to names that are points of the curve, as keys are. *)
Theorem C80_distinct : forall N D, apart N D -> forall a b x, regular D a -> regular D b -> address N a = Some x -> address N b = Some x ->
  a = b \/ exposed N a b.
Proof. intros N D A a b x. exact (same_bytes A a b x). Qed.
Print Assumptions C80_distinct.
Theorem C80_keys : forall N a b, (forall c x, In c (names_in a) -> address N c = Some x -> n_curve N x = true) -> ~ hits N a b.
Proof. exact curve_hits. Qed.
Print Assumptions C80_keys.

(** Hence different messages have different bytes (a premise of C64). *)
Theorem C80_messages : forall N D, apart N D -> forall key m m', regular_msg D m -> regular_msg D m' ->
  (forall a, In a (parts m ++ parts m') -> address N a = Some (key a)) -> wire_msg key m = wire_msg key m' -> m = m' \/ exposed_msg N m m'.
Proof. exact same_messages. Qed.
Print Assumptions C80_messages.

(** No derived address is a point of the curve, so nobody has a private key for one. *)
Theorem C80_no_key : forall N p t z x y w, address N (APda p t z x y) = Some w -> n_curve N w = false.
Proof. exact derived_off. Qed.
Print Assumptions C80_no_key.

(** ** Test vectors: the core bridge's accounts on mainnet (solana/tests/accounts/mainnet), and solana-program's own tests *)
Definition alphabet : string := "123456789ABCDEFGHJKLMNPQRSTUVWXYZabcdefghijkmnopqrstuvwxyz".
Fixpoint index (c : ascii) (s : string) : Z := match s with EmptyString => 0 | String d r => if Ascii.eqb c d then 0 else 1 + index c r end.
Fixpoint b58_go (s : string) (n : Z) : Z := match s with EmptyString => n | String c r => b58_go r (58 * n + index c alphabet) end.
Definition b58 (s : string) : bytes := be_enc 32 (b58_go s 0).
Arguments b58 s%string.
(** Program ids: lib.rs:36 of the manager, ntt-transceiver lib.rs:8, the SPL programs, the core bridge. *)
Definition ids (p : prog) : bytes :=
  match p with
  | PManager => b58 "nttiK1SepaQt6sZ4WGW5whvc9tEnGXGxuKeptcQPCcS"
  | PTransceiver => b58 "Ee6jpX9oq2EsGuqGb6iZZxvtcpmMGZk8SAUbnQy4jcHR"
  | PToken => b58 "TokenkegQfeZyiNwAJbNbGKPFXCWuBvf9Ss623VQ5DA"
  | PToken22 => b58 "TokenzQdBNbLqP5VEhdkAS6EPFLC1PHnBqCXEpPxuEb"
  | PAta => b58 "ATokenGPvbdGVxr1b2hvZbsiqW5xWH25efTNsLJA8knL"
  | PWormhole => b58 "worm2ZoG2kUd4vFXhvjh93UUH596ayRfgQ2MgjNMTth"
  | PUser _ => []
  end.
(** The points of the curve, for the examples: the program ids above, two keys (the base point, and the public key of the first test of RFC 8032), and zero. *)
Definition two_keys (n : nat) : bytes :=
  match n with
  | O => x58 :: repeat x66 31
  | _ => be_enc 32 0xd75a980182b10ab7d54bfed3c964073a0ee172f3daa62325af021a68f707511a
  end.
Definition points : list bytes := [repeat x00 32; two_keys 0; two_keys 1; ids PManager; ids PTransceiver; ids PToken; ids PToken22; ids PAta].
Definition real : names := Names sha256 (fun x => existsb (bytes_eqb x) points) two_keys (fun _ => repeat x00 32) ids (fun _ _ _ _ _ => []).
Definition finds (seed : bytes) (s : string) : bool := match find_address real seed (ids PWormhole) with Some (x, _) => bytes_eqb x (b58 s) | None => false end.
Example C80_mainnet : finds (str "Bridge") "2yVjuQwpsvdsrywzsJJVs9Ueh4zayyo5DYJbBNc3DDpn" = true /\
  finds (str "fee_collector") "9bFNrXNb2WTx8fMHXCheaZqkLZ3YCCaiqTftHxeintHy" = true /\
  finds (str "GuardianSet" ++ be_enc 4 0) "DS7qfSAgYsonPpKoAjcGhX9VFjXdGkiHjEDkTidf8H2P" = true.
Proof. split; [|split]; vm_compute; reflexivity. Qed.
Definition loader : bytes := b58 "BPFLoaderUpgradeab1e11111111111111111111111".
Definition creates (seed : bytes) (s : string) : bool := match create real seed loader with Some x => bytes_eqb x (b58 s) | None => false end.
Example C80_solana_tests : creates [x01] "BwqrghZA2htAcqq8dzP1WDAhTXYTYWj7CHxF5j7TDBAe" = true /\
  creates (str "Talking" ++ str "Squirrels") "2fnQrngrQT4SeLcdToJAD96phoEjNL2man2kfRLCASVk" = true /\
  creates (b58 "SeedPubey1111111111111111111111111111111111" ++ [x01]) "976ymqVnfE32QFe6NfGDctSvVa36LWnvYxhU6G2232YL" = true.
Proof. split; [|split]; vm_compute; reflexivity. Qed.

(** The premises of [C80_distinct] are met by SHA-256 and the real program ids. *)
Definition in_use : list addr := [ANull; AKey 0; AKey 1; AProg PManager; AProg PTransceiver; AProg PToken; AProg PToken22; AProg PAta].
Definition D0 (a : addr) : Prop := In a in_use.
Lemma in_use_curve : on_curve_names real in_use = true.
Proof. vm_compute. reflexivity. Qed.
Lemma in_use_distinct : distinct_names real in_use = true.
Proof. vm_compute. reflexivity. Qed.
Example C80_apart : apart real D0.
Proof. exact (apart_finite real in_use sha256_length in_use_curve in_use_distinct eq_refl). Qed.
(** A registration of the transceiver, an associated account of the token authority and a session authority. *)
Example C80_case : map (fun a => match address real a with Some x => (length x, existsb (bytes_eqb x) points) | None => (0%nat, true) end)
  [pda_reg (AProg PTransceiver); ata PToken token_authority (AKey 0); pda_session (AKey 1) (AKey 0)] = [(32%nat, false); (32%nat, false); (32%nat, false)].
Proof. vm_compute. reflexivity. Qed.
(** These expose nothing: their strings have different hashes. *)
Definition sampled : list addr := [pda_reg (AProg PTransceiver); pda_session (AKey 1) (AKey 0)].
Definition clashing (l : list (bytes * bytes)) : bool := existsb (fun p => existsb (fun q => negb (bytes_eqb (fst p) (fst q)) && bytes_eqb (snd p) (snd q)) l) l.
Definition with_hashes (N : names) (l : list addr) : list (bytes * bytes) := map (fun u => (u, n_hash N u)) (flat_map (hashed N) l).
Lemma clash_decides N l a b : In a l -> In b l -> strings_clash N a b -> clashing (with_hashes N l) = true.
Proof.
  intros Ia Ib (u & v & I & J & D & E). apply existsb_exists. exists (u, n_hash N u). split; [apply in_map_iff; exists u; split; [reflexivity|apply in_flat_map; eauto]|].
  apply existsb_exists. exists (v, n_hash N v). split; [apply in_map_iff; exists v; split; [reflexivity|apply in_flat_map; eauto]|]. cbn [fst snd].
  rewrite E, bytes_eqb_refl. destruct (bytes_eqb u v) eqn:Q; [|reflexivity]. apply bytes_eqb_eq in Q. contradiction.
Qed.
Lemma sampled_apart : (let l := with_hashes real sampled in (clashing l, List.length l)) = (false, 2%nat).
Proof. vm_compute. reflexivity. Qed.
Lemma sampled_curve : forallb (fun a => forallb (fun c => match address real c with Some x => n_curve real x | None => true end) (names_in a)) sampled = true.
Proof. vm_compute. reflexivity. Qed.
Example C80_not_exposed : forall a b, In a sampled -> In b sampled -> ~ exposed real a b.
Proof.
  assert (C : forall a b, In a sampled -> ~ hits real a b).
  { intros a b I. apply curve_hits. intros c x J E. pose proof sampled_curve as S. rewrite forallb_forall in S. specialize (S _ I). cbv beta in S. rewrite forallb_forall in S. specialize (S _ J).
    cbv beta in S. rewrite E in S. exact S. }
  intros a b I J [K|[K|K]]; [|exact (C a b I K)|exact (C b a J K)]. apply (clash_decides _ _ _ _ I J) in K.
  pose proof sampled_apart as S. cbv zeta in S. rewrite K in S. discriminate.
Qed.

(** * Broadcasts, published bytes and byte-level digests (C62-C64). *)
From Verif Require Export BridgeFacts Scenario.
From Verif Require BytesFacts.
Local Open Scope Z_scope.

(** ** C62 *)

(** Every announcement of a transceiver states the manager's configuration and the decimals of its mint, and keeps being true. *)
Theorem C62_info : forall H s p mgr md tok dec, reachable H s -> is_ntt_prog p = true -> posted_by s p (PPInfo mgr md tok dec) ->
  exists c m, mgr = AProg PManager /\ config_at s pda_config c /\ md = cf_mode c /\ tok = cf_mint c /\
    st_mints s tok = Some m /\ dec = mt_decimals m.
Proof. exact info_true. Qed.
Print Assumptions C62_info.

(** Every announced peer is the transceiver's peer on that chain. *)
Theorem C62_peer : forall H s p ch a, reachable H s -> is_ntt_prog p = true -> posted_by s p (PPReg ch a) ->
  exists xp, st_accts s (pda_xpeer p ch) = Some (Acct p (DXPeer xp)) /\ a = xp_address xp.
Proof. exact reg_true. Qed.
Print Assumptions C62_peer.

(** Two announcements never contradict each other. *)
Theorem C62_no_contradiction : forall H s p q, reachable H s -> is_ntt_prog p = true -> is_ntt_prog q = true ->
  (forall mgr md tok dec mgr' md' tok' dec', posted_by s p (PPInfo mgr md tok dec) -> posted_by s q (PPInfo mgr' md' tok' dec') ->
     mgr = mgr' /\ md = md' /\ tok = tok' /\ dec = dec') /\
  (forall ch a a', posted_by s p (PPReg ch a) -> posted_by s p (PPReg ch a') -> a = a').
Proof. intros H s p q Hr Hp Hq. split; [exact (fun _ _ _ _ _ _ _ _ => info_unique _ _ _ _ _ _ _ _ _ _ _ _ Hr Hp Hq)|exact (fun _ _ _ => reg_unique _ _ _ _ _ _ Hr Hp)]. Qed.
Print Assumptions C62_no_contradiction.

(** The transceivers' emitters speak only through the three instructions: nothing else is ever posted for them. *)
Theorem C62_nothing_else : forall H s p n, reachable H s -> is_ntt_prog p = true -> ~ posted_by s p (PPOther n).
Proof. exact other_never. Qed.
Print Assumptions C62_nothing_else.

(** The worked deployment announces itself and its peer; an outsider cannot post for the emitter, and a peer cannot be announced
    before it is set. *)
Definition announced : state := apply_tx H0 (at_ Locking 8)
  [Call [AKey 90] (IXBroadcastId PManager pda_config (AKey 90) true); Call [AKey 91] (IXBroadcastPeer PManager pda_config 2 (AKey 91) true)].
Example C62_case :
  st_posted announced =
    [Post (pda_emitter PManager) (PPReg 2 (ARaw 8)); Post (pda_emitter PManager) (PPInfo (AProg PManager) Locking MINT 9);
     Post (pda_emitter PManager) (PPTransfer (TrMsg (AProg PManager) (ARaw 7) (NttMsg ITEM USER (Trim 100000000 8) MINT 2 (ARaw 9))))] /\
  is_ok (step H0 (at_ Locking 8) (Call [AKey 90] (EPost (AKey 90) (pda_emitter PManager) (PPReg 2 (ARaw 99))))) = false /\
  is_ok (step H0 (at_ Locking 8) (Call [AKey 90] (EPost (AKey 90) (AKey 90) (PPReg 2 (ARaw 99))))) = true /\
  is_ok (step H0 (at_ Locking 8) (Call [AKey 91] (IXBroadcastPeer PManager pda_config 3 (AKey 91) true))) = false.
Proof. vm_compute. repeat split. Qed.

(** ** C63 *)

(** Whatever 32 bytes the addresses are: a published transfer has an encoding, of 217 bytes laid out as documented, which decodes to
    the message and is not readable as another kind of message. *)
Theorem C63_transfer : forall H s p m key, reachable H s -> is_ntt_prog p = true -> keys32 key -> posted_by s p (PPTransfer m) ->
  exists b, wire_payload key (PPTransfer m) = Some b /\
    transfer_layout b (key (tm_source m)) (key (tm_recipient m)) (key (nm_id (tm_msg m))) (key (nm_sender (tm_msg m)))
      (key (nm_token (tm_msg m))) (key (nm_to (tm_msg m))) (ta_decimals (nm_amount (tm_msg m))) (ta_amount (nm_amount (tm_msg m)))
      (nm_to_chain (tm_msg m)) /\
    read_std b = Some (wire_tm key m, []) /\ read_wt_info b = None /\ read_wt_reg b = None.
Proof. exact posted_transfer. Qed.
Print Assumptions C63_transfer.

Theorem C63_info : forall H s p mgr md tok dec key, reachable H s -> is_ntt_prog p = true -> keys32 key -> posted_by s p (PPInfo mgr md tok dec) ->
  exists b, wire_payload key (PPInfo mgr md tok dec) = Some b /\ info_layout b (WtInfo (key mgr) md (key tok) dec) /\
    read_wt_info b = Some (WtInfo (key mgr) md (key tok) dec, []) /\ read_std b = None /\ read_wt_reg b = None.
Proof. exact posted_info. Qed.
Print Assumptions C63_info.

Theorem C63_peer : forall H s p ch a key, reachable H s -> is_ntt_prog p = true -> keys32 key -> posted_by s p (PPReg ch a) ->
  exists b, wire_payload key (PPReg ch a) = Some b /\ reg_layout b (WtReg ch (key a)) /\
    read_wt_reg b = Some (WtReg ch (key a), []) /\ read_std b = None /\ read_wt_info b = None.
Proof. exact posted_reg. Qed.
Print Assumptions C63_peer.

(** The log of the worked deployment, with keys made of one repeated byte. *)
Definition demo_key (a : addr) : bytes :=
  repeat (match a with AKey 1 => x01 | AKey 50 => x50 | AKey 100 => xaa | AKey _ => x0f | ARaw 7 => x07 | ARaw 8 => x08 | ARaw 9 => x09
          | ARaw _ => x10 | AProg _ => xbb | APda _ _ _ _ _ => xcc | ANull => x00 end) 32.
Example C63_case : keys32 demo_key /\
  map (fun po => wire_payload demo_key (po_payload po)) (st_posted announced) =
    [Some ([x18; xfc; x67; xc2; x00; x02] ++ repeat x08 32);
     Some ([x9c; x23; xbd; x3b] ++ repeat xbb 32 ++ [x00] ++ repeat xaa 32 ++ [x09]);
     Some ([x99; x45; xff; x10] ++ repeat xbb 32 ++ repeat x07 32 ++ [x00; x91] ++ repeat x50 32 ++ repeat x01 32 ++ [x00; x4f]
           ++ [x99; x4e; x54; x54; x08; x00; x00; x00; x00; x05; xf5; xe1; x00] ++ repeat xaa 32 ++ repeat x09 32 ++ [x00; x02; x00; x00])].
Proof. split; [intros a; apply repeat_length|vm_compute; reflexivity]. Qed.

(** ** C64 *)

(** Two deliveries counted for the same inbox item came from the same chain with the same bytes, or exhibit two different strings
    with the same hash. *)
Theorem C64_same_item : forall K key s0 tr s e e' p p' ch nm ch' nm', hash32 K -> keys32 key ->
  reachable (byte_hashes K key) s0 -> run (byte_hashes K key) s0 tr s ->
  In e tr -> In e' tr -> delivery e p ch nm -> delivery e' p' ch' nm' ->
  item_of (byte_hashes K key) ch nm = item_of (byte_hashes K key) ch' nm' ->
  same_or_collision K key ch nm ch' nm'.
Proof. exact shared_item. Qed.
Print Assumptions C64_same_item.

(** Two approvals with the same session authority are of the same owner for the same argument bytes, or exhibit a collision. *)
Theorem C64_same_session : forall K key o ar o' ar', hash32 K -> keys32 key ->
  is_u64 (ar_amount ar) -> is_u16 (ar_chain ar) -> is_u64 (ar_amount ar') -> is_u16 (ar_chain ar') ->
  pda_session o (h_args (byte_hashes K key) ar) = pda_session o' (h_args (byte_hashes K key) ar') ->
  o = o' /\ (wire_args key ar = wire_args key ar' \/
             args_preimage (wire_args key ar) <> args_preimage (wire_args key ar') /\ K (args_preimage (wire_args key ar)) = K (args_preimage (wire_args key ar'))).
Proof. exact same_session. Qed.
Print Assumptions C64_same_session.

(** So the assumption [no_collision] of the inbound properties holds when keys and hashes separate the delivered messages. *)
Theorem C64_no_collision : forall K key s0 tr s, hash32 K -> keys32 key -> reachable (byte_hashes K key) s0 -> run (byte_hashes K key) s0 tr s ->
  separate_keys key tr -> separate_hashes K key tr -> no_collision (byte_hashes K key) tr.
Proof. exact no_collision_bytes. Qed.
Print Assumptions C64_no_collision.

(** A weighted checksum as hash: the worked deployment runs with it and the digests of messages differing in one field differ; with a
    constant hash they do not. *)
Fixpoint weigh (i : Z) (b : bytes) : Z := match b with [] => 0 | x :: r => i * Z.of_N (Byte.to_N x) + weigh (i + 1) r end.
Definition checksum (b : bytes) : bytes := repeat x00 30 ++ be_enc 2 ((weigh 1 b) mod 65536).
Lemma checksum32 : hash32 checksum.
Proof. intros b. unfold checksum. rewrite app_length, repeat_length, BytesFacts.be_enc_length. reflexivity. Qed.
Definition HB : hashes := byte_hashes checksum demo_key.
Definition calls_b : list call :=
  firstn 5 (calls Locking)
  ++ [Call [USER] (EApprove PToken user_tok USER (pda_session USER (h_args HB the_args)) 1000000005)]
  ++ firstn 6 (skipn 6 (calls Locking))
  ++ [Call [] (IReleaseUnlock (ReleaseAccts pda_config (item_of HB 2 (tm_msg in_msg)) PToken true) true)].
Example C64_case : is_ok (exec_tx HB (s_start Locking) calls_b) = true /\
  let m := tm_msg in_msg in
  let differ H := map (fun x => addr_eqb (h_msg H 2 m) (h_msg H (fst x) (snd x)))
    [(3, m); (2, NttMsg (ARaw 9) (nm_sender m) (nm_amount m) (nm_token m) (nm_to_chain m) (nm_to m));
     (2, NttMsg (nm_id m) (nm_sender m) (Trim 40000001 8) (nm_token m) (nm_to_chain m) (nm_to m));
     (2, NttMsg (nm_id m) (nm_sender m) (nm_amount m) (nm_token m) 7 (nm_to m))] in
  differ HB = [false; false; false; false] /\ differ (byte_hashes (fun _ => repeat x00 32) demo_key) = [true; true; true; true].
Proof. vm_compute. repeat split. Qed.

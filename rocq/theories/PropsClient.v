(** * Agreement of the client library with the programs (C94). *)
From Coq Require Import String.
From Verif Require Export ClientFacts EvmLink.
From Verif Require Import PropsWire PropsBytes PropsEvm.
Import ListNotations.
Local Open Scope Z_scope.

(** ** C94 *)

(** What the library takes for a message: exactly these strings. *)
Theorem C94_reads : forall known b v,
  c_deserialize known c_wh b = Some v <->
  exists m x extra, wf_tmsg (wf_ntt no_constraint) m /\ t_payload m = [] /\ known (n_to_chain (m_payload (t_nmm (t_data m)))) = true /\
    145 + Z.of_nat (List.length x) <= u16_max /\ tail_means x extra /\ v = c_values m extra /\ b = framed m x.
Proof. exact client_reads. Qed.
Print Assumptions C94_reads.

(** What the library writes. *)
Theorem C94_writes : forall known m extra, wf_tmsg (wf_ntt no_constraint) m -> known (n_to_chain (m_payload (t_nmm (t_data m)))) = true ->
  145 + 2 + Z.of_nat (List.length extra) <= u16_max ->
  c_serialize known c_wh (c_values m extra) =
  Some (framed m match extra with [] => [] | _ => be_enc 2 (Z.of_nat (List.length extra)) ++ extra end).
Proof. exact client_writes. Qed.
Print Assumptions C94_writes.

(** What the programs write the library reads, with the same content. *)
Theorem C94_from_programs : forall known m, wf_tmsg (wf_ntt no_constraint) m -> t_payload m = [] ->
  known (n_to_chain (m_payload (t_nmm (t_data m)))) = true ->
  exists b, write_std m = Some b /\ c_deserialize known c_wh b = Some (c_values m []).
Proof. exact from_programs. Qed.
Print Assumptions C94_from_programs.

(** What both read says the same to both, and both hash the same bytes exactly when the library sees no additional payload. *)
Theorem C94_both : forall known b v m rest, c_deserialize known c_wh b = Some v -> read_std b = Some (m, rest) ->
  exists extra, v = c_values m extra /\
    forall chain, is_u16 chain ->
      (c_preimage known chain (nmm_values (t_nmm (t_data m)) extra) = nmm_preimage std_payload chain (t_nmm (t_data m)) <-> extra = []).
Proof. exact both_read. Qed.
Print Assumptions C94_both.

(** The inbox item the library asks for is the one the manager uses when there is no additional payload; otherwise it is another one, or the hash [K] has
    a collision. *)
Theorem C94_inbox_item : forall known (K : bytes -> bytes) b v m rest chain,
  c_deserialize known c_wh b = Some v -> read_std b = Some (m, rest) -> is_u16 chain ->
  exists extra p q, v = c_values m extra /\ c_preimage known chain (nmm_values (t_nmm (t_data m)) extra) = Some p /\
    nmm_preimage std_payload chain (t_nmm (t_data m)) = Some q /\
    (extra = [] -> c_seeds (inboxItemAccount (K p)) = Some (seeds (SInboxItem (K q)))) /\
    (extra <> [] -> c_seeds (inboxItemAccount (K p)) = Some (seeds (SInboxItem (K q))) -> p <> q /\ K p = K q).
Proof. exact ClientFacts.inbox_item. Qed.
Print Assumptions C94_inbox_item.

(** The bytes hashed for a session authority are the same. *)
Theorem C94_session : forall a, wf_args a -> c_args_preimage a = Some (args_preimage a).
Proof. exact same_args. Qed.
Print Assumptions C94_session.

(** The library derives every address from the seeds the programs use. *)
Theorem C94_addresses : forall a, wf_purpose (used_for a) -> c_seeds a = Some (seeds (used_for a)).
Proof. exact same_seeds. Qed.
Print Assumptions C94_addresses.

(** Everything a transceiver ever published for a chain the library knows is read by it, with the content of the message. *)
Theorem C94_published_transfer : forall H s p m key known, reachable H s -> is_ntt_prog p = true -> keys32 key -> posted_by s p (PPTransfer m) ->
  known (nm_to_chain (tm_msg m)) = true ->
  exists b, wire_payload key (PPTransfer m) = Some b /\
    c_deserialize known c_wh b = Some [VB (key (tm_source m)); VB (key (tm_recipient m)); VB (key (nm_id (tm_msg m))); VB (key (nm_sender (tm_msg m)));
      VN (ta_decimals (nm_amount (tm_msg m))); VN (ta_amount (nm_amount (tm_msg m))); VB (key (nm_token (tm_msg m))); VB (key (nm_to (tm_msg m)));
      VN (nm_to_chain (tm_msg m)); VB []; VB []].
Proof.
  intros H s p m key known Hr Hp Hk Hin Hc. pose proof (posted_truthful _ _ _ _ Hr Hp Hin) as T. cbn [truthful] in T.
  exact (from_programs known (wire_tm key m) (wire_wf key m Hk T) eq_refl Hc).
Qed.
Print Assumptions C94_published_transfer.

Theorem C94_published_info : forall H s p mgr md tok dec key known, reachable H s -> is_ntt_prog p = true -> keys32 key ->
  posted_by s p (PPInfo mgr md tok dec) ->
  exists b, wire_payload key (PPInfo mgr md tok dec) = Some b /\
    c_deserialize known c_info b = Some [VB (key mgr); VN (mode_byte md); VB (key tok); VN dec].
Proof.
  intros H s p mgr md tok dec key known Hr Hp Hk Hin. destruct (info_true _ _ _ _ _ _ _ Hr Hp Hin) as (c & m & -> & Hc & -> & -> & Hm & ->).
  destruct (reads_info known (WtInfo (key (AProg PManager)) (cf_mode c) (key (cf_mint c)) (mt_decimals m))) as (b & E & D & _); [|now exists b].
  repeat split; try apply Hk; apply (proj2 (inv_ledger _ (reachable_inv _ _ Hr)) _ _ Hm).
Qed.
Print Assumptions C94_published_info.

Theorem C94_published_peer : forall H s p ch a key known, reachable H s -> is_ntt_prog p = true -> keys32 key -> posted_by s p (PPReg ch a) ->
  known ch = true ->
  exists b, wire_payload key (PPReg ch a) = Some b /\ c_deserialize known c_reg b = Some [VN ch; VB (key a)].
Proof.
  intros H s p ch a key known Hr Hp Hk Hin Hc. pose proof (posted_truthful _ _ _ _ Hr Hp Hin) as (Hu & _).
  destruct (reads_reg known (WtReg ch (key a))) as (b & E & D & _); [split; [exact Hu|apply Hk]|exact Hc|now exists b].
Qed.
Print Assumptions C94_published_peer.

(** The layout the library has for program data (which begin with four bytes it does not know of) fits no account of that kind, 45 bytes and the code:
    the instruction that would set up a quoter is never made. *)
Theorem C94_no_program_data : forall known tag slot authority code, List.length tag = 4%nat -> List.length slot = 8%nat -> List.length authority = 33%nat ->
  c_deserialize known c_program_data (tag ++ slot ++ authority ++ code) = None.
Proof. intros known tag slot authority code H1 H2 H3. apply no_program_data. rewrite !app_length, H1, H2, H3. lia. Qed.
Print Assumptions C94_no_program_data.
(** What it does fit, exactly, and how it is written. *)
Theorem C94_program_data : forall known b v, c_deserialize known c_program_data b = Some v <->
  exists slot, is_u64 slot /\ (b = le_enc 8 slot ++ [x00] /\ v = [VN slot; VN 0] \/
    exists o, List.length o = 32%nat /\ b = le_enc 8 slot ++ [x01] ++ o /\ v = [VN slot; VN 1; VB o]).
Proof. exact program_data_exact. Qed.
Print Assumptions C94_program_data.
Theorem C94_program_data_written : forall known b v, c_deserialize known c_program_data b = Some v -> c_serialize known c_program_data v = Some b.
Proof. exact program_data_written. Qed.
Print Assumptions C94_program_data_written.

(** The test vector of the repository, with the chains below 100 known; the one with an additional payload, for which the library hashes other bytes; a
    length of the additional payload beyond its end, which the library lets pass and both sides of the protocol refuse. *)
Definition low (c : Z) : bool := c <? 100.
Definition vec3 : bytes := framed (msg1 tt) [x00; x05; xab]%byte.
Example C94_case :
  c_deserialize low c_wh vec1 = Some (c_values (msg1 tt) []) /\ c_serialize low c_wh (c_values (msg1 tt) []) = Some vec1 /\
  (match vec2 with Some b => c_deserialize low c_wh b | None => None end) = Some (c_values (msg1 tt) extra32) /\
  c_serialize low c_wh (c_values (msg1 tt) extra32) = vec2 /\
  c_preimage low 2 (nmm_values (t_nmm (t_data (msg1 tt))) []) = nmm_preimage std_payload 2 (t_nmm (t_data (msg1 tt))) /\
  option_map (@List.length _) (c_preimage low 2 (nmm_values (t_nmm (t_data (msg1 tt))) extra32)) = Some 181%nat /\
  c_deserialize low c_wh vec3 = Some (c_values (msg1 tt) [xab]) /\ e_arrives vec3 = None /\ read_std vec3 = None /\
  c_deserialize (fun c => c =? 1) c_wh vec1 = None /\
  c_args_preimage (TArgs 1000 2 (repeat x07 32) true) = Some ([x00; x00; x00; x00; x00; x00; x03; xe8; x00; x02]%byte ++ repeat x07 32 ++ [x01]) /\
  c_seeds (peerAccount 2) = Some [str "peer"; [x00; x02]].
Proof. repeat split; vm_compute; reflexivity. Qed.

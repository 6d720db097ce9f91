(** * What the programs publish, seen from the EVM side. *)
From Verif Require Export EvmFacts BridgeFacts.
Local Open Scope Z_scope.

Lemma published_transfer H s p m key : reachable H s -> is_ntt_prog p = true -> keys32 key -> posted_by s p (PPTransfer m) ->
  exists b t n q, wire_payload key (PPTransfer m) = Some b /\ e_arrives b = Some (t, n, q) /\
    et_source t = key (tm_source m) /\ et_recipient t = key (tm_recipient m) /\ et_payload t = [] /\
    en_id n = key (nm_id (tm_msg m)) /\ en_sender n = key (nm_sender (tm_msg m)) /\
    same_amount (nm_amount (tm_msg m)) (ee_amount q) /\ ee_token q = key (nm_token (tm_msg m)) /\
    ee_to q = key (nm_to (tm_msg m)) /\ ee_chain q = nm_to_chain (tm_msg m) /\ ee_extra q = [].
Proof.
  intros Hr Hp Hk Hin. pose proof (posted_truthful _ _ _ _ Hr Hp Hin) as T. cbn [truthful] in T.
  destruct (transfer_layout_ok key m Hk T) as (b & E & _).
  destruct (arrives_evm _ _ (wire_wf key m Hk T) E) as (t & n & q & A & (S1 & S2 & S3 & S4 & S5 & S6 & S7 & S8) & _ & X & Y & _).
  exists b, t, n, q. repeat (split; [first [exact E|exact A|symmetry; first [exact S1|exact S2|exact S3|exact S4|exact S6|exact S7|exact S8]|exact Y|exact S5]|]).
  exact X.
Qed.

Lemma published_info H s p mgr md tok dec key : reachable H s -> is_ntt_prog p = true -> keys32 key -> posted_by s p (PPInfo mgr md tok dec) ->
  exists b, wire_payload key (PPInfo mgr md tok dec) = Some b /\
    e_decode_init b = Some (EInit E_INIT_PREFIX (key mgr) (e_mode md) (key tok) dec).
Proof.
  intros Hr Hp Hk Hin. destruct (info_true _ _ _ _ _ _ _ Hr Hp Hin) as (c & m & -> & Hc & -> & -> & Hm & ->).
  cbn [wire_payload]. rewrite same_info. cbn [wi_manager wi_mode wi_token wi_decimals]. eexists. split; [reflexivity|].
  apply decode_init_encode; cbn [ei_prefix ei_manager ei_mode ei_token ei_decimals]; [apply be_enc_length|apply Hk| |apply Hk|].
  - destruct (cf_mode c); cbn [e_mode]; ilia.
  - apply (proj2 (inv_ledger _ (reachable_inv _ _ Hr)) _ _ Hm).
Qed.

Lemma published_reg H s p ch a key : reachable H s -> is_ntt_prog p = true -> keys32 key -> posted_by s p (PPReg ch a) ->
  exists b, wire_payload key (PPReg ch a) = Some b /\ e_decode_reg b = Some (EReg E_REGISTRATION_PREFIX ch (key a)).
Proof.
  intros Hr Hp Hk Hin. pose proof (posted_truthful _ _ _ _ Hr Hp Hin) as (Hc & _).
  cbn [wire_payload]. rewrite same_reg. eexists. split; [reflexivity|].
  apply decode_reg_encode; cbn [er_prefix er_chain er_address wr_chain wr_address]; [apply be_enc_length|exact Hc|apply Hk].
Qed.

(** * When the client library and the programs mean the same. *)
From Verif Require Export Client SpecEvm EvmFacts.
Local Open Scope Z_scope.

(** A manager's message and a transceiver's message as objects of the library. *)
Definition nmm_values (n : std_nmm) (extra : bytes) : list cval :=
  let p := m_payload n in
  [VB (m_id n); VB (m_sender n); VN (ta_decimals (n_amount p)); VN (ta_amount (n_amount p)); VB (n_source_token p); VB (n_to p); VN (n_to_chain p); VB extra].
Definition c_values (m : std_tmsg) (extra : bytes) : list cval :=
  [VB (t_source (t_data m)); VB (t_recipient (t_data m))] ++ nmm_values (t_nmm (t_data m)) extra ++ [VB []].

(** The bytes [x] behind the 79 of a transfer say the additional payload [extra]: fewer than two say none, otherwise two bytes of length are followed
    by it, by more or by less. *)
Definition tail_means (x extra : bytes) : Prop :=
  (length x < 2)%nat /\ extra = [] \/ exists n y, 0 <= n < 65536 /\ x = be_enc 2 n ++ y /\ extra = firstn (Z.to_nat n) y.

(** A message with the bytes [x] there, an empty payload of the transceiver and right lengths. *)
Definition framed (m : std_tmsg) (x : bytes) : bytes :=
  let d := t_data m in let n := t_nmm d in let p := m_payload n in
  [x99; x45; xff; x10]%byte ++ t_source d ++ t_recipient d ++ be_enc 2 (145 + Z.of_nat (length x)) ++
  m_id n ++ m_sender n ++ be_enc 2 (79 + Z.of_nat (length x)) ++
  [x99; x4e; x54; x54]%byte ++ be_enc 1 (ta_decimals (n_amount p)) ++ be_enc 8 (ta_amount (n_amount p)) ++
  n_source_token p ++ n_to p ++ be_enc 2 (n_to_chain p) ++ x ++ be_enc 2 0.

(** What the programs use the addresses for. *)
Definition used_for (a : c_address) : purpose :=
  match a with
  | configAccount => SConfig | inboxRateLimitAccount c => SInboxRateLimit c | inboxItemAccount d => SInboxItem d
  | outboxRateLimitAccount => SOutboxRateLimit | tokenAuthority => STokenAuthority | peerAccount c => SPeer c
  | registeredTransceiver t => SRegistered t | lutAccount => SLut | lutAuthority => SLutAuthority | sessionAuthority s d => SSession s d
  | emitterAccount => SEmitter | outboxItemSigner => SOutboxSigner | transceiverPeerAccount c => SXPeer c
  | transceiverMessageAccount c i => SVtm c i | wormholeMessageAccount i => SMessage i
  | instanceAccount => SInstance | registeredNttAccount p => SRegNtt p | relayRequestAccount i => SRelayRequest i
  | registeredChainAccount c => SRegChain c
  end.

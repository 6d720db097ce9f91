(** * Transactions as bytes (C107). *)
From Coq Require Import String.
From Verif Require Export TxWireFacts.
From Verif Require Import BytesFacts UpkeepFacts Scenario PropsEntry PropsTx PropsLut PropsCompress.
From Verif Require Import TxWire.
Import ListNotations.
Local Open Scope nat_scope.
Local Open Scope list_scope.
Local Strategy 1000 [sha256].

(** A compiled message is sent exactly in the bytes that [wire_size] counts. It fits a packet exactly if these are at most 1232, and then the cluster reads what was written. *)
Theorem C107_sent : forall (K : Type) (eq_dec : forall a b : K, {a = b} + {a <> b}) (key : K -> bytes), (forall k, List.length (key k) = 32) ->
  forall payer l tables g sigs hash, Compress.compile eq_dec payer l tables = Some g ->
  List.length sigs = mg_signatures g -> Forall (fun s => List.length s = 64) sigs -> List.length hash = 32 ->
  let t := Tx sigs hash true (render key g) in
  (wire_size g <= 1232 <-> exists b, serialize t = Some b /\ List.length b <= 1232) /\
  (forall b, serialize t = Some b -> List.length b = wire_size g /\ (wire_size g <= 1232 -> receive b = Some t)).
Proof. exact @compile_sent. Qed.
Print Assumptions C107_sent.

(** From the bytes the runtime loads the instructions that were given, with the privileges as in C101, also after tables were extended. *)
Theorem C107_loaded : forall (K : Type) (eq_dec : forall a b : K, {a = b} + {a <> b}) (dec : forall a b : bytes, {a = b} + {a <> b}) (key : K -> bytes) payer l tables now now' g sigs hash,
  (forall k, List.length (key k) = 32) -> (forall a b, In a (keys_of payer l) -> In b (keys_of payer l) -> key a = key b -> a = b) ->
  grown tables now -> (forall t, In t (map fst tables) -> now' (key t) = option_map (map key) (now t)) -> ~ invoked l payer ->
  Compress.compile eq_dec payer l tables = Some g -> List.length sigs = mg_signatures g -> Forall (fun s => List.length s = 64) sigs -> List.length hash = 32 -> wire_size g <= 1232 ->
  exists b t, serialize (Tx sigs hash true (render key g)) = Some b /\ List.length b = wire_size g /\ receive b = Some t /\ tx_signatures t = sigs /\ tx_hash t = hash /\
    Compress.load dec (tx_message t) now' =
      Some (key payer, map (fun x => Cix (key (cx_program x))
        (map (fun a => Account (key (ac_key a)) (privileged eq_dec payer l ac_signer (ac_key a)) (privileged eq_dec payer l ac_writable (ac_key a))) (cx_accounts x)) (cx_data x)) l).
Proof.
  intros K eq_dec dec key payer l tables now now' g sigs hash K32 Inj Gr Now NI C N S64 H32 L.
  destruct (sent_loaded eq_dec dec key payer l tables now now' g sigs hash K32 Inj Gr Now NI C N S64 H32 L) as (b & t & E & Lb & R & S & Hh & Ld).
  exists b, t. repeat match goal with |- _ /\ _ => split end; try assumption. rewrite Ld. do 2 f_equal. apply map_ext. intros x. unfold lift_ix, merged. cbn [cx_program cx_accounts cx_data]. rewrite map_map. reflexivity.
Qed.
Print Assumptions C107_loaded.

(** Whatever packet the cluster reads as a transaction is the one that the library writes for it: a transaction has one form, and two readings of one packet cannot differ. *)
Theorem C107_read : forall b t, receive b = Some t <->
  serialize t = Some b /\ List.length b <= 1232 /\ List.length (tx_signatures t) = mg_signatures (tx_message t) /\
  (tx_v0 t = false -> mg_lookups (tx_message t) = [] /\ mg_signatures (tx_message t) < 128).
Proof.
  intros b t. split.
  - intros R. destruct (receive_serialize b t R) as (E & (N & V) & L). auto.
  - intros (E & L & N & V). apply serialize_receive; [split; assumption|exact E|exact L].
Qed.
Print Assumptions C107_read.
Theorem C107_one : forall b b' t, receive b = Some t -> receive b' = Some t -> b = b'.
Proof. intros b b' t R R'. apply receive_serialize in R as (E & _). apply receive_serialize in R' as (E' & _). congruence. Qed.
Print Assumptions C107_one.

(** The library's transfers and redemptions, as in C101: they are sent and read. *)
Theorem C107_transfer : forall nm H hn l0 cs l c tp sender amount chain to q item x items key hash, l_reachable H l0 -> l_run H l0 cs l ->
  cf_paused c = false -> cf_token_program c = AProg tp -> can_sign sender = true -> can_sign item = true -> (forall p, sender <> AProg p) -> is_ntt_prog x = true -> is32 to ->
  client_transfer nm H sender amount chain to q item c x = Some items -> (forall k : handle, List.length (key k) = 32) -> List.length hash = 32 ->
  exists g, pack sender items (luts hn l0) = Some g /\
    (forall oks, List.length oks = List.length items -> send nm H hn l (combine items oks) g = submit nm H sender (l_world l) (combine items oks)) /\
    forall sigs, List.length sigs = mg_signatures g -> Forall (fun s => List.length s = 64) sigs ->
      exists b, serialize (Tx sigs hash true (render key g)) = Some b /\ receive b = Some (Tx sigs hash true (render key g)).
Proof.
  intros nm H hn l0 cs l c tp sender amount chain to q item x items key hash R0 Rn P T C1 C2 NP X T32 CT K32 H32.
  destruct (transfer_packed nm H hn l0 cs l c tp sender amount chain to q item x items R0 Rn P T C1 C2 NP X T32 CT) as (g & Pk & Sz & Sd).
  exists g. split; [exact Pk|]. split; [exact Sd|]. intros sigs N S64. destruct (compile_sent handle_eq_dec key K32 _ _ _ _ _ _ Pk N S64 H32) as (A & B).
  destruct (proj1 A Sz) as (b & E & _). exists b. split; [exact E|]. exact (proj2 (B b E) Sz).
Qed.
Print Assumptions C107_transfer.
Theorem C107_redeem : forall nm H hn l0 cs l c tp payer vaa ch msg x items key hash, l_reachable H l0 -> l_run H l0 cs l ->
  cf_paused c = false -> cf_token_program c = AProg tp -> can_sign payer = true -> (forall p, payer <> AProg p) -> is_ntt_prog x = true ->
  client_redeem H payer vaa ch msg c x = Some items -> (forall k : handle, List.length (key k) = 32) -> List.length hash = 32 ->
  exists g, pack payer items (luts hn l0) = Some g /\
    (forall oks, List.length oks = List.length items -> send nm H hn l (combine items oks) g = submit nm H payer (l_world l) (combine items oks)) /\
    forall sigs, List.length sigs = mg_signatures g -> Forall (fun s => List.length s = 64) sigs ->
      exists b, serialize (Tx sigs hash true (render key g)) = Some b /\ receive b = Some (Tx sigs hash true (render key g)).
Proof.
  intros nm H hn l0 cs l c tp payer vaa ch msg x items key hash R0 Rn P T C1 NP X CT K32 H32.
  destruct (redeem_packed nm H hn l0 cs l c tp payer vaa ch msg x items R0 Rn P T C1 NP X CT) as (g & Pk & Sz & Sd).
  exists g. split; [exact Pk|]. split; [exact Sd|]. intros sigs N S64. destruct (compile_sent handle_eq_dec key K32 _ _ _ _ _ _ Pk N S64 H32) as (A & B).
  destruct (proj1 A Sz) as (b & E & _). exists b. split; [exact E|]. exact (proj2 (B b E) Sz).
Qed.
Print Assumptions C107_redeem.

(** ** Cases *)

(** Lengths of one and of two bytes; forms that are refused: a zero byte at the end, four bytes, more than 65535. *)
Definition hex (l : list nat) : bytes := map b8 l.
Example C107_lengths :
  map (encode_length 8) [0; 5; 127; 128; 255; 300] = map hex [[0]; [5]; [127]; [128; 1]; [255; 1]; [172; 2]] /\
  map (fun l => r_length (hex l)) [[172; 2]; [172; 0]; [128; 128; 0]; [128; 128; 128; 1]; [128; 128; 4]; [172]] = [Some (300, []); None; None; None; None; None].
Proof. split; vm_compute; reflexivity. Qed.

(** A message of two instructions over byte keys with one table: the bytes, and what is read of them; with another version, a byte more, a byte less or another number of
    signatures it is not read. *)
Definition kk (n : nat) : bytes := repeat (b8 n) 32.
Definition bdec : forall a b : bytes, {a = b} + {a <> b} := list_eq_dec Byte.byte_eq_dec.
Definition two : list (cix bytes) :=
  [ Cix (kk 10) [Account (kk 1) true true; Account (kk 2) false true; Account (kk 3) false false] (hex [9; 8]); Cix (kk 11) [Account (kk 3) false false; Account (kk 1) false false] [] ].
Definition packed : option (message bytes) := Compress.compile bdec (kk 1) two [(kk 40, [kk 7; kk 3; kk 2])].
Definition sig1 : bytes := repeat (b8 77) 64.
Definition sent2 : option bytes := match packed with Some g => serialize (Tx [sig1] (kk 99) true g) | None => None end.
Example C107_bytes :
  sent2 = Some (hex [1] ++ sig1 ++ hex [128; 1; 0; 2; 3] ++ kk 1 ++ kk 10 ++ kk 11 ++ kk 99 ++ hex [2; 1; 3; 0; 3; 4; 2; 9; 8; 2; 2; 4; 0; 0; 1] ++ kk 40 ++ hex [1; 2; 1; 1])%list /\
  option_map (@wire_size bytes) packed = option_map (@List.length _) sent2.
Proof. split; vm_compute; reflexivity. Qed.
Definition is_read (b : bytes) : bool := match receive b with Some _ => true | None => false end.
Definition with_ (f : bytes -> bytes) : option bool := option_map (fun b => is_read (f b)) sent2.
Example C107_refused :
  (with_ (fun b => b), with_ (fun b => b ++ [b8 0]), with_ (@removelast _), with_ (fun b => firstn 65 b ++ [b8 129] ++ skipn 66 b), with_ (fun b => firstn 66 b ++ [b8 2] ++ skipn 67 b))
  = (Some true, Some false, Some false, Some false, Some false).
Proof. vm_compute. reflexivity. Qed.

(** The worked deployment's transfer, with and without table: as many bytes as [C101_case] counts. *)
Definition some_key (k : handle) : bytes := kk 5.
Definition bytes_of (l : lstate) (items : list tx_item) : option (option nat) :=
  option_map (fun g => option_map (@List.length _) (serialize (Tx (repeat sig1 (mg_signatures g)) (kk 99) true (render some_key g)))) (pack USER items (luts name_key l)).
Example C107_case :
  (bytes_of l_without (the_transfer Locking PManager), bytes_of l_with (the_transfer Locking PManager)) = (Some (Some 1012), Some (Some 705)).
Proof. vm_compute. reflexivity. Qed.

(** * The extra accounts of transfer hooks: C90. *)
From Coq Require Import String.
From Verif Require Export ResolveFacts.
Import ListNotations.
Local Open Scope Z_scope.

(** The list that the example hook writes is this one, and fills the account made for it. *)
Theorem C90_list : exists l, dummy_extras = Some l /\ map Z_of_byte (list_bytes l) = published_list /\
  List.length (list_bytes l) = list_size 2 /\ List.length (list_bytes l) = 86%nat.
Proof. exact dummy_list_ok. Qed.
Print Assumptions C90_list.

(** Seeds and lists are read as they were written. *)
Theorem C90_seeds : forall l b, Forall writable_seed l -> pack_config l = Some b -> List.length b = 32%nat /\ unpack_config b = Some l.
Proof. exact config_round. Qed.
Print Assumptions C90_seeds.
Theorem C90_round : forall l, Forall writable_extra l -> Z.of_nat (List.length l) < 2 ^ 24 -> read_list (list_bytes l) = Some l.
Proof. exact list_round. Qed.
Print Assumptions C90_round.

(** A call is made only with accounts that the caller has, signing only if they signed for it or it signs for them, writable only if they are so for it. *)
Theorem C90_privileges : forall prog caller signed x t, invoke prog caller signed x = Some t ->
  (exists i, In i caller /\ ai_key i = prog) /\
  forall m, In m (fst x) -> exists i, In i caller /\ ai_key i = am_key m /\ (am_signer m = true -> ai_signer i = true \/ In (am_key m) signed) /\ (am_writable m = true -> ai_writable i = true).
Proof.
  intros prog caller signed x t. unfold invoke. destruct (_ && _) eqn:E; [|discriminate]. intros _. apply andb_prop in E as (E1 & E2). split.
  - apply existsb_exists in E1 as (i & Hi & Q). apply bytes_eqb_eq in Q. eauto.
  - intros m Hm. pose proof (proj1 (forallb_forall _ _) E2 m Hm) as A. unfold allowed in A. destruct (find_key (am_key m) caller) as [i|] eqn:F; [|discriminate].
    unfold find_key in F. apply find_some in F as (Hi & Q). apply bytes_eqb_eq in Q. apply andb_prop in A as (A1 & A2). exists i. split; [exact Hi|]. split; [exact Q|]. split.
    + intros S. rewrite S in A1. cbn [implb] in A1. apply orb_prop in A1 as [A1|A1]; [left; exact A1|right]. apply existsb_exists in A1 as (k & Hk & Qk). apply bytes_eqb_eq in Qk. now subst k.
    + intros W. rewrite W in A2. exact A2.
Qed.
Print Assumptions C90_privileges.

(** Any hook, any list: if the manager's call of Token-2022 is made at all, Token-2022 finds every account that the list asks for and no privilege is missing,
    so that the hook is called with what the manager found for it among its remaining accounts. *)
Theorem C90_passes_on : forall pda prog tp amount moved signed caller src mint dst auth rest x t,
  coherent (caller ++ [src; mint; dst; auth] ++ rest) ->
  (forall v l, In v rest -> list_key pda prog (ai_key mint) = Some (ai_key v) -> read_list (ai_data v) = Some l ->
     moved (ai_key v) (ai_owner v) (ai_data v) = ai_data v /\ steady moved l) ->
  forward pda prog amount src mint dst auth rest = Some x -> invoke tp (caller ++ [src; mint; dst; auth] ++ rest) signed x = Some t ->
  exists ms is, execute pda prog amount src mint dst auth rest = Some (ms, is) /\
    hook_accounts pda prog tp amount moved signed caller src mint dst auth rest = Some (map (fun i => seen ms (move moved i)) is).
Proof. exact delivered. Qed.
Print Assumptions C90_passes_on.

(** The example hook: its part of a transfer succeeds exactly if the four accounts it needs are among the manager's remaining accounts, and then it counts
    the transfer. *)
Theorem C90_exact : forall pda tokens prog tp amount moved signed caller src mint dst auth rest b,
  coherent (caller ++ [src; mint; dst; auth] ++ rest) -> settled tp moved -> prog <> tp -> is_u64 amount ->
  (forall v, In v rest -> list_key pda prog (ai_key mint) = Some (ai_key v) -> ai_owner v = prog /\ ai_data v = map byte_of_Z published_list) ->
  hooked_transfer pda tokens prog tp amount moved signed caller src mint dst auth rest = Some b <->
  exists owner n tail, may_call tp signed (caller ++ [src; mint; dst; auth] ++ rest) src dst auth /\
    is_token tokens src (ai_key mint) owner /\ (exists o, is_token tokens dst (ai_key mint) o) /\ is_mint tokens mint /\
    supplied pda prog src mint dst auth owner rest n tail /\ n < u64_max /\ b = COUNTER_TAG ++ le_enc 8 (n + 1) ++ tail.
Proof. exact dummy_exact. Qed.
Print Assumptions C90_exact.

(** A transfer of 7 tokens with a toy derivation of addresses; each of the remaining accounts is needed, and the counter writable. *)
Definition toy (seeds : list bytes) (prog : bytes) : option bytes := Some (List.concat seeds ++ prog).
Definition HOOK : bytes := repeat x07 32. Definition T22 : bytes := repeat x09 32. Definition MINT_KEY : bytes := repeat x0a 32. Definition OWNER_KEY : bytes := repeat x0b 32.
Definition token_of (key owner : bytes) (n : Z) : info := Info key T22 (MINT_KEY ++ owner ++ le_enc 8 n ++ repeat x00 36 ++ [x01] ++ repeat x00 56) false true.
Definition r_src := token_of (repeat x01 32) OWNER_KEY 100.
Definition r_dst := token_of (repeat x02 32) (repeat x0c 32) 5.
Definition r_mint := Info MINT_KEY T22 (repeat x00 45 ++ [x01] ++ repeat x00 36) false false.
Definition r_auth := Info (repeat x03 32) [] [] false false.
Definition r_prog := Info HOOK [] [] false false.
Definition r_list := Info (str "extra-account-metas" ++ MINT_KEY ++ HOOK) HOOK (map byte_of_Z published_list) false false.
Definition r_dummy := Info (str "dummy_account" ++ OWNER_KEY ++ HOOK) [] [] false false.
Definition r_counter (w : bool) := Info (str "counter" ++ HOOK) HOOK (COUNTER_TAG ++ le_enc 8 41) false w.
(** Token-2022 takes 7 from the source and adds them to the destination: bytes 64 to 71. *)
Definition toy_moved (k o d : bytes) : bytes :=
  if bytes_eqb o T22 && (165 <=? List.length d)%nat
  then firstn 64 d ++ le_enc 8 (Bytes.le_dec (firstn 8 (skipn 64 d)) + (if bytes_eqb k (repeat x01 32) then -7 else 7)) ++ skipn 72 d else d.
Definition toy_call (rest : list info) : option Z :=
  option_map (fun b => Bytes.le_dec (skipn 8 b))
    (hooked_transfer toy [T22] HOOK T22 7 toy_moved [ai_key r_auth] [Info T22 [] [] false false] r_src r_mint r_dst r_auth rest).
Example C90_case :
  map toy_call [[r_prog; r_list; r_dummy; r_counter true]; [r_counter true; r_dummy; r_list; r_prog]; [r_list; r_dummy; r_counter true]; [r_prog; r_dummy; r_counter true];
    [r_prog; r_list; r_counter true]; [r_prog; r_list; r_dummy]; [r_prog; r_list; r_dummy; r_counter false]; []] =
  [Some 42; Some 42; None; None; None; None; None; None].
Proof. vm_compute. reflexivity. Qed.
(** The hypothesis about seeds matters: a hook that derives an account from the source's balance is passed the account of the balance before the transfer and
    looked for with the one after it. *)
Definition by_balance : list extra := match with_seeds [AccountData 0 64 8] false false with Some e => [e] | None => [] end.
Definition r_list2 := Info (ai_key r_list) HOOK (list_bytes by_balance) false false.
Definition r_before := Info (le_enc 8 100 ++ HOOK) [] [] false false.
Definition r_after := Info (le_enc 8 93 ++ HOOK) [] [] false false.
Example C90_balance :
  map (fun rest => (match forward toy HOOK 7 r_src r_mint r_dst r_auth rest with Some _ => true | None => false end,
                    match hook_accounts toy HOOK T22 7 toy_moved [ai_key r_auth] [Info T22 [] [] false false] r_src r_mint r_dst r_auth rest with Some _ => true | None => false end))
    [[r_prog; r_list2; r_before]; [r_prog; r_list2; r_after]; [r_prog; r_list2; r_before; r_after]] = [(true, false); (false, false); (true, false)].
Proof. vm_compute. reflexivity. Qed.
(** The hypotheses of C90_exact hold of the first case. *)
Definition toy_rest : list info := [r_prog; r_list; r_dummy; r_counter true].
Lemma toy_settled : settled T22 toy_moved.
Proof.
  intros k o d. unfold toy_moved. destruct (bytes_eqb o T22) eqn:O.
  2: { cbn [andb]. repeat split; auto. }
  apply bytes_eqb_eq in O. subst o. split; [intros N; congruence|]. destruct (Nat.leb_spec 165 (List.length d)) as [L|L]; cbn [andb]; [|split; reflexivity].
  set (z := _ + _). clearbody z. split.
  - rewrite !app_length, le_enc_length, firstn_length, skipn_length. lia.
  - intros n N. assert (F : List.length (firstn 64 d) = 64%nat) by (rewrite firstn_length; lia). destruct N as [N| ->].
    + rewrite app_nth1 by lia. rewrite <- (firstn_skipn 64 d) at 2. rewrite app_nth1 by lia. reflexivity.
    + rewrite app_nth2 by lia. rewrite F, app_nth2; rewrite le_enc_length; [|lia]. rewrite <- (firstn_skipn 72 d) at 2.
      assert (F' : List.length (firstn 72 d) = 72%nat) by (rewrite firstn_length; lia). rewrite (app_nth2 (firstn 72 d)) by lia. rewrite F'. reflexivity.
Qed.
Lemma toy_list v : In v toy_rest -> list_key toy HOOK (ai_key r_mint) = Some (ai_key v) -> ai_owner v = HOOK /\ ai_data v = map byte_of_Z published_list.
Proof.
  intros I K. destruct I as [<-|[<-|[<-|[<-|[]]]]]; try (split; reflexivity); exfalso; apply Some_inj in K; apply (f_equal (fun b => nth 0 b x00)) in K; discriminate K.
Qed.
Example C90_meets : coherent ([Info T22 [] [] false false] ++ [r_src; r_mint; r_dst; r_auth] ++ toy_rest) /\ settled T22 toy_moved /\ HOOK <> T22 /\ is_u64 7.
Proof.
  split; [|split; [exact toy_settled|split; [discriminate|unfold is_u64, u64_max; lia]]].
  apply coherent_nodup. repeat (apply NoDup_cons; [cbn [map app In]; intros X; repeat (destruct X as [X|X]; [apply (f_equal (fun b => nth 0 b x00)) in X; discriminate X|]); exact X|]). apply NoDup_nil.
Qed.

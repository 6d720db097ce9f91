(** * The surroundings of the programs: C87. *)
From Verif Require Export WorldFacts Scenario.
Import ListNotations.
Local Open Scope Z_scope.

(** Everything else on the chain can do exactly what the rules of [SpecWorld] say: nothing more, and nothing less, so that no property holds because the
    surroundings were held back. *)
Theorem C87_rules : forall H s sg i s', reachable H s -> of_surroundings i ->
  (step H s (Call sg i) = Ok s' <-> forallb can_sign sg = true /\ surroundings s sg i s').
Proof.
  intros H s sg i s' Hr O. rewrite step_typed. split.
  - intros (A & B & C). split; [exact A|]. eapply world_sound; eassumption.
  - intros (A & B). destruct (world_complete _ _ _ _ _ Hr B). auto.
Qed.
Print Assumptions C87_rules.
(** The rules are about no instruction of the programs. *)
Theorem C87_only : forall s sg i s', surroundings s sg i s' -> of_surroundings i.
Proof. intros s sg i s' R. destruct R; exact I. Qed.
Print Assumptions C87_only.
(** Whose signatures they can have: those of every key pair, of every program's id, and of every address derived from a program of
    the user's; never that of an address derived from the programs modelled, the token programs or the core bridge. *)
Theorem C87_signers : forall a, can_sign a = true <-> (exists n, a = AKey n) \/ (exists p, a = AProg p) \/ (exists k t z x y, a = APda (PUser k) t z x y).
Proof.
  intros a. destruct a as [|n|n|p|p t z x y]; cbn; try (split; [discriminate|intros [(? & K)|[(? & K)|(? & ? & ? & ? & ? & K)]]; discriminate K]).
  - split; [eauto|reflexivity].
  - split; [eauto|reflexivity].
  - destruct p; (split; [try discriminate; eauto 10|intros [(? & K)|[(? & K)|(? & ? & ? & ? & ? & K)]]; try discriminate K; reflexivity]).
Qed.
Print Assumptions C87_signers.

(** Each operation done, and one just outside the rules refused, in the worked deployment's last state; the accounts used are the user's and the recipient's. *)
Definition tried (l : list call) : list bool := map (fun c => is_ok (step H0 (at_ Locking 13) c)) l.
Definition NEW := AKey 90.
Definition VAA2 := APda PWormhole (TUser 2) 0 ANull ANull.
Example C87_case :
  tried [Call [] (EClock i64_max); Call [USER] (ETransfer PToken user_tok MINT rcpt_tok USER 4000000000); Call [USER] (EApprove PToken user_tok USER NEW u64_max);
    Call [USER] (ERevoke PToken user_tok USER); Call [ISSUER] (EMintTo PToken MINT rcpt_tok ISSUER 5); Call [RCPT] (EBurn PToken rcpt_tok MINT RCPT 400000000);
    Call [ISSUER] (ESetMintAuth PToken MINT ISSUER None); Call [USER] (ESetTokOwner PToken user_tok USER NEW); Call [NEW] (EInitTok PToken NEW MINT USER);
    Call [] (ECreateAta PToken NEW MINT); Call [NEW] (EInitMint PToken22 NEW 255 None); Call [] (ESetFee PToken MINT 10000 0); Call [] (EWithdrawFees PToken MINT user_tok 0);
    Call [NEW; USER] (EPost NEW USER (PPOther 1)); Call [] (EWrite 5 NEW (DOther 1)); Call [] (EPostVaa VAA2 9 (ARaw 5) None)] = repeat true 16 /\
  tried [Call [] (EClock (i64_max + 1)); Call [USER] (ETransfer PToken user_tok MINT rcpt_tok USER 4000000001); Call [RCPT] (EApprove PToken user_tok RCPT NEW 1);
    Call [token_authority] (ERevoke PToken custody token_authority); Call [USER] (EMintTo PToken MINT rcpt_tok USER 5); Call [RCPT] (EBurn PToken rcpt_tok MINT RCPT 400000001);
    Call [USER] (ESetMintAuth PToken MINT USER None); Call [USER] (ESetTokOwner PToken22 user_tok USER NEW); Call [USER] (ECloseTok PToken user_tok USER); Call [NEW] (EInitTok PToken NEW NEW USER);
    Call [] (ECreateAta PToken USER MINT); Call [NEW] (EInitMint PToken22 NEW 256 None); Call [] (ESetFee PToken MINT 10001 0); Call [] (EWithdrawFees PToken MINT user_tok 1);
    Call [NEW] (EPost NEW USER (PPOther 1)); Call [] (EWrite 5 pda_config (DOther 1)); Call [] (EErase 5 pda_config); Call [] (EPostVaa VAA 9 (ARaw 5) None)] = repeat false 18.
Proof. vm_compute. split; reflexivity. Qed.

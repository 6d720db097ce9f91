(** * What the surroundings of the programs may do (C87): one rule per operation.

    Token programs, core bridge, loader, clock and third-party programs, as anyone can use them. *)
From Verif Require Export Exec.
Import ListNotations.
Local Open Scope Z_scope.

Definition token_program (p : prog) : Prop := p = PToken \/ p = PToken22.
(** An address at which nothing is yet, and that is no program. *)
Definition vacant (s : state) (a : addr) : Prop := st_accts s a = None /\ st_toks s a = None /\ st_mints s a = None /\ a <> ANull /\ forall p, a <> AProg p.
(** Tokens are taken by the delegate, up to what was approved, or by the owner. *)
Definition by_delegate (t : tok) (auth : addr) (x : Z) : Prop := tk_delegate t = Some auth /\ x <= tk_delegated t.
Definition by_holder (t : tok) (auth : addr) : Prop := tk_owner t = auth /\ tk_delegate t <> Some auth.
Definition may_take (t : tok) (auth : addr) (x : Z) : Prop := by_delegate t auth x \/ by_holder t auth.
(** The account then: the delegate's allowance shrinks, and ends when used up. *)
Definition taken_from (t t' : tok) (auth : addr) (x : Z) : Prop :=
  tk_prog t' = tk_prog t /\ tk_mint t' = tk_mint t /\ tk_owner t' = tk_owner t /\ tk_amount t' = tk_amount t - x /\
  (by_holder t auth -> tk_delegate t' = tk_delegate t /\ tk_delegated t' = tk_delegated t) /\
  (tk_delegate t = Some auth -> tk_delegated t' = tk_delegated t - x /\ (tk_delegated t' = 0 -> tk_delegate t' = None) /\ (tk_delegated t' <> 0 -> tk_delegate t' = Some auth)).
(** The least number of units that is at least the rate's share, but no more than the maximum; only Token-2022 charges. *)
Definition fee_is (m : mint) (x f : Z) : Prop :=
  (mt_prog m = PToken -> f = 0) /\
  (mt_prog m = PToken22 -> (f = mt_maxfee m /\ 10000 * (f - 1) < x * mt_bps m) \/ (f < mt_maxfee m /\ 10000 * (f - 1) < x * mt_bps m <= 10000 * f)).

Definition with_toks s f := State (st_now s) (st_accts s) f (st_mints s) (st_uauth s) (st_posted s).
Definition with_mints s f := State (st_now s) (st_accts s) (st_toks s) f (st_uauth s) (st_posted s).
Definition with_accts s f := State (st_now s) f (st_toks s) (st_mints s) (st_uauth s) (st_posted s).
Definition at_most_64 (x : Z) : Prop := x <= u64_max.

Inductive surroundings (s : state) (sg : list addr) : instr -> state -> Prop :=
  | S_clock t : is_i64 t -> surroundings s sg (EClock t) (State t (st_accts s) (st_toks s) (st_mints s) (st_uauth s) (st_posted s))
  | S_transfer p src mnt dst auth x t d m t' f : token_program p -> is_u64 x -> In auth sg ->
      st_toks s src = Some t -> st_toks s dst = Some d -> st_mints s mnt = Some m -> tk_prog t = p -> tk_prog d = p -> mt_prog m = p -> tk_mint t = mnt -> tk_mint d = mnt ->
      src <> dst -> x <= tk_amount t -> may_take t auth x -> taken_from t t' auth x -> fee_is m x f -> at_most_64 (tk_amount d + x - f) -> at_most_64 (mt_withheld m + f) ->
      surroundings s sg (ETransfer p src mnt dst auth x)
        (with_mints (with_toks s (upd (upd (st_toks s) src (Some t')) dst (Some (Tok p mnt (tk_owner d) (tk_amount d + x - f) (tk_delegate d) (tk_delegated d)))))
           (upd (st_mints s) mnt (Some (Mint p (mt_decimals m) (mt_supply m) (mt_auth m) (mt_bps m) (mt_maxfee m) (mt_withheld m + f)))))
  | S_to_itself p src mnt auth x t m : token_program p -> is_u64 x -> In auth sg ->
      st_toks s src = Some t -> st_mints s mnt = Some m -> tk_prog t = p -> mt_prog m = p -> tk_mint t = mnt -> x <= tk_amount t -> may_take t auth x ->
      surroundings s sg (ETransfer p src mnt src auth x) s
  | S_approve p a o d x t : token_program p -> is_u64 x -> In o sg -> st_toks s a = Some t -> tk_prog t = p -> tk_owner t = o ->
      surroundings s sg (EApprove p a o d x) (with_toks s (upd (st_toks s) a (Some (Tok p (tk_mint t) o (tk_amount t) (Some d) x))))
  | S_revoke p a o t : token_program p -> In o sg -> st_toks s a = Some t -> tk_prog t = p -> tk_owner t = o ->
      surroundings s sg (ERevoke p a o) (with_toks s (upd (st_toks s) a (Some (Tok p (tk_mint t) o (tk_amount t) None 0))))
  | S_mint p mnt dst auth x m d : token_program p -> is_u64 x -> In auth sg -> st_mints s mnt = Some m -> mt_prog m = p -> mt_auth m = Some auth ->
      st_toks s dst = Some d -> tk_prog d = p -> tk_mint d = mnt -> at_most_64 (tk_amount d + x) -> at_most_64 (mt_supply m + x) ->
      surroundings s sg (EMintTo p mnt dst auth x)
        (with_mints (with_toks s (upd (st_toks s) dst (Some (Tok p mnt (tk_owner d) (tk_amount d + x) (tk_delegate d) (tk_delegated d)))))
           (upd (st_mints s) mnt (Some (Mint p (mt_decimals m) (mt_supply m + x) (Some auth) (mt_bps m) (mt_maxfee m) (mt_withheld m)))))
  | S_burn p src mnt auth x t m t' : token_program p -> is_u64 x -> In auth sg -> st_toks s src = Some t -> st_mints s mnt = Some m -> tk_prog t = p -> mt_prog m = p ->
      tk_mint t = mnt -> x <= tk_amount t -> x <= mt_supply m -> may_take t auth x -> taken_from t t' auth x ->
      surroundings s sg (EBurn p src mnt auth x)
        (with_mints (with_toks s (upd (st_toks s) src (Some t')))
           (upd (st_mints s) mnt (Some (Mint p (mt_decimals m) (mt_supply m - x) (mt_auth m) (mt_bps m) (mt_maxfee m) (mt_withheld m)))))
  | S_mint_authority p mnt auth new m : token_program p -> In auth sg -> st_mints s mnt = Some m -> mt_prog m = p -> mt_auth m = Some auth ->
      surroundings s sg (ESetMintAuth p mnt auth new)
        (with_mints s (upd (st_mints s) mnt (Some (Mint p (mt_decimals m) (mt_supply m) new (mt_bps m) (mt_maxfee m) (mt_withheld m)))))
  | S_holder p a o new t : token_program p -> In o sg -> st_toks s a = Some t -> tk_prog t = p -> tk_owner t = o ->
      surroundings s sg (ESetTokOwner p a o new) (with_toks s (upd (st_toks s) a (Some (Tok p (tk_mint t) new (tk_amount t) None 0))))
  | S_close p a o t : token_program p -> In o sg -> st_toks s a = Some t -> tk_prog t = p -> tk_owner t = o -> tk_amount t = 0 ->
      surroundings s sg (ECloseTok p a o) (with_toks s (upd (st_toks s) a None))
  | S_account p a mnt o m : token_program p -> In a sg -> st_mints s mnt = Some m -> mt_prog m = p -> vacant s a ->
      surroundings s sg (EInitTok p a mnt o) (with_toks s (upd (st_toks s) a (Some (Tok p mnt o 0 None 0))))
  | S_associated p w mnt m : token_program p -> st_mints s mnt = Some m -> mt_prog m = p -> vacant s (ata p w mnt) ->
      surroundings s sg (ECreateAta p w mnt) (with_toks s (upd (st_toks s) (ata p w mnt) (Some (Tok p mnt w 0 None 0))))
  | S_new_mint p a dec auth : token_program p -> is_u8 dec -> In a sg -> vacant s a ->
      surroundings s sg (EInitMint p a dec auth) (with_mints s (upd (st_mints s) a (Some (Mint p dec 0 auth 0 0 0))))
  | S_fee p mnt bps mx m : token_program p -> 0 <= bps <= 10000 -> is_u64 mx -> st_mints s mnt = Some m -> mt_prog m = p ->
      surroundings s sg (ESetFee p mnt bps mx)
        (with_mints s (upd (st_mints s) mnt (Some (Mint p (mt_decimals m) (mt_supply m) (mt_auth m) bps mx (mt_withheld m)))))
  | S_withheld p mnt dst x m t : token_program p -> is_u64 x -> st_mints s mnt = Some m -> mt_prog m = p -> st_toks s dst = Some t -> tk_prog t = p -> tk_mint t = mnt ->
      x <= mt_withheld m -> at_most_64 (tk_amount t + x) ->
      surroundings s sg (EWithdrawFees p mnt dst x)
        (with_mints (with_toks s (upd (st_toks s) dst (Some (Tok p mnt (tk_owner t) (tk_amount t + x) (tk_delegate t) (tk_delegated t)))))
           (upd (st_mints s) mnt (Some (Mint p (mt_decimals m) (mt_supply m) (mt_auth m) (mt_bps m) (mt_maxfee m) (mt_withheld m - x)))))
  (** Whatever the guardians sign, from any emitter of any chain. *)
  | S_vaa t n x y ch e m : is_u16 ch -> (forall tm, m = Some tm -> typed_tm tm = true) -> vacant s (APda PWormhole t n x y) ->
      surroundings s sg (EPostVaa (APda PWormhole t n x y) ch e m) (with_accts s (upd (st_accts s) (APda PWormhole t n x y) (Some (Acct PWormhole (DVaa ch e m)))))
  | S_post m e pl : In m sg -> In e sg -> vacant s m ->
      surroundings s sg (EPost m e pl)
        (State (st_now s) (upd (st_accts s) m (Some (Acct PWormhole DPosted))) (st_toks s) (st_mints s) (st_uauth s) (Post e pl :: st_posted s))
  | S_upgrade_authority cur new : st_uauth s = Some cur -> In cur sg ->
      surroundings s sg (ESetUpgradeAuthority new) (State (st_now s) (st_accts s) (st_toks s) (st_mints s) new (st_posted s))
  (** Any other program, with any data, in a new account or its own. *)
  | S_write n a d : can_sign a = true -> (forall ch tm, d = DVtm ch tm -> is_u16 ch /\ typed_tm tm = true) ->
      (vacant s a \/ exists d0, st_accts s a = Some (Acct (PUser n) d0)) ->
      surroundings s sg (EWrite n a d) (with_accts s (upd (st_accts s) a (Some (Acct (PUser n) d))))
  | S_erase n a d0 : st_accts s a = Some (Acct (PUser n) d0) ->
      surroundings s sg (EErase n a) (with_accts s (upd (st_accts s) a None)).

(** The other instructions belong to the programs. *)
Definition of_surroundings (i : instr) : Prop :=
  match i with
  | EClock _ | ETransfer _ _ _ _ _ _ | EApprove _ _ _ _ _ | ERevoke _ _ _ | EMintTo _ _ _ _ _ | EBurn _ _ _ _ _ | ESetMintAuth _ _ _ _ | ESetTokOwner _ _ _ _
  | ECloseTok _ _ _ | EInitTok _ _ _ _ | ECreateAta _ _ _ | EInitMint _ _ _ _ | ESetFee _ _ _ _ | EWithdrawFees _ _ _ _ | EPostVaa _ _ _ _ | EPost _ _ _
  | ESetUpgradeAuthority _ | EWrite _ _ _ | EErase _ _ => True
  | _ => False
  end.

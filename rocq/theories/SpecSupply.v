(** * Vocabulary of the total supply (C77). *)
From Verif Require Export SpecDeliver.
Local Open Scope Z_scope.

(** What account [a] holds of mint [mnt]. *)
Definition holding (s : state) (mnt a : addr) : Z :=
  match st_toks s a with Some t => if addr_eq_dec (tk_mint t) mnt then tk_amount t else 0 | None => 0 end.
(** All token accounts of [mnt] are in the list, each once. *)
Definition all_holders (s : state) (mnt : addr) (l : list addr) : Prop :=
  NoDup l /\ forall a t, st_toks s a = Some t -> tk_mint t = mnt -> In a l.
(** The supply of every mint is what all its accounts hold together, and the fees withheld. *)
Definition accounted (s : state) : Prop := forall mnt m, st_mints s mnt = Some m ->
  exists l, all_holders s mnt l /\ sum_of (holding s mnt) l + mt_withheld m = mt_supply m.

(** The fees withheld at a mint. *)
Definition withheld_at (s : state) (mnt : addr) : Z := match st_mints s mnt with Some m => mt_withheld m | None => 0 end.

(** What paying [x] units needs beyond an accounted ledger: custody holds as much, or the 64-bit supply has room. *)
Definition funds (c : config addr) (m : mint) (cu : tok) (x : Z) : Prop :=
  match cf_mode c with Locking => x <= tk_amount cu | Burning => mt_supply m + x <= u64_max end.

(** A network around one locking deployment on [l], the others on [bs] burning, each from its own beginning ([b]), on ledgers that were accounted
    and with mints of the others that began without supply. [dec] are the decimals of the tokens, [cf] the configurations. *)
Record hub (H : hashes) (l : Z) (bs : list Z) (n0 : net) (h : history) (n : net) (K : Z) (cf : Z -> config addr) (dec : Z -> Z) (b : Z -> state) : Prop := {
  hb_distinct : NoDup (l :: bs);
  hb_initial : net_initial (l :: bs) n0;
  hb_accounted : forall k, In k (l :: bs) -> accounted (n0 k);
  hb_run : net_run H (l :: bs) n0 h n;
  hb_managed : forall k, In k (l :: bs) -> managed (n k) (cf k) (dec k) /\ dec k <= K /\ began (on k h) (b k);
  hb_locking : cf_mode (cf l) = Locking;
  hb_burning : forall k, In k bs -> cf_mode (cf k) = Burning /\ supply_of (b k) (cf_mint (cf k)) = 0 }.

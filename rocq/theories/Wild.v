(** * Histories in which tokens and mints change in any way.

    Token-2022 mints can carry extensions the model's ledger does not have: a permanent delegate moves tokens out of any account,
    interest and scaled amounts change what a balance is worth, accounts are frozen, closed or made to fail by default, a mint is
    closed and created anew, supply is minted by its authority. [Ledger.v] and the theorems on balances assume none of this.
    Here the ledger may change in any way at any time: between two instructions of the programs every token account and every mint
    may be replaced, created or removed. Inside an
    instruction the token programs still do what [Chain.v] says. *)
From Verif Require Export Exec.
Local Open Scope Z_scope.

(** Nothing but token accounts and mints changes; decimals stay one byte, as that is what the account has room for. *)
Record wild (s s' : state) : Prop := {
  wl_accts : forall a, st_accts s' a = st_accts s a;
  wl_now : st_now s' = st_now s;
  wl_uauth : st_uauth s' = st_uauth s;
  wl_posted : st_posted s' = st_posted s;
  wl_decimals : forall a m, st_mints s' a = Some m -> is_u8 (mt_decimals m) }.

(** Successful instructions, newest first, with such changes at any point. *)
Inductive wrun (H : hashes) (s0 : state) : list ev -> state -> Prop :=
  | wrun_nil : wrun H s0 [] s0
  | wrun_step tr s c s' : wrun H s0 tr s -> step H s c = Ok s' -> wrun H s0 (Ev s c s' :: tr) s'
  | wrun_wild tr s s' : wrun H s0 tr s -> wild s s' -> wrun H s0 tr s'.
Definition wreachable (H : hashes) (s : state) : Prop := exists s0 tr, initial s0 /\ wrun H s0 tr s.

(** * Integers, ranges, results.

    Everything here models Rust itself or the error enums of the code base, not a particular function.
    Source paths in comments of this development are relative to /repo. *)
From Coq Require Export ZArith Lia List Bool.
From Coq Require Export ZifyBool ZifyNat ZifyN.
Export ListNotations.
Local Open Scope Z_scope.

Ltac Zify.zify_post_hook ::= Z.div_mod_to_equations.

(** ** Machine integer ranges *)
Definition two (n : Z) : Z := 2 ^ n.
Definition u8_max   : Z := 255.
Definition u16_max  : Z := 65535.
Definition u32_max  : Z := 4294967295.
Definition u64_max  : Z := 18446744073709551615.
Definition u128_max : Z := 340282366920938463463374607431768211455.
Definition i64_max  : Z := 9223372036854775807.
Definition i64_min  : Z := -9223372036854775808.

Definition is_u8  (z : Z) : Prop := 0 <= z <= u8_max.
Definition is_u16 (z : Z) : Prop := 0 <= z <= u16_max.
Definition is_u32 (z : Z) : Prop := 0 <= z <= u32_max.
Definition is_u64 (z : Z) : Prop := 0 <= z <= u64_max.
Definition is_u128 (z : Z) : Prop := 0 <= z <= u128_max.
Definition is_i64 (z : Z) : Prop := i64_min <= z <= i64_max.

(** ** Errors.

    The named errors are those of
    - solana/programs/example-native-token-transfers/src/error.rs ([NTTError]),
    - solana/modules/ntt-messages/src/errors.rs ([ScalingError]),
    - solana/programs/ntt-quoter/src/error.rs ([NttQuoterError]),
    - solana/programs/wormhole-governance/src/error.rs ([GovernanceError]).
    [Constraint] stands for any failed Anchor account check (wrong owner, discriminator, seeds, signer,
    has_one, address, already in use, not initialised); the particular Anchor error number is not modelled.
    [TokenErr] is any refusal of the token program, [LoaderErr] of the upgradeable loader, [BridgeErr] of the core
    bridge. [Panic] is a Rust panic (arithmetic overflow with overflow-checks = true in solana/Cargo.toml,
    failed assert, unwrap or expect). *)
Inductive error : Type :=
| CantReleaseYet
| InvalidPendingOwner
| InvalidChainId
| InvalidRecipientAddress
| InvalidTransceiverPeer
| InvalidNttManagerPeer
| InvalidRecipientNttManager
| TransferAlreadyRedeemed
| TransferCannotBeRedeemed
| TransferNotApproved
| MessageAlreadySent
| InvalidMode
| InvalidMintAuthority
| TransferExceedsRateLimit
| Paused
| DisabledTransceiver
| InvalidDeployer
| BadAmountAfterTransfer
| BadAmountAfterBurn
| ZeroThreshold
| OverflowExponent
| OverflowScaledAmount
| BitmapIndexOutOfBounds
| NoRegisteredTransceivers
| NotAuthorized
| InvalidFeeRecipient
| FeeRecipientCannotBeDefault
| ExceedsUserMaxFee
| ExceedsMaxGasDropoff
| RelayingToChainDisabled
| OutboxItemNotReleased
| ScalingOverflow
| DivByZero
| PriceCannotBeZero
| InvalidGovernanceChain
| InvalidGovernanceEmitter
| InvalidGovernanceProgram
| Constraint
| TokenErr
| LoaderErr
| BridgeErr
| Panic.

Inductive result (A : Type) : Type :=
| Ok (a : A)
| Err (e : error).
Arguments Ok {A} a.
Arguments Err {A} e.

Definition bind {A B} (x : result A) (f : A -> result B) : result B :=
  match x with Ok a => f a | Err e => Err e end.

Declare Scope result_scope.
Delimit Scope result_scope with res.
Notation "'let?' x ':=' a 'in' b" := (bind a (fun x => b))
  (at level 200, x pattern, a at level 100, b at level 200) : result_scope.
Open Scope result_scope.

(** [require b e]: Anchor's [require!] / a [constraint = b @ e]. *)
Definition require (b : bool) (e : error) : result unit :=
  if b then Ok tt else Err e.

(** [Option::ok_or]. *)
Definition ok_or {A} (o : option A) (e : error) : result A :=
  match o with Some a => Ok a | None => Err e end.

(** ** Checked arithmetic.  [None] is "does not fit". *)
Definition checked (max z : Z) : option Z :=
  if (0 <=? z) && (z <=? max) then Some z else None.

(** Plain [+ - *] on unsigned integers with overflow checks: overflow panics. *)
Definition plain (max z : Z) : result Z :=
  ok_or (checked max z) Panic.

(** Plain arithmetic on i64. *)
Definition plain_i64 (z : Z) : result Z :=
  if (i64_min <=? z) && (z <=? i64_max) then Ok z else Err Panic.

(** [u64::saturating_add], [u64::saturating_sub] on values in range. *)
Definition sat_add (max a b : Z) : Z := Z.min (a + b) max.
Definition sat_sub (a b : Z) : Z := Z.max (a - b) 0.

(** Unfold the ranges, then arithmetic. *)
Ltac ints := unfold is_u8, is_u16, is_u32, is_u64, is_u128, is_i64 in *;
             unfold u8_max, u16_max, u32_max, u64_max, u128_max, i64_max, i64_min in *.
Ltac ilia := ints; lia.

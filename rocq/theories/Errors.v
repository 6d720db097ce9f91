(** * The error enumerations of the three programs and the numbers Anchor gives them. *)
From Coq Require Import String.
From Verif Require Export Base.
Import ListNotations.
Local Open Scope Z_scope.
Local Open Scope string_scope.

(** A variant of an enumeration under [#[error_code]]: its [#[msg]], and its discriminant where one is written. *)
Record variant := Variant { va_error : error; va_name : string; va_msg : string; va_disc : option Z }.

(** solana/programs/example-native-token-transfers/src/error.rs:4-55 *)
Definition NTTError : list variant :=
  [Variant CantReleaseYet "CantReleaseYet" "CantReleaseYet" None; Variant InvalidPendingOwner "InvalidPendingOwner" "InvalidPendingOwner" None;
   Variant InvalidChainId "InvalidChainId" "InvalidChainId" None;
   Variant InvalidRecipientAddress "InvalidRecipientAddress" "InvalidRecipientAddress" None;
   Variant InvalidTransceiverPeer "InvalidTransceiverPeer" "InvalidTransceiverPeer" None;
   Variant InvalidNttManagerPeer "InvalidNttManagerPeer" "InvalidNttManagerPeer" None;
   Variant InvalidRecipientNttManager "InvalidRecipientNttManager" "InvalidRecipientNttManager" None;
   Variant TransferAlreadyRedeemed "TransferAlreadyRedeemed" "TransferAlreadyRedeemed" None;
   Variant TransferCannotBeRedeemed "TransferCannotBeRedeemed" "TransferCannotBeRedeemed" None;
   Variant TransferNotApproved "TransferNotApproved" "TransferNotApproved" None;
   Variant MessageAlreadySent "MessageAlreadySent" "MessageAlreadySent" None; Variant InvalidMode "InvalidMode" "InvalidMode" None;
   Variant InvalidMintAuthority "InvalidMintAuthority" "InvalidMintAuthority" None;
   Variant TransferExceedsRateLimit "TransferExceedsRateLimit" "TransferExceedsRateLimit" None; Variant Paused "Paused" "Paused" None;
   Variant DisabledTransceiver "DisabledTransceiver" "DisabledTransceiver" None; Variant InvalidDeployer "InvalidDeployer" "InvalidDeployer" None;
   Variant BadAmountAfterTransfer "BadAmountAfterTransfer" "BadAmountAfterTransfer" None;
   Variant BadAmountAfterBurn "BadAmountAfterBurn" "BadAmountAfterBurn" None; Variant ZeroThreshold "ZeroThreshold" "ZeroThreshold" None;
   Variant OverflowExponent "OverflowExponent" "OverflowExponent" None;
   Variant OverflowScaledAmount "OverflowScaledAmount" "OverflowScaledAmount" None;
   Variant BitmapIndexOutOfBounds "BitmapIndexOutOfBounds" "BitmapIndexOutOfBounds" None;
   Variant NoRegisteredTransceivers "NoRegisteredTransceivers" "NoRegisteredTransceivers" None].
(** solana/programs/ntt-quoter/src/error.rs:3-34 *)
Definition NttQuoterError : list variant :=
  [Variant ExceedsUserMaxFee "ExceedsUserMaxFee" "Relay fees exceeds specified max" (Some 1);
   Variant ExceedsMaxGasDropoff "ExceedsMaxGasDropoff" "Requested gas dropoff exceeds max allowed for chain" (Some 2);
   Variant InvalidFeeRecipient "InvalidFeeRecipient" "The specified fee recipient does not match the address in the instance accound" (Some 3);
   Variant RelayingToChainDisabled "RelayingToChainDisabled" "Relaying to the specified chain is disabled" (Some 4);
   Variant OutboxItemNotReleased "OutboxItemNotReleased" "Relaying to the specified chain is disabled" (Some 5);
   Variant ScalingOverflow "ScalingOverflow" "Scaled value exceeds u64::MAX" (Some 6);
   Variant DivByZero "DivByZero" "Cannot divide by zero" (Some 7);
   Variant FeeRecipientCannotBeDefault "FeeRecipientCannotBeDefault" "The fee recipient cannot be the default address (0x0)" (Some 257);
   Variant NotAuthorized "NotAuthorized" "Must be owner or assistant" (Some 258);
   Variant PriceCannotBeZero "PriceCannotBeZero" "The price cannot be zero" (Some 259)].
(** solana/programs/wormhole-governance/src/error.rs:3-11 *)
Definition GovernanceError : list variant :=
  [Variant InvalidGovernanceChain "InvalidGovernanceChain" "InvalidGovernanceChain" None;
   Variant InvalidGovernanceEmitter "InvalidGovernanceEmitter" "InvalidGovernanceEmitter" None;
   Variant InvalidGovernanceProgram "InvalidGovernanceProgram" "InvalidGovernanceProgram" None].

(** Rust's discriminants: what is written, otherwise one more than the variant before; the first is 0. *)
Fixpoint discriminants (next : Z) (l : list variant) : list (Z * variant) :=
  match l with
  | [] => []
  | v :: l => let d := match va_disc v with Some d => d | None => next end in (d, v) :: discriminants (d + 1) l
  end.
(** anchor-lang 0.29, src/error.rs (ERROR_CODE_OFFSET) and the code generated by [#[error_code]]: [e as u32 + ERROR_CODE_OFFSET]. *)
Definition ERROR_CODE_OFFSET : Z := 6000.
Definition codes (l : list variant) : list (Z * variant) := map (fun dv => (fst dv + ERROR_CODE_OFFSET, snd dv)) (discriminants 0 l).

Definition error_eq_dec (a b : error) : {a = b} + {a <> b}. Proof. decide equality. Defined.
(** The number a program reports for an error of an enumeration. *)
Definition code_of (l : list variant) (e : error) : option Z :=
  option_map fst (find (fun cv => if error_eq_dec (va_error (snd cv)) e then true else false) (codes l)).

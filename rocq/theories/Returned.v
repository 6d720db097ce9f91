(** * What the programs return.

    The code Anchor generates for a function that returns something sets the instruction's return data to its Borsh encoding; a caller reads them with
    the type's [try_from_slice], which wants all bytes used (anchor-lang 0.29, [#[program]], [Return::get]). *)
From Coq Require Import String.
From Verif Require Export Dispatch Client.
From Verif Require Import Exec.
Import ListNotations.
Local Open Scope Z_scope.

(** Borsh: a string is its length in four bytes, little-endian, and its bytes; a boolean is a byte 0 or 1 and nothing else. *)
Definition borsh_string (b : bytes) : bytes := le_enc 4 (Z.of_nat (List.length b)) ++ b.
Definition string_of (b : bytes) : option bytes :=
  match (do n <- le_u 4; take (Z.to_nat n)) b with Some (x, []) => Some x | _ => None end.
Definition borsh_bool (r : bool) : bytes := [if r then x01 else x00].
Definition bool_of (b : bytes) : option bool := match b with [x00] => Some false | [x01] => Some true | _ => None end.

(** programs/example-native-token-transfers/src/lib.rs:66 *)
Definition VERSION : bytes := str "3.0.0".
(** programs/ntt-transceiver/src/lib.rs:10 *)
Definition TRANSCEIVER_TYPE : bytes := str "wormhole".

(** The return data of a call that succeeds; [released] is what [mark_outbox_item_as_released] computes (Manager.v). The manager's lib.rs:80-82, 155-157;
    ntt-transceiver's lib.rs:17-19. All other functions of the five programs return [()]. *)
Definition returned (g : gcall) (released : bool) : option bytes :=
  match g with
  | GVersion => Some (borsh_string VERSION)
  | GTransceiverType => Some (borsh_string TRANSCEIVER_TYPE)
  | GMark => Some (borsh_bool released)
  | _ => None
  end.

(** ** What the client makes of the version: ts/lib/ntt.ts:223-231, ts/lib/bindings.ts:17-21, sdk/definitions/src/ntt.ts:132-152 *)
Definition is_digit (b : byte) : bool := (48 <=? Z_of_byte b) && (Z_of_byte b <=? 57).
Fixpoint digits (acc : Z) (some : bool) (b : bytes) : option (Z * bytes) :=
  match b with
  | c :: r => if is_digit c then digits (10 * acc + (Z_of_byte c - 48)) true r else if some then Some (acc, b) else None
  | [] => if some then Some (acc, b) else None
  end.
(** digits, a dot, digits, a dot, anything; a line break in the last part, which the pattern does not allow, is not looked for *)
Definition parse_version (b : bytes) : option (Z * Z) :=
  match digits 0 false b with
  | Some (major, x2e :: r) => match digits 0 false r with Some (minor, x2e :: _) => Some (major, minor) | _ => None end
  | _ => None
  end.
Definition abi_matches (target abi : bytes) : option bool :=
  match parse_version target, parse_version abi with
  | Some (a, b), Some (c, d) => Some ((a =? c) && (d <=? b))
  | _, _ => None
  end.
Definition IdlVersions : list bytes := [str "3.0.0"; str "2.0.0"; str "1.0.0"].
(** [None] is a thrown error. *)
Fixpoint choose (l : list bytes) (version : bytes) : option bytes :=
  match l with
  | [] => None
  | v :: l => match abi_matches version v with Some true => Some v | Some false => choose l version | None => None end
  end.
Definition c_idl (data : bytes) : option bytes :=
  match c_deserialize (fun _ => true) c_version data with Some [VN _; VB v] => choose IdlVersions v | _ => None end.

(** * The extra accounts of a transfer hook, byte for byte.

    A hook may need accounts beyond the token accounts, mint and authority. The hook program lists them in an account of its own, in a
    little language of seeds; whoever asks Token-2022 for a transfer must read the list, find the accounts among those it was given, and
    pass them on. The manager does so with its [remaining_accounts] (transfer.rs:194-209, 319-334, release_inbound.rs:127-140, 177-190:
    [onchain::invoke_transfer_checked]); Token-2022 reads the list again before it calls the hook.

    Libraries, not part of the repository: spl-tlv-account-resolution 0.6.3, spl-transfer-hook-interface 0.6.3, spl-type-length-value,
    spl-token-2022 3.0.2, and the runtime's checks of a cross-program invocation.

    Simplified: of a token account only mint, owner and state are read, of a mint only its initialised flag; the program a mint names as its
    hook is a parameter; the classic token program and mints without a hook are not treated here. *)
From Coq Require Import String.
From Verif Require Export Dispatch.
Import ListNotations.
Local Open Scope Z_scope.

Notation "'let!' x := e 'in' b" := (match e with Some x => b | None => None end) (at level 200, x pattern, right associativity).

(** An account as a program sees it ([AccountInfo]), and as an instruction names it ([AccountMeta]). *)
Record info := Info { ai_key : bytes; ai_owner : bytes; ai_data : bytes; ai_signer : bool; ai_writable : bool }.
Record ameta := AMeta { am_key : bytes; am_signer : bool; am_writable : bool }.
(** [iter().find(|x| *x.key == k)] *)
Definition find_key (k : bytes) (l : list info) : option info := find (fun i => bytes_eqb (ai_key i) k) l.
Definition readonly (i : info) : ameta := AMeta (ai_key i) false false.

(** ** The language of seeds (spl-tlv-account-resolution seeds.rs) *)
Inductive seed :=
  | Literal (b : bytes)
  | InstructionData (index len : Z)
  | AccountKey (index : Z)
  | AccountData (account index len : Z).

(** [Seed::pack]: a tag, then the fields, a byte each. *)
Definition pack_seed (s : seed) : bytes :=
  match s with
  | Literal b => byte_of_Z 1 :: byte_of_Z (Z.of_nat (List.length b)) :: b
  | InstructionData i n => map byte_of_Z [2; i; n]
  | AccountKey i => map byte_of_Z [3; i]
  | AccountData a i n => map byte_of_Z [4; a; i; n]
  end.
(** [Seed::pack_into_address_config]: at most 32 bytes, filled with zeros. *)
Definition pack_config (l : list seed) : option bytes :=
  let b := List.concat (map pack_seed l) in
  if (List.length b <=? 32)%nat then Some (b ++ repeat x00 (32 - List.length b)) else None.
(** [Seed::unpack_address_config]: until the bytes are used up or a zero tag. *)
Fixpoint unpack_seeds (fuel : nat) (b : bytes) : option (list seed) :=
  match fuel, b with
  | O, _ | _, [] => Some []
  | S k, t :: r =>
      let z := Z_of_byte t in
      if z =? 0 then Some []
      else if z =? 1 then
        match r with
        | n :: r =>
            let n := Z.to_nat (Z_of_byte n) in
            if (n <=? List.length r)%nat then option_map (cons (Literal (firstn n r))) (unpack_seeds k (skipn n r)) else None
        | _ => None
        end
      else if z =? 2 then
        match r with i :: n :: r => option_map (cons (InstructionData (Z_of_byte i) (Z_of_byte n))) (unpack_seeds k r) | _ => None end
      else if z =? 3 then
        match r with i :: r => option_map (cons (AccountKey (Z_of_byte i))) (unpack_seeds k r) | _ => None end
      else if z =? 4 then
        match r with a :: i :: n :: r => option_map (cons (AccountData (Z_of_byte a) (Z_of_byte i) (Z_of_byte n))) (unpack_seeds k r) | _ => None end
      else None
  end.
Definition unpack_config (b : bytes) : option (list seed) := unpack_seeds 32 b.

(** ** Entries of the list (account.rs [ExtraAccountMeta], 35 bytes): kind 0 a fixed key, 1 an address derived from seeds for the hook
    program, 128 + i one derived for the program that is account i. *)
Record extra := Extra { ex_kind : Z; ex_config : bytes; ex_signer : bool; ex_writable : bool }.
Definition bool_byte (b : bool) : byte := if b then x01 else x00.
Definition extra_bytes (e : extra) : bytes := byte_of_Z (ex_kind e) :: ex_config e ++ [bool_byte (ex_signer e); bool_byte (ex_writable e)].
(** [ExtraAccountMeta::new_with_seeds] *)
Definition with_seeds (l : list seed) (signer writable : bool) : option extra :=
  option_map (fun b => Extra 1 b signer writable) (pack_config l).
(** [PodBool]: any non-zero byte is true. *)
Definition pod_bool : reader bool := do b <- be_u8; rret (negb (b =? 0)).
Definition read_extra : reader extra := do k <- be_u8; do c <- take 32; do s <- pod_bool; do w <- pod_bool; rret (Extra k c s w).
Fixpoint read_extras (n : nat) (b : bytes) : option (list extra) :=
  match n with O => Some [] | S k => let! (e, r) := read_extra b in option_map (cons e) (read_extras k r) end.

(** The list's account (state.rs [ExtraAccountMetaList::init], [size_of]): tag, length, number of entries, entries. *)
Definition list_bytes (l : list extra) : bytes :=
  let b := le_enc 4 (Z.of_nat (List.length l)) ++ List.concat (map extra_bytes l) in
  EXECUTE_TAG ++ le_enc 4 (Z.of_nat (List.length b)) ++ b.
Definition list_size (n : nat) : nat := 12 + (4 + 35 * n).

(** Reading it: the entries of the type-length-value data ([TlvStateBorrowed::unpack]), of them the first with the tag
    ([get_first_bytes]), in it a [PodSlice], whose room is a whole number of entries. *)
Fixpoint tlv (fuel : nat) (b : bytes) : option (list (bytes * bytes)) :=
  match fuel with
  | O => Some []
  | S k =>
      if (List.length b <? 8)%nat then (if forallb (Byte.eqb x00) b then Some [] else None)
      else if bytes_eqb (firstn 8 b) (repeat x00 8) then Some []
      else
        let! (n, r) := le_u 4 (skipn 8 b) in
        let! (v, r) := take (Z.to_nat n) r in
        option_map (cons (firstn 8 b, v)) (tlv k r)
  end.
Definition read_list (b : bytes) : option (list extra) :=
  let! l := tlv (S (List.length b)) b in
  let! (_, v) := find (fun e => bytes_eqb (fst e) EXECUTE_TAG) l in
  let! (n, r) := le_u 4 v in
  if (List.length r mod 35 =? 0)%nat && (Z.to_nat n <=? List.length r / 35)%nat then read_extras (Z.to_nat n) r else None.

(** ** Resolution *)
Definition piece (start len : Z) (b : bytes) : option bytes :=
  if start + len <=? Z.of_nat (List.length b) then Some (firstn (Z.to_nat len) (skipn (Z.to_nat start) b)) else None.
Fixpoint all_some {A} (l : list (option A)) : option (list A) :=
  match l with [] => Some [] | x :: l => let! x := x in option_map (cons x) (all_some l) end.

Section Resolve.
(** [Pubkey::find_program_address]: seeds, program; Derive.v has it in full. *)
Context (pda : list bytes -> bytes -> option bytes).

(** [resolve_pda]'s loop *)
Definition seed_value (ix : bytes) (accts : list info) (s : seed) : option bytes :=
  match s with
  | Literal b => Some b
  | InstructionData i n => piece i n ix
  | AccountKey i => option_map ai_key (nth_error accts (Z.to_nat i))
  | AccountData a i n => let! x := nth_error accts (Z.to_nat a) in piece i n (ai_data x)
  end.
(** [ExtraAccountMeta::resolve] *)
Definition resolve (ix prog : bytes) (accts : list info) (e : extra) : option ameta :=
  if ex_kind e =? 0 then Some (AMeta (ex_config e) (ex_signer e) (ex_writable e))
  else
    let! p := if ex_kind e =? 1 then Some prog
              else if 128 <=? ex_kind e then option_map ai_key (nth_error accts (Z.to_nat (ex_kind e - 128))) else None in
    let! l := unpack_config (ex_config e) in
    let! v := all_some (map (seed_value ix accts) l) in
    let! k := pda v p in
    Some (AMeta k (ex_signer e) (ex_writable e)).
(** [de_escalate_account_meta]: an account that is already part of the instruction keeps at most the privileges it has there. *)
Definition de_escalate (m : ameta) (l : list ameta) : ameta :=
  match filter (fun x => bytes_eqb (am_key x) (am_key m)) l with
  | [] => m
  | same => AMeta (am_key m) (am_signer m && existsb am_signer same) (am_writable m && existsb am_writable same)
  end.
(** [ExtraAccountMetaList::add_to_cpi_instruction]'s loop *)
Fixpoint add_extra (ix prog : bytes) (avail : list info) (l : list extra) (x : list ameta * list info) : option (list ameta * list info) :=
  match l with
  | [] => Some x
  | e :: l =>
      let! m := resolve ix prog (snd x) e in
      let m := de_escalate m (fst x) in
      let! i := find_key (am_key m) avail in
      add_extra ix prog avail l (fst x ++ [m], snd x ++ [i])
  end.

(** spl-transfer-hook-interface lib.rs [get_extra_account_metas_address], instruction.rs [execute]'s data *)
Definition list_key (prog mint : bytes) : option bytes := pda [str "extra-account-metas"; mint] prog.
Definition execute_data (amount : Z) : bytes := EXECUTE_TAG ++ le_enc 8 amount.

(** The instruction for the hook (onchain.rs [invoke_execute], and the same inside [add_extra_accounts_for_execute_cpi]): four accounts,
    none with a privilege; then, if it was given, the list and what it asks for. *)
Definition execute (prog : bytes) (amount : Z) (src mint dst auth : info) (avail : list info) : option (list ameta * list info) :=
  let! k := list_key prog (ai_key mint) in
  let four := [src; mint; dst; auth] in
  match find_key k avail with
  | None => Some (map readonly four, four)
  | Some v =>
      let! l := read_list (ai_data v) in
      add_extra (execute_data amount) prog avail l (map readonly (four ++ [v]), four ++ [v])
  end.

(** What the manager passes to Token-2022 (spl-token-2022 onchain.rs [invoke_transfer_checked]): source, mint, destination, authority;
    the signers among the remaining accounts; the hook's extra accounts, list and program (onchain.rs
    [add_extra_accounts_for_execute_cpi]). *)
Definition forward (prog : bytes) (amount : Z) (src mint dst auth : info) (rest : list info) : option (list ameta * list info) :=
  let signers := filter ai_signer rest in
  let metas := [AMeta (ai_key src) false true; readonly mint; AMeta (ai_key dst) false true; AMeta (ai_key auth) true false]
               ++ map (fun i => AMeta (ai_key i) true false) signers in
  let infos := [src; mint; dst; auth] ++ signers in
  let! k := list_key prog (ai_key mint) in
  let! p := find_key prog rest in
  match find_key k rest with
  | None => Some (metas ++ [AMeta prog false false], infos ++ [p])
  | Some v =>
      let! (m, i) := execute prog amount src mint dst auth rest in
      Some (metas ++ skipn 5 m ++ [readonly v; AMeta prog false false], infos ++ skipn 5 i ++ [v; p])
  end.

(** The runtime: the invoked program is among the caller's accounts, every account is passed, and no privilege is claimed that the caller
    lacks ([signed]: the addresses it signs for with their seeds). The callee sees an account named twice with the privileges of both. *)
Definition allowed (caller : list info) (signed : list bytes) (m : ameta) : bool :=
  match find_key (am_key m) caller with
  | None => false
  | Some i => implb (am_signer m) (ai_signer i || existsb (bytes_eqb (am_key m)) signed) && implb (am_writable m) (ai_writable i)
  end.
Definition seen (metas : list ameta) (i : info) : info :=
  let same := filter (fun m => bytes_eqb (am_key m) (ai_key i)) metas in
  Info (ai_key i) (ai_owner i) (ai_data i) (existsb am_signer same) (existsb am_writable same).
Definition invoke (prog : bytes) (caller : list info) (signed : list bytes) (x : list ameta * list info) : option (list info) :=
  if existsb (fun i => bytes_eqb (ai_key i) prog) caller && forallb (allowed caller signed) (fst x)
  then all_some (map (fun m => option_map (seen (fst x)) (find_key (am_key m) (snd x))) (fst x))
  else None.

(** ** The example hook, programs/dummy-transfer-hook/src/lib.rs *)

(** lib.rs:29-69, initialize_extra_account_meta_list *)
Definition dummy_extras : option (list extra) :=
  all_some [with_seeds [Literal (str "dummy_account"); AccountData 0 32 32] false false;
            with_seeds [Literal (str "counter")] false true].

(** anchor-spl's [TokenAccount] and [Mint]: unpacked by Token-2022's [StateWithExtensions]. *)
Definition byte_at (n : nat) (b : bytes) : Z := Z_of_byte (nth n b x00).
Definition read_token (b : bytes) : option (bytes * bytes) :=
  if (165 <=? List.length b)%nat && ((byte_at 108 b =? 1) || (byte_at 108 b =? 2)) then Some (firstn 32 b, firstn 32 (skipn 32 b)) else None.
Definition read_mint (b : bytes) : bool := (82 <=? List.length b)%nat && (byte_at 45 b =? 1).
Definition COUNTER_TAG : bytes := firstn 8 (sha256 (str "account:Counter")).

Definition oneof (b : bytes) (l : list bytes) : bool := existsb (bytes_eqb b) l.
Definition okeyb (o : option bytes) (b : bytes) : bool := match o with Some x => bytes_eqb x b | None => false end.
(** lib.rs:70-73, 134-176: the seven accounts, checked by Anchor; the counter's new bytes. [tokens]: the two token programs. *)
Definition transfer_hook (tokens : list bytes) (prog : bytes) (l : list info) : option bytes :=
  match l with
  | src :: mint :: dst :: auth :: lst :: dmy :: ctr :: _ =>
      let! (sm, so) := if oneof (ai_owner src) tokens then read_token (ai_data src) else None in
      let! (dm, _) := if oneof (ai_owner dst) tokens then read_token (ai_data dst) else None in
      if oneof (ai_owner mint) tokens && read_mint (ai_data mint) && bytes_eqb sm (ai_key mint) && bytes_eqb dm (ai_key mint)
         && okeyb (pda [str "extra-account-metas"; ai_key mint] prog) (ai_key lst)
         && okeyb (pda [str "dummy_account"; so] prog) (ai_key dmy)
         && okeyb (pda [str "counter"] prog) (ai_key ctr)
         && bytes_eqb (ai_owner ctr) prog && bytes_eqb (firstn 8 (ai_data ctr)) COUNTER_TAG && ai_writable ctr
      then
        let! (n, r) := le_u 8 (skipn 8 (ai_data ctr)) in
        if n + 1 <=? u64_max then Some (COUNTER_TAG ++ le_enc 8 (n + 1) ++ r) else None
      else None
  | _ => None
  end.
(** The entry point: Anchor's dispatch, and [fallback] (lib.rs:78-96) for what Token-2022 sends. *)
Definition hook_entry (tokens : list bytes) (prog : bytes) (l : list info) (data : bytes) : option bytes :=
  match dispatch AHook data with Some (HTransferHook _) => transfer_hook tokens prog l | _ => None end.

(** ** A transfer by the manager of tokens of a mint with the hook: manager to Token-2022, which moves the tokens ([moved]: from key,
    owner and bytes of an account its bytes afterwards) and calls the hook with what it was given. [tp]: Token-2022's key; [caller]: the manager's other accounts. *)
Definition move (moved : bytes -> bytes -> bytes -> bytes) (i : info) : info :=
  Info (ai_key i) (ai_owner i) (moved (ai_key i) (ai_owner i) (ai_data i)) (ai_signer i) (ai_writable i).
Definition hook_accounts (prog tp : bytes) (amount : Z) (moved : bytes -> bytes -> bytes -> bytes) (signed : list bytes) (caller : list info)
    (src mint dst auth : info) (rest : list info) : option (list info) :=
  let! x := forward prog amount src mint dst auth rest in
  let! t := invoke tp (caller ++ [src; mint; dst; auth] ++ rest) signed x in
  match map (move moved) t with
  | s :: m :: d :: a :: r =>
      let! y := execute prog amount s m d a r in
      invoke prog (s :: m :: d :: a :: r) [] y
  | _ => None
  end.
Definition hooked_transfer (tokens : list bytes) (prog tp : bytes) (amount : Z) (moved : bytes -> bytes -> bytes -> bytes) (signed : list bytes)
    (caller : list info) (src mint dst auth : info) (rest : list info) : option bytes :=
  let! l := hook_accounts prog tp amount moved signed caller src mint dst auth rest in
  hook_entry tokens prog l (execute_data amount).
End Resolve.

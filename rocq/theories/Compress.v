(** * Versioned transactions with lookup tables.

    The sdk makes its transfers with [new TransactionMessage(..).compileToV0Message(luts)] (ts/sdk/ntt.ts:880-891, 1008-1019), [luts] being the program's table (C65) if there is one.
    [compile] is that function of @solana/web3.js 1.x (message/v0.ts, message/compiled-keys.ts, message/account-keys.ts; not in the repository). [None] is a thrown error.
    [load] is what the runtime (1.18) makes of a message: sanitize, load the addresses from the tables as they are then, attach privileges to the accounts of each
    instruction. [None]: the transaction is refused. [K] is the type of keys. Left out: the block hash and the signatures; that the runtime takes the writable
    privilege from reserved accounts and from programs called; the delay of one slot before new entries of a table can be used. *)
From Coq Require Import Arith.
From Verif Require Export Bytes.
Import ListNotations.

Record account (K : Type) := Account { ac_key : K; ac_signer : bool; ac_writable : bool }.
Arguments Account {K}. Arguments ac_key {K}. Arguments ac_signer {K}. Arguments ac_writable {K}.
Record cix (K : Type) := Cix { cx_program : K; cx_accounts : list (account K); cx_data : bytes }.
Arguments Cix {K}. Arguments cx_program {K}. Arguments cx_accounts {K}. Arguments cx_data {K}.

(** The message: numbers of signatures, of read-only keys among the signing and the others, the keys, the instructions by index, and the indices into tables. *)
Record lookup_ (K : Type) := Lookup { lk_table : K; lk_writable : list nat; lk_readonly : list nat }.
Arguments Lookup {K}. Arguments lk_table {K}. Arguments lk_writable {K}. Arguments lk_readonly {K}.
Record message (K : Type) := Message {
  mg_signatures : nat; mg_ro_signed : nat; mg_ro_unsigned : nat; mg_static : list K;
  mg_ixs : list (nat * list nat * bytes); mg_lookups : list (lookup_ K) }.
Arguments Message {K}. Arguments mg_signatures {K}. Arguments mg_ro_signed {K}. Arguments mg_ro_unsigned {K}. Arguments mg_static {K}. Arguments mg_ixs {K}. Arguments mg_lookups {K}.

(** compiled-keys.ts [CompiledKeyMeta]; a map in the order of insertion. *)
Record keymeta := KeyMeta { km_signer : bool; km_writable : bool; km_invoked : bool }.
Definition km_or (a b : keymeta) : keymeta :=
  KeyMeta (km_signer a || km_signer b) (km_writable a || km_writable b) (km_invoked a || km_invoked b).

Section Compress.
Context {K : Type} (eq_dec : forall a b : K, {a = b} + {a <> b}).
Definition keymap := list (K * keymeta).

Fixpoint touch (k : K) (f : keymeta) (m : keymap) : keymap :=
  match m with
  | [] => [(k, f)]
  | (k', f') :: m => if eq_dec k k' then (k', km_or f' f) :: m else (k', f') :: touch k f m
  end.
(** compiled-keys.ts [CompiledKeys.compile] *)
Definition uses (payer : K) (l : list (cix K)) : keymap :=
  (payer, KeyMeta true true false) ::
  flat_map (fun x => (cx_program x, KeyMeta false false true) :: map (fun a => (ac_key a, KeyMeta (ac_signer a) (ac_writable a) false)) (cx_accounts x)) l.
Definition collect (l : keymap) : keymap := fold_left (fun m u => touch (fst u) (snd u) m) l [].

(** [findIndex] *)
Fixpoint index_of (k : K) (l : list K) : option nat :=
  match l with [] => None | k' :: l => if eq_dec k k' then Some O else option_map S (index_of k l) end.

(** compiled-keys.ts [drainKeysFoundInLookupTable]: the indices, the keys, what is left. An index has to fit a byte. *)
Fixpoint drain (p : keymeta -> bool) (entries : list K) (m : keymap) : option (list nat * list K * keymap) :=
  match m with
  | [] => Some ([], [], [])
  | (k, f) :: m =>
    match drain p entries m with
    | Some (is, ks, rest) =>
      match (if p f then index_of k entries else None) with
      | Some i => if i <? 256 then Some (i :: is, k :: ks, rest) else None
      | None => Some (is, ks, (k, f) :: rest)
      end
    | None => None
    end
  end.
(** compiled-keys.ts [extractTableLookup], over the tables in turn (v0.ts [MessageV0.compile]) *)
Fixpoint extract (tables : list (K * list K)) (m : keymap) : option (list (lookup_ K) * list K * list K * keymap) :=
  match tables with
  | [] => Some ([], [], [], m)
  | (t, entries) :: tables =>
    match drain (fun f => negb (km_signer f) && negb (km_invoked f) && km_writable f) entries m with
    | Some (wi, wk, m1) =>
      match drain (fun f => negb (km_signer f) && negb (km_invoked f) && negb (km_writable f)) entries m1 with
      | Some (ri, rk, m2) =>
        match extract tables m2 with
        | Some (ls, ws, rs, rest) =>
          Some (match wi, ri with [], [] => ls | _, _ => Lookup t wi ri :: ls end, wk ++ ws, rk ++ rs, rest)
        | None => None
        end
      | None => None
      end
    | None => None
    end
  end.
Definition part (s w : bool) (m : keymap) : list K :=
  map fst (filter (fun e => Bool.eqb (km_signer (snd e)) s && Bool.eqb (km_writable (snd e)) w) m).

Fixpoint all_some {A} (l : list (option A)) : option (list A) :=
  match l with
  | [] => Some []
  | Some a :: l => option_map (cons a) (all_some l)
  | None :: _ => None
  end.
(** account-keys.ts [compileInstructions] *)
Definition compile_ix (keys : list K) (x : cix K) : option (nat * list nat * bytes) :=
  match index_of (cx_program x) keys, all_some (map (fun a => index_of (ac_key a) keys) (cx_accounts x)) with
  | Some p, Some l => Some (p, l, cx_data x)
  | _, _ => None
  end.
(** v0.ts [MessageV0.compile], compiled-keys.ts [getMessageComponents] *)
Definition compile (payer : K) (l : list (cix K)) (tables : list (K * list K)) : option (message K) :=
  match extract tables (collect (uses payer l)) with
  | Some (ls, ws, rs, m) =>
    if length m <=? 256 then
      match part true true m with
      | first :: _ =>
        if eq_dec first payer then
          let static := part true true m ++ part true false m ++ part false true m ++ part false false m in
          let keys := static ++ ws ++ rs in
          if length keys <=? 256 then
            match all_some (map (compile_ix keys) l) with
            | Some is => Some (Message (length (part true true m) + length (part true false m)) (length (part true false m)) (length (part false false m)) static is ls)
            | None => None
            end
          else None
        else None
      | [] => None
      end
    else None
  | None => None
  end.

(** ** The runtime *)

(** sdk/program/src/message/versions/v0/loaded.rs [load_addresses], [LoadedMessage::is_writable], [is_signer]; versions/v0/mod.rs [sanitize] *)
Definition load_table (pick : lookup_ K -> list nat) (tables : K -> option (list K)) (x : lookup_ K) : option (list K) :=
  match tables (lk_table x) with Some entries => all_some (map (nth_error entries) (pick x)) | None => None end.
Definition load_keys (g : message K) (tables : K -> option (list K)) : option (list K * nat * nat) :=
  match all_some (map (load_table lk_writable tables) (mg_lookups g)), all_some (map (load_table lk_readonly tables) (mg_lookups g)) with
  | Some ws, Some rs => Some (mg_static g ++ concat ws ++ concat rs, length (mg_static g), length (concat ws))
  | _, _ => None
  end.
Fixpoint distinct (l : list K) : bool :=
  match l with [] => true | k :: l => negb (existsb (fun k' => if eq_dec k k' then true else false) l) && distinct l end.
Definition load_account (g : message K) (keys : list K) (n w i : nat) : option (account K) :=
  match nth_error keys i with
  | Some k => Some (Account k (i <? mg_signatures g)
                (if i <? mg_signatures g then i <? mg_signatures g - mg_ro_signed g else if i <? n then i <? n - mg_ro_unsigned g else i <? n + w))
  | None => None
  end.
Definition load_ix (g : message K) (keys : list K) (n w : nat) (x : nat * list nat * bytes) : option (cix K) :=
  let '(p, is, d) := x in
  if (0 <? p) && (p <? n) then
    match nth_error keys p, all_some (map (load_account g keys n w) is) with
    | Some k, Some l => Some (Cix k l d)
    | _, _ => None
    end
  else None.
(** The payer of the fee and the instructions. *)
Definition load (g : message K) (tables : K -> option (list K)) : option (K * list (cix K)) :=
  if (mg_ro_signed g <? mg_signatures g) && (mg_signatures g + mg_ro_unsigned g <=? length (mg_static g)) &&
     forallb (fun x => negb (match lk_writable x, lk_readonly x with [], [] => true | _, _ => false end)) (mg_lookups g) then
    match load_keys g tables with
    | Some (keys, n, w) =>
      if (length keys <=? 256) && distinct keys then
        match nth_error keys 0, all_some (map (load_ix g keys n w) (mg_ixs g)) with
        | Some payer, Some l => Some (payer, l)
        | _, _ => None
        end
      else None
    | None => None
    end
  else None.

(** ** What it should be: privileges anywhere in the transaction count everywhere. *)
Definition privileged (payer : K) (l : list (cix K)) (f : account K -> bool) (k : K) : bool :=
  (if eq_dec k payer then true else false) || existsb (fun x => existsb (fun a => (if eq_dec k (ac_key a) then true else false) && f a) (cx_accounts x)) l.
Definition merged (payer : K) (l : list (cix K)) (x : cix K) : cix K :=
  Cix (cx_program x) (map (fun a => Account (ac_key a) (privileged payer l ac_signer (ac_key a)) (privileged payer l ac_writable (ac_key a))) (cx_accounts x)) (cx_data x).
(** All keys of a transaction. *)
Definition keys_of (payer : K) (l : list (cix K)) : list K := payer :: flat_map (fun x => cx_program x :: map ac_key (cx_accounts x)) l.

Definition invoked (l : list (cix K)) (k : K) : Prop := exists x, In x l /\ cx_program x = k.
(** Tables that were known then have at most been extended. *)
Definition grown (tables : list (K * list K)) (now : K -> option (list K)) : Prop := forall t en, In (t, en) tables -> exists more, now t = Some (en ++ more).

(** Bytes of a message on the wire, with signatures (v0.ts [serialize]); lengths are written in 7 bits per byte. *)
Definition shortvec (n : nat) : nat := if n <? 128 then 1 else if n / 128 <? 128 then 2 else 3.
Definition wire_size (g : message K) : nat :=
  shortvec (mg_signatures g) + 64 * mg_signatures g + 1 + 3 + shortvec (length (mg_static g)) + 32 * length (mg_static g) + 32 +
  shortvec (length (mg_ixs g)) + list_sum (map (fun x => 1 + shortvec (length (snd (fst x))) + length (snd (fst x)) + shortvec (length (snd x)) + length (snd x)) (mg_ixs g)) +
  shortvec (length (mg_lookups g)) +
  list_sum (map (fun x => 32 + shortvec (length (lk_writable x)) + length (lk_writable x) + shortvec (length (lk_readonly x)) + length (lk_readonly x)) (mg_lookups g)).
End Compress.

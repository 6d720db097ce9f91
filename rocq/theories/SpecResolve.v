(** * The extra accounts of a transfer hook (C90): what the list looks like and who has to supply what. *)
From Coq Require Import String.
From Verif Require Export Resolve.
Import ListNotations.
Local Open Scope Z_scope.

(** ** The example hook's list, as numbers: tag, 74 bytes follow, two entries of 35 bytes. *)
Definition published_list : list Z :=
  [105; 37; 101; 197; 75; 251; 102; 26] ++ [74; 0; 0; 0] ++ [2; 0; 0; 0] ++
  ([1] ++ [1; 13; 100; 117; 109; 109; 121; 95; 97; 99; 99; 111; 117; 110; 116] ++ [4; 0; 32; 32] ++ repeat 0 13 ++ [0; 0]) ++
  ([1] ++ [1; 7; 99; 111; 117; 110; 116; 101; 114] ++ repeat 0 23 ++ [0; 1]).

(** Seeds and entries that can be written down. *)
Definition u8 (z : Z) : Prop := 0 <= z < 256.
Definition writable_seed (s : seed) : Prop :=
  match s with Literal _ => True | InstructionData i n => u8 i /\ u8 n | AccountKey i => u8 i | AccountData a i n => u8 a /\ u8 i /\ u8 n end.
Definition writable_extra (e : extra) : Prop := u8 (ex_kind e) /\ List.length (ex_config e) = 32%nat.

(** ** The accounts of an instruction: one key, one account. *)
Definition coherent (l : list info) : Prop := forall i j, In i l -> In j l -> ai_key i = ai_key j -> i = j.

(** What moving tokens does to bytes: only Token-2022's accounts change, not in length, and neither mint, owner nor state of a token account
    (bytes 0 to 63 and 108), nor whether a mint is initialised (45). *)
Definition settled (tp : bytes) (moved : bytes -> bytes -> bytes -> bytes) : Prop :=
  forall k o d, (o <> tp -> moved k o d = d) /\ List.length (moved k o d) = List.length d /\
    forall n, (n < 64)%nat \/ n = 108%nat -> nth n (moved k o d) x00 = nth n d x00.
(** Seeds taken from account data are not among the bytes that change. *)
Definition steady (moved : bytes -> bytes -> bytes -> bytes) (l : list extra) : Prop :=
  forall e seeds a i n, In e l -> unpack_config (ex_config e) = Some seeds -> In (AccountData a i n) seeds ->
    forall k o d, piece i n (moved k o d) = piece i n d.

(** ** The example hook's transfer: what it takes. *)
Section Needs.
Context (pda : list bytes -> bytes -> option bytes) (tokens : list bytes) (prog : bytes).
(** A token account of mint [m] and owner [o], an account of a mint. *)
Definition is_token (i : info) (m o : bytes) : Prop :=
  In (ai_owner i) tokens /\ (165 <= List.length (ai_data i))%nat /\ (nth 108 (ai_data i) x00 = x01 \/ nth 108 (ai_data i) x00 = x02) /\
  firstn 32 (ai_data i) = m /\ firstn 32 (skipn 32 (ai_data i)) = o.
Definition is_mint (i : info) : Prop := In (ai_owner i) tokens /\ (82 <= List.length (ai_data i))%nat /\ nth 45 (ai_data i) x00 = x01.
(** The four accounts that have to be among the remaining ones: the hook program, its list for the mint, the dummy account of the source's
    owner, and, writable and apart from the others, the counter. [n]: its count. *)
Record supplied (src mint dst auth : info) (owner : bytes) (rest : list info) (n : Z) (tail : bytes) : Prop := Supplied {
  su_prog : exists p, In p rest /\ ai_key p = prog;
  su_list : exists v, In v rest /\ pda [str "extra-account-metas"; ai_key mint] prog = Some (ai_key v);
  su_dummy : exists d, In d rest /\ pda [str "dummy_account"; owner] prog = Some (ai_key d);
  su_counter : exists c, In c rest /\ pda [str "counter"] prog = Some (ai_key c) /\ ai_writable c = true /\ ai_owner c = prog /\
    ai_data c = COUNTER_TAG ++ le_enc 8 n ++ tail /\ 0 <= n <= u64_max;
  su_apart : forall c, pda [str "counter"] prog = Some c -> ~ In c (map ai_key [src; mint; dst; auth]) /\
    pda [str "extra-account-metas"; ai_key mint] prog <> Some c /\ pda [str "dummy_account"; owner] prog <> Some c }.
End Needs.

(** The manager may make the call at all: Token-2022 is among its accounts, both token accounts are writable, the authority signs. *)
Record may_call (tp : bytes) (signed : list bytes) (all : list info) (src dst auth : info) : Prop := MayCall {
  mc_program : In tp (map ai_key all);
  mc_source : ai_writable src = true;
  mc_dest : ai_writable dst = true;
  mc_authority : ai_signer auth = true \/ In (ai_key auth) signed }.

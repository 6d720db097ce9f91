(** * SHA-256 (FIPS 180-4), needed only for Anchor's account discriminators:
    [sha256("account:" ++ name)[..8]] (anchor-lang 0.29, [#[account]] macro). Not part of the repository; checked
    against published vectors below. *)
From Coq Require Import Ascii String.
From Verif Require Import Bytes.
Local Open Scope Z_scope.

Definition w32 (z : Z) : Z := z mod 4294967296.
Definition rotr (n x : Z) : Z := Z.lor (Z.shiftr x n) (w32 (Z.shiftl x (32 - n))).
Definition not32 (x : Z) : Z := 4294967295 - x.
Definition xor3 (a b c : Z) : Z := Z.lxor a (Z.lxor b c).

Definition K256 : list Z :=
 [0x428a2f98;0x71374491;0xb5c0fbcf;0xe9b5dba5;0x3956c25b;0x59f111f1;0x923f82a4;0xab1c5ed5;
  0xd807aa98;0x12835b01;0x243185be;0x550c7dc3;0x72be5d74;0x80deb1fe;0x9bdc06a7;0xc19bf174;
  0xe49b69c1;0xefbe4786;0x0fc19dc6;0x240ca1cc;0x2de92c6f;0x4a7484aa;0x5cb0a9dc;0x76f988da;
  0x983e5152;0xa831c66d;0xb00327c8;0xbf597fc7;0xc6e00bf3;0xd5a79147;0x06ca6351;0x14292967;
  0x27b70a85;0x2e1b2138;0x4d2c6dfc;0x53380d13;0x650a7354;0x766a0abb;0x81c2c92e;0x92722c85;
  0xa2bfe8a1;0xa81a664b;0xc24b8b70;0xc76c51a3;0xd192e819;0xd6990624;0xf40e3585;0x106aa070;
  0x19a4c116;0x1e376c08;0x2748774c;0x34b0bcb5;0x391c0cb3;0x4ed8aa4a;0x5b9cca4f;0x682e6ff3;
  0x748f82ee;0x78a5636f;0x84c87814;0x8cc70208;0x90befffa;0xa4506ceb;0xbef9a3f7;0xc67178f2].

Definition H256 : list Z :=
 [0x6a09e667;0xbb67ae85;0x3c6ef372;0xa54ff53a;0x510e527f;0x9b05688c;0x1f83d9ab;0x5be0cd19].

(** Message schedule, kept newest first. *)
Definition next_w (ws : list Z) : Z :=
  let w i := nth i ws 0 in
  let s0 := xor3 (rotr 7 (w 14%nat)) (rotr 18 (w 14%nat)) (Z.shiftr (w 14%nat) 3) in
  let s1 := xor3 (rotr 17 (w 1%nat)) (rotr 19 (w 1%nat)) (Z.shiftr (w 1%nat) 10) in
  w32 (w 15%nat + s0 + w 6%nat + s1).
Fixpoint extend (n : nat) (ws : list Z) : list Z :=
  match n with O => ws | S k => extend k (next_w ws :: ws) end.

Definition round256 (st : list Z) (kw : Z * Z) : list Z :=
  match st with
  | [a; b; c; d; e; f; g; h] =>
      let s1 := xor3 (rotr 6 e) (rotr 11 e) (rotr 25 e) in
      let ch := Z.lxor (Z.land e f) (Z.land (not32 e) g) in
      let t1 := h + s1 + ch + fst kw + snd kw in
      let s0 := xor3 (rotr 2 a) (rotr 13 a) (rotr 22 a) in
      let maj := xor3 (Z.land a b) (Z.land a c) (Z.land b c) in
      [w32 (t1 + s0 + maj); a; b; c; w32 (d + t1); e; f; g]
  | _ => st
  end.

Fixpoint words (l : bytes) : list Z :=
  match l with
  | a :: b :: c :: d :: r => be_dec [a; b; c; d] :: words r
  | _ => []
  end.

Definition block256 (st : list Z) (blk : bytes) : list Z :=
  let ws := rev (extend 48 (rev (words blk))) in
  map (fun p => w32 (fst p + snd p)) (combine st (fold_left round256 (combine K256 ws) st)).

Fixpoint blocks (n : nat) (l : bytes) : list bytes :=
  match n with O => [] | S k => firstn 64 l :: blocks k (skipn 64 l) end.

Definition sha256 (m : bytes) : bytes :=
  let len := length m in
  let pad := ((119 - len mod 64) mod 64)%nat in
  let p := m ++ x80 :: repeat x00 pad ++ be_enc 8 (8 * Z.of_nat len) in
  concat (map (be_enc 4) (fold_left block256 (blocks (length p / 64) p) H256)).

Fixpoint str (s : string) : bytes :=
  match s with EmptyString => [] | String a r => byte_of_ascii a :: str r end.
Arguments str s%string.

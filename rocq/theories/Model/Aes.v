(** AES-128 encryption: tls/src/crypto/aes/cipher.rs.  Arrays of bytes are lists; [[u8; 16]] has 16 elements. *)
From Verif Require Import Model.Prelude.

(** 49-67. *)
Definition SBOX : list Z :=
  [0x63; 0x7c; 0x77; 0x7b; 0xf2; 0x6b; 0x6f; 0xc5; 0x30; 0x01; 0x67; 0x2b; 0xfe; 0xd7; 0xab; 0x76;
   0xca; 0x82; 0xc9; 0x7d; 0xfa; 0x59; 0x47; 0xf0; 0xad; 0xd4; 0xa2; 0xaf; 0x9c; 0xa4; 0x72; 0xc0;
   0xb7; 0xfd; 0x93; 0x26; 0x36; 0x3f; 0xf7; 0xcc; 0x34; 0xa5; 0xe5; 0xf1; 0x71; 0xd8; 0x31; 0x15;
   0x04; 0xc7; 0x23; 0xc3; 0x18; 0x96; 0x05; 0x9a; 0x07; 0x12; 0x80; 0xe2; 0xeb; 0x27; 0xb2; 0x75;
   0x09; 0x83; 0x2c; 0x1a; 0x1b; 0x6e; 0x5a; 0xa0; 0x52; 0x3b; 0xd6; 0xb3; 0x29; 0xe3; 0x2f; 0x84;
   0x53; 0xd1; 0x00; 0xed; 0x20; 0xfc; 0xb1; 0x5b; 0x6a; 0xcb; 0xbe; 0x39; 0x4a; 0x4c; 0x58; 0xcf;
   0xd0; 0xef; 0xaa; 0xfb; 0x43; 0x4d; 0x33; 0x85; 0x45; 0xf9; 0x02; 0x7f; 0x50; 0x3c; 0x9f; 0xa8;
   0x51; 0xa3; 0x40; 0x8f; 0x92; 0x9d; 0x38; 0xf5; 0xbc; 0xb6; 0xda; 0x21; 0x10; 0xff; 0xf3; 0xd2;
   0xcd; 0x0c; 0x13; 0xec; 0x5f; 0x97; 0x44; 0x17; 0xc4; 0xa7; 0x7e; 0x3d; 0x64; 0x5d; 0x19; 0x73;
   0x60; 0x81; 0x4f; 0xdc; 0x22; 0x2a; 0x90; 0x88; 0x46; 0xee; 0xb8; 0x14; 0xde; 0x5e; 0x0b; 0xdb;
   0xe0; 0x32; 0x3a; 0x0a; 0x49; 0x06; 0x24; 0x5c; 0xc2; 0xd3; 0xac; 0x62; 0x91; 0x95; 0xe4; 0x79;
   0xe7; 0xc8; 0x37; 0x6d; 0x8d; 0xd5; 0x4e; 0xa9; 0x6c; 0x56; 0xf4; 0xea; 0x65; 0x7a; 0xae; 0x08;
   0xba; 0x78; 0x25; 0x2e; 0x1c; 0xa6; 0xb4; 0xc6; 0xe8; 0xdd; 0x74; 0x1f; 0x4b; 0xbd; 0x8b; 0x8a;
   0x70; 0x3e; 0xb5; 0x66; 0x48; 0x03; 0xf6; 0x0e; 0x61; 0x35; 0x57; 0xb9; 0x86; 0xc1; 0x1d; 0x9e;
   0xe1; 0xf8; 0x98; 0x11; 0x69; 0xd9; 0x8e; 0x94; 0x9b; 0x1e; 0x87; 0xe9; 0xce; 0x55; 0x28; 0xdf;
   0x8c; 0xa1; 0x89; 0x0d; 0xbf; 0xe6; 0x42; 0x68; 0x41; 0x99; 0x2d; 0x0f; 0xb0; 0x54; 0xbb; 0x16].
(** 71-73. *)
Definition RCON : list Z := [0x8d; 0x01; 0x02; 0x04; 0x08; 0x10; 0x20; 0x40; 0x80; 0x1b; 0x36].
(** 75-77. *)
Definition NB : nat := 4.
Definition NK : nat := 4.
Definition NR : nat := 10.

(** [a[i] = v] for [i] within the array. *)
Fixpoint set (l : list Z) (i : nat) (v : Z) : list Z :=
  match l, i with
  | [], _ => []
  | _ :: r, O => v :: r
  | x :: r, S i => x :: set r i v
  end.
Definition sbox (b : Z) : Z := at_ SBOX (Z.to_nat b).

(** 79-83. *)
Definition sub_bytes (block : list Z) : list Z := map sbox block.
(** 86-110. *)
Definition shift_rows (block : list Z) : list Z :=
  let temp := at_ block 1 in
  let block := set block 1 (at_ block 5) in
  let block := set block 5 (at_ block 9) in
  let block := set block 9 (at_ block 13) in
  let block := set block 13 temp in
  let temp := at_ block 2 in
  let block := set block 2 (at_ block 10) in
  let block := set block 10 temp in
  let temp := at_ block 6 in
  let block := set block 6 (at_ block 14) in
  let block := set block 14 temp in
  let temp := at_ block 3 in
  let block := set block 3 (at_ block 15) in
  let block := set block 15 (at_ block 11) in
  let block := set block 11 (at_ block 7) in
  set block 7 temp.
(** 112-114. *)
Definition xtime (x : Z) : Z := Z.lxor (u8 (Z.shiftl x 1)) (Z.land (Z.shiftr x 7) 1 * 0x1b).
(** 119-133: one iteration. *)
Definition mix_column (block : list Z) (i : nat) : list Z :=
  let t := at_ block (i * 4 + 0) in
  let tmp := Z.lxor (Z.lxor (Z.lxor (at_ block (i * 4 + 0)) (at_ block (i * 4 + 1))) (at_ block (i * 4 + 2))) (at_ block (i * 4 + 3)) in
  let tm := xtime (Z.lxor (at_ block (i * 4 + 0)) (at_ block (i * 4 + 1))) in
  let block := set block (i * 4 + 0) (Z.lxor (at_ block (i * 4 + 0)) (Z.lxor tm tmp)) in
  let tm := xtime (Z.lxor (at_ block (i * 4 + 1)) (at_ block (i * 4 + 2))) in
  let block := set block (i * 4 + 1) (Z.lxor (at_ block (i * 4 + 1)) (Z.lxor tm tmp)) in
  let tm := xtime (Z.lxor (at_ block (i * 4 + 2)) (at_ block (i * 4 + 3))) in
  let block := set block (i * 4 + 2) (Z.lxor (at_ block (i * 4 + 2)) (Z.lxor tm tmp)) in
  let tm := xtime (Z.lxor (at_ block (i * 4 + 3)) t) in
  set block (i * 4 + 3) (Z.lxor (at_ block (i * 4 + 3)) (Z.lxor tm tmp)).
(** 117-134. *)
Definition mix_columns (block : list Z) : list Z := fold_left mix_column (seq 0 4) block.

(** 146-186: one iteration; the block of 152-156 reads the previous word. *)
Definition expand_word (round_key : list Z) (i : nat) : list Z :=
  let k := ((i - 1) * 4)%nat in
  let tempa := firstn 4 (skipn k round_key) in
  let tempa :=
    if (i mod NK =? 0)%nat then
      let u8tmp := at_ tempa 0 in
      let tempa := set tempa 0 (at_ tempa 1) in
      let tempa := set tempa 1 (at_ tempa 2) in
      let tempa := set tempa 2 (at_ tempa 3) in
      let tempa := set tempa 3 u8tmp in
      let tempa := set tempa 0 (sbox (at_ tempa 0)) in
      let tempa := set tempa 1 (sbox (at_ tempa 1)) in
      let tempa := set tempa 2 (sbox (at_ tempa 2)) in
      let tempa := set tempa 3 (sbox (at_ tempa 3)) in
      set tempa 0 (Z.lxor (at_ tempa 0) (at_ RCON (i / NK)))
    else tempa in
  let j := (i * 4)%nat in
  let k := ((i - NK) * 4)%nat in
  let round_key := set round_key (j + 0) (Z.lxor (at_ round_key (k + 0)) (at_ tempa 0)) in
  let round_key := set round_key (j + 1) (Z.lxor (at_ round_key (k + 1)) (at_ tempa 1)) in
  let round_key := set round_key (j + 2) (Z.lxor (at_ round_key (k + 2)) (at_ tempa 2)) in
  set round_key (j + 3) (Z.lxor (at_ round_key (k + 3)) (at_ tempa 3)).
(** 137-189. *)
Definition key_expansion (key : list Z) : list Z :=
  let round_key := key ++ skipn 16 (zeros 176) in
  fold_left expand_word (seq NK (NB * (NR + 1) - NK)) round_key.

(** 191-193. *)
Record Aes128 : Type := mkAes { round_key : list Z }.
(** 196-200. *)
Definition aes_new (key : list Z) : Aes128 := mkAes (key_expansion key).
(** 202-207. *)
Definition add_round_key (a : Aes128) (round : nat) (block : list Z) : list Z :=
  map (fun ib => Z.lxor (snd ib) (at_ (round_key a) (round * NB * 4 + fst ib))) (combine (seq 0 (length block)) block).
(** 216-221: one iteration of the loop, except the last, which stops at 219. *)
Definition aes_round (a : Aes128) (block : list Z) (round : nat) : list Z :=
  add_round_key a round (mix_columns (shift_rows (sub_bytes block))).
(** 209-227. *)
Definition aes_encrypt_block (a : Aes128) (block : list Z) : list Z :=
  let block := add_round_key a 0 block in
  let block := fold_left (aes_round a) (seq 1 (NR - 1)) block in
  let block := shift_rows (sub_bytes block) in
  add_round_key a NR block.

(** The record cipher: C50 - C52. *)
From Verif Require Import Model.Prelude Model.Aes Model.Ghash Model.Gcm Spec.Fips197 Spec.Gcm38D Spec.GcmCalls.
From Verif Require Proof.AesP Proof.Ghash3P Proof.GcmP.

Definition case_key : list Z := [0x2B; 0x7E; 0x15; 0x16; 0x28; 0xAE; 0xD2; 0xA6; 0xAB; 0xF7; 0x15; 0x88; 0x09; 0xCF; 0x4F; 0x3C].
Definition case_block : list Z := [0x6B; 0xC1; 0xBE; 0xE2; 0x2E; 0x40; 0x9F; 0x96; 0xE9; 0x3D; 0x7E; 0x11; 0x73; 0x93; 0x17; 0x2A].

(** C50: for every key and every block the software cipher computes the AES-128 of FIPS 197. *)
Theorem C50_aes : forall key block, length key = 16%nat -> bytes_ok key -> length block = 16%nat -> bytes_ok block ->
  aes_encrypt_block (aes_new key) block = fips_cipher key block.
Proof. exact AesP.aes_ok. Qed.
Print Assumptions C50_aes.
(** The inverse that the S-box of the specification is built on is the multiplicative inverse. *)
Theorem C50_inverse : forall b, 0 < b < 256 -> gmul b (ginv b) = 1.
Proof. exact AesP.ginv_ok. Qed.
Print Assumptions C50_inverse.
(** The vector of SP 800-38A, F.1.1. *)
Example C50_case : (length case_key = 16%nat /\ bytes_ok case_key /\ length case_block = 16%nat /\ bytes_ok case_block) /\
  fips_cipher case_key case_block =
    [0x3A; 0xD7; 0x7B; 0xB4; 0x0D; 0x7A; 0x36; 0x60; 0xA8; 0x9E; 0xCA; 0xF3; 0x24; 0x66; 0xEF; 0x97].
Proof.
  assert (length case_key = 16%nat /\ bytes_ok case_key /\ length case_block = 16%nat /\ bytes_ok case_block) as (H1 & H2 & H3 & H4).
  { repeat split; unfold case_key, case_block; repeat constructor; unfold is_u8; Lia.lia. }
  split; [now repeat split|]. rewrite <- (C50_aes case_key case_block H1 H2 H3 H4). vm_compute. reflexivity.
Qed.

(** C51: for every key and all blocks the software GHASH is the GHASH of SP 800-38D, defined with the product
    in GF(2^128). *)
Theorem C51_ghash : forall h xs, length h = 16%nat -> bytes_ok h ->
  Forall (fun x => length x = 16%nat /\ bytes_ok x) xs ->
  ghash_finalize (fold_left ghash_update xs (ghash_new h)) = GHASH h xs.
Proof. intros h xs Hl Hb Hx. exact (Ghash3P.ghash_ok h xs (conj Hl Hb) Hx). Qed.
Print Assumptions C51_ghash.
Definition case_hash_key : list Z := [0; 1; 2; 3; 4; 5; 6; 7; 8; 9; 10; 11; 12; 13; 14; 15].
Example C51_case :
  (length case_hash_key = 16%nat /\ bytes_ok case_hash_key /\
   Forall (fun x => length x = 16%nat /\ bytes_ok x) [repeat 0xAA 16; case_block]) /\
  GHASH case_hash_key [repeat 0xAA 16] = [18; 48; 252; 174; 251; 246; 95; 88; 95; 237; 187; 67; 188; 27; 24; 181] /\
  GHASH case_hash_key [repeat 0xAA 16; case_block] = ghash_finalize (ghash_update (ghash_update (ghash_new case_hash_key) (repeat 0xAA 16)) case_block).
Proof.
  split; [|vm_compute; split; reflexivity].
  repeat split; unfold case_hash_key, case_block; repeat constructor; unfold is_u8; Lia.lia.
Qed.

(** C52: encrypting a record block by block - the last block, of 1 to 16 bytes, as the remainder - yields the
    ciphertext and the tag of the authenticated encryption of SP 800-38D, the record header being the
    additional data.  The counter allows 65534 blocks; a record has at most 1025. *)
Theorem C52_encrypt : forall key nonce header blocks last,
  length key = 16%nat -> bytes_ok key -> length nonce = 12%nat -> bytes_ok nonce -> length header = 5%nat -> bytes_ok header ->
  Forall (fun x => length x = 16%nat /\ bytes_ok x) blocks -> bytes_ok last -> (1 <= length last <= 16)%nat ->
  zlen blocks < 65534 ->
  encrypt_calls key nonce header blocks last = Some (gcm_encrypt (fips_cipher key) nonce header (concat blocks ++ last)).
Proof.
  intros key nonce header blocks last H1 H2 H3 H4 H5 H6.
  exact (GcmP.encrypt_calls_ok key nonce header H1 H2 H3 H4 H5 H6 blocks last).
Qed.
Print Assumptions C52_encrypt.
(** Decrypting yields the text that the standard assigns to the ciphertext and the tag to compare with, of
    every length. *)
Theorem C52_decrypt : forall key nonce header cipher,
  length key = 16%nat -> bytes_ok key -> length nonce = 12%nat -> bytes_ok nonce -> length header = 5%nat -> bytes_ok header ->
  bytes_ok cipher -> zlen cipher < 16 * 65534 ->
  exists g plain, decrypt_inplace (gcm_new key nonce header) cipher = Some (g, plain) /\
    forall tag, gcm_decrypt (fips_cipher key) nonce header cipher tag =
      if list_eq_dec Z.eq_dec (gcm_finish g) tag then Some plain else None.
Proof.
  intros key nonce header cipher H1 H2 H3 H4 H5 H6 H7 H8.
  exact (GcmP.decrypt_call_std key nonce header H1 H2 H3 H4 H5 H6 cipher H7 H8).
Qed.
Print Assumptions C52_decrypt.
(** And so it undoes the encryption. *)
Theorem C52_inverse : forall key nonce header blocks last c tag,
  length key = 16%nat -> bytes_ok key -> length nonce = 12%nat -> bytes_ok nonce -> length header = 5%nat -> bytes_ok header ->
  Forall (fun x => length x = 16%nat /\ bytes_ok x) blocks -> bytes_ok last -> (1 <= length last <= 16)%nat ->
  zlen blocks < 65533 -> encrypt_calls key nonce header blocks last = Some (c, tag) ->
  length c = length (concat blocks ++ last) /\
  exists g, decrypt_inplace (gcm_new key nonce header) c = Some (g, concat blocks ++ last) /\ gcm_finish g = tag.
Proof.
  intros key nonce header blocks last c tag H1 H2 H3 H4 H5 H6.
  exact (GcmP.calls_inverse key nonce header H1 H2 H3 H4 H5 H6 blocks last c tag).
Qed.
Print Assumptions C52_inverse.
Definition case_nonce : list Z := [1; 2; 3; 4; 5; 6; 7; 8; 9; 10; 11; 12].
Definition case_header : list Z := [23; 3; 3; 0; 37].
Example C52_case :
  (length case_nonce = 12%nat /\ length case_header = 5%nat /\ bytes_ok case_nonce /\ bytes_ok case_header /\ bytes_ok [7; 8; 9; 10; 23]) /\
  match encrypt_calls case_key case_nonce case_header [case_block] [7; 8; 9; 10; 23] with
  | None => False
  | Some (c, tag) => length c = 21%nat /\ length tag = 16%nat /\
      option_map snd (decrypt_inplace (gcm_new case_key case_nonce case_header) c) = Some (case_block ++ [7; 8; 9; 10; 23]) /\
      option_map (fun p => gcm_finish (fst p)) (decrypt_inplace (gcm_new case_key case_nonce case_header) c) = Some tag
  end /\
  (* the counter passes from 255 to 256 *)
  option_map (fun p => length (fst p)) (encrypt_calls case_key case_nonce case_header (repeat case_block 260) [1]) = Some 4161%nat.
Proof.
  split; [|vm_compute; repeat split; reflexivity].
  repeat split; unfold case_nonce, case_header; repeat constructor; unfold is_u8; Lia.lia.
Qed.
(** The specification on the second test case of the GCM submission: key, nonce and text zero, no additional data. *)
Example C52_vector : gcm_encrypt (aes_encrypt_block (aes_new (zeros 16))) (zeros 12) [] (zeros 16) =
  ([0x03; 0x88; 0xDA; 0xCE; 0x60; 0xB6; 0xA3; 0x92; 0xF3; 0x28; 0xC2; 0xB9; 0x71; 0xB2; 0xFE; 0x78],
   [0xAB; 0x6E; 0x47; 0xD4; 0x2C; 0xEC; 0x13; 0xBD; 0xF5; 0x3A; 0x67; 0xB2; 0x12; 0x57; 0xBD; 0xDF]).
Proof. vm_compute. reflexivity. Qed.

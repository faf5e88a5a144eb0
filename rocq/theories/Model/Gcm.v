(** AES-128-GCM: tls/src/crypto/aes/gcm.rs.  [None] is a panic.  [usize] is unbounded here: the lengths are
    those of one record. *)
From Verif Require Import Model.Prelude Model.Aes Model.Ghash.

(** 4-12. *)
Record Aes128Gcm : Type := mkGcm
  { g_cipher : Aes128; g_ghash : GHash; g_counter : list Z; g_counter0_ct : list Z; g_data_len : Z }.
(** 14. *)
Definition AAD_LEN : Z := 5.
(** [a.iter_mut().zip(b).for_each(|(a, b)| *a ^= b)] for a [b] that is not shorter. *)
Definition xor_with (a b : list Z) : list Z := map (fun p => Z.lxor (fst p) (snd p)) (combine a b).
(** [let mut p = [0; 16]; p[..l.len()].copy_from_slice(l)] for an [l] that is not longer. *)
Definition padded (l : list Z) : list Z := l ++ zeros (16 - length l).
(** 17-48. *)
Definition gcm_new (key nonce aad : list Z) : Aes128Gcm :=
  let cipher := aes_new key in
  let hash_key := aes_encrypt_block cipher (zeros 16) in
  let ghash := ghash_update (ghash_new hash_key) (padded aad) in
  let counter := nonce ++ [0; 0; 0; 1] in
  mkGcm cipher ghash counter (aes_encrypt_block cipher counter) 0.
(** 50-57. *)
Definition increment_counter (g : Aes128Gcm) : option Aes128Gcm :=
  let counter := set (g_counter g) 15 (u8 (at_ (g_counter g) 15 + 1)) in
  let with_counter c := mkGcm (g_cipher g) (g_ghash g) c (g_counter0_ct g) (g_data_len g) in
  if at_ counter 15 =? 0 then
    if at_ counter 14 =? 255 then None else Some (with_counter (set counter 14 (at_ counter 14 + 1)))
  else Some (with_counter counter).
(** 59-66 and 68-73: the same code twice. *)
Definition crypt_block_inner (g : Aes128Gcm) (block : list Z) : option (Aes128Gcm * list Z) :=
  match increment_counter g with
  | None => None
  | Some g => Some (g, xor_with block (aes_encrypt_block (g_cipher g) (g_counter g)))
  end.
Definition gcm_update (g : Aes128Gcm) (x : list Z) (len : Z) : Aes128Gcm :=
  mkGcm (g_cipher g) (ghash_update (g_ghash g) x) (g_counter g) (g_counter0_ct g) (g_data_len g + len).
(** 75-79. *)
Definition encrypt_block_inplace (g : Aes128Gcm) (block : list Z) : option (Aes128Gcm * list Z) :=
  match crypt_block_inner g block with
  | None => None
  | Some (g, block) => Some (gcm_update g block 16, block)
  end.
(** 81-89; the slice at 85 panics where the debug assertion does. *)
Definition encrypt_remainder_inplace (g : Aes128Gcm) (padded_block : list Z) (len : Z) : option (Aes128Gcm * list Z) :=
  if 16 <? len then None else
  match crypt_block_inner g padded_block with
  | None => None
  | Some (g, block) =>
      let block := ztake len block ++ zeros (16 - Z.to_nat len) in
      Some (gcm_update g block len, block)
  end.
(** 94-98. *)
Fixpoint decrypt_chunks (n : nat) (g : Aes128Gcm) (data : list Z) : option (Aes128Gcm * list Z) :=
  match n with
  | O => Some (g, [])
  | S n =>
      let chunk := firstn 16 data in
      match crypt_block_inner (gcm_update g chunk 0) chunk with
      | None => None
      | Some (g, pt) =>
          match decrypt_chunks n g (skipn 16 data) with
          | None => None
          | Some (g, rest) => Some (g, pt ++ rest)
          end
      end
  end.
(** 91-112. *)
Definition decrypt_inplace (g : Aes128Gcm) (data : list Z) : option (Aes128Gcm * list Z) :=
  let n := (length data / 16)%nat in
  match decrypt_chunks n g data with
  | None => None
  | Some (g, pt) =>
      let rem := skipn (16 * n) data in
      match rem with
      | [] => Some (mkGcm (g_cipher g) (g_ghash g) (g_counter g) (g_counter0_ct g) (g_data_len g + zlen data), pt)
      | _ =>
          let padded_block := padded rem in
          match crypt_block_inner (gcm_update g padded_block 0) padded_block with
          | None => None
          | Some (g, block) =>
              Some (mkGcm (g_cipher g) (g_ghash g) (g_counter g) (g_counter0_ct g) (g_data_len g + zlen data),
                    pt ++ firstn (length rem) block)
          end
      end
  end.
(** 115-120: [u64::to_be_bytes]. *)
Definition be64 (v : Z) : list Z := be32 (u32 (v / 4294967296)) ++ be32 (u32 v).
(** 114-130. *)
Definition gcm_finish (g : Aes128Gcm) : list Z :=
  let block := be64 (AAD_LEN * 8) ++ be64 (g_data_len g * 8) in
  xor_with (ghash_finalize (ghash_update (g_ghash g) block)) (g_counter0_ct g).

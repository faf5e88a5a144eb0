(** Protected records: RFC 8446, section 5.2. *)
From Verif Require Import Model.Prelude Model.TlsKeys Spec.Fips197 Spec.Gcm38D Spec.TlsSecrets.

(** A TLSPlaintext: type, legacy version, fragment. *)
Definition plaintext_record (ty : Z) (fragment : list Z) : list Z := [ty] ++ be16 0x0303 ++ vec16 fragment.
(** A TLSCiphertext without padding: the content and its type, encrypted under the keys of a traffic secret with
    a sequence number; the header is the additional data. *)
Definition record_aad (len : Z) : list Z := [23] ++ be16 0x0303 ++ be16 (len + 17).
Definition sealed_record (ciph : list Z -> list Z -> list Z) (cx : Crypto) (traffic : list Z) (seq ty : Z) (content : list Z) : list Z :=
  let aad := record_aad (zlen content) in
  let ct := gcm_encrypt (ciph (traffic_key cx traffic)) (nonce cx traffic seq) aad (content ++ [ty]) in
  aad ++ fst ct ++ snd ct.
(** With AES-128. *)
Definition protected_record : Crypto -> list Z -> Z -> Z -> list Z -> list Z := sealed_record fips_cipher.

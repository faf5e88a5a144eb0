(** Secrets and keys of RFC 8446, sections 4.2.11.2, 4.4.4, 5.3 and 7.1-7.3. *)
From Coq Require Import String.
From Verif Require Import Model.Prelude Model.TlsKeys.

(** Vectors with a length in front (section 3.4) *)
Definition vec8 (data : list Z) : list Z := [zlen data] ++ data.
Definition vec16 (data : list Z) : list Z := be16 (zlen data) ++ data.

(** What is assumed of the primitives: output lengths, bytes, and the hash of nothing. *)
Definition crypto_ok (cx : Crypto) : Prop :=
  (forall m, zlen (cx_sha256 cx m) = 32 /\ bytes_ok (cx_sha256 cx m)) /\
  (forall s m, zlen (cx_extract cx s m) = 32 /\ bytes_ok (cx_extract cx s m)) /\
  (forall s i n, 0 <= n -> zlen (cx_expand cx s i n) = n /\ bytes_ok (cx_expand cx s i n)) /\
  (forall k m, zlen (cx_hmac cx k m) = 32 /\ bytes_ok (cx_hmac cx k m)) /\
  cx_sha256 cx [] =
    [0xE3; 0xB0; 0xC4; 0x42; 0x98; 0xFC; 0x1C; 0x14; 0x9A; 0xFB; 0xF4; 0xC8; 0x99; 0x6F; 0xB9; 0x24;
     0x27; 0xAE; 0x41; 0xE4; 0x64; 0x9B; 0x93; 0x4C; 0xA4; 0x95; 0x99; 0x1B; 0x78; 0x52; 0xB8; 0x55].

Section Secrets.
Variable cx : Crypto.
(** HKDF-Expand-Label and Derive-Secret (7.1) *)
Definition expand_label (secret : list Z) (label : string) (context : list Z) (len : Z) : list Z :=
  cx_expand cx secret (be16 len ++ vec8 (ascii_bytes ("tls13 " ++ label)) ++ vec8 context) len.
Definition derive (secret : list Z) (label : string) (messages : list Z) : list Z :=
  expand_label secret label (cx_sha256 cx messages) 32.
(** The secrets of 7.1, from the pre-shared key, the shared secret and the messages up to ServerHello or Finished. *)
Definition early_secret (psk : list Z) : list Z := cx_extract cx (zeros 32) psk.
Definition handshake_secret (psk dhe : list Z) : list Z := cx_extract cx (derive (early_secret psk) "derived" []) dhe.
Definition master_secret (psk dhe : list Z) : list Z := cx_extract cx (derive (handshake_secret psk dhe) "derived" []) (zeros 32).
Definition next_secret (traffic : list Z) : list Z := expand_label traffic "traffic upd" [] 32.
(** Keys (7.3), nonces (5.3), Finished (4.4.4) *)
Definition traffic_key (traffic : list Z) : list Z := expand_label traffic "key" [] 16.
Definition traffic_iv (traffic : list Z) : list Z := expand_label traffic "iv" [] 12.
Definition xor_bytes (a b : list Z) : list Z := map (fun p => Z.lxor (fst p) (snd p)) (combine a b).
(** The sequence number in 12 bytes, most significant byte first. *)
Definition seq_bytes (n : Z) : list Z := map (fun i => n / 256 ^ (11 - Z.of_nat i) mod 256) (List.seq 0 12).
Definition nonce (traffic : list Z) (n : Z) : list Z := xor_bytes (traffic_iv traffic) (seq_bytes n).
Definition verify_data (base messages : list Z) : list Z := cx_hmac cx (expand_label base "finished" [] 32) (cx_sha256 cx messages).
(** The binder of a pre-shared key (4.2.11.2) over the messages up to the binders list. *)
Definition psk_binder (psk messages : list Z) : list Z := verify_data (derive (early_secret psk) "ext binder" []) messages.
End Secrets.

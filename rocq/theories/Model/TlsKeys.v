(** The key schedule of the TLS client: tls/src/key_schedule.rs.

    The primitives of the crates sha2, hkdf, hmac and p256 are arguments.  A [Sha256] state is represented
    by the bytes hashed so far, an [Hkdf<Sha256>] by its pseudorandom key, an [EphemeralSecret] and a
    [PublicKey] by bytes.  The [unwrap]s on [from_prk] (32 bytes given, 32 needed), [expand] (at most 32
    bytes asked for), [new_from_slice] (any length) and on the 512-byte vector of [hkdf_label] (labels of
    at most 12 bytes, contexts of at most 32) cannot fail and are not modelled. *)
From Coq Require Import String Ascii.
From Verif Require Import Model.Prelude Model.TlsTypes.
Local Open Scope tres_scope.

Record Crypto : Type := mkCrypto {
  cx_sha256 : list Z -> list Z;                (* the hash of the bytes *)
  cx_extract : list Z -> list Z -> list Z;     (* salt, input key material *)
  cx_expand : list Z -> list Z -> Z -> list Z; (* pseudorandom key, info, length *)
  cx_hmac : list Z -> list Z -> list Z;        (* key, data *)
  cx_sec1 : list Z -> option (list Z);         (* public_key_from_sec1_bytes *)
  cx_dh : list Z -> list Z -> list Z           (* secret, public key *)
}.
(** What a call of the random number generator gives: the ClientHello random and a key pair. *)
Record Rng : Type := mkRng { rg_random : list Z; rg_secret : list Z; rg_public : list Z }.

(** A byte string literal. *)
Definition ascii_bytes (s : string) : list Z := map (fun c => Z.of_N (N_of_ascii c)) (list_ascii_of_string s).
Definition be64 (v : Z) : list Z := be32 (v / 4294967296) ++ be32 (v mod 4294967296).

(** 28-34 *)
Definition EMPTY_HASH : list Z :=
  [0xE3; 0xB0; 0xC4; 0x42; 0x98; 0xFC; 0x1C; 0x14; 0x9A; 0xFB; 0xF4; 0xC8; 0x99; 0x6F; 0xB9; 0x24;
   0x27; 0xAE; 0x41; 0xE4; 0x64; 0x9B; 0x93; 0x4C; 0xA4; 0x95; 0x99; 0x1B; 0x78; 0x52; 0xB8; 0x55].
Definition ZEROS_OF_HASH_LEN : list Z := zeros 32.

(** 116-143 *)
Record KeySchedule : Type := mkKS {
  ks_client_secret : option (list Z);
  ks_server_public : option (list Z);
  ks_transcript : list Z;
  ks_read_seq : Z;
  ks_write_seq : Z;
  ks_hkdf : list Z;
  ks_secret : list Z;
  ks_client_traffic : option (list Z);
  ks_server_traffic : option (list Z)
}.

Section Crypto.
Variable cx : Crypto.

(** 50-66 *)
Definition hkdf_label (len : Z) (label : list Z) (context : list Z) : list Z :=
  be16 len ++ [zlen label + 6] ++ ascii_bytes "tls13 " ++ label ++ [zlen context] ++ context.
(** 78-87; [n] is the type parameter [N] *)
Definition hkdf_expand_label (n : Z) (secret : list Z) (label : list Z) (context : list Z) : list Z :=
  cx_expand cx secret (hkdf_label n label context) n.
(** 100-114 *)
Definition derive_secret (secret : list Z) (label : list Z) (context : list Z) : list Z :=
  cx_expand cx secret (hkdf_label 32 label context) 32.

(** 145-163 *)
Definition ks_default : KeySchedule :=
  let hkdf := cx_extract cx ZEROS_OF_HASH_LEN ZEROS_OF_HASH_LEN in
  mkKS None None [] 0 0 hkdf (derive_secret hkdf (ascii_bytes "derived") EMPTY_HASH) None None.

(** Field updates. *)
Definition ks_set_seqs (k : KeySchedule) (r w : Z) : KeySchedule :=
  mkKS (ks_client_secret k) (ks_server_public k) (ks_transcript k) r w (ks_hkdf k) (ks_secret k) (ks_client_traffic k) (ks_server_traffic k).
Definition ks_set_transcript (k : KeySchedule) (t : list Z) : KeySchedule :=
  mkKS (ks_client_secret k) (ks_server_public k) t (ks_read_seq k) (ks_write_seq k) (ks_hkdf k) (ks_secret k) (ks_client_traffic k) (ks_server_traffic k).

(** 169-183: [u64::checked_add] and [unwrap] *)
Definition U64_MAX : Z := 18446744073709551615.
Definition increment_read (k : KeySchedule) : tres KeySchedule :=
  if ks_read_seq k =? U64_MAX then TPanic else TOk (ks_set_seqs k (ks_read_seq k + 1) (ks_write_seq k)).
Definition increment_write (k : KeySchedule) : tres KeySchedule :=
  if ks_write_seq k =? U64_MAX then TPanic else TOk (ks_set_seqs k (ks_read_seq k) (ks_write_seq k + 1)).
(** 185-187 *)
Definition ks_reset (k : KeySchedule) : KeySchedule := ks_default.
(** 191-195 *)
Definition new_client_secret (k : KeySchedule) (rng : Rng) : list Z * KeySchedule :=
  (rg_public rng,
   mkKS (Some (rg_secret rng)) (ks_server_public k) (ks_transcript k) (ks_read_seq k) (ks_write_seq k) (ks_hkdf k) (ks_secret k) (ks_client_traffic k) (ks_server_traffic k)).
(** 197-211 *)
Definition update_transcript_hash (k : KeySchedule) (data : list Z) : KeySchedule := ks_set_transcript k (ks_transcript k ++ data).
Definition transcript_hash_bytes (k : KeySchedule) : list Z := cx_sha256 cx (ks_transcript k).
(** 213-215 *)
Definition set_server_public_key (k : KeySchedule) (key : list Z) : KeySchedule :=
  mkKS (ks_client_secret k) (Some key) (ks_transcript k) (ks_read_seq k) (ks_write_seq k) (ks_hkdf k) (ks_secret k) (ks_client_traffic k) (ks_server_traffic k).
(** 217-222 *)
Definition shared_secret (k : KeySchedule) : option (list Z) :=
  match ks_client_secret k, ks_server_public k with Some s, Some p => Some (cx_dh cx s p) | _, _ => None end.
(** 224-228: the pseudorandom key is both [self.secret] and the key of [self.hkdf] *)
Definition binder_key (k : KeySchedule) (psk : list Z) : list Z * KeySchedule :=
  let prk := cx_extract cx ZEROS_OF_HASH_LEN psk in
  (derive_secret prk (ascii_bytes "ext binder") EMPTY_HASH,
   mkKS (ks_client_secret k) (ks_server_public k) (ks_transcript k) (ks_read_seq k) (ks_write_seq k) prk prk (ks_client_traffic k) (ks_server_traffic k)).
(** 230-244; [truncated] are the bytes hashed by the argument *)
Definition binder (k : KeySchedule) (psk : list Z) (truncated : list Z) : list Z * KeySchedule :=
  let (bk, k) := binder_key k psk in
  let key := hkdf_expand_label 32 bk (ascii_bytes "finished") [] in
  (cx_hmac cx key (cx_sha256 cx truncated), k).
(** 246-259 *)
Definition initialize_early_secret (k : KeySchedule) : KeySchedule :=
  let th := transcript_hash_bytes k in
  let client_secret := derive_secret (ks_hkdf k) (ascii_bytes "c e traffic") th in
  mkKS (ks_client_secret k) (ks_server_public k) (ks_transcript k) 0 0 (ks_hkdf k)
    (derive_secret (ks_hkdf k) (ascii_bytes "derived") EMPTY_HASH) (Some client_secret) (ks_server_traffic k).
(** The common part of 262-280, 283-300 and 314-331: extract with [ikm] and derive both traffic secrets. *)
Definition initialize_secrets (k : KeySchedule) (ikm : list Z) (client_label server_label : list Z) : KeySchedule :=
  let prk := cx_extract cx (ks_secret k) ikm in
  let th := transcript_hash_bytes k in
  let client_secret := derive_secret prk client_label th in
  let server_secret := derive_secret prk server_label th in
  mkKS (ks_client_secret k) (ks_server_public k) (ks_transcript k) 0 0 prk (derive_secret prk (ascii_bytes "derived") EMPTY_HASH)
    (Some client_secret) (Some server_secret).
(** 261-280 *)
Definition initialize_handshake_secret (k : KeySchedule) : tres KeySchedule :=
  match shared_secret k with
  | None => TPanic
  | Some s => TOk (initialize_secrets k s (ascii_bytes "c hs traffic") (ascii_bytes "s hs traffic"))
  end.
(** 282-300 *)
Definition initialize_master_secret (k : KeySchedule) : KeySchedule :=
  initialize_secrets k ZEROS_OF_HASH_LEN (ascii_bytes "c ap traffic") (ascii_bytes "s ap traffic").
(** 313-331 *)
Definition update_traffic_secret (k : KeySchedule) : KeySchedule :=
  initialize_secrets k ZEROS_OF_HASH_LEN (ascii_bytes "traffic upd") (ascii_bytes "traffic upd").
(** 333-335 *)
Definition server_traffic_secret_exists (k : KeySchedule) : bool := match ks_server_traffic k with Some _ => true | None => false end.
(** 337-370: the sequence number is added to the last eight bytes of the vector *)
Definition iv_xor (iv : list Z) (seq : Z) : list Z :=
  firstn 4 iv ++ map (fun p => Z.lxor (fst p) (snd p)) (combine (skipn 4 iv) (be64 seq)).
Definition key_and_nonce (traffic : option (list Z)) (seq : Z) : option (list Z * list Z) :=
  match traffic with
  | None => None
  | Some t => Some (hkdf_expand_label 16 t (ascii_bytes "key") [], iv_xor (hkdf_expand_label 12 t (ascii_bytes "iv") []) seq)
  end.
Definition client_key_and_nonce (k : KeySchedule) : option (list Z * list Z) := key_and_nonce (ks_client_traffic k) (ks_write_seq k).
Definition server_key_and_nonce (k : KeySchedule) : option (list Z * list Z) := key_and_nonce (ks_server_traffic k) (ks_read_seq k).
(** 389-404 *)
Definition verify_server_finished (k : KeySchedule) (finished : list Z) : tres unit :=
  match ks_server_traffic k with
  | None => TPanic
  | Some t =>
      let key := hkdf_expand_label 32 t (ascii_bytes "finished") [] in
      if list_eq_dec Z.eq_dec (cx_hmac cx key (transcript_hash_bytes k)) finished then TOk tt else TErr DecryptError
  end.
(** 406-416 *)
Definition client_finished_verify_data (k : KeySchedule) : tres (list Z) :=
  match ks_client_traffic k with
  | None => TPanic
  | Some t =>
      let key := hkdf_expand_label 32 t (ascii_bytes "finished") [] in
      TOk (cx_hmac cx key (transcript_hash_bytes k))
  end.
End Crypto.

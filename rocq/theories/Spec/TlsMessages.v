(** The TLS handshake messages of RFC 8446 as far as this client uses them. *)
From Verif Require Import Model.Prelude Spec.TlsSecrets.

(** An extension (section 4.2): its type and its data. *)
Definition ext (ty : Z) (data : list Z) : list Z := be16 ty ++ vec16 data.

(** [blocks], one after the other, are those needed to reach the length [len]. *)
Definition covers (len : Z) (blocks : list (list Z)) : Prop :=
  len <= zlen (concat blocks) /\ (blocks = [] \/ zlen (concat (removelast blocks)) < len).

(** ** ServerHello (section 4.1.3) *)
Inductive sh_ext : Type :=
| ShKeyShare (share : list Z)  (* secp256r1, 65 bytes *)
| ShVersion                    (* TLS 1.3 *)
| ShPsk.                       (* identity 0 *)
Definition sh_bytes (e : sh_ext) : list Z :=
  match e with
  | ShKeyShare share => ext 51 (be16 0x17 ++ vec16 share)
  | ShVersion => ext 43 (be16 0x0304)
  | ShPsk => ext 41 (be16 0)
  end.
Definition sh_shares (es : list sh_ext) : list (list Z) := flat_map (fun e => match e with ShKeyShare s => [s] | _ => [] end) es.
Definition sh_versions (es : list sh_ext) : list unit := flat_map (fun e => match e with ShVersion => [tt] | _ => [] end) es.
(** The message [body] carries the key share [share] of 65 bytes and supported parameters. *)
Definition server_hello (body share : list Z) : Prop :=
  exists random es len rest,
    body = be16 0x0303 ++ random ++ vec8 [] ++ [0x13; 0x01] ++ [0] ++ be16 len ++ concat (map sh_bytes es) ++ rest /\
    zlen random = 32 /\ 0 <= len < 65536 /\ covers len (map sh_bytes es) /\
    sh_shares es = [share] /\ zlen share = 65 /\ sh_versions es = [tt] /\ In ShPsk es.

(** ** EncryptedExtensions (section 4.3.1) *)
(** server_name, supported_groups, application_layer_protocol_negotiation *)
Definition ee_allowed (e : Z * list Z) : Prop := In (fst e) [0; 10; 16].
Definition ee_bytes (e : Z * list Z) : list Z := ext (fst e) (snd e).
Definition encrypted_extensions (body : list Z) : Prop :=
  exists es len rest, body = be16 len ++ concat (map ee_bytes es) ++ rest /\ 0 <= len < 65536 /\ covers len (map ee_bytes es) /\
    Forall ee_allowed es.

(** ** ClientHello (section 4.1.2) *)
Record hello : Type := mkHello {
  he_random : list Z; he_hostname : list Z; he_share : list Z; he_limit : Z; he_identity : list Z }.
(** The extensions in front of pre_shared_key. *)
Definition hello_exts (h : hello) : list Z :=
  ext 10 (vec16 (be16 0x17)) ++                                        (* supported_groups: secp256r1 *)
  ext 45 (vec8 [1]) ++                                                 (* psk_key_exchange_modes: psk_dhe_ke *)
  ext 43 (vec8 (be16 0x0304)) ++                                       (* supported_versions: TLS 1.3 *)
  ext 13 (vec16 (concat (map be16 [0x0401; 0x0501; 0x0601; 0x0403; 0x0503; 0x0804; 0x0805; 0x0806; 0x0807]))) ++
  ext 0 (vec16 ([0] ++ vec16 (he_hostname h))) ++                      (* server_name *)
  ext 51 (vec16 (be16 0x17 ++ vec16 (he_share h))) ++                  (* key_share *)
  ext 28 (be16 (he_limit h)).                                          (* record_size_limit *)
(** One identity with ticket age 0 and one binder. *)
Definition hello_psk (h : hello) (bind : list Z) : list Z :=
  ext 41 (vec16 (vec16 (he_identity h) ++ be32 0) ++ vec16 (vec8 bind)).
Definition hello_body (h : hello) (bind : list Z) : list Z :=
  be16 0x0303 ++ he_random h ++ vec8 [] ++ vec16 [0x13; 0x01] ++ vec8 [0] ++ vec16 (hello_exts h ++ hello_psk h bind).
Definition hello_message (h : hello) (bind : list Z) : list Z :=
  [1] ++ zdrop 1 (be32 (zlen (hello_body h bind))) ++ hello_body h bind.
Definition hello_record (h : hello) (bind : list Z) : list Z := [22] ++ be16 0x0303 ++ vec16 (hello_message h bind).
(** The binders list is at the end of the message: a 16-bit length, an 8-bit length and 32 bytes. *)
Definition up_to_binders (msg : list Z) : list Z := ztake (zlen msg - 35) msg.

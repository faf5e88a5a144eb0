(** Types of the TLS client: tls/src/{alert,record,extension,cipher_suites}.rs and handshake/mod.rs.

    Fieldless enums with explicit discriminants are represented by the discriminant. *)
From Verif Require Import Model.Prelude Model.Bus.

(** The outcome of code that does not use the bus: [Result<A, AlertDescription>], a panic, or running out of
    fuel in a [while] loop. *)
Inductive tres (A : Type) : Type :=
| TOk (a : A)
| TErr (alert : Z)
| TPanic
| TDiverge.
Arguments TOk {A} a.
Arguments TErr {A} alert.
Arguments TPanic {A}.
Arguments TDiverge {A}.
Definition tbind {A B} (p : tres A) (f : A -> tres B) : tres B :=
  match p with TOk a => f a | TErr e => TErr e | TPanic => TPanic | TDiverge => TDiverge end.
Declare Scope tres_scope.
Delimit Scope tres_scope with tres.
Notation "x <- p ;; q" := (tbind p (fun x => q)) (at level 61, p at next level, right associativity) : tres_scope.
Notation "' pat <- p ;; q" := (tbind p (fun x => match x with pat => q end)) (at level 61, pat pattern, p at next level, right associativity) : tres_scope.
Notation "p ;;; q" := (tbind p (fun _ => q)) (at level 61, right associativity) : tres_scope.
(** [checked] arithmetic of the debug profile: [usize] subtraction. *)
Definition usub (a b : Z) : tres Z := if a <? b then TPanic else TOk (a - b).

(** alert.rs 14-40 *)
Definition AlertLevel := Z.
Definition Warning : AlertLevel := 1.
Definition Fatal : AlertLevel := 2.
Definition level_try_from (v : Z) : option AlertLevel := if (v =? 1) || (v =? 2) then Some v else None.
(** alert.rs 86-211 *)
Definition AlertDescription := Z.
Definition CloseNotify : AlertDescription := 0.
Definition UnexpectedMessage : AlertDescription := 10.
Definition BadRecordMac : AlertDescription := 20.
Definition RecordOverflow : AlertDescription := 22.
Definition HandshakeFailure : AlertDescription := 40.
Definition IllegalParameter : AlertDescription := 47.
Definition DecodeError : AlertDescription := 50.
Definition DecryptError : AlertDescription := 51.
Definition ProtocolVersion : AlertDescription := 70.
Definition InternalError : AlertDescription := 80.
Definition MissingExtension : AlertDescription := 109.
Definition UnsupportedExtension : AlertDescription := 110.
(** alert.rs 220-256 *)
Definition alert_descriptions : list Z :=
  [0; 10; 20; 22; 40; 42; 43; 44; 45; 46; 47; 48; 49; 50; 51; 70; 71; 80; 86; 90; 109; 110; 112; 113; 115; 116; 120].
Definition description_try_from (v : Z) : option AlertDescription :=
  if existsb (Z.eqb v) alert_descriptions then Some v else None.
(** alert.rs 258-272 *)
Definition map_w5500 (e : err) : AlertDescription :=
  match e with UnexpectedEof => DecodeError | OutOfMemory => InternalError | Other => InternalError | WouldBlock => InternalError end.
(** alert.rs 279-300: [new_fatal] has the level Warning in the source. *)
Record Alert : Type := mkAlert { al_level : AlertLevel; al_description : AlertDescription }.
Definition new_fatal (d : AlertDescription) : Alert := mkAlert Warning d.
Definition new_warning (d : AlertDescription) : Alert := mkAlert Warning d.

(** record.rs 19-49 *)
Definition ContentType := Z.
Definition ChangeCipherSpec : ContentType := 20.
Definition CtAlert : ContentType := 21.
Definition CtHandshake : ContentType := 22.
Definition ApplicationData : ContentType := 23.
Definition content_type_try_from (v : Z) : option ContentType := if (20 <=? v) && (v <=? 23) then Some v else None.
(** lib.rs 97-103 *)
Definition GCM_TAG_LEN : Z := 16.
Definition V1_2 : Z := 0x0303.
Definition V1_3 : Z := 0x0304.
(** record.rs 63-113: [RecordHeader] is its five bytes.  [content_type] (70-73) has been validated by [deser]. *)
Definition RecordHeader := list Z.
Definition RH_LEN : Z := 5.
Definition rh_content_type (h : RecordHeader) : ContentType := at_ h 0.
Definition rh_length (h : RecordHeader) : Z := of_be16 (at_ h 3) (at_ h 4).
Definition rh_ser (ct : ContentType) (data_len : Z) : RecordHeader := [ct; 3; 3] ++ be16 data_len.
Definition rh_deser (buf : list Z) : tres RecordHeader :=
  match content_type_try_from (at_ buf 0) with Some _ => TOk buf | None => TErr IllegalParameter end.

(** handshake/mod.rs 34-80 *)
Definition HandshakeType := Z.
Definition ClientHello : HandshakeType := 1.
Definition ServerHello : HandshakeType := 2.
Definition NewSessionTicket : HandshakeType := 4.
Definition EndOfEarlyData : HandshakeType := 5.
Definition EncryptedExtensions : HandshakeType := 8.
Definition Certificate : HandshakeType := 11.
Definition CertificateRequest : HandshakeType := 13.
Definition CertificateVerify : HandshakeType := 15.
Definition Finished : HandshakeType := 20.
Definition KeyUpdate : HandshakeType := 24.
Definition handshake_type_try_from (v : Z) : option HandshakeType :=
  if existsb (Z.eqb v) [1; 2; 4; 5; 8; 11; 13; 15; 20; 24] then Some v else None.
(** handshake/mod.rs 104-132: [HandshakeHeader] is its four bytes. *)
Definition HandshakeHeader := list Z.
Definition HH_LEN : Z := 4.
Definition hh_msg_type (h : HandshakeHeader) : option HandshakeType := handshake_type_try_from (at_ h 0).
Definition hh_length (h : HandshakeHeader) : Z := of_be32 0 (at_ h 1) (at_ h 2) (at_ h 3).
Definition hh_length_with_header (h : HandshakeHeader) : Z := hh_length h + HH_LEN.

(** extension.rs 11-89 *)
Definition ExtensionType := Z.
Definition EtServerName : ExtensionType := 0.
Definition EtMaxFragmentLength : ExtensionType := 1.
Definition EtSupportedGroups : ExtensionType := 10.
Definition EtSignatureAlgorithms : ExtensionType := 13.
Definition EtUseSrtp : ExtensionType := 14.
Definition EtHeartbeat : ExtensionType := 15.
Definition EtAlpn : ExtensionType := 16.
Definition EtClientCertificateType : ExtensionType := 19.
Definition EtServerCertificateType : ExtensionType := 20.
Definition EtRecordSizeLimit : ExtensionType := 28.
Definition EtPreSharedKey : ExtensionType := 41.
Definition EtEarlyData : ExtensionType := 42.
Definition EtSupportedVersions : ExtensionType := 43.
Definition EtPskKeyExchangeModes : ExtensionType := 45.
Definition EtKeyShare : ExtensionType := 51.
Definition extension_type_try_from (v : Z) : option ExtensionType :=
  if existsb (Z.eqb v) [0; 1; 5; 10; 13; 14; 15; 16; 18; 19; 20; 21; 28; 41; 42; 43; 44; 45; 47; 48; 49; 50; 51] then Some v else None.
(** cipher_suites.rs 21-62; client_hello.rs 124-170 *)
Definition TLS_AES_128_GCM_SHA256 : list Z := [0x13; 1].
Definition cipher_suite_try_from (v : list Z) : option (list Z) :=
  if (at_ v 0 =? 0x13) && (1 <=? at_ v 1) && (at_ v 1 <=? 5) then Some v else None.
Definition secp256r1 : Z := 0x17.
Definition named_group_try_from (v : Z) : option Z :=
  if existsb (Z.eqb v) [0x17; 0x18; 0x19; 0x1D; 0x1E; 0x100; 0x101; 0x102; 0x103; 0x104] then Some v else None.

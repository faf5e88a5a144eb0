(** A TLS client that receives a stream of records while the application reads. *)
From Verif Require Import Model.Prelude Model.Bus Model.Chip Model.Specifiers Model.TlsTypes Model.TlsBuf Model.TlsKeys Model.TlsClient
  Spec.Hoare Spec.MqttMsg Spec.TlsProtect Spec.TlsAuth Spec.TlsRx.

(** The records of [datas], numbered from [seq]. *)
Fixpoint record_stream (cx : Crypto) (traffic : list Z) (seq : Z) (datas : list (list Z)) : list Z :=
  match datas with
  | [] => []
  | data :: datas => protected_record cx traffic seq 23 data ++ record_stream cx traffic (seq + 1) datas
  end.
(** Calls on the client [c] that uses the chip [ch], in any order: calls of [process], none of which finds that the
    connection was made or lost, each made while there is room for [room] more bytes behind those not read yet; and
    readers that read up to [n] bytes and are done.  [rs] are the answers of [process], [got] the bytes read. *)
Inductive uses (cx : Crypto) (dbg : bool) (room : Z) (c : TlsClient) (ch : chip) : list (res TError TEvent) -> list Z -> TlsClient -> chip -> Prop :=
| UNil : uses cx dbg room c ch [] [] c ch
| UProcess rs got c1 ch1 fuel rng now sch r sch' c2 ch2 : uses cx dbg room c ch rs got c1 ch1 ->
    zlen (readable c1) + room + 2 <= buffer_size c -> no_faults sch -> no_link_change (seen_ir sch ch1 (sn_raw (tc_sn c))) ->
    run (tls_process cx dbg fuel c1 rng now) sch ch1 = (Done (r, c2), sch', ch2) -> uses cx dbg room c ch (rs ++ [r]) got c2 ch2
| URead rs got c1 ch1 n r data r' : uses cx dbg room c ch rs got c1 ch1 -> tls_reader c1 = Some r -> 0 <= n -> cr_read r n = TOk (data, r') ->
    uses cx dbg room c ch rs (got ++ data) (tc_set_rx c1 (b_reader_done (tc_rx c1) r')) ch1.
(** The number of [ApplicationData] events. *)
Definition deliveries (rs : list (res TError TEvent)) : nat := length (filter (fun r => match r with Ok TApplicationData => true | _ => false end) rs).
(** Everything received on the connection, so far, is a part of [stream] behind [rd]. *)
Definition receives (ch : chip) (c : TlsClient) (rd stream : list Z) : Prop :=
  exists missing, s_rxlog (c_sock ch (sn_raw (tc_sn c))) ++ missing = rd ++ stream.

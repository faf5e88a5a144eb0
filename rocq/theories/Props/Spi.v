(** SPI framing: C01, C02. *)
From Verif Require Import Model.Prelude Model.Specifiers Model.Spi Spec.SpiBus.
From Verif Require Proof.SpiP.

(** C01: for any device behind the bus, both drivers leave the device in the same state and read the
    same bytes, namely those of consecutive accesses at addresses modulo 2^16; the fixed-length driver
    ends on a frame boundary. *)
Theorem C01_fdm_vdm_read : forall St (d : device St) fill s addr block n,
  0 <= addr < 65536 -> 0 <= block < 32 ->
  exists pv s' data,
    spi_exec d fill (PHead []) s (vdm_read addr block n) = (pv, s', data) /\
    spi_exec d fill (PHead []) s (fdm_read addr block n) = (PHead [], s', data) /\
    burst_rd d s block addr (Z.to_nat n) = (s', data).
Proof. exact @SpiP.fdm_eq_vdm_read. Qed.
Print Assumptions C01_fdm_vdm_read.

Theorem C01_fdm_vdm_write : forall St (d : device St) fill s addr block data,
  0 <= addr < 65536 -> 0 <= block < 32 ->
  exists pv s',
    spi_exec d fill (PHead []) s (vdm_write addr block data) = (pv, s', []) /\
    spi_exec d fill (PHead []) s (fdm_write addr block data) = (PHead [], s', []) /\
    burst_wr d s block addr data = s'.
Proof. exact @SpiP.fdm_eq_vdm_write. Qed.
Print Assumptions C01_fdm_vdm_write.

(** A device whose reads have side effects, accessed across the wrap at 0xFFFF. *)
Example C01_case :
  let d := {| dv_rd := fun (s : Z) b a => (s * 3 + a, s + b); dv_wr := fun s b a v => s + b * a + v |} in
  snd (spi_exec d 0 (PHead []) 1 (fdm_read 65534 5 7)) =
  snd (spi_exec d 0 (PHead []) 1 (vdm_read 65534 5 7)) /\
  zlen (fdm_read 65534 5 7) = 6.
Proof. split; reflexivity. Qed.

(** C02: the header bytes spell address, block, direction and length mode. *)
Theorem C02_headers : forall addr block m,
  0 <= addr < 65536 -> 0 <= block < 32 ->
  Forall (fun p : list Z * Z =>
    let '(h, om) := p in
    h = [addr / 256; addr mod 256; block * 8 + access_raw m * 4 + om] /\ bytes_ok h)
    [(vdm_header addr block m, 0); (fdm_header_1b addr block m, 1);
     (fdm_header_2b addr block m, 2); (fdm_header_4b addr block m, 3)].
Proof. exact SpiP.headers_ok. Qed.
Print Assumptions C02_headers.
Example C02_case : fdm_header_2b 0xABCD 31 AWrite = [0xAB; 0xCD; 0xFE].
Proof. reflexivity. Qed.

Theorem C02_blocks :
  NoDup (COMMON_BLOCK_OFFSET ::
    map sn_block SOCKETS ++ map sn_tx_block SOCKETS ++ map sn_rx_block SOCKETS)
  /\ Forall (fun b => 0 <= b < 32)
      (COMMON_BLOCK_OFFSET :: map sn_block SOCKETS ++ map sn_tx_block SOCKETS ++ map sn_rx_block SOCKETS)
  /\ Forall (fun s => sn_block s = 4 * sn_raw s + 1 /\ sn_tx_block s = 4 * sn_raw s + 2 /\
       sn_rx_block s = 4 * sn_raw s + 3) SOCKETS
  /\ forall s : Sn, In s SOCKETS.
Proof. exact SpiP.blocks_ok. Qed.
Print Assumptions C02_blocks.

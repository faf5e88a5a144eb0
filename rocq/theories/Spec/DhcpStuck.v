(** Datagrams that stop a DHCP client. *)
From Verif Require Import Model.Prelude Model.Bus Model.Chip Model.Specifiers Model.DhcpPkt Model.DhcpClient Spec.Sock Spec.UdpClient Spec.DhcpMsg Spec.DhcpRfc.

(** The packet ends before the transaction number, and its first byte does not say that it is a request. *)
Definition unreadable (w : list Z) : Prop := zlen w = 0 \/ (zlen w < 8 /\ at_ w 0 <> 1).
(** A packet that can be told to be for someone else: a request, or a reply of another transaction. *)
Definition for_another (w : list Z) (xid : Z) : Prop :=
  0 < zlen w /\ (at_ w 0 = 1 \/ (8 <= zlen w /\ word (ztake 4 (zdrop 4 w)) <> xid)).
(** A reply of the current transaction whose type cannot be read, or an ACK that does not tell how long
    the lease is. *)
Definition incomplete (w : list Z) (xid : Z) : Prop :=
  for_us w xid /\ (answers w GMsgType (Err UnexpectedEof) \/
    (has_type w (Some Ack) /\ ~ exists t, answers w GLease (Ok (ATime (Some t))))).
(** The client cannot get past the datagram [d]. *)
Definition blocks (cl : Client) (d : dgram) : Prop :=
  unreadable (d_data d) \/ (asking (cl_state cl) /\ incomplete (d_data d) (cl_xid cl)).

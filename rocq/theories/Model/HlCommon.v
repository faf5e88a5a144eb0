(** hl/src/lib.rs: port uniqueness and the [Common] trait. *)
From Verif Require Import Model.Prelude Model.Bus Model.Specifiers Model.LlAddr Model.Ll.

(** hl/src/lib.rs 117-121, 125: membership in [CLOSED_STATUS]. *)
Definition closed_status (s : res Z SocketStatus) : bool :=
  existsb (fun x => rstatus_eqb x s) [Ok Closed; Ok CloseWait; Ok Closing].

(** hl/src/lib.rs 122-130: the loop over the other sockets. *)
Fixpoint port_is_unique_loop (l : list Sn) (port : Z) : M bool :=
  match l with
  | [] => ret true
  | s :: r =>
      p <- sn_port s ;;
      if p =? port then
        status <- sn_sr s ;;
        if negb (closed_status status) then ret false else port_is_unique_loop r port
      else port_is_unique_loop r port
  end.

(** hl/src/lib.rs 113-131. *)
Definition port_is_unique (socket : Sn) (port : Z) : M bool :=
  port_is_unique_loop (filter (fun s => negb (sn_eqb s socket)) SOCKETS) port.

(** hl/src/lib.rs 205-209. *)
Definition local_addr (sn : Sn) : M (list Z * Z) :=
  ip <- sipr ;;
  port <- sn_port sn ;;
  ret (ip, port).

(** hl/src/lib.rs 226-228. *)
Definition close (sn : Sn) : M unit := set_sn_cr sn CClose.

(** hl/src/lib.rs 252-254. *)
Definition is_state_closed (sn : Sn) : M bool :=
  s <- sn_sr sn ;; ret (rstatus_eqb s (Ok Closed)).

(** hl/src/lib.rs 301-318. *)
Definition is_state_tcp (sn : Sn) : M bool :=
  s <- sn_sr sn ;;
  ret (match s with
       | Ok Closed | Ok Listen | Ok SynSent | Ok SynRecv | Ok Established | Ok FinWait
       | Ok Closing | Ok CloseWait | Ok TimeWait | Ok LastAck => true
       | _ => false
       end).

(** hl/src/lib.rs 338-340. *)
Definition is_state_udp (sn : Sn) : M bool :=
  s <- sn_sr sn ;; ret (rstatus_eqb s (Ok Udp)).

(** [while self.sn_sr(sn)? != Ok(want) {}]: hl/src/tcp.rs 304, 314, 391, 399; hl/src/udp.rs 337, 345.
    The loop is unbounded in Rust; [fuel] bounds the number of polls here. *)
Fixpoint poll_status (fuel : nat) (sn : Sn) (want : SocketStatus) : M unit :=
  match fuel with
  | O => Diverge
  | S f =>
      s <- sn_sr sn ;;
      if rstatus_eqb s (Ok want) then ret tt else poll_status f sn want
  end.

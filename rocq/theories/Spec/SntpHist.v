(** Histories of an SNTP client. *)
From Verif Require Import Model.Prelude Model.Specifiers Model.Bus Model.Chip Model.Sntp Spec.Sock Spec.Hoare Spec.UdpClient Spec.SntpMsg.

(** What the client did: sent a request, or looked for a reply. *)
Inductive sntp_act := DidAsk (r : res err unit) | DidLook (r : res err Reply).
Inductive sntp_calls (dbg : bool) (cl : SntpClient) : chip -> list sntp_act -> chip -> Prop :=
| ScNil c : sntp_calls dbg cl c [] c
| ScAsk sch c r sch' c1 l c2 : no_faults sch -> run (sntp_request cl) sch c = (Done r, sch', c1) ->
    sntp_calls dbg cl c1 l c2 -> sntp_calls dbg cl c (DidAsk r :: l) c2
| ScLook sch c r sch' c1 l c2 : no_faults sch -> run (on_recv_interrupt dbg cl) sch c = (Done r, sch', c1) ->
    sntp_calls dbg cl c1 l c2 -> sntp_calls dbg cl c (DidLook r :: l) c2.

Definition replies (l : list sntp_act) : list Reply := flat_map (fun x => match x with DidLook (Ok r) => [r] | _ => [] end) l.
Definition requests (l : list sntp_act) : nat := length (filter (fun x => match x with DidAsk (Ok _) => true | _ => false end) l).

(** The usable replies of the server among the datagrams [ds], in order. *)
Inductive server_replies (server : addr) : list dgram -> list Reply -> Prop :=
| SrNil : server_replies server [] []
| SrOther d ds rs : (forall p rest, (d_ip d, d_port d) = server -> ntp_ok p -> d_data d = ntp_bytes p ++ rest -> ~ usable p) ->
    server_replies server ds rs -> server_replies server (d :: ds) rs
| SrReply d ds rs p rest : (d_ip d, d_port d) = server -> ntp_ok p -> d_data d = ntp_bytes p ++ rest -> usable p ->
    server_replies server ds rs -> server_replies server (d :: ds) (reply_of p :: rs).

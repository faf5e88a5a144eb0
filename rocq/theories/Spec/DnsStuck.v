(** Datagrams that stop a DNS or mDNS client. *)
From Verif Require Import Model.Prelude Model.Bus Model.Chip Model.HlIo Model.HlUdp Spec.Sock Spec.Hoare Spec.UdpClient Model.Dns Spec.DnsMsg.

(** The datagram is a response; with [want] one to that query. *)
Definition response_to (m : list Z) (want : option Z) : Prop :=
  12 <= zlen m /\ 128 <= at_ m 2 /\ match want with Some id => of_be16 (at_ m 0) (at_ m 1) = id | None => True end.
(** The number of questions that the header announces. *)
Definition question_count (m : list Z) : Z := of_be16 (at_ m 4) (at_ m 5).

(** The name at [p] does not end before the message does. *)
Inductive name_cut (m : list Z) : Z -> Prop :=
| CutEnd : name_cut m (zlen m)
| CutLabel p k : 1 <= k <= 63 -> has m p [k] -> zlen m < p + 1 + k -> name_cut m p
| CutPtr p hi lo : 64 <= hi <= 255 -> has m p [hi; lo] -> zlen m < (hi mod 64) * 256 + lo -> name_cut m p
| CutHop p q : hop m p q -> name_cut m q -> name_cut m p.
(** The message ends within the [n] questions at [p]. *)
Inductive quests_cut (m : list Z) : Z -> Z -> Prop :=
| QcName p n : 0 < n -> name_cut m p -> quests_cut m p n
| QcTail p n ls e : 0 < n -> name_at m p ls e -> e < zlen m -> zlen m < e + 4 -> quests_cut m p n
| QcNext p n q p1 : 0 < n -> quest_at m p q p1 -> quests_cut m p1 (n - 1) -> quests_cut m p n.
(** The message ends within the questions that the header announces. *)
Definition cut_response (m : list Z) (want : option Z) : Prop := response_to m want /\ quests_cut m 12 (question_count m).
(** All of them are there. *)
Definition questions_there (m : list Z) : Prop := exists qs p1, quests_at m 12 qs p1 /\ zlen qs = question_count m.

(** Taking responses again and again, with any buffers, while anything arrives; [get] is [Client::response],
    the fuel is at least [f0]. *)
Inductive polls (f0 : nat) (get : nat -> M Response) : chip -> list (res err dns_result) -> chip -> Prop :=
| PoNil c : polls f0 get c [] c
| PoCall fuel bufs sch c r sch' c1 rs c2 : (f0 <= fuel)%nat -> no_faults sch ->
    run (take_response fuel (get fuel) bufs) sch c = (Done r, sch', c1) -> polls f0 get c1 rs c2 -> polls f0 get c (r :: rs) c2.

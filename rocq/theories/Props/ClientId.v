(** MQTT client identifiers: C91. *)
From Verif Require Import Model.Prelude Model.Mqtt Spec.ClientId.
From Verif Require Proof.ClientIdP.
From Coq Require Import String.
Local Open Scope string_scope.
Local Open Scope list_scope.
Local Open Scope Z_scope.

(** C91: [ClientId::new] accepts exactly the identifiers every server must accept, and keeps them unchanged. *)
Theorem C91_client_id : forall id x, client_id_new id = Some x <-> x = id /\ standard_id id.
Proof. exact ClientIdP.client_id_valid. Qed.
Print Assumptions C91_client_id.
Example C91_case :
  client_id_new (codes "01234567890123456789aaZ") = Some (codes "01234567890123456789aaZ") /\
  client_id_new (codes "01234567890123456789aaZz") = None /\ client_id_new (codes "foo-bar") = None /\ client_id_new [] = None.
Proof. vm_compute. repeat split. Qed.

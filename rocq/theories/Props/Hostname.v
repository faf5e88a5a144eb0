(** C22 and C23: hostnames. *)
From Verif Require Import Model.Prelude Model.HlHostname Spec.Hostname.
From Verif Require Proof.HostnameP.

(** C22: [Hostname::new] accepts exactly the valid hostnames ... *)
Theorem C22_hostname_new : forall h,
  (hostname_new h = Some h <-> hostname_ok h) /\ (hostname_new h = None <-> ~ hostname_ok h).
Proof. exact HostnameP.hostname_new_iff. Qed.
Print Assumptions C22_hostname_new.
(** ... so does [TryFrom<&str>] ... *)
Theorem C22_hostname_try_from : forall h,
  (hostname_try_from h = Ok h <-> hostname_ok h) /\ (hostname_try_from h = Err tt <-> ~ hostname_ok h).
Proof. exact HostnameP.hostname_try_from_iff. Qed.
Print Assumptions C22_hostname_try_from.
(** ... and they return the same value. *)
Theorem C22_constructors_agree : forall h r, hostname_new h = Some r <-> hostname_try_from h = Ok r.
Proof. exact HostnameP.constructors_agree. Qed.
Print Assumptions C22_constructors_agree.
(** "a-1.Z9" is accepted; "a-.b", "a..b", "a_b" and a label of 64 bytes are not. *)
Example C22_case : hostname_ok [97; 45; 49; 46; 90; 57] /\
  hostname_new [97; 45; 49; 46; 90; 57] = Some [97; 45; 49; 46; 90; 57] /\
  hostname_new [97; 45; 46; 98] = None /\ hostname_try_from [97; 46; 46; 98] = Err tt /\
  hostname_new [97; 95; 98] = None /\ hostname_new (repeat 97 63) = Some (repeat 97 63) /\
  hostname_new (repeat 97 64) = None.
Proof.
  split; [|vm_compute; auto 10]. apply HostnameP.hostname_new_iff. vm_compute. reflexivity.
Qed.

(** C23: labels and length of a valid hostname. *)
Theorem C23_labels : forall h, hostname_ok h ->
  join (hostname_labels h) = h /\ Forall label_ok (hostname_labels h) /\ hostname_len h = zlen h.
Proof. exact HostnameP.labels_ok. Qed.
Print Assumptions C23_labels.
Theorem C23_labels_of_join : forall ls, ls <> [] -> Forall label_ok ls -> hostname_labels (join ls) = ls.
Proof. exact HostnameP.labels_join. Qed.
Print Assumptions C23_labels_of_join.
Example C23_case : hostname_labels [97; 45; 49; 46; 90; 57] = [[97; 45; 49]; [90; 57]] /\ hostname_len [97; 45; 49; 46; 90; 57] = 6.
Proof. vm_compute. auto. Qed.

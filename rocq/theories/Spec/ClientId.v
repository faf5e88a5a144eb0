(** MQTT client identifiers every server must accept (MQTT 5, 3.1.3.1): 1 to 23 letters and digits. *)
From Coq Require Import Ascii String.
From Verif Require Import Model.Prelude.

Definition codes (s : string) : list Z := map (fun c => Z.of_N (N_of_ascii c)) (list_ascii_of_string s).
Definition alphabet : list Z := codes "0123456789abcdefghijklmnopqrstuvwxyzABCDEFGHIJKLMNOPQRSTUVWXYZ".
Definition standard_id (id : list Z) : Prop := 1 <= zlen id <= 23 /\ Forall (fun c => In c alphabet) id.

(** The documented rule for hostnames (RFC 1123 as quoted in hl/src/hostname.rs 19-25). *)
From Verif Require Import Model.Prelude.

Definition letter_or_digit (b : Z) : Prop := 48 <= b <= 57 \/ 65 <= b <= 90 \/ 97 <= b <= 122.
Definition hyphen : Z := 45.
Definition dot : Z := 46.

Definition label_ok (l : list Z) : Prop :=
  1 <= zlen l <= 63 /\ Forall (fun b => letter_or_digit b \/ b = hyphen) l /\
  (forall r, l <> hyphen :: r) /\ (forall r, l <> r ++ [hyphen]).

Fixpoint join (ls : list (list Z)) : list Z :=
  match ls with
  | [] => []
  | [l] => l
  | l :: r => l ++ dot :: join r
  end.

Definition hostname_ok (h : list Z) : Prop :=
  1 <= zlen h <= 253 /\ exists ls, h = join ls /\ Forall label_ok ls.

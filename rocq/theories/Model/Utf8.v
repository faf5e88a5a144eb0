(** [core::str::from_utf8] of the Rust standard library, as used by dns/src/lib.rs 243 and the other
    parsers: which byte strings it accepts (Unicode 15, table 3-7). *)
From Verif Require Import Model.Prelude.

Definition in_range (lo hi b : Z) : bool := (lo <=? b) && (b <=? hi).

(** Whether [from_utf8(l)] is [Ok]. *)
Fixpoint utf8_valid (l : list Z) : bool :=
  match l with
  | [] => true
  | b0 :: r =>
      if b0 <? 128 then utf8_valid r
      else match r with
      | [] => false
      | b1 :: r =>
          if in_range 194 223 b0 then in_range 128 191 b1 && utf8_valid r
          else match r with
          | [] => false
          | b2 :: r =>
              if in_range 224 239 b0 then
                in_range (if b0 =? 224 then 160 else 128) (if b0 =? 237 then 159 else 191) b1 &&
                in_range 128 191 b2 && utf8_valid r
              else match r with
              | [] => false
              | b3 :: r =>
                  in_range 240 244 b0 &&
                  in_range (if b0 =? 240 then 144 else 128) (if b0 =? 244 then 143 else 191) b1 &&
                  in_range 128 191 b2 && in_range 128 191 b3 && utf8_valid r
              end
          end
      end
  end.

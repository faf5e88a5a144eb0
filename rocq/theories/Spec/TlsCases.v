(** Concrete cases for the examples beside the TLS theorems: primitives that are no cryptography but have the
    right lengths. *)
From Verif Require Import Model.Prelude Model.TlsKeys Spec.TlsSecrets.

Definition toy (n : Z) (l : list Z) : list Z := map u8 (ztake n (l ++ zeros (Z.to_nat n))).
Definition case_cx : Crypto :=
  mkCrypto (fun m => match m with [] => EMPTY_HASH | _ => toy 32 (rev m) end) (fun s m => toy 32 (m ++ s)) (fun s i n => toy n (skipn 9 i ++ s))
    (fun k m => toy 32 (map (fun p => fst p + snd p) (combine k m)))
    (fun k => if at_ k 0 =? 4 then Some (tl k) else None) (fun s p => toy 32 (s ++ p)).

(** How one record goes through the calls of tls/src/crypto/aes/gcm.rs. *)
From Verif Require Import Model.Prelude Model.Gcm.

(** Full blocks through [encrypt_block_inplace], the last one through [encrypt_remainder_inplace]. *)
Fixpoint encrypt_blocks (g : Aes128Gcm) (bs : list (list Z)) : option (Aes128Gcm * list (list Z)) :=
  match bs with
  | [] => Some (g, [])
  | b :: r =>
      match encrypt_block_inplace g b with
      | None => None
      | Some (g, c) => match encrypt_blocks g r with None => None | Some (g, cs) => Some (g, c :: cs) end
      end
  end.
Definition encrypt_calls (key nonce aad : list Z) (bs : list (list Z)) (r : list Z) : option (list Z * list Z) :=
  match encrypt_blocks (gcm_new key nonce aad) bs with
  | None => None
  | Some (g, cs) =>
      match encrypt_remainder_inplace g (padded r) (zlen r) with
      | None => None
      | Some (g, c) => Some (concat cs ++ ztake (zlen r) c, gcm_finish g)
      end
  end.

From Verif Require Import Model.Prelude Model.TlsKeys Spec.TlsSecrets Spec.TlsCases Proof.Base.
Lemma toy_ok n l : 0 <= n -> zlen (toy n l) = n /\ bytes_ok (toy n l).
Proof.
  intros H. unfold toy. split.
  - rewrite zlen_map, zlen_ztake, zlen_app. assert (zlen (zeros (Z.to_nat n)) = n) as -> by (unfold zlen, zeros; rewrite repeat_length; lia). pose proof (zlen_nonneg l). lia.
  - apply Forall_forall. intros x Hx. apply in_map_iff in Hx as (y & <- & _). unfold is_u8, u8. lia.
Qed.
Lemma case_cx_ok : crypto_ok case_cx.
Proof.
  unfold crypto_ok, case_cx. cbn [cx_sha256 cx_extract cx_expand cx_hmac]. split; [|split; [|split; [|split]]]; intros; try (apply toy_ok; lia); [|reflexivity].
  destruct m; [|apply toy_ok; lia]. split; [reflexivity|]. vm_compute. repeat constructor; discriminate.
Qed.

(** Variable byte integers. *)
From Verif Require Export Proof.Base Spec.MqttMsg.
From Verif Require Import Proof.DnsNameP Model.Mqtt.
Lemma Forall_ztake {A} (P : A -> Prop) k l : Forall P l -> Forall P (ztake k l).
Proof. intros H. rewrite <- (ztake_zdrop k l) in H. apply Forall_app in H. apply H. Qed.
Lemma ztake_cons {A} (x : A) k l : 0 < k -> ztake k (x :: l) = x :: ztake (k - 1) l.
Proof. intros H. unfold ztake. replace (Z.to_nat k) with (S (Z.to_nat (k - 1))) by lia. reflexivity. Qed.

Lemma land_7f b : 0 <= b < 256 -> Z.land b 0x7F = b mod 128.
Proof. intros H. change 0x7F with (Z.ones 7). rewrite Z.land_ones by lia. reflexivity. Qed.
Lemma land_80 b : 0 <= b < 256 -> (Z.land b 0x80 =? 0) = (b <? 128).
Proof.
  intros H. apply (zseq_all (fun b => Bool.eqb (Z.land b 0x80 =? 0) (b <? 128)) 256) in H; [now apply eqb_prop in H|].
  vm_compute. reflexivity.
Qed.
Lemma vbi_range n l : vbi n l -> 0 <= n < 128 ^ zlen l.
Proof.
  induction 1 as [b Hb|b n l Hb _ IH]; [exact Hb|]. rewrite zlen_cons, Z.pow_add_r by (pose proof (zlen_nonneg l); lia). lia.
Qed.
Lemma vbi_len n l : vbi n l -> 1 <= zlen l.
Proof. intros H. destruct H; rewrite zlen_cons; pose proof (zlen_nonneg (@nil Z)); [change (zlen (@nil Z)) with 0; lia|pose proof (zlen_nonneg l); lia]. Qed.
Lemma vbi_bytes n l : vbi n l -> bytes_ok l.
Proof. induction 1 as [b Hb|b n l Hb _ IH]; (apply Forall_cons; [unfold is_u8; lia|]); [constructor|exact IH]. Qed.

(** ** Decoding *)
Lemma decode_step b rest m v k : 0 <= b < 256 -> 1 <= m <= 2097152 -> 0 <= v < m ->
  decode_loop (b :: rest) m v k =
  (if b <? 128 then Some (Ok (v + b * m, k + 1)) else decode_loop rest (m * 128) (v + (b - 128) * m) (k + 1)).
Proof.
  intros Hb Hm Hv. cbn [decode_loop]. rewrite land_7f, land_80 by exact Hb.
  assert (b mod 128 * m <= 127 * m) by (apply Z.mul_le_mono_nonneg_r; lia).
  assert (0 <= b mod 128 * m) by (apply Z.mul_nonneg_nonneg; lia).
  destruct (Z.leb_spec 4294967296 (b mod 128 * m)); [lia|]. destruct (Z.leb_spec 4294967296 (v + b mod 128 * m)); [lia|].
  change (128 * 128 * 128) with 2097152. destruct (Z.ltb_spec 2097152 m); [lia|].
  destruct (Z.ltb_spec b 128).
  - now rewrite Z.mod_small by lia.
  - replace (b mod 128) with (b - 128) by lia. reflexivity.
Qed.
Lemma decode_vbi n l : vbi n l -> forall rest e k v, zlen l + e <= 4 -> 0 <= e -> 0 <= v < 128 ^ e ->
  decode_loop (l ++ rest) (128 ^ e) v k = Some (Ok (v + n * 128 ^ e, k + zlen l)).
Proof.
  assert (forall e, 0 <= e <= 3 -> 1 <= 128 ^ e <= 2097152) as Hpow.
  { intros e He. assert (e = 0 \/ e = 1 \/ e = 2 \/ e = 3) as [->|[->|[->| ->]]] by lia; cbn; lia. }
  induction 1 as [b Hb|b n l Hb Hv IH]; intros rest e k v He H0 Hr; rewrite zlen_cons in *; cbn [app].
  - rewrite zlen_nil in *. pose proof (Hpow e ltac:(lia)). rewrite decode_step by lia. destruct (Z.ltb_spec b 128); [|lia].
    do 3 f_equal; lia.
  - pose proof (zlen_nonneg l). pose proof (vbi_len _ _ Hv). pose proof (Hpow e ltac:(lia)). rewrite decode_step by lia.
    destruct (Z.ltb_spec b 128); [lia|].
    replace (128 ^ e * 128) with (128 ^ (e + 1)) by (rewrite Z.pow_add_r by lia; lia).
    rewrite IH; [|lia|lia|].
    + do 3 f_equal; [|lia]. rewrite Z.pow_add_r by lia. lia.
    + rewrite Z.pow_add_r by lia. split; [|nia]. assert (0 <= (b - 128) * 128 ^ e) by (apply Z.mul_nonneg_nonneg; lia). lia.
Qed.
Lemma decode_exact n l rest : vbi n l -> zlen l <= 4 -> decode_variable_byte_integer (l ++ rest) = Some (Ok (n, zlen l)).
Proof.
  intros H Hl. unfold decode_variable_byte_integer. pose proof (decode_vbi n l H rest 0 0 0 ltac:(lia) ltac:(lia) ltac:(cbn; lia)) as E.
  cbn [Z.pow] in E. rewrite E. do 3 f_equal; lia.
Qed.
Definition more_bytes (l : list Z) : Prop := Forall (fun b => 128 <= b < 256) l.
Lemma decode_more l : more_bytes l -> forall rest e k v, zlen l + e <= 4 -> 0 <= e -> 0 <= v < 128 ^ e -> exists v' k',
  0 <= v' < 128 ^ (e + zlen l) /\ decode_loop (l ++ rest) (128 ^ e) v k = decode_loop rest (128 ^ (e + zlen l)) v' k'.
Proof.
  assert (forall e, 0 <= e <= 3 -> 1 <= 128 ^ e <= 2097152) as Hpow.
  { intros e He. assert (e = 0 \/ e = 1 \/ e = 2 \/ e = 3) as [->|[->|[->| ->]]] by lia; cbn; lia. }
  induction 1 as [|b l Hb Hl IH]; intros rest e k v He H0 Hr; cbn [app].
  - exists v, k. replace (e + zlen (@nil Z)) with e by (rewrite zlen_nil; lia). auto.
  - rewrite zlen_cons in *. pose proof (zlen_nonneg l). pose proof (Hpow e ltac:(lia)).
    destruct (IH rest (e + 1) (k + 1) (v + (b - 128) * 128 ^ e)) as (v' & k' & Hv' & E); [lia|lia| |].
    + rewrite Z.pow_add_r by lia. split; [|nia]. assert (0 <= (b - 128) * 128 ^ e) by (apply Z.mul_nonneg_nonneg; lia). lia.
    + exists v', k'. replace (e + (zlen l + 1)) with (e + 1 + zlen l) by lia. split; [exact Hv'|].
      rewrite decode_step by lia. destruct (Z.ltb_spec b 128); [lia|].
      replace (128 ^ e * 128) with (128 ^ (e + 1)) by (rewrite Z.pow_add_r by lia; lia). exact E.
Qed.
Lemma decode_fragment l : more_bytes l -> zlen l <= 4 -> decode_variable_byte_integer l = Some (Err Fragment).
Proof.
  intros H Hl. unfold decode_variable_byte_integer.
  destruct (decode_more l H [] 0 0 0 ltac:(lia) ltac:(lia) ltac:(cbn; lia)) as (v' & k' & _ & E). rewrite app_nil_r in E.
  cbn [Z.pow] in E. rewrite E. reflexivity.
Qed.
Lemma decode_five l b rest : more_bytes l -> zlen l = 4 -> 0 <= b < 256 ->
  decode_variable_byte_integer (l ++ b :: rest) = if b mod 128 <? 16 then Some (Err Decode) else None.
Proof.
  intros H Hl Hb. unfold decode_variable_byte_integer.
  destruct (decode_more l H (b :: rest) 0 0 0 ltac:(lia) ltac:(lia) ltac:(cbn; lia)) as (v' & k' & Hv & E).
  change (128 ^ 0) with 1 in E. rewrite E. rewrite Hl in *. change (128 ^ (0 + 4)) with 268435456 in *.
  cbn [decode_loop]. rewrite land_7f by exact Hb. change (128 * 128 * 128 <? 268435456) with true. cbn match.
  destruct (Z.ltb_spec (b mod 128) 16), (Z.leb_spec 4294967296 (b mod 128 * 268435456)); try lia; [|reflexivity].
  destruct (Z.leb_spec 4294967296 (v' + b mod 128 * 268435456)); [lia|reflexivity].
Qed.
(** Every byte string begins with an integer, or consists of continuation bytes, or has four of them. *)
Lemma vbi_scan b : bytes_ok b -> more_bytes b \/ exists n l rest, vbi n l /\ b = l ++ rest.
Proof.
  induction 1 as [|x b Hx Hb IH]; [left; constructor|]. unfold is_u8 in Hx. destruct (Z.lt_ge_cases x 128) as [L|L].
  - right. exists x, [x], b. split; [now constructor|reflexivity].
  - destruct IH as [IH|(n & l & rest & H & ->)]; [left; constructor; auto; lia|].
    right. exists (x - 128 + 128 * n), (x :: l), rest. split; [constructor; auto; lia|reflexivity].
Qed.
Lemma vbi_split k n l : vbi n l -> 0 <= k < zlen l -> more_bytes (ztake k l).
Proof.
  intros H. revert k. induction H as [b Hb|b n l Hb _ IH]; intros k Hk; rewrite zlen_cons in Hk.
  - replace k with 0 by (change (zlen (@nil Z)) with 0 in Hk; lia). constructor.
  - destruct (Z.eq_dec k 0) as [->|Hn]; [constructor|]. rewrite ztake_cons by lia. constructor; [exact Hb|]. apply IH. lia.
Qed.
Lemma decode_iff b n k : bytes_ok b -> (decode_variable_byte_integer b = Some (Ok (n, k)) <->
  exists l rest, b = l ++ rest /\ vbi n l /\ zlen l = k /\ k <= 4).
Proof.
  intros Hb. split.
  - intros E. destruct (vbi_scan b Hb) as [M|(n' & l & rest & V & ->)].
    + destruct (Z.le_gt_cases (zlen b) 4) as [L|L]; [rewrite decode_fragment in E by auto; discriminate|].
      rewrite <- (ztake_zdrop 4 b) in E. assert (zlen (zdrop 4 b) = zlen b - 4) as Ld by (rewrite zlen_zdrop; lia).
      destruct (zdrop 4 b) as [|x r] eqn:Ed; [rewrite zlen_nil in Ld; lia|].
      rewrite decode_five in E.
      * destruct (x mod 128 <? 16); discriminate.
      * apply Forall_ztake. exact M.
      * rewrite zlen_ztake. lia.
      * assert (In x b) as Hin by (rewrite <- (ztake_zdrop 4 b), Ed; apply in_or_app; right; left; reflexivity).
        unfold bytes_ok in Hb. rewrite Forall_forall in Hb. exact (Hb x Hin).
    + destruct (Z.le_gt_cases (zlen l) 4) as [L|L].
      * rewrite (decode_exact n') in E by auto. injection E as <- <-. exists l, rest. auto.
      * exfalso. rewrite <- (ztake_zdrop 4 l), <- app_assoc in E. assert (zlen (zdrop 4 l) = zlen l - 4) as Ld by (rewrite zlen_zdrop; lia).
        pose proof (vbi_bytes _ _ V) as Bl.
        destruct (zdrop 4 l) as [|x r] eqn:Ed; [rewrite zlen_nil in Ld; lia|]. cbn [app] in E.
        rewrite decode_five in E.
        -- destruct (x mod 128 <? 16); discriminate.
        -- eapply vbi_split; [exact V|lia].
        -- rewrite zlen_ztake. lia.
        -- assert (In x l) as Hin by (rewrite <- (ztake_zdrop 4 l), Ed; apply in_or_app; right; left; reflexivity).
           unfold bytes_ok in Bl. rewrite Forall_forall in Bl. exact (Bl x Hin).
  - intros (l & rest & -> & V & <- & L). now apply decode_exact.
Qed.
(** With at most four bytes there is no panic and no [Decode]. *)
Lemma decode_short b : bytes_ok b -> zlen b <= 4 ->
  (more_bytes b /\ decode_variable_byte_integer b = Some (Err Fragment)) \/
  exists n l rest, b = l ++ rest /\ vbi n l /\ decode_variable_byte_integer b = Some (Ok (n, zlen l)).
Proof.
  intros Hb Hl. destruct (vbi_scan b Hb) as [M|(n' & l & rest & V & ->)].
  - left. split; [exact M|]. now apply decode_fragment.
  - right. exists n', l, rest. split; [reflexivity|]. split; [exact V|]. apply (decode_exact n'); [exact V|].
    rewrite zlen_app in Hl. pose proof (zlen_nonneg rest). lia.
Qed.

(** ** Encoding *)
Lemma varint_vbi n : 0 <= n < 268435456 -> vbi n (varint n).
Proof.
  intros H. unfold varint. destruct (Z.ltb_spec n 128); [now constructor|].
  destruct (Z.ltb_spec n 16384).
  { replace n with (n mod 128 + 128 - 128 + 128 * (n / 128)) at 1 by lia. constructor; [lia|]. constructor. lia. }
  destruct (Z.ltb_spec n 2097152).
  { replace n with (n mod 128 + 128 - 128 + 128 * (n / 128 mod 128 + 128 - 128 + 128 * (n / 16384))) at 1 by lia.
    constructor; [lia|]. constructor; [lia|]. constructor. lia. }
  replace n with (n mod 128 + 128 - 128 + 128 * (n / 128 mod 128 + 128 - 128 + 128 * (n / 16384 mod 128 + 128 - 128 + 128 * (n / 2097152)))) at 1 by lia.
  constructor; [lia|]. constructor; [lia|]. constructor; [lia|]. constructor. lia.
Qed.
Lemma varint_len n : 0 <= n < 268435456 -> zlen (varint n) =
  if n <? 128 then 1 else if n <? 16384 then 2 else if n <? 2097152 then 3 else 4.
Proof.
  intros H. unfold varint. destruct (Z.ltb_spec n 128); [reflexivity|].
  destruct (Z.ltb_spec n 16384); [reflexivity|]. destruct (Z.ltb_spec n 2097152); reflexivity.
Qed.
Lemma varint_minimal n l : 0 <= n < 268435456 -> vbi n l -> zlen (varint n) <= zlen l.
Proof.
  intros H V. rewrite varint_len by exact H. pose proof (vbi_range _ _ V) as R. pose proof (vbi_len _ _ V) as L.
  assert (forall k, 0 <= k -> zlen l <= k -> n < 128 ^ k) as G.
  { intros k Hk Hle. pose proof (Z.pow_le_mono_r 128 (zlen l) k ltac:(lia) Hle). lia. }
  destruct (Z.ltb_spec n 128); [lia|].
  destruct (Z.ltb_spec n 16384). { destruct (Z.le_gt_cases (zlen l) 1) as [C|]; [|lia]. apply G in C; cbn in C; lia. }
  destruct (Z.ltb_spec n 2097152). { destruct (Z.le_gt_cases (zlen l) 2) as [C|]; [|lia]. apply G in C; cbn in C; lia. }
  destruct (Z.le_gt_cases (zlen l) 3) as [C|]; [|lia]. apply G in C; cbn in C; lia.
Qed.
Lemma lor_80 b : 0 <= b < 128 -> Z.lor b 0x80 = b + 128.
Proof.
  intros H. apply (zseq_all (fun b => Z.lor b 0x80 =? b + 128) 128) in H; [now apply Z.eqb_eq in H|]. vm_compute. reflexivity.
Qed.
Lemma encode_step f n out : 0 <= n -> zlen out < 4 -> encode_loop (S f) n out =
  if n <? 128 then Some ((out ++ [n]) ++ zeros (4 - length (out ++ [n])), zlen (out ++ [n]))
  else encode_loop f (n / 128) (out ++ [n mod 128 + 128]).
Proof.
  intros Hn Ho. cbn [encode_loop]. destruct (Z.leb_spec 4 (zlen out)); [lia|].
  assert (u8 (n mod 128) = n mod 128) as -> by (unfold u8; lia).
  destruct (Z.ltb_spec n 128).
  - rewrite Z.div_small by lia. cbn [Z.ltb Z.eqb Z.compare]. rewrite Z.mod_small by lia. reflexivity.
  - assert (0 < n / 128) by (apply Z.div_str_pos; lia).
    destruct (Z.ltb_spec 0 (n / 128)); [|lia]. destruct (Z.eqb_spec (n / 128) 0); [lia|]. rewrite lor_80 by lia. reflexivity.
Qed.
Lemma encode_varint n : 0 <= n < 268435456 ->
  encode_variable_byte_integer n = Some (varint n ++ zeros (4 - length (varint n)), zlen (varint n)).
Proof.
  intros H. unfold encode_variable_byte_integer, varint. rewrite encode_step by (cbn; lia).
  destruct (Z.ltb_spec n 128); [reflexivity|]. cbn [app]. rewrite encode_step by (cbn; lia).
  destruct (Z.ltb_spec n 16384), (Z.ltb_spec (n / 128) 128); try lia; [reflexivity|]. cbn [app].
  rewrite encode_step by (cbn; lia). rewrite Z.div_div by lia. change (128 * 128) with 16384.
  destruct (Z.ltb_spec n 2097152), (Z.ltb_spec (n / 16384) 128); try lia; [reflexivity|]. cbn [app].
  rewrite encode_step by (cbn; lia). rewrite Z.div_div by lia. change (16384 * 128) with 2097152.
  destruct (Z.ltb_spec (n / 2097152) 128); [reflexivity|lia].
Qed.
Lemma encode_too_big n : 268435456 <= n -> encode_variable_byte_integer n = None.
Proof.
  intros H. unfold encode_variable_byte_integer. rewrite encode_step by (cbn; lia).
  destruct (Z.ltb_spec n 128); [lia|]. cbn [app]. rewrite encode_step by (cbn; lia).
  destruct (Z.ltb_spec (n / 128) 128); [lia|]. cbn [app]. rewrite Z.div_div by lia. change (128 * 128) with 16384.
  rewrite encode_step by (cbn; lia). destruct (Z.ltb_spec (n / 16384) 128); [lia|]. cbn [app].
  rewrite Z.div_div by lia. change (16384 * 128) with 2097152.
  rewrite encode_step by (cbn; lia). destruct (Z.ltb_spec (n / 2097152) 128); [lia|]. cbn [app encode_loop]. reflexivity.
Qed.

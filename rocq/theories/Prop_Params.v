(** Properties C30-C33: S-box packing, byte reversal, integer encoding. *)
From Verif Require Import Base Model_Gost89 Model_Params Spec_Params Proof_Params.

(** C30 *)
Theorem C30_pack_unpack : forall p, bytesn 64 p ->
  sb_wf (unpack_sbox p) /\ pack_sbox (unpack_sbox p) = p.
Proof. exact (fun p H => conj (unpack_wf p) (pack_unpack p H)). Qed.
Print Assumptions C30_pack_unpack.
Theorem C30_unpack_pack : forall b, sb_wf b ->
  bytesn 64 (pack_sbox b) /\ unpack_sbox (pack_sbox b) = b.
Proof. exact (fun b H => conj (pack_bytesn b) (unpack_pack b H)). Qed.
Print Assumptions C30_unpack_pack.
Theorem C30_unpack_layout : forall p row e, bytesn 64 p -> (row < 8)%nat -> (e < 16)%nat ->
  nth e (sb_row (unpack_sbox p) row) 0 = sbox_entry p row e.
Proof. exact unpack_entry. Qed.
Print Assumptions C30_unpack_layout.
Theorem C30_readback : forall c0 b rnd k stale, sb_wf b -> rows16 stale ->
  dstu_get_sbox (gost_key rnd (gost_init c0 (Some b)) k) stale = b.
Proof. exact get_sbox_api. Qed.
Print Assumptions C30_readback.
(** The default table is DKE No. 1, and each of its rows is a permutation. *)
Theorem C30_default_is_DKE1 : forall row e, (row < 8)%nat -> (e < 16)%nat ->
  nth e (sb_row (unpack_sbox default_sbox) row) 0 = nth e (nth row DKE1 []) 0.
Proof. exact default_is_DKE1. Qed.
Print Assumptions C30_default_is_DKE1.
Theorem C30_default_rows_permutation : forall row v, (row < 8)%nat -> v < 16 ->
  exists e, (e < 16)%nat /\ sbox_entry default_sbox row e = v /\ forall e', (e' < 16)%nat -> sbox_entry default_sbox row e' = v -> e' = e.
Proof. exact default_rows_permutation. Qed.
Print Assumptions C30_default_rows_permutation.
Example C30_ex : bytesn 64 default_sbox /\ sb_wf (unpack_sbox default_sbox) /\
  k1 (unpack_sbox default_sbox) = [10;9;13;6;14;11;4;5;15;1;3;12;7;0;8;2] /\
  rows16 GostR3411_94_TestParamSet /\ is_default_sbox default_sbox = true.
Proof.
  split; [split; [repeat constructor|reflexivity]|]. split; [apply unpack_wf|].
  split; [vm_compute; reflexivity|]. split; [repeat split|vm_compute; reflexivity].
Qed.

(** C31: for every int size (negative sizes do nothing). *)
Theorem C31_reverse_in_place : forall m a size, let n := Z.to_nat size in
  let m' := reverse_bytes m a size in
  rd m' a n = rev (rd m a n) /\ (forall x, x < a \/ a + N.of_nat n <= x -> m' x = m x).
Proof. exact reverse_bytes_ok. Qed.
Print Assumptions C31_reverse_in_place.
Theorem C31_reverse_copy : forall m dst src size, let n := Z.to_nat size in
  dst + N.of_nat n <= src \/ src + N.of_nat n <= dst ->
  let m' := reverse_bytes_copy m dst src size in
  rd m' dst n = rev (rd m src n) /\ (forall x, x < dst \/ dst + N.of_nat n <= x -> m' x = m x).
Proof. exact reverse_bytes_copy_ok. Qed.
Print Assumptions C31_reverse_copy.
Theorem C31_reverse_twice : forall m a size x,
  reverse_bytes (reverse_bytes m a size) a size x = m x.
Proof. exact reverse_twice. Qed.
Print Assumptions C31_reverse_twice.
Example C31_ex : let m := wr (fun _ => 9) 100 [1;2;3;4;5] in
  rd (reverse_bytes m 100 5) 99 7 = [9;5;4;3;2;1;9] /\ rd (reverse_bytes_copy m 200 100 5) 199 7 = [9;5;4;3;2;1;9].
Proof. vm_compute; split; reflexivity. Qed.

(** C32: encoding a positive integer in [n] bytes.  The first component of the result is
    the return value (0 = failure), the second the buffer contents if it was written. *)
Theorem C32_bn_encode : forall x n, x <> 0 ->
  let r := bn_encode x (Z.of_nat n) in
  (fst r <> 0%Z <-> x < 256 ^ N.of_nat n) /\
  (forall buf, snd r = Some buf -> bytesn n buf /\ be_val buf = x) /\
  (fst r = 0%Z -> snd r = None) /\ (fst r <> 0%Z -> snd r <> None).
Proof. exact bn_encode_success. Qed.
Print Assumptions C32_bn_encode.
Theorem C32_bn_encode_negative_width : forall x size, (size < 0)%Z -> bn_encode x size = (0%Z, None).
Proof. exact bn_encode_negative. Qed.
Print Assumptions C32_bn_encode_negative_width.
Example C32_ex : bn_encode 0x1234 4 = (2%Z, Some [0;0;0x12;0x34]) /\ bn_encode 0x1234 1 = (0%Z, None).
Proof. vm_compute; split; reflexivity. Qed.

(** C33 is false of the code: zero fits in every buffer, yet the encoder reports failure. *)
Theorem C33_bn_encode_zero_refuted : ~ (forall x n, x < 256 ^ N.of_nat n -> fst (bn_encode x (Z.of_nat n)) <> 0%Z).
Proof. exact (fun H => H 0 4%nat eq_refl eq_refl). Qed.
Print Assumptions C33_bn_encode_zero_refuted.
(** It fails at zero for every width, and the buffer has nevertheless been cleared. *)
Theorem C33_bn_encode_zero : forall n, bn_encode 0 (Z.of_nat n) = (0%Z, Some (zeros n)).
Proof. exact bn_encode_zero_fails. Qed.
Print Assumptions C33_bn_encode_zero.

(** Property C114: which changes of the data a MAC notices. *)
From Verif Require Import Base Model_Gost89 Spec_Gost89 Spec_Locality Proof_MacBind Prop_Gost89.

(** C114, what holds: two data strings of the same length that differ, in whatever way,
    inside one block of eight bytes have different 64-bit MACs, under every key, S-box and
    starting value. *)
Theorem C114_change_in_a_block : forall c0 b rnd k fuel iv d d' i,
  sb_wf b -> mask_wf rnd -> bytesn 32 k -> bytesn 8 iv -> bytes d -> bytes d' ->
  N.of_nat (length d) < 2 ^ 32 - 8 -> (length d / 8 < fuel)%nat -> differ_in_block i d d' -> d <> d' ->
  let c := gost_key rnd (gost_init c0 (Some b)) k in
  gost_mac fuel c 64 d <> gost_mac fuel c 64 d' /\ gost_mac_iv fuel c 64 iv d <> gost_mac_iv fuel c 64 iv d'.
Proof. exact api_change. Qed.
Print Assumptions C114_change_in_a_block.

(** What does not hold: the MAC does not say how long the data were. Zeros appended up to
    the end of the last block change nothing, for every key and every data string that does
    not end on a block boundary ... *)
Theorem C114_zeros_refuted : forall c0 b rnd k fuel nb d j,
  sb_wf b -> mask_wf rnd -> bytesn 32 k -> bytes d ->
  N.of_nat (length d + j) < 2 ^ 32 - 8 -> ((length d + j) / 8 < fuel)%nat -> (nb <= 8)%nat ->
  (length d mod 8 <> 0)%nat -> (length d mod 8 + j <= 8)%nat ->
  let c := gost_key rnd (gost_init c0 (Some b)) k in
  gost_mac fuel c (8 * Z.of_nat nb) (d ++ zeros j) = gost_mac fuel c (8 * Z.of_nat nb) d.
Proof. exact api_zeros. Qed.
Print Assumptions C114_zeros_refuted.
(** ... nor does a whole block of zeros after a single block. *)
Theorem C114_one_block_refuted : forall c0 b rnd k fuel nb d,
  sb_wf b -> mask_wf rnd -> bytesn 32 k -> bytesn 8 d -> (2 < fuel)%nat -> (nb <= 8)%nat ->
  let c := gost_key rnd (gost_init c0 (Some b)) k in
  gost_mac fuel c (8 * Z.of_nat nb) (d ++ zeros 8) = gost_mac fuel c (8 * Z.of_nat nb) d.
Proof. exact api_one_block. Qed.
Print Assumptions C114_one_block_refuted.
(** And MACs combine: who knows the 64-bit MAC m of a (two blocks or more, whole blocks) and
    the MAC of d (more than a block) knows the MAC of a third string, without the key. The
    first half is the useful side of the same fact: a MAC can be continued. *)
Theorem C114_combine_refuted : forall c0 b rnd k fuel nb q a d m,
  sb_wf b -> mask_wf rnd -> bytesn 32 k -> bytes a -> bytes d ->
  N.of_nat (length a + length d) < 2 ^ 32 - 8 -> ((length a + length d) / 8 < fuel)%nat -> (nb <= 8)%nat ->
  length a = (8 * q)%nat -> (2 <= q)%nat -> (8 < length d)%nat ->
  let c := gost_key rnd (gost_init c0 (Some b)) k in
  gost_mac fuel c 64 a = MacOk m ->
  gost_mac fuel c (8 * Z.of_nat nb) (a ++ d) = gost_mac_iv fuel c (8 * Z.of_nat nb) m d /\
  gost_mac fuel c (8 * Z.of_nat nb) (a ++ xorl (firstn 8 d) m ++ skipn 8 d) = gost_mac fuel c (8 * Z.of_nat nb) d.
Proof. exact api_chain. Qed.
Print Assumptions C114_combine_refuted.

Example C114_ex : let c := gost_key ex_mask (gost_init ex_c0 None) ex_key in
  differ_in_block 0 [1;2;3;4;5;6;7;8;9] [1;2;3;9;5;6;7;8;9] /\
  gost_mac 10 c 64 [1;2;3;4;5;6;7;8;9] <> gost_mac 10 c 64 [1;2;3;9;5;6;7;8;9] /\
  gost_mac 10 c 32 [1;2;3] = gost_mac 10 c 32 [1;2;3;0] /\
  gost_mac 10 c 32 ex_blk = gost_mac 10 c 32 (ex_blk ++ [0;0;0;0;0;0;0;0]) /\
  match gost_mac 10 c 64 ex_key with
  | MacOk m => gost_mac 10 c 32 (ex_key ++ xorl ex_blk m ++ [5;6]) = gost_mac 10 c 32 (ex_blk ++ [5;6])
  | _ => False
  end.
Proof.
  split; [split; [reflexivity|]|].
  - intros j Hj. do 10 (destruct j as [|j]; [first [reflexivity|exfalso; apply Hj; reflexivity]|]). destruct j; reflexivity.
  - vm_compute. repeat split; discriminate.
Qed.

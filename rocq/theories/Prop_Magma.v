(** The predefined substitution blocks (dstulib/gost/gost89.c). *)
From Coq Require Import Lia.
From Verif Require Import Base Model_Gost89 Model_Sboxes Spec_Gost89 Spec_Magma Proof_Magma.

(** C02 with no substitution block given: that of the test examples of GOST R 34.11-94. *)
Theorem C02_default_block : forall c0 rnd k blk, mask_wf rnd -> bytesn 32 k -> bytesn 8 blk ->
  let c := gost_key rnd (gost_init c0 None) k in
  gostcrypt c blk = encrypt (sb_fun GostR3411_94_TestParamSet) k blk /\ gostdecrypt c blk = decrypt (sb_fun GostR3411_94_TestParamSet) k blk.
Proof. exact default_ok. Qed.
Print Assumptions C02_default_block.

(** C130: the block functions with the block of TC26 and a key set by magma_key are Magma, on
    blocks with their bytes reversed. *)
Theorem C130_magma : forall c0 rnd k blk, mask_wf rnd -> bytesn 32 k -> bytesn 8 blk ->
  let c := magma_key rnd (gost_init c0 (Some Gost28147_TC26ParamSetZ)) k in
  be_val (rev (gostcrypt c (rev blk))) = magma_encrypt k (be_val blk) /\ be_val (rev (gostdecrypt c (rev blk))) = magma_decrypt k (be_val blk).
Proof. exact magma_ok. Qed.
Print Assumptions C130_magma.
(** All rows of all predefined blocks are permutations: none of them is of the kinds of C121. *)
Theorem C130_permutations : forall b i, In b predefined -> (i < 8)%nat -> sb_wf b /\ row_permutes (sb_row b i).
Proof. exact predefined_ok. Qed.
Print Assumptions C130_permutations.
(** RFC 8891, A.4 and A.5. *)
Example C130_ex : let K := [0xff;0xee;0xdd;0xcc;0xbb;0xaa;0x99;0x88;0x77;0x66;0x55;0x44;0x33;0x22;0x11;0x00;
                            0xf0;0xf1;0xf2;0xf3;0xf4;0xf5;0xf6;0xf7;0xf8;0xf9;0xfa;0xfb;0xfc;0xfd;0xfe;0xff] in
  bytesn 32 K /\ magma_encrypt K 0xfedcba9876543210 = 0x4ee901e5c2d8ca3d /\ magma_decrypt K 0x4ee901e5c2d8ca3d = 0xfedcba9876543210 /\
  magma_t magma_pi 0xfdb97531 = 0x2a196f34 /\ magma_g 0x87654321 0xfedcba98 = 0xfdcbc20c /\ length predefined = 8%nat /\ ~ row_permutes (zeros 16).
Proof.
  split; [split; [repeat constructor|reflexivity]|]. repeat (split; [vm_compute; reflexivity|]).
  intros [_ H]. destruct (H 1 ltac:(lia)) as [e [He [E _]]]. do 16 (destruct e as [|e]; [discriminate E|]). lia.
Qed.

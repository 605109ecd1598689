(** Properties C18-C23: the GOST 34.311-95 digest. *)
From Verif Require Import Base Model_Gost89 Spec_Gost89 Model_Params Spec_Params Model_Hash Spec_Hash Spec_Md Proof_Md.

Definition ex_sb : subst_block := GostR3411_94_TestParamSet.
Definition ex_msg : list N := map N.of_nat (seq 5 70).

(** C18 and C19 for the library: init, any updates, finish = the standard's hash of the
    concatenation.  [junk]: the malloc'ed cipher context's contents. *)
Theorem C18_digest_standard : forall cm0 p junk b m, sb_wf b -> bytes m -> hashable (length m) ->
  let r0 := init_gost_hash_ctx cm0 p junk b in
  exists cm1 h1 cm2, hash_blocks (fst r0) (snd r0) [m] = Some (cm1, h1) /\ finish_hash cm1 h1 = Some (cm2, digest (sb_fun b) m).
Proof. exact lib_digest1. Qed.
Print Assumptions C18_digest_standard.
Example C18_ex : sb_wf ex_sb /\ bytes ex_msg /\ hashable (length ex_msg).
Proof. repeat split; repeat constructor. Qed.
(** Test vector of tests/test.cpp:252, evaluated on the specification (prints true). *)
Eval vm_compute in (be_val (digest (packed_sbox default_sbox) [0x31;0x32;0x33;0x34;0x35;0x36]) =?
  0x9648e3650b970d6239bc76cd4ca5944c2c9c27692402f4d4870588992be37d5d).

Theorem C19_split_independent : forall cm0 p junk b ds, sb_wf b -> Forall bytes ds -> hashable (length (concat ds)) ->
  let r0 := init_gost_hash_ctx cm0 p junk b in
  exists cm1 h1 cm2, hash_blocks (fst r0) (snd r0) ds = Some (cm1, h1) /\ finish_hash cm1 h1 = Some (cm2, digest (sb_fun b) (concat ds)).
Proof. exact lib_digest. Qed.
Print Assumptions C19_split_independent.
Example C19_ex : Forall bytes [[1;2;3];[];ex_msg;[7]] /\ hashable (length (concat [[1;2;3];[];ex_msg;[7]])).
Proof. split; [repeat constructor|reflexivity]. Qed.

(** A context can be restarted for a new message at any point. *)
Theorem C19_restart : forall cm0 p junk b ds1 ds2, sb_wf b -> Forall bytes ds1 -> Forall bytes ds2 ->
  hashable (length (concat ds1)) -> hashable (length (concat ds2)) ->
  let r0 := init_gost_hash_ctx cm0 p junk b in
  exists cm1 h1 cm2 h2 cm3, hash_blocks (fst r0) (snd r0) ds1 = Some (cm1, h1) /\
    fst (start_hash h1) = 1%Z /\ hash_blocks cm1 (snd (start_hash h1)) ds2 = Some (cm2, h2) /\
    finish_hash cm2 h2 = Some (cm3, digest (sb_fun b) (concat ds2)).
Proof. exact lib_restart. Qed.
Print Assumptions C19_restart.

(** C20: finish, finish again, continue, finish. *)
Theorem C20_finish_keeps_state : forall cm0 p junk b ds1 ds2, sb_wf b -> Forall bytes ds1 -> Forall bytes ds2 ->
  hashable (length (concat ds1 ++ concat ds2)) ->
  let r0 := init_gost_hash_ctx cm0 p junk b in
  exists cm1 h1 cm2 cm3 cm4 h4 cm5, hash_blocks (fst r0) (snd r0) ds1 = Some (cm1, h1) /\
    finish_hash cm1 h1 = Some (cm2, digest (sb_fun b) (concat ds1)) /\
    finish_hash cm2 h1 = Some (cm3, digest (sb_fun b) (concat ds1)) /\
    hash_blocks cm3 h1 ds2 = Some (cm4, h4) /\
    finish_hash cm4 h4 = Some (cm5, digest (sb_fun b) (concat ds1 ++ concat ds2)).
Proof. exact lib_continue. Qed.
Print Assumptions C20_finish_keeps_state.
Example C20_ex : Forall bytes [ex_msg] /\ hashable (length (concat [ex_msg] ++ concat [[1];[2]])).
Proof. split; [repeat constructor|reflexivity]. Qed.

(** C21: any legal history over any number of EVP digest contexts - allocate, initialise,
    update, finish, copy, clean up, control, free - delivers exactly the digests of the
    per-context specification [Spec_Md], and no call is undefined. *)
Theorem C21_contexts_independent : forall os, legal no_slots os ->
  exists st, md_run md_empty os = Some (st, spec_outs no_slots os).
Proof. exact md_refines. Qed.
Print Assumptions C21_contexts_independent.
(** Two contexts, copied in mid-message, interleaved; then the source cleaned up and freed. *)
Example C21_ex : legal no_slots
  [MAlloc 0 zero_dctx zero_ctx; MInit 0 None; MUpdate 0 [1;2;3]; MAlloc 1 zero_dctx zero_ctx; MCopy 1 0;
   MUpdate 0 [4]; MUpdate 1 ex_msg; MFinal 0; MCleanup 0; MFree 0; MUpdate 1 [9]; MFinal 1] /\
  spec_outs no_slots
  [MAlloc 0 zero_dctx zero_ctx; MInit 0 None; MUpdate 0 [1;2;3]; MAlloc 1 zero_dctx zero_ctx; MCopy 1 0;
   MUpdate 0 [4]; MUpdate 1 ex_msg; MFinal 0; MCleanup 0; MFree 0; MUpdate 1 [9]; MFinal 1] =
  [digest (packed_sbox default_sbox) [1;2;3;4]; digest (packed_sbox default_sbox) ([1;2;3] ++ ex_msg ++ [9])].
Proof. split; [repeat split; try discriminate; repeat constructor|reflexivity]. Qed.

(** C22: selection of the S-box at initialisation, replacement by control, refusal. *)
Theorem C22_init_selects : forall h c k ds, bytesn 64 (selected k) -> Forall bytes ds -> hashable (length (concat ds)) ->
  exists st, md_run md_empty (MAlloc 0 h c :: MInit 0 k :: map (MUpdate 0) ds ++ [MFinal 0]) =
             Some (st, [digest (packed_sbox (selected k)) (concat ds)]).
Proof. exact md_selects. Qed.
Print Assumptions C22_init_selects.
Theorem C22_ctrl_replaces : forall h c k s ds, bytesn 64 (selected k) -> bytesn 64 s -> Forall bytes ds -> hashable (length (concat ds)) ->
  exists st, md_run md_empty (MAlloc 0 h c :: MInit 0 k :: MCtrl 0 4097%Z 64 (Some s) :: map (MUpdate 0) ds ++ [MFinal 0]) =
             Some (st, [digest (packed_sbox s) (concat ds)]).
Proof. exact md_ctrl_replaces. Qed.
Print Assumptions C22_ctrl_replaces.
Theorem C22_ctrl_code : forall st p s, md_c st p <> None ->
  exists st', md_ctrl st p 4097%Z 64 (Some s) = Some (st', 1%Z).
Proof. exact md_ctrl_code. Qed.
Print Assumptions C22_ctrl_code.
Theorem C22_ctrl_refused : forall st p cmd p1 p2, ~ (cmd = 4097%Z /\ p1 = 64%Z /\ p2 <> None) ->
  md_ctrl st p cmd p1 p2 = Some (st, 0%Z).
Proof. exact md_ctrl_refused. Qed.
Print Assumptions C22_ctrl_refused.
Example C22_ex : bytesn 64 (selected (Some (Some (Some None)))) /\ bytesn 64 (selected (Some (Some (Some (Some (rev default_sbox)))))) /\
  selected (Some (Some (Some (Some (rev default_sbox))))) <> default_sbox.
Proof. split; [split; [repeat constructor|reflexivity]|]. split; [split; [repeat constructor|reflexivity]|discriminate]. Qed.

(** C23 is false: for every total length from 2^60 to 2^63 - 1 the length in bits does not
    fit the signed counter. *)
Theorem C23_long_messages_undefined : forall cm0 p junk b ds, sb_wf b -> Forall bytes ds ->
  2 ^ 60 <= N.of_nat (length (concat ds)) < 2 ^ 63 ->
  let r0 := init_gost_hash_ctx cm0 p junk b in
  exists cm1 h1, hash_blocks (fst r0) (snd r0) ds = Some (cm1, h1) /\ finish_hash cm1 h1 = None.
Proof. exact lib_too_long. Qed.
Print Assumptions C23_long_messages_undefined.
Theorem C23_defined_for_every_length_refuted : exists b ds, sb_wf b /\ Forall bytes ds /\ N.of_nat (length (concat ds)) < 2 ^ 63 /\
  let r0 := init_gost_hash_ctx (fun _ => None) 0 zero_ctx b in
  exists cm1 h1, hash_blocks (fst r0) (snd r0) ds = Some (cm1, h1) /\ finish_hash cm1 h1 = None.
Proof. exact lib_long_exists. Qed.
Print Assumptions C23_defined_for_every_length_refuted.

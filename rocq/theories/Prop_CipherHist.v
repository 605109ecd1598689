(** Property theorems C124-C126 and the exact behaviour behind C15 and C16. *)
From Coq Require Import ZArith.
From Verif Require Import Base Model_Gost89 Model_Params Model_Cipher Model_CipherHist Spec_Gost89 Spec_Params Spec_Cipher Spec_CipherHist Lib Proof_CipherHist.
From Verif Require Prop_Cipher.
Import Prop_Cipher.

(** C124: for every history of calls on any number of contexts, everything the calls return is
    what the reference returns: keys, masks, expanded tables, positions in buffers, the bulk
    processing of blocks and other contexts have no influence beyond it. *)
Theorem C124_reference : forall l, Forall ccall_ok l -> snd (ccalls (fun _ => selected) l) = snd (ref_calls (fun _ => ref0) l).
Proof. exact machine. Qed.
Print Assumptions C124_reference.
Example C124_ex : let l := [CInit 0 exmask (Some exk) (Some exiv) true; CUpdate 0 [1;2;3]; CCopy 0 1; CCtrl 0 4097%Z 64 (Some exsb);
                            CUpdate 1 [4;5;6;7;8;9;10;11;12;13;14;15;16;17;18]; CUpdate 0 [4;5;6;7;8;9]; CInit 1 exmask None (Some exiv) false; CUpdate 0 [];
                            CUpdate 1 [1;2;3]; CExport 0 GostR3411_94_TestParamSet; CFinal 0] in
  Forall ccall_ok l /\ nth 5 (snd (ccalls (fun _ => selected) l)) ANone <> nth 5 (snd (ccalls (fun _ => selected) (firstn 3 l ++ skipn 4 l))) ANone /\
  snd (ccalls (fun _ => selected) l) = snd (ref_calls (fun _ => ref0) l).
Proof.
  intros l.
  assert (Hl : Forall ccall_ok l).
  { assert (Hm : mask_wf exmask) by (split; [reflexivity|repeat constructor]). assert (Hb : bytesn 64 exsb) by (split; [repeat constructor|reflexivity]).
    assert (Hk : bytesn 32 exk) by (split; [repeat constructor|reflexivity]). assert (Hv : bytesn 8 exiv) by (split; [repeat constructor|reflexivity]).
    unfold l. repeat apply Forall_cons; try apply Forall_nil; cbn [ccall_ok].
    all: try exact I.
    all: try (split; [repeat constructor|reflexivity]).
    all: try (repeat split; reflexivity).
    - split; [exact Hm|]. split; intros x [= <-]; assumption.
    - intros _ _ x [= <-]. exact Hb.
    - split; [exact Hm|]. split; [discriminate|]. intros x [= <-]. exact Hv. }
  split; [exact Hl|]. split; [vm_compute; discriminate|]. vm_compute. reflexivity.
Qed.

(** C125 is violated: a context that never got a key encrypts, with the all-zero key. *)
Theorem C125_no_key_refuted : forall r1 iv enc ds, bytesn 8 iv -> pieces ds ->
  snd (updates (evp_init r1 fresh_ctx None (Some iv) enc) ds) = cfb_stream enc (encrypt (packed_sbox default_sbox) (zeros 32)) iv (concat ds).
Proof. exact no_key_stream. Qed.
Print Assumptions C125_no_key_refuted.
Example C125_ex : bytesn 8 exiv /\ snd (updates (evp_init exmask fresh_ctx None (Some exiv) true) [exm]) <> exm.
Proof. split; [split; [repeat constructor|reflexivity]|vm_compute; discriminate]. Qed.

(** C15, exactly: an IV given before the key, and a first piece shorter than a block: the first
    8 bytes of the message are encrypted with the key the context had before, which is the
    all-zero key for a new context.  Anyone who knows the IV can read them. *)
Theorem C15_iv_then_key_new : forall rnd r1 k iv enc1 enc d ds, mask_wf rnd -> bytesn 32 k -> bytesn 8 iv -> pieces (d :: ds) -> (length d < 8)%nat ->
  snd (updates (evp_init rnd (evp_init r1 fresh_ctx None (Some iv) enc1) (Some k) None enc) (d :: ds)) =
  cfb_resume enc (encrypt (packed_sbox default_sbox) k) 0 iv (encrypt (packed_sbox default_sbox) (zeros 32) iv) (concat (d :: ds)).
Proof. exact iv_key_short_fresh. Qed.
Print Assumptions C15_iv_then_key_new.
Theorem C15_iv_then_key_old : forall rnd0 c0 k0 iv0 sb enc0 ms rnd r1 k iv enc1 enc d ds, mask_wf rnd0 -> bytesn 32 k0 -> bytesn 8 iv0 -> pieces ms ->
  mask_wf rnd -> bytesn 32 k -> bytesn 8 iv -> pieces (d :: ds) -> (length d < 8)%nat ->
  let used := fst (fst (updates (start rnd0 c0 k0 iv0 sb enc0) ms)) in
  snd (updates (evp_init rnd (evp_init r1 used None (Some iv) enc1) (Some k) None enc) (d :: ds)) =
  cfb_resume enc (encrypt (packed_sbox default_sbox) k) 0 iv (encrypt (packed_sbox default_sbox) k0 iv) (concat (d :: ds)).
Proof. exact iv_key_short_used. Qed.
Print Assumptions C15_iv_then_key_old.
(** C15, exactly: parameters given before the key.  Their S-box is used for nothing but the first
    8 bytes, with the all-zero key, if the first piece is short. *)
Theorem C15_params_then_key_long : forall rnd r1 k iv p enc1 enc d ds, mask_wf rnd -> bytesn 32 k -> bytesn 8 iv -> bytesn 64 p -> pieces (d :: ds) -> (8 <= length d)%nat ->
  snd (updates (evp_init rnd (fst (get_asn1 (evp_init r1 fresh_ctx None None enc1) (ASN1 16%Z (der_params iv p)))) (Some k) None enc) (d :: ds)) =
  cfb_stream enc (encrypt (packed_sbox default_sbox) k) iv (concat (d :: ds)).
Proof. exact params_key_long. Qed.
Print Assumptions C15_params_then_key_long.
Theorem C15_params_then_key_short : forall rnd r1 k iv p enc1 enc d ds, mask_wf rnd -> bytesn 32 k -> bytesn 8 iv -> bytesn 64 p -> pieces (d :: ds) -> (length d < 8)%nat ->
  snd (updates (evp_init rnd (fst (get_asn1 (evp_init r1 fresh_ctx None None enc1) (ASN1 16%Z (der_params iv p)))) (Some k) None enc) (d :: ds)) =
  cfb_resume enc (encrypt (packed_sbox default_sbox) k) 0 iv (encrypt (packed_sbox p) (zeros 32) iv) (concat (d :: ds)).
Proof. exact params_key_short. Qed.
Print Assumptions C15_params_then_key_short.
(** C16, exactly: an S-box selected after any number of bytes. *)
Theorem C16_custom_sbox_restart_exact : forall rnd c0 k iv sb enc ds p ds', mask_wf rnd -> bytesn 32 k -> bytesn 8 iv -> bytesn 64 p -> pieces ds -> pieces ds' ->
  let n := (length (concat ds) mod 8)%nat in
  snd (updates (fst (fst (cipher_ctrl (fst (fst (updates (start rnd c0 k iv sb enc) ds))) 4097%Z 64 (Some p)))) ds') =
  cfb_resume enc (encrypt (packed_sbox p) k) n iv (encrypt (packed_sbox p) k iv) (concat ds').
Proof. exact ctrl_exact. Qed.
Print Assumptions C16_custom_sbox_restart_exact.
(** The hypotheses are those of the examples of C15 and C16 with a short piece; the resumed stream
    is not the ordinary one. *)
Example C16_exact_ex : pieces [[1;2;3]] /\ pieces [exm] /\
  cfb_resume true (encrypt (packed_sbox exsb) exk) 3 exiv (encrypt (packed_sbox exsb) exk exiv) exm <> cfb_stream true (encrypt (packed_sbox exsb) exk) exiv exm.
Proof.
  split; [|split]. 1, 2: constructor; [split; [repeat constructor|split; [discriminate|reflexivity]]|constructor].
  vm_compute. discriminate.
Qed.

(** C126: what was encrypted with key and IV given at once and is opened with the exported
    parameters and then the key (the order for enveloped data) comes back, if the first piece
    has 8 bytes or more ... *)
Theorem C126_enveloped : forall rnd0 c0 stale rnd r1 k iv ms d ds, mask_wf rnd0 -> mask_wf rnd -> rows16 stale -> bytesn 32 k -> bytesn 8 iv -> pieces ms -> pieces (d :: ds) ->
  let c := start rnd0 c0 k iv None true in
  concat (d :: ds) = snd (updates c ms) -> (8 <= length d)%nat ->
  opened rnd r1 k (set_asn1 (fst (fst (updates c ms))) stale) (d :: ds) = concat ms.
Proof. exact enveloped_long. Qed.
Print Assumptions C126_enveloped.
(** ... and otherwise, so for every message shorter than 8 bytes, if and only if the block cipher
    gives the same first bytes for the IV with the key and with the all-zero key.  Otherwise the
    first block is wrong. *)
Theorem C126_short_refuted : forall rnd0 c0 stale rnd r1 k iv ms d ds, mask_wf rnd0 -> mask_wf rnd -> rows16 stale -> bytesn 32 k -> bytesn 8 iv -> pieces ms -> pieces (d :: ds) ->
  let c := start rnd0 c0 k iv None true in
  concat (d :: ds) = snd (updates c ms) -> (length d < 8)%nat ->
  (opened rnd r1 k (set_asn1 (fst (fst (updates c ms))) stale) (d :: ds) = concat ms <->
   let n := Nat.min 8 (length (concat ms)) in
   firstn n (encrypt (packed_sbox default_sbox) k iv) = firstn n (encrypt (packed_sbox default_sbox) (zeros 32) iv)).
Proof. exact enveloped_iff. Qed.
Print Assumptions C126_short_refuted.
Theorem C126_short_is : forall rnd0 c0 stale rnd r1 k iv ms d ds, mask_wf rnd0 -> mask_wf rnd -> rows16 stale -> bytesn 32 k -> bytesn 8 iv -> pieces ms -> pieces (d :: ds) ->
  let c := start rnd0 c0 k iv None true in
  concat (d :: ds) = snd (updates c ms) -> (length d < 8)%nat ->
  opened rnd r1 k (set_asn1 (fst (fst (updates c ms))) stale) (d :: ds) =
  xorl (firstn 8 (concat ms)) (xorl (encrypt (packed_sbox default_sbox) k iv) (encrypt (packed_sbox default_sbox) (zeros 32) iv)) ++ skipn 8 (concat ms).
Proof. exact enveloped_short. Qed.
Print Assumptions C126_short_is.
(** The message "12345" does not come back. *)
Example C126_ex : let c := start exmask fresh_ctx exk exiv None true in let ms := [[0x31;0x32;0x33;0x34;0x35]] in let ct := [35; 168; 56; 41; 50] in
  pieces ms /\ pieces [ct] /\ concat [ct] = snd (updates c ms) /\ rows16 GostR3411_94_TestParamSet /\
  opened exmask exmask exk (set_asn1 (fst (fst (updates c ms))) GostR3411_94_TestParamSet) [ct] <> concat ms.
Proof.
  intros c ms ct. split; [|split; [|split; [|split]]].
  1, 2: constructor; [split; [repeat constructor|split; [discriminate|reflexivity]]|constructor].
  - vm_compute. reflexivity.
  - repeat split.
  - vm_compute. discriminate.
Qed.

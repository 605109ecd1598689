(** Property C134: key files and curve attributes as bytes (keylib/iit_asn1.c, attrcurvespec_asn1.c). *)
From Coq Require Import ZArith List Lia Permutation.
Import ListNotations.
From Verif Require Import Base Spec_Gost89 Spec_Hash Spec_Params Spec_Md Model_Gost89 Model_Params Model_KeyStore Model_Gf2m Model_Compress Model_Ec Model_Curves Model_Sign Model_Asn1 Model_Pmeth Model_Key
  Model_Utils Model_Ameth Model_Ctx Model_Key6 Model_Iit Model_KeyFile Spec_Sign Spec_Key Spec_Toy Spec_Ctx Spec_Keylib Spec_Iit Spec_Key6 Spec_Asn1 Spec_Ber Spec_KeyFile Proof_KeyFile.
From Verif Require Prop_Iit Prop_Ctx Prop_Keylib Prop_Key6.
Open Scope N_scope.

(** C134: every basic encoding of a key file is read as what it encodes, whatever follows. *)
Theorem C134_reads : forall type mac pad data w t, ber_iit true type mac pad data w -> N.of_nat (length w) < 2 ^ 31 ->
  d2i_IITStore (w ++ t) = Some (IITS (Some (IITH (Some type) (Some (IITP mac pad)))) (Some data)).
Proof. exact iit_complete. Qed.
Print Assumptions C134_reads.
(** What is read is what the bytes encode. *)
Theorem C134_only : forall l s, bytes l -> d2i_IITStore l = Some s ->
  exists type mac pad data w t, l = w ++ t /\ s = IITS (Some (IITH (Some type) (Some (IITP mac pad)))) (Some data) /\ ber_iit false type mac pad data w.
Proof. exact iit_sound. Qed.
Print Assumptions C134_only.
(** A file of the right type is decrypted, whatever its encoding and its mac and whatever follows. *)
Theorem C134_file : forall spec grp (e : attr_env spec grp) p8 (malloc : Model_KeyStore.heap -> nat) r mac data pad password plain k file t h ks,
  ber_iit true key6_type mac pad data file -> N.of_nat (length file) < 2 ^ 31 ->
  bytes password -> hashable (length password) -> mask_wf (k6_mask r) -> bytes plain -> length plain = (8 * k)%nat ->
  data ++ match pad with None => [] | Some p => p end = key6_encrypt (key6_key password) plain -> apart r (length plain) ->
  exists slack, length slack = 8%nat /\ slack = Base.rd (k6_mem r) (k6_res r + N.of_nat (length plain)) 8 /\
    parseKey6 e p8 malloc r (d2i_IITStore (file ++ t)) password h ks = keysFromPKCS8 e malloc h (p8 (plain ++ slack)) ks.
Proof. exact file_plain. Qed.
Print Assumptions C134_file.
(** Any other file is refused and nothing changes. *)
Theorem C134_otherwise : forall spec grp (e : attr_env spec grp) p8 (malloc : Model_KeyStore.heap -> nat) r file password h ks, bytes file ->
  parseKey6 e p8 malloc r (d2i_IITStore file) password h ks = Some (h, false, ks) \/
  exists mac pad data w t, file = w ++ t /\ ber_iit false key6_type mac pad data w /\
    parseKey6 e p8 malloc r (d2i_IITStore file) password h ks = parseKey6 e p8 malloc r (Some (key6_store mac data pad)) password h ks.
Proof. exact file_any. Qed.
Print Assumptions C134_otherwise.
(** The type is recognised by its octets: there is one way to write it. *)
Theorem C134_type : forall c c' type, oid_says c type -> oid_says c' type -> c = c'.
Proof. exact oid_unique. Qed.
Print Assumptions C134_type.
(** Files that differ in the mac, in their encoding and in what follows give the same (as C65). *)
Theorem C134_mac_refuted : forall spec grp (e : attr_env spec grp) p8 (malloc : Model_KeyStore.heap -> nat) r mac mac' data pad password file file' t t' h ks,
  ber_iit true key6_type mac pad data file -> N.of_nat (length file) < 2 ^ 31 -> ber_iit true key6_type mac' pad data file' -> N.of_nat (length file') < 2 ^ 31 ->
  parseKey6 e p8 malloc r (d2i_IITStore (file ++ t)) password h ks = parseKey6 e p8 malloc r (d2i_IITStore (file' ++ t')) password h ks.
Proof. exact file_mac. Qed.
Print Assumptions C134_mac_refuted.
(** Curve attributes: every basic encoding is read, and only such values of a sequence. *)
Theorem C134_attr_reads : forall a w t, ber_attr_spec true a w -> N.of_nat (length w) < 2 ^ 31 -> unpack_attr_spec (VOther (w ++ t)) = Some a.
Proof. exact attr_complete. Qed.
Print Assumptions C134_attr_reads.
Theorem C134_attr_only : forall v a, unpack_attr_spec v = Some a -> exists l, v = VOther l /\ (bytes l -> exists w t, l = w ++ t /\ ber_attr_spec false a w).
Proof. exact attr_sound. Qed.
Print Assumptions C134_attr_only.
(** The second key, from the bytes of the attribute (as C86). *)
Theorem C134_second_key : forall malloc solve, allocator malloc -> never_fails malloc -> forall o vs ka h n s sp g w t, heap_ok h -> octets ka ->
  hd_error (strings (at_vals ka)) = Some s -> ber_attr_spec true sp w -> N.of_nat (length w) < 2 ^ 31 -> plain_field (cu_field (as_spec sp)) -> described solve (as_spec sp) g ->
  exists r k h' n' Q, h_makePKey malloc solve unpack_attr_spec (ATTR o (VOther (w ++ t) :: vs)) ka (h, n) = Ret (Some (r, (1158%Z, Some k)), (h', n')) /\
    read_key k (h', n') = Ret (DKEY (ECKEY (Some (Binary g)) (Some (reversed_number s)) (Some Q)) None, (h', n')) /\ key_pair g (reversed_number s) Q /\
    exists h'' n'', h_evp_free (r, (1158%Z, Some k)) (h', n') = Ret (tt, (h'', n'')) /\ Permutation h'' h.
Proof. exact file_key. Qed.
Print Assumptions C134_second_key.

(** A file with a mac of 4 bytes and 16 bytes of ciphertext split after 5; one key comes out of
    the container of C64. *)
Definition ex_file (mac c : list N) : list N :=
  [0x30; 44; 0x30; 35; 6; 12; 0x2B; 6; 1; 4; 1; 0x81; 0x97; 0x46; 1; 1; 1; 2; 0x30; 19; 4; 4] ++ mac ++ [4; 11] ++ skipn 5 c ++ [4; 5] ++ firstn 5 c.
Example C134_ex_ber : forall mac c, length mac = 4%nat -> length c = 16%nat -> ber_iit true key6_type mac (Some (skipn 5 c)) (firstn 5 c) (ex_file mac c) /\ length (ex_file mac c) = 46%nat.
Proof.
  intros mac c Lm Lc. assert (L1 : length (skipn 5 c) = 11%nat) by (rewrite skipn_length, Lc; reflexivity). assert (L2 : length (firstn 5 c) = 5%nat) by (rewrite firstn_length, Lc; reflexivity).
  unfold ex_file. generalize dependent (skipn 5 c). generalize dependent (firstn 5 c). clear c Lc. intros d Ld p Lp. split; [|rewrite !app_length, Lm, Lp, Ld; reflexivity].
  set (o := [0x2B; 6; 1; 4; 1; 0x81; 0x97; 0x46; 1; 1; 1; 2]).
  set (wt := 6 :: 12 :: o). set (wm := 4 :: 4 :: mac). set (wq := 4 :: 11 :: p). set (wp := 0x30 :: 19 :: concat [wm; wq]). set (wh := 0x30 :: 35 :: concat [wt; wp]). set (wd := 4 :: 5 :: d).
  assert (M : ber_octets true mac wm) by (unfold wm; replace 4 with (N.of_nat (length mac)) at 2 by (rewrite Lm; reflexivity); apply octets_short; lia).
  assert (Q : ber_octets true p wq) by (unfold wq; replace 11 with (N.of_nat (length p)) by (rewrite Lp; reflexivity); apply octets_short; lia).
  assert (D : ber_octets true d wd) by (unfold wd; replace 5 with (N.of_nat (length d)) by (rewrite Ld; reflexivity); apply octets_short; lia).
  assert (C1 : length (concat [wm; wq]) = 19%nat) by (cbn [concat]; unfold wm, wq; rewrite app_nil_r, app_length; cbn [length]; lia).
  assert (Sp : ber_sequence true [wm; wq] wp) by (unfold wp; replace 19 with (N.of_nat (length (concat [wm; wq]))) by (rewrite C1; reflexivity); apply seq_short; lia).
  assert (C2 : length (concat [wt; wp]) = 35%nat) by (cbn [concat]; unfold wt, wp; rewrite app_nil_r, app_length; cbn [length o]; rewrite C1; reflexivity).
  assert (Sh : ber_sequence true [wt; wp] wh) by (unfold wh; replace 35 with (N.of_nat (length (concat [wt; wp]))) by (rewrite C2; reflexivity); apply seq_short; lia).
  exists o, wt, wm, [wq], wp, wh, wd. split; [exact key6_oid|]. split.
  { split; [destruct key6_oid as (_ & ids & x & y & t & F & E & _); exists ids; split; [intros ->; discriminate E|auto]|].
    exists [6], [12]. split; [apply ident_short; reflexivity|]. split; [left; split; [cbn; lia|reflexivity]|reflexivity]. }
  split; [exact M|]. split; [exists wq; auto|]. split; [exact Sp|]. split; [exact Sh|]. split; [exact D|].
  assert (C3 : length (concat [wh; wd]) = 44%nat) by (cbn [concat]; unfold wh, wd; rewrite app_nil_r, app_length; cbn [length]; rewrite C2, Ld; reflexivity).
  pose proof (seq_short [wh; wd]) as X. rewrite C3 in X. replace ([0x30; 44; _; _; _; _; _; _; _; _; _; _; _; _; _; _; _; _; _; _; _; _] ++ _) with (0x30 :: N.of_nat 44 :: concat [wh; wd]); [apply X; lia|].
  cbn [concat]. unfold wh, wd, wp, wt, wm, wq, o. cbn [concat app]. rewrite !app_nil_r, <- !app_assoc. reflexivity.
Qed.
Example C134_ex : let c := key6_encrypt (key6_key [0x31; 0x32]) Prop_Key6.ex_plain in
  exists h' a, parseKey6 Prop_Keylib.ex_env Prop_Key6.ex_p8 (fun _ => 3%nat) Prop_Key6.ex_run (d2i_IITStore (ex_file [1; 2; 3; 4] c ++ [9; 9])) [0x31; 0x32] heap0 None = Some (h', true, Some a) /\
    ks_get h' Keys a 0 = Some (Model_KeyStore.Ptr 7).
Proof.
  intros c. assert (L : length c = 16%nat).
  { destruct (Proof_Key6.enc_ok (key6_key [0x31; 0x32]) Prop_Key6.ex_plain 2) as [_ [_ L]]; [reflexivity|apply Lib.bytesb_ok; reflexivity|apply Proof_Key6.key6_key_bytesn|]. exact L. }
  destruct (C134_ex_ber [1; 2; 3; 4] c eq_refl L) as [B LF]. rewrite (C134_reads _ _ _ _ _ [9; 9] B) by (rewrite LF; reflexivity).
  destruct Prop_Key6.C64_ex as (h' & a & H & K). exists h', a. split; [|exact K]. rewrite <- H. apply Prop_Key6.C65_mac_ignored_refuted.
Qed.
(** A file with another type is read but refused; what is not a file is not read. *)
Example C134_ex_other : (exists s, d2i_IITStore [0x30; 0x80; 0x30; 10; 6; 2; 0x2A; 3; 0x30; 4; 0x24; 2; 4; 0; 4; 1; 7; 0; 0] = Some s /\
    s = IITS (Some (IITH (Some [1; 2; 3]) (Some (IITP [] None)))) (Some [7])) /\
  d2i_IITStore [0x30; 12; 0x30; 7; 6; 2; 0x2A; 3; 0x30; 1; 4; 4; 1; 7] = None /\ d2i_IITStore [] = None.
Proof. split; [eexists; split; vm_compute; reflexivity|]. vm_compute. split; reflexivity. Qed.
(** The curve attribute of C86 as bytes, in two encodings. *)
Example C134_ex_attr :
  unpack_attr_spec (VOther [0x30; 0x80; 0x30; 20; 0x30; 6; 2; 1; 5; 2; 1; 2; 2; 1; 1; 4; 1; 2; 2; 1; 17; 4; 1; 2; 4; 0; 0x24; 5; 4; 3; 8; 9; 1; 0; 0]) = Some (ASPEC Prop_Iit.iit_custom [] [8; 9; 1]) /\
  Prop_Iit.made (h_makePKey Prop_Ctx.plenty solve_quad unpack_attr_spec (ATTR None [VOctet [1]; VOther [0x30; 26; 0x30; 20; 0x30; 6; 2; 1; 5; 2; 1; 2; 2; 1; 1; 4; 1; 2; 2; 1; 17; 4; 1; 2; 4; 0; 4; 0]]) Prop_Iit.iit_number ([], 0%nat)) =
    Some (Some (DKEY (ECKEY (Some (Binary toy_group)) (Some 5) (Some (Some (21, 17)))) None), 3%nat).
Proof. vm_compute. split; reflexivity. Qed.

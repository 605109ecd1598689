(** Properties C137 and C138: cipher parameters as ASN.1 values (engine/cipher.c:176-229). *)
From Coq Require Import ZArith List Lia Permutation.
Import ListNotations.
From Verif Require Import Base Lib Model_Gost89 Model_Params Model_Cipher Model_Kmem Model_CipherMem Spec_Cipher Spec_Ber Spec_Kmem Spec_CipherMem Proof_CipherMem Proof_CipherMem2.
From Verif Require Prop_Kmem Prop_Cipher.
Open Scope N_scope.

(** C137: the parameters of a cipher context are stored in an ASN1_TYPE that may hold a value.
    Whatever memory there is, either 1 is returned and the holder has the parameters, in blocks of
    its own, the former value is freed and all other memory is as before; or -1 is returned,
    because memory ran out, and the holder and the memory are as before. *)
Theorem C137_set : forall malloc, kallocator malloc -> forall c stale a h F n, kheap_ok h -> Permutation (cells a ++ F) h ->
  match h_set_asn1 malloc c stale a (h, n) with
  | KRet ((1%Z, Some (v, (s, d))), (h', _)) => v = set_asn1 c stale /\ Permutation ((d, KTemp) :: (s, KTemp) :: F) h'
  | KRet (((-1)%Z, a'), (h', _)) => a' = a /\ Permutation h h' /\ ~ kenough malloc
  | _ => False
  end.
Proof. exact set_run. Qed.
Print Assumptions C137_set.
(** A fresh holder and one with a value; each of the two allocations failing. *)
Definition ex_old : asn1_holder := Some (ASN1 5 [], (21%nat, 22%nat)).
Definition ex_heap : kheap := (21%nat, KTemp) :: (22%nat, KTemp) :: Prop_Kmem.ex_mem.
Definition ex_set malloc (a : asn1_holder) (h : kheap) :=
  match h_set_asn1 malloc (evp_init Prop_Cipher.exmask fresh_ctx (Some Prop_Cipher.exk) (Some Prop_Cipher.exiv) true) GostR3411_94_TestParamSet a (h, 0%nat) with
  | KRet ((r, a'), (h', _)) => Some (r, match a' with Some (v, _) => (a_type v, firstn 12 (a_data v)) | None => (0%Z, []) end, length h')
  | _ => None
  end.
Example C137_ex : ex_set Prop_Kmem.ex_enough None Prop_Kmem.ex_mem = Some (1%Z, (16%Z, [0x30; 76; 4; 8] ++ Prop_Cipher.exiv), (2 + length Prop_Kmem.ex_mem)%nat) /\
  ex_set Prop_Kmem.ex_enough ex_old ex_heap = Some (1%Z, (16%Z, [0x30; 76; 4; 8] ++ Prop_Cipher.exiv), length ex_heap) /\
  ex_set (kfails_at 0) ex_old ex_heap = Some ((-1)%Z, (5%Z, []), length ex_heap) /\
  ex_set (kfails_at 1) ex_old ex_heap = Some ((-1)%Z, (5%Z, []), length ex_heap) /\
  ex_set (kfails_at 1) None Prop_Kmem.ex_mem = Some ((-1)%Z, (0%Z, []), length Prop_Kmem.ex_mem).
Proof. vm_compute. repeat split. Qed.

(** C138: parameters read from bytes.  The DER encoding of an IV and an S-box is taken, whatever
    follows it. *)
Theorem C138_reads : forall c iv p t, bytesn 8 iv -> bytesn 64 p ->
  read_params c (der_params iv p ++ t) = Some (fst (fst (cipher_ctrl (set_oiv c iv) 4097%Z 64 (Some p))), 1%Z, t).
Proof. exact read_der. Qed.
Print Assumptions C138_reads.
(** Of all bytes, only those that begin with such an encoding; else the context is as before. *)
Theorem C138_only : forall c l, bytes l ->
  match read_params c l with
  | Some (c', r, t) => (exists iv p, bytesn 8 iv /\ bytesn 64 p /\ l = der_params iv p ++ t /\ r = 1%Z) \/
      (forall iv p u, bytesn 8 iv -> bytesn 64 p -> l <> der_params iv p ++ u) /\ c' = c /\ r = (-1)%Z
  | None => forall iv p u, bytesn 8 iv -> bytesn 64 p -> l <> der_params iv p ++ u
  end.
Proof. exact read_only. Qed.
Print Assumptions C138_only.
(** So every other basic encoding of the same parameters is refused. *)
Theorem C138_other_encodings : forall c iv p w1 w2 w t, bytes w -> bytes t -> ber_octets true iv w1 -> ber_octets true p w2 -> ber_sequence true [w1; w2] w ->
  N.of_nat (length w) < 2 ^ 63 -> w <> der_params iv p -> read_params c (w ++ t) = Some (c, (-1)%Z, t).
Proof. exact read_ber. Qed.
Print Assumptions C138_other_encodings.
(** The parameters in DER, in a SEQUENCE of indefinite length, with a long length, and cut short. *)
Example C138_ex :
  let body := der 4 Prop_Cipher.exiv ++ der 4 Prop_Cipher.exsb in
  let ask l := match read_params fresh_ctx l with Some (c, r, t) => Some (c_oiv c, r, t) | None => None end in
  ask (der_params Prop_Cipher.exiv Prop_Cipher.exsb ++ [5; 0]) = Some (Prop_Cipher.exiv, 1%Z, [5; 0]) /\
  ask ([0x30; 128] ++ body ++ [0; 0; 7]) = Some (c_oiv fresh_ctx, (-1)%Z, [7]) /\
  ask ([0x30; 129; 76] ++ body) = Some (c_oiv fresh_ctx, (-1)%Z, []) /\
  ask ([0x30; 76] ++ removelast body) = None.
Proof. vm_compute. repeat split. Qed.

(** Cipher parameters in memory. *)
From Verif Require Import Base Model_Kmem Model_CipherMem.

(** The blocks that hold an ASN.1 value. *)
Definition cells (a : asn1_holder) : kheap := match a with None => [] | Some (_, (s, d)) => [(s, KTemp); (d, KTemp)] end.

(** Properties of keys made from IIT attributes (keylib/utils.c). *)
From Coq Require Import ZArith List Permutation Lia.
Import ListNotations.
From Verif Require Import Base Model_Params Model_Gf2m Model_Compress Model_Ec Model_Curves Model_Sign Model_Asn1 Model_Pmeth Model_Key Model_Utils Model_Ameth Model_Ctx Model_Iit
  Spec_Sign Spec_Key Spec_Toy Spec_Ctx Spec_Keylib Spec_Iit Proof_Toy Proof_Ctx6 Proof_Iit Prop_Ctx.
Open Scope N_scope.

(** Attributes on the small curve: the first value of the curve attribute is not a curve, the
    second describes the small curve and an S-box; the key is 5. *)
Definition iit_custom : custom := CUSTOM (BF 5 (Trinomial 2)) 1 [2] 17 [2].
Definition iit_spec : attr_spec := ASPEC iit_custom [] zeros64.
Definition iit_unpack (v : asn1_val) : option attr_spec := match v with VOther [1] => Some iit_spec | VOther [2] => Some (ASPEC (CUSTOM (BF 5 (Trinomial (-2))) 1 [2] 17 [2]) [] []) | _ => None end.
Definition iit_curve : attribute := ATTR (Some iit_curve_oid) [VOctet [1]; VOther [1]].
Definition iit_number : attribute := ATTR (Some iit_key_oid) [VBit [0xA0]].
Example iit_ex : allocator plenty /\ never_fails plenty /\ heap_ok [] /\ octets iit_number /\ hd_error (strings (at_vals iit_number)) = Some [0xA0] /\ reversed_number [0xA0] = 5 /\
  hd_error (curve_specs iit_unpack iit_curve) = Some iit_spec /\ plain_field (cu_field iit_custom) /\ good_field (cu_field iit_custom) /\ described solve_quad iit_custom toy_group.
Proof.
  split; [apply plenty_ex|]. split; [apply plenty_ex|]. split; [constructor|]. split.
  { intros s [<-|[]]. repeat constructor. }
  split; [reflexivity|]. split; [reflexivity|]. split; [reflexivity|]. split.
  { unfold plain_field. repeat (apply Forall_cons; [cbn; lia|]). apply Forall_nil. }
  split; [unfold good_field, good_exponent; cbn; lia|].
  split; [|split; [left; reflexivity|]; split; [reflexivity|]; split; [reflexivity|]; split; [vm_compute; reflexivity|]; split; [reflexivity|]; split; [reflexivity|]; split; [vm_compute; discriminate|reflexivity]].
  intros i. change (c_p (g_curve toy_group)) with 37. split.
  - intros H. assert (i < 6) as L. { destruct (N.lt_ge_cases i 6) as [L|L]; [exact L|]. rewrite N.bits_above_log2 in H; [discriminate|]. cbn. lia. }
    assert (i = 0 \/ i = 1 \/ i = 2 \/ i = 3 \/ i = 4 \/ i = 5) as C by lia. destruct C as [->|[->|[->|[->|[->| ->]]]]]; cbn in H |- *; try discriminate; auto.
  - intros [H|[H|[H|[]]]]; cbn in H.
    + replace i with 5 by lia. reflexivity.
    + replace i with 2 by lia. reflexivity.
    + replace i with 0 by lia. reflexivity.
Qed.

(** C86: with enough memory, if the first structure in the curve attribute describes a group and
    the key attribute holds a string, the result is a little-endian key with this group, the
    number the string stands for, and the public key belonging to it; freeing it leaves the
    memory as it was. *)
Theorem C86_key : forall malloc solve unpack, allocator malloc -> never_fails malloc -> forall ca ka h n s sp g, heap_ok h -> octets ka ->
  hd_error (strings (at_vals ka)) = Some s -> hd_error (curve_specs unpack ca) = Some sp -> plain_field (cu_field (as_spec sp)) -> described solve (as_spec sp) g ->
  exists r k h' n' Q, h_makePKey malloc solve unpack ca ka (h, n) = Ret (Some (r, (1158%Z, Some k)), (h', n')) /\
    read_key k (h', n') = Ret (DKEY (ECKEY (Some (Binary g)) (Some (reversed_number s)) (Some Q)) None, (h', n')) /\ key_pair g (reversed_number s) Q /\
    exists h'' n'', h_evp_free (r, (1158%Z, Some k)) (h', n') = Ret (tt, (h'', n'')) /\ Permutation h'' h.
Proof. exact iit_key. Qed.
Print Assumptions C86_key.
(** No key is made, and nothing leaks, if there is no such structure or it describes no group. *)
Theorem C86_refused : forall malloc solve unpack, allocator malloc -> never_fails malloc -> forall ca ka h n, heap_ok h -> octets ka ->
  (forall sp, hd_error (curve_specs unpack ca) = Some sp -> plain_field (cu_field (as_spec sp)) /\ forall g, ~ described solve (as_spec sp) g) ->
  exists h' n', h_makePKey malloc solve unpack ca ka (h, n) = Ret (None, (h', n')) /\ Permutation h' h.
Proof. exact iit_refused. Qed.
Print Assumptions C86_refused.
(** The group is the one read from the same structure in big-endian key parameters, or with the
    strings reversed in little-endian ones. *)
Theorem C86_same_group : forall solve c g, good_field (cu_field c) -> (cu_a c = 0 \/ cu_a c = 1)%Z -> cu_b c <> [] -> cu_bp c <> [] ->
  (described solve c g <-> group_from_asn1 solve c false = Some g) /\
  (described solve c g <-> group_from_asn1 solve (CUSTOM (cu_field c) (cu_a c) (rev (cu_b c)) (cu_n c) (rev (cu_bp c))) true = Some g).
Proof. exact same_group. Qed.
Print Assumptions C86_same_group.
Definition made (r : step (option (nat * evp_key) * mem)) : option (option dstu_key * nat) :=
  match r with
  | Ret (Some (_, (_, Some k)), m) => match read_key k m with Ret (v, _) => Some (Some v, length (fst m)) | _ => None end
  | Ret (None, m) => Some (None, length (fst m))
  | _ => None
  end.
Example C86_ex : made (h_makePKey plenty solve_quad iit_unpack iit_curve iit_number ([], 0%nat)) = Some (Some (DKEY (ECKEY (Some (Binary toy_group)) (Some 5) (Some (Some (21, 17)))) None), 3%nat) /\
  made (h_makePKey plenty solve_quad iit_unpack (ATTR None [VOctet [1]]) iit_number ([], 0%nat)) = Some (None, 0%nat).
Proof. vm_compute. split; reflexivity. Qed.

(** C87: with enough memory and exponents that are not negative the call returns. *)
Theorem C87_safe : forall malloc solve unpack, allocator malloc -> never_fails malloc -> forall ca ka h n, heap_ok h -> octets ka ->
  (forall sp, hd_error (curve_specs unpack ca) = Some sp -> plain_field (cu_field (as_spec sp))) ->
  exists r m, h_makePKey malloc solve unpack ca ka (h, n) = Ret (r, m).
Proof. exact iit_safe. Qed.
Print Assumptions C87_safe.
(** It does not hold in general: a negative exponent (other than -1, which ends the list) makes
    the polynomial NULL, and NULL is used. *)
Theorem C87_crash_refuted : forall malloc solve unpack, allocator malloc -> never_fails malloc -> forall ca ka h n sp, heap_ok h -> hd_error (curve_specs unpack ca) = Some sp ->
  int_field (cu_field (as_spec sp)) -> ~ In (-1)%Z (Spec_Keylib.exponents (cu_field (as_spec sp))) -> Exists (fun x => x < 0)%Z (Spec_Keylib.exponents (cu_field (as_spec sp))) ->
  h_makePKey malloc solve unpack ca ka (h, n) = Undef.
Proof. exact iit_negative. Qed.
Print Assumptions C87_crash_refuted.
(** Nor when the first allocation fails. *)
Theorem C87_memory_refuted : forall malloc solve unpack ca ka h n, malloc n h = None -> h_makePKey malloc solve unpack ca ka (h, n) = Undef.
Proof. exact iit_no_memory. Qed.
Print Assumptions C87_memory_refuted.
(** Nor when there is no memory for the reversed string. *)
Theorem C87_buffer_refuted : forall malloc solve unpack ca ka h n p b s, malloc n h = Some p -> malloc (S n) ((p, OTemp) :: h) = None -> hd_error (strings (at_vals ka)) = Some (b :: s) ->
  h_makePKey malloc solve unpack ca ka (h, n) = Undef.
Proof. exact iit_no_buffer. Qed.
Print Assumptions C87_buffer_refuted.
Example C87_ex : h_makePKey plenty solve_quad iit_unpack (ATTR None [VOther [2]]) iit_number ([], 0%nat) = Undef /\
  hd_error (curve_specs iit_unpack (ATTR None [VOther [2]])) = Some (ASPEC (CUSTOM (BF 5 (Trinomial (-2))) 1 [2] 17 [2]) [] []).
Proof. vm_compute. split; reflexivity. Qed.

(** C88 does not hold: a group described by the curve attribute stays in memory for ever if the
    key attribute holds no string. *)
Theorem C88_leak_refuted : forall malloc solve unpack, allocator malloc -> never_fails malloc -> forall ca ka h n sp g, heap_ok h -> strings (at_vals ka) = [] ->
  hd_error (curve_specs unpack ca) = Some sp -> plain_field (cu_field (as_spec sp)) -> described solve (as_spec sp) g ->
  exists a h' n', h_makePKey malloc solve unpack ca ka (h, n) = Ret (None, (h', n')) /\ Permutation h' ((a, OGroup (Binary g)) :: h).
Proof. exact iit_leak. Qed.
Print Assumptions C88_leak_refuted.
(** And when memory runs out after the EVP_PKEY was made, that stays. *)
Theorem C88_memory_refuted : exists ok h n, allocator (some_malloc ok) /\
  h_makePKey (some_malloc ok) solve_quad iit_unpack iit_curve iit_number ([], 0%nat) = Ret (None, (h, n)) /\ h <> [].
Proof.
  exists (fun n => (n <? 11)%nat). vm_compute h_makePKey. do 2 eexists. split; [apply above_allocator|]. split; [reflexivity|discriminate].
Qed.
Print Assumptions C88_memory_refuted.
Example C88_ex : made (h_makePKey plenty solve_quad iit_unpack iit_curve (ATTR None [VOther [7]]) ([], 0%nat)) = Some (None, 1%nat).
Proof. vm_compute. reflexivity. Qed.

(** C89 does not hold: the S-box in the curve attribute never reaches the key; hashing with it
    uses the default one. *)
Theorem C89_sbox_refuted : forall malloc solve unpack, allocator malloc -> never_fails malloc -> forall ca ka h n s sp g, heap_ok h -> octets ka ->
  hd_error (strings (at_vals ka)) = Some s -> hd_error (curve_specs unpack ca) = Some sp -> plain_field (cu_field (as_spec sp)) -> described solve (as_spec sp) g ->
  exists r k m v, h_makePKey malloc solve unpack ca ka (h, n) = Ret (Some (r, (1158%Z, Some k)), m) /\ read_key k m = Ret (v, m) /\ dk_sbox v = None.
Proof. exact iit_no_sbox. Qed.
Print Assumptions C89_sbox_refuted.
Example C89_ex : as_dke1 iit_spec = zeros64 /\ zeros64 <> default_sbox.
Proof. split; [reflexivity|]. intros E. apply (f_equal (@hd N 1)) in E. vm_compute in E. discriminate. Qed.

(** Properties of signatures, points and curves when memory runs out. *)
From Coq Require Import Lia ZArith.
From Verif Require Import Base Model_Params Model_Gf2m Model_Compress Model_Ec Model_Utils Model_Curves Model_Sign Model_Asn1 Model_Pmeth Model_Key Model_Ctx Model_Oom
  Spec_Gf2m Spec_Compress Spec_Curves Spec_Sign Spec_Key Spec_Ctx Spec_Oom Spec_Toy Proof_Compress2 Proof_Ctx6 Proof_Toy Proof_Oom Proof_Oom2 Proof_Oom3.

Definition toy_key : eckey := ECKEY (Some (Binary toy_group)) (Some 5) (Some (pneg (pmul toy 5 (Some (3, 25))))).
Definition threes : source := fun _ => Some 3.
Definition value {A} (r : step (A * mem)) : option A := match r with Ret (a, _) => Some a | _ => None end.
Definition cells {A} (r : step (A * mem)) : option heap := match r with Ret (_, (h, _)) => Some h | _ => None end.

(** C97: expanding a compressed point gives the right point or fails.  It does not hold: the
    failure of the last bn_trace is taken for the trace 1 (compress.c:197), and the call reports
    success with the opposite point. *)
Theorem C97_refuted : exists k, allocator (fails_at k) /\ well_formed toy_group /\ good_solver (c_p toy) solve_quad /\
  value (h_expand (fails_at k) solve_quad [2] toy ([], 0%nat)) = Some (Some (Some (3, 26))) /\ stands_for toy [2] 3 25 /\ ~ stands_for toy [2] 3 26.
Proof. exact expand_wrong. Qed.
Print Assumptions C97_refuted.
(** So it is with every string that stands for a point other than the one with x = 0, on every
    curve and in every state of the memory: there is one call to the allocator whose failure alone
    turns the point into the opposite one. *)
Theorem C97_every_refuted : forall c s x y h n, dstu_curve c -> field_size c <= N.of_nat (length s) -> stands_for c s x y -> x <> 0 ->
  exists k n', h_expand (fails_at k) solve_quad s c (h, n) = Ret (Some (Some (x, N.lxor x y)), (h, n')) /\ ~ stands_for c s x (N.lxor x y).
Proof. exact expand_every. Qed.
Print Assumptions C97_every_refuted.
Example C97_every_ex : dstu_curve toy /\ on_curve toy 3 25 /\ field_size toy <= N.of_nat (length [2]) /\ stands_for toy [2] 3 25 /\ N.lxor 3 25 = 26.
Proof. destruct expand_wrong as (k & _ & [D _] & _ & _ & S & _). split; [exact D|]. split; [exact (proj1 S)|]. split; [vm_compute; discriminate|]. split; [exact S|reflexivity]. Qed.
(** Nothing worse: the point is right or the opposite one, and nothing stays allocated. *)
Theorem C97_opposite : forall malloc, allocator malloc -> forall solve s c h n r h' n', 1 < c_p c -> h_expand malloc solve s c (h, n) = Ret (r, (h', n')) ->
  h' = h /\ (r = None \/ exists P, expand solve s c = Some P /\ (r = Some P \/ r = Some (pneg P))).
Proof. exact expand_opposite. Qed.
Print Assumptions C97_opposite.
Theorem C97_enough : forall malloc, allocator malloc -> forall solve s c h n, never_fails malloc -> exists n', h_expand malloc solve s c (h, n) = Ret (expand solve s c, (h, n')).
Proof. exact expand_enough. Qed.
Print Assumptions C97_enough.
Example C97_ex : 1 < c_p toy /\ value (h_expand (fails_at 25) solve_quad [2] toy ([], 0%nat)) = Some None /\ value (h_expand (fails_at 99) solve_quad [2] toy ([], 0%nat)) = Some (Some (Some (3, 25))) /\
  cells (h_expand (fails_at 30) solve_quad [2] toy ([(7, OTemp)], 0)%nat) = Some [(7, OTemp)]%nat.
Proof. split; [reflexivity|]. vm_compute. repeat split. Qed.

(** C98: compressing a point gives the right string or fails, and does not crash.  It does not hold
    as far as OpenSSL's interface goes: the result of BN_CTX_get in bn_trace is used unchecked
    (compress.c:21-23), and so is that of BN_CTX_new when the parameters of a key are encoded. *)
Theorem C98_crash_refuted : exists k, allocator (fails_at k) /\ h_compress (fails_at k) toy (Some (3, 25)) 1 ([], 0%nat) = Undef /\ h_expand (fails_at k) solve_quad [2] toy ([], 0%nat) = Undef.
Proof. exact compress_crash. Qed.
Print Assumptions C98_crash_refuted.
(** So it is with every point other than the one with x = 0 and with every string that is not all
    zero, on every curve of the standard. *)
Theorem C98_every_refuted : forall c h n, dstu_curve c ->
  (forall x y len, on_curve c x y -> x <> 0 -> field_size c <= len -> exists k, h_compress (fails_at k) c (Some (x, y)) len (h, n) = Undef) /\
  (forall solve s, field_size c <= N.of_nat (length s) -> be_val s <> 0 -> exists k, h_expand (fails_at k) solve s c (h, n) = Undef).
Proof. exact crash_every. Qed.
Print Assumptions C98_every_refuted.
Theorem C98_encode_refuted : forall malloc g le h n, malloc n h <> None -> malloc (S n) h = None -> h_custom_from_group malloc g le (h, n) = Undef.
Proof. exact encode_no_ctx. Qed.
Print Assumptions C98_encode_refuted.
Theorem C98_right : forall malloc, allocator malloc -> forall c P len h n r h' n', h_compress malloc c P len (h, n) = Ret (r, (h', n')) -> h' = h /\ (r = None \/ r = compress c P len).
Proof. exact compress_right. Qed.
Print Assumptions C98_right.
Theorem C98_enough : forall malloc, allocator malloc -> forall c P len h n, never_fails malloc -> exists n', h_compress malloc c P len (h, n) = Ret (compress c P len, (h, n')).
Proof. exact compress_enough. Qed.
Print Assumptions C98_enough.
Example C98_ex : value (h_compress (fails_at 15) toy (Some (3, 25)) 1 ([], 0%nat)) = Some None /\ value (h_compress (fails_at 99) toy (Some (3, 25)) 1 ([], 0%nat)) = Some (Some [2]) /\
  fails_at 1 0%nat [] <> None /\ fails_at 1 1%nat [] = None.
Proof. vm_compute. repeat split. discriminate. Qed.

(** C99: whatever allocations fail, signing does not crash and a signature it reports is one it
    would have made with enough memory; verification and key generation do not crash, do not
    accept or report what they would not have; nothing stays allocated. *)
Theorem C99_sign : forall malloc, allocator malloc -> forall fuel key tbs src h n, h_do_sign malloc fuel key tbs src (h, n) <> Undef /\
  forall r h' n', h_do_sign malloc fuel key tbs src (h, n) = Ret (r, (h', n')) -> h' = h /\ forall sig, r = Some sig -> do_sign fuel key tbs src = Done sig.
Proof. exact sign_right. Qed.
Print Assumptions C99_sign.
Theorem C99_sign_enough : forall malloc, allocator malloc -> forall fuel key tbs src h n, never_fails malloc ->
  match do_sign fuel key tbs src with
  | Running => h_do_sign malloc fuel key tbs src (h, n) = Loop
  | Failed => exists n', h_do_sign malloc fuel key tbs src (h, n) = Ret (None, (h, n'))
  | Done sig => exists n', h_do_sign malloc fuel key tbs src (h, n) = Ret (Some sig, (h, n'))
  end.
Proof. exact sign_enough. Qed.
Print Assumptions C99_sign_enough.
Theorem C99_verify : forall malloc, allocator malloc -> forall key tbs sig h n, exists b n', h_do_verify malloc key tbs sig (h, n) = Ret (b, (h, n')) /\
  (b = true -> do_verify key tbs sig = true) /\ (never_fails malloc -> b = do_verify key tbs sig).
Proof. exact verify_right. Qed.
Print Assumptions C99_verify.
Theorem C99_generate : forall malloc, allocator malloc -> forall fuel key src h n, h_do_generate malloc fuel key src (h, n) <> Undef /\
  (forall b k h' n', h_do_generate malloc fuel key src (h, n) = Ret ((b, k), (h', n')) -> h' = h /\
     if b then generate_key fuel key src = Done k else ek_group k = ek_group key /\ ek_pub k = ek_pub key) /\
  (never_fails malloc -> forall k, generate_key fuel key src = Done k -> exists n', h_do_generate malloc fuel key src (h, n) = Ret ((true, k), (h, n'))) /\
  (h_do_generate malloc fuel key src (h, n) = Loop -> generate_key fuel key src = Running).
Proof. exact generate_right. Qed.
Print Assumptions C99_generate.
Theorem C99_public : forall malloc, allocator malloc -> forall key h n, exists b k n', h_do_add_public malloc key (h, n) = Ret ((b, k), (h, n')) /\
  (if b then add_public_key key = Some k else k = key) /\ (never_fails malloc -> b = match add_public_key key with Some _ => true | None => false end).
Proof. exact public_right. Qed.
Print Assumptions C99_public.
Example C99_ex : let s k := value (h_do_sign (fails_at k) 1 toy_key [11] threes ([], 0%nat)) in let v k := value (h_do_verify (fails_at k) toy_key [11] [12; 12] ([], 0%nat)) in
  s 99%nat = Some (Some [12; 12]) /\ s 10%nat = Some None /\ s 17%nat = Some None /\ v 99%nat = Some true /\ v 12%nat = Some false /\
  value (h_do_generate (fails_at 99) 1 toy_key threes ([], 0%nat)) = Some (true, ECKEY (Some (Binary toy_group)) (Some 3) (Some (pneg (pmul toy 3 (Some (3, 25)))))) /\
  value (h_do_generate (fails_at 5) 1 toy_key threes ([], 0%nat)) = Some (false, ECKEY (Some (Binary toy_group)) (Some 3) (ek_pub toy_key)).
Proof. vm_compute. repeat split. Qed.

(** C100: signing ends even if memory runs out.  It does not hold: if the digest is all zeros and
    the replacement of zero by one fails (the result of BN_one is not tested, sign.c:46), every
    nonce gives r = 0 and signing tries further ones for ever. *)
Theorem C100_refuted : forall g d Q k src h, g_order g <> 0 -> (forall i, exists e, src i = Some e /\ pmul (g_curve g) e (g_gen g) <> None) ->
  allocator (fails_at 13) /\ forall fuel, h_do_sign (fails_at 13) fuel (ECKEY (Some (Binary g)) (Some d) Q) (zeros (S k)) src (h, 0%nat) = Loop.
Proof. exact (fun g d Q k src h Hn Hs => conj (fails_alloc 13) (fun fuel => endless g d Q k src fuel h Hn Hs)). Qed.
Print Assumptions C100_refuted.
(** Only then. *)
Theorem C100_otherwise : forall malloc, allocator malloc -> forall fuel key tbs src h n, do_sign fuel key tbs src <> Running -> (exists b, In b tbs /\ b <> 0) \/ never_fails malloc ->
  exists r n', h_do_sign malloc fuel key tbs src (h, n) = Ret (r, (h, n')).
Proof. exact sign_ends. Qed.
Print Assumptions C100_otherwise.
Example C100_ex : g_order toy_group <> 0 /\ (forall i, exists e, threes i = Some e /\ pmul toy e (Some (3, 25)) <> None) /\
  h_do_sign (fails_at 13) 50 toy_key (zeros 32) threes ([], 0%nat) = Loop /\ value (h_do_sign (fails_at 99) 1 toy_key (zeros 32) threes ([], 0%nat)) <> None.
Proof. split; [discriminate|]. split; [intros i; exists 3; split; [reflexivity|vm_compute; discriminate]|]. split; [vm_compute; reflexivity|]. vm_compute. discriminate. Qed.

(** C101: a standard curve is built as it should be or not at all, and nothing else stays
    allocated; a curve is recognised as the right standard curve or as none. *)
Theorem C101_curve : forall malloc, allocator malloc -> forall nid h n, exists r h' n', h_group_from_nid malloc nid (h, n) = Ret (r, (h', n')) /\
  match r with
  | None => h' = h /\ (never_fails malloc -> group_from_nid nid = None)
  | Some q => exists g, group_from_nid nid = Some g /\ h' = (q, OGroup (Binary g)) :: h /\ live h q = None
  end.
Proof. exact curve_right. Qed.
Print Assumptions C101_curve.
Theorem C101_recognised : forall malloc, allocator malloc -> forall g h n, exists nid n', h_curve_nid malloc g (h, n) = Ret (nid, (h, n')) /\
  (nid = curve_nid_from_group g \/ nid = 0%Z) /\ (never_fails malloc -> nid = curve_nid_from_group g).
Proof. exact recognise_right. Qed.
Print Assumptions C101_recognised.
(** The ninth allocation is that of a = 1: the generator is not on the curve with a = 0. *)
Example C101_ex : value (h_group_from_nid (fails_at 8) 1160 ([], 0%nat)) = Some None /\ value (h_group_from_nid (fails_at 99) 1160 ([], 0%nat)) = Some (Some 1%nat) /\ value (h_group_from_nid (fails_at 99) 1159 ([], 0%nat)) = Some None.
Proof. vm_compute. repeat split. Qed.

(** C102: parameters encoded although memory ran out stand for the same curve and S-box. *)
Theorem C102_same : forall malloc, allocator malloc -> forall solve g sb le h n q v h' n', well_formed g -> api_group g -> good_solver (c_p (g_curve g)) solve -> sbox_ok sb -> g_cofactor g = 1 ->
  h_from_key malloc g sb le (h, n) = Ret (Some (q, v), (h', n')) -> h' = (q, OTemp) :: h /\
  exists sb', effective sb' = effective sb /\ key_from_asn1 solve v le = Some (DKEY (ECKEY (Some (Binary g)) None None) sb').
Proof. exact written_same. Qed.
Print Assumptions C102_same.
(** But they need not be the same octets: one failing allocation, and a standard curve is written
    with all its parameters instead of its name. *)
Theorem C102_explicit : forall nid g le h, group_from_nid nid = Some g ->
  exists c o q n', h_from_key (fails_at 1) g None le (h, 0%nat) = Ret (Some (q, PARAMS (Custom c) None), ((q, OTemp) :: h, n')) /\
  asn1_from_key (DKEY (ECKEY (Some (Binary g)) None None) None) le = Ok (PARAMS (Named o) None) /\ group_from_asn1 solve_quad c le = Some g.
Proof. exact explicit. Qed.
Print Assumptions C102_explicit.
Example C102_ex : well_formed toy_group /\ value (h_from_key (fails_at 99) toy_group None true ([], 0%nat)) = Some (Some (0%nat, PARAMS (Custom (CUSTOM (BF 5 (Trinomial 2)) 1 [2] 17 [2])) None)) /\
  value (h_from_key (fails_at 30) toy_group None true ([], 0%nat)) = Some None.
Proof. split; [exact toy_good|]. vm_compute. split; reflexivity. Qed.

(** C103: a curve given by its parameters is built as it should be or not at all.  It does not hold:
    the base point is expanded, see C97. *)
Theorem C103_refuted : exists k q g, allocator (fails_at k) /\ group_from_asn1 solve_quad (CUSTOM (BF 5 (Trinomial 2)) 1 [2] 17 [2]) true = Some toy_group /\
  cells (h_group_from_asn1 (fails_at k) solve_quad (CUSTOM (BF 5 (Trinomial 2)) 1 [2] 17 [2]) true ([], 0%nat)) = Some [(q, OGroup (Binary g))] /\
  value (h_group_from_asn1 (fails_at k) solve_quad (CUSTOM (BF 5 (Trinomial 2)) 1 [2] 17 [2]) true ([], 0%nat)) = Some (Some q) /\
  g_gen g = pneg (g_gen toy_group) /\ g_gen g <> g_gen toy_group.
Proof. exact custom_wrong. Qed.
Print Assumptions C103_refuted.
(** So it is with all parameters of a curve of the standard whose base point has not x = 0, in both
    byte orders and in every state of the memory. *)
Theorem C103_every_refuted : forall spec le g x y h n, group_from_asn1 solve_quad spec le = Some g -> dstu_curve (g_curve g) -> g_gen g = Some (x, y) -> x <> 0 ->
  pneg (g_gen g) <> g_gen g /\ exists k q n', h_group_from_asn1 (fails_at k) solve_quad spec le (h, n) =
    Ret (Some q, ((q, OGroup (Binary (GROUP (g_curve g) (pneg (g_gen g)) (g_order g) (g_cofactor g)))) :: h, n')).
Proof. exact custom_every_opposite. Qed.
Print Assumptions C103_every_refuted.
Example C103_every_ex : group_from_asn1 solve_quad (CUSTOM (BF 5 (Trinomial 2)) 1 [2] 17 [2]) true = Some toy_group /\ dstu_curve (g_curve toy_group) /\ g_gen toy_group = Some (3, 25).
Proof. split; [vm_compute; reflexivity|]. split; [exact (proj1 toy_good)|reflexivity]. Qed.
(** Nothing worse. *)
Theorem C103_opposite : forall malloc, allocator malloc -> forall solve spec le h n r h' n', h_group_from_asn1 malloc solve spec le (h, n) = Ret (r, (h', n')) ->
  match r with
  | None => h' = h
  | Some q => exists g0 G, group_from_asn1 solve spec le = Some g0 /\ (G = g_gen g0 \/ G = pneg (g_gen g0)) /\
      h' = (q, OGroup (Binary (GROUP (g_curve g0) G (g_order g0) (g_cofactor g0)))) :: h /\ live h q = None
  end.
Proof. exact custom_opposite. Qed.
Print Assumptions C103_opposite.
Theorem C103_enough : forall malloc, allocator malloc -> forall solve spec le h n, never_fails malloc ->
  match group_from_asn1 solve spec le with
  | None => exists n', h_group_from_asn1 malloc solve spec le (h, n) = Ret (None, (h, n'))
  | Some g => exists q n', h_group_from_asn1 malloc solve spec le (h, n) = Ret (Some q, ((q, OGroup (Binary g)) :: h, n'))
  end.
Proof. exact custom_enough. Qed.
Print Assumptions C103_enough.
Example C103_ex : let run k := value (h_group_from_asn1 (fails_at k) solve_quad (CUSTOM (BF 5 (Trinomial 2)) 1 [2] 17 [2]) true ([], 0%nat)) in
  run 20%nat = Some None /\ run 99%nat = Some (Some 1%nat).
Proof. vm_compute. repeat split. Qed.

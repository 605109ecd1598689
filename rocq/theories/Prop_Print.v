(** Properties of printed keys and of the control method used for PKCS#7 and CMS
    (engine/ameth.c). *)
From Coq Require Import ZArith List.
Import ListNotations.
From Verif Require Import Base Model_Params Model_Gf2m Model_Compress Model_Ec Model_Sign Model_Asn1 Model_Pmeth Model_Key Model_Ameth Model_Ctx Model_Print
  Spec_Pmeth Spec_Ctx Spec_Toy Proof_Ctx6 Proof_Print Prop_Ctx.
Open Scope N_scope.

(** A key with an S-box and one without, and a printer that shows the private number. *)
Definition print_ec : eckey := ECKEY (Some (Binary toy_group)) (Some 5) (Some (Some (21, 17))).
Definition print_heap : heap := [(1, OKey (Ptr (Some 2)) (Ptr (Some 3))); (2, OEc print_ec); (3, OSbox zeros64); (4, OKey (Ptr (Some 5)) (Ptr None)); (5, OEc print_ec)]%nat.
Definition show : kind -> eckey -> Z -> option (list N) := fun k v _ => match k, ek_priv v with Private, Some d => Some [d] | Private, None => None | _, _ => Some [] end.
Example print_ex : allocator plenty /\ never_fails plenty /\ live print_heap 1 = Some (OKey (Ptr (Some 2%nat)) (Ptr (Some 3%nat))) /\ live print_heap 2 = Some (OEc print_ec) /\
  live print_heap 4 = Some (OKey (Ptr (Some 5%nat)) (Ptr None)) /\ live print_heap 5 = Some (OEc print_ec) /\
  h_print plenty show Private (1158%Z, Some 1%nat) 0 (print_heap, 0%nat) = Ret (Some [5], (print_heap, 3%nat)).
Proof. split; [apply plenty_ex|]. split; [apply plenty_ex|]. repeat split. Qed.

(** C94: with enough memory a key is printed as OpenSSL prints its EC_KEY, and memory is as
    before. *)
Theorem C94_print : forall malloc ec_print what t key e s v indent h n, allocator malloc -> never_fails malloc ->
  live h key = Some (OKey (Ptr (Some e)) s) -> live h e = Some (OEc v) ->
  exists n', h_print malloc ec_print what (t, Some key) indent (h, n) = Ret (ec_print what v indent, (h, n')).
Proof. exact print_same. Qed.
Print Assumptions C94_print.
(** With too little memory printing fails or succeeds, but does not crash. *)
Theorem C94_safe : forall malloc ec_print what t key e s v indent h n, allocator malloc -> live h key = Some (OKey (Ptr (Some e)) s) -> live h e = Some (OEc v) ->
  exists r m, h_print malloc ec_print what (t, Some key) indent (h, n) = Ret (r, m) /\ (r = None \/ r = ec_print what v indent).
Proof. exact print_safe. Qed.
Print Assumptions C94_safe.
(** C94 does not hold in general: if the EC_KEY cannot be given to the EVP_PKEY made for
    printing, that EVP_PKEY is never released. *)
Theorem C94_leak_refuted : forall malloc ec_print what t key e s v indent h n p, allocator malloc -> live h key = Some (OKey (Ptr (Some e)) s) -> live h e = Some (OEc v) ->
  malloc n h = Some p -> malloc (S n) ((p, OTemp) :: h) = None ->
  exists n', h_print malloc ec_print what (t, Some key) indent (h, n) = Ret (None, ((p, OTemp) :: h, n')).
Proof. exact print_leak. Qed.
Print Assumptions C94_leak_refuted.
(** And an EVP_PKEY of the engine's type without a key cannot be printed: NULL is dereferenced. *)
Theorem C94_crash_refuted : forall malloc ec_print what t indent h n, malloc n h <> None -> h_print malloc ec_print what (t, None) indent (h, n) = Undef.
Proof. exact print_null. Qed.
Print Assumptions C94_crash_refuted.
Example C94_ex : let m := some_malloc (fun n => (n <? 1)%nat) in allocator m /\ m 0%nat print_heap = Some 6%nat /\ m 1%nat ((6%nat, OTemp) :: print_heap) = None /\
  h_print m show Public (1159%Z, Some 4%nat) 2 (print_heap, 0%nat) = Ret (None, ((6%nat, OTemp) :: print_heap, 2%nat)).
Proof. split; [apply above_allocator|]. repeat split. Qed.

(** C95 does not hold: keys that differ in their S-boxes are printed alike. *)
Theorem C95_sbox_refuted : forall malloc ec_print what t t' key key' e e' s s' v indent h h' n n', allocator malloc -> never_fails malloc ->
  live h key = Some (OKey (Ptr (Some e)) s) -> live h e = Some (OEc v) -> live h' key' = Some (OKey (Ptr (Some e')) s') -> live h' e' = Some (OEc v) ->
  exists r m m', h_print malloc ec_print what (t, Some key) indent (h, n) = Ret (r, m) /\ h_print malloc ec_print what (t', Some key') indent (h', n') = Ret (r, m').
Proof. exact print_blind. Qed.
Print Assumptions C95_sbox_refuted.
Example C95_ex : match h_print plenty show Params (1158%Z, Some 1%nat) 0 (print_heap, 0%nat), h_print plenty show Params (1159%Z, Some 4%nat) 0 (print_heap, 0%nat) with
  Ret (r, _), Ret (r', _) => r = r' | _, _ => False end.
Proof. reflexivity. Qed.

(** C96: the control used when signing PKCS#7 and CMS data enters the digest GOST 34.311 and the
    type of the key as algorithms, both with the parameter NULL. *)
Theorem C96_algorithms : forall base op s, base <> 0%Z -> op = 1%Z \/ op = 5%Z ->
  asn1_ctrl (fun _ => true) base op 0 (PSigner s) = Some (1%Z, PSigner (SIGNER (ALGID 1157 (Some 5%Z)) (ALGID base (Some 5%Z)))).
Proof. exact ctrl_sets. Qed.
Print Assumptions C96_algorithms.
(** The default digest is GOST 34.311; every other call changes nothing. *)
Theorem C96_others : forall malloc base op arg1 p r p', asn1_ctrl malloc base op arg1 p = Some (r, p') ->
  (op = 3%Z /\ r = 2%Z /\ p' = PInt 1157) \/ ((op = 1%Z \/ op = 5%Z) /\ arg1 = 0%Z) \/
  (p' = p /\ (r = if ((op =? 1%Z) || (op =? 5%Z))%Z then 1 else 0)%Z).
Proof. exact ctrl_rest. Qed.
Print Assumptions C96_others.
(** C96 does not hold when memory runs out: success is reported although no algorithm was
    entered. *)
Theorem C96_memory_refuted : forall base op s, base <> 0%Z -> op = 1%Z \/ op = 5%Z -> al_param (si_digest s) = None -> al_param (si_sig s) = None ->
  asn1_ctrl (fun _ => false) base op 0 (PSigner s) = Some (1%Z, PSigner s).
Proof. exact ctrl_unset. Qed.
Print Assumptions C96_memory_refuted.
Example C96_ex : let s := (SIGNER (ALGID 64 (Some 5)) (ALGID 0 None))%Z in
  asn1_ctrl (fun _ => true) le_type 5%Z 0 (PSigner s) = Some (1, PSigner (SIGNER (ALGID 1157 (Some 5)) (ALGID 1158 (Some 5))))%Z /\
  asn1_ctrl (fun _ => true) le_type 5%Z 1 (PSigner s) = Some (1%Z, PSigner s) /\ asn1_ctrl (fun _ => true) be_type 2 0 (PSigner s) = Some (0%Z, PSigner s) /\
  asn1_ctrl (fun _ => true) be_type 3%Z 0 (PInt 7) = Some (2, PInt 1157)%Z /\
  asn1_ctrl (fun _ => true) 0 1%Z 0 (PSigner s) = Some ((-1)%Z, PSigner (SIGNER (ALGID 1157 (Some 5%Z)) (ALGID 0 None))).
Proof. repeat split. Qed.

(** Properties of reading PKCS#12 containers. *)
From Verif Require Import Base Model_KeyStore Model_Pkcs12 Spec_KeyStore Spec_Pkcs12 Proof_Pkcs12.

(** C56: for every container the parse is free of undefined behaviour (no write outside the
    store); it succeeds exactly for the readable ones, and then the store holds one entry per
    key and certificate bag in depth-first order; otherwise what was created is released and
    no store is left behind; other stores are not touched. *)
Theorem C56_bags : forall m h p ks, malloc_ok m -> p12_fresh h p ->
  exists h' r ks', parsePKCS12 m h p ks = Some (h', r, ks') /\
    (r = true <-> exists safes, readable p safes) /\
    (forall j, hp_store h j <> None -> hp_store h' j = hp_store h j) /\
    (forall safes, readable p safes ->
       exists a, ks' = Some a /\ hp_store h a = None /\
         shows h' a Keys (objs Keys (items_of safes)) /\ shows h' a Certs (objs Certs (items_of safes)) /\
         hp_fk h' = hp_fk h /\ hp_fc h' = hp_fc h) /\
    (r = false -> exists l, (forall safes, p = Some (P12 true (Some safes)) -> exists rest, items_of safes = l ++ rest) /\
         hp_fk h' = hp_fk h ++ objs Keys l /\ hp_fc h' = hp_fc h ++ objs Certs l /\ forall a, hp_store h' a <> None -> hp_store h a <> None).
Proof. exact pkcs12_total. Qed.
Print Assumptions C56_bags.

Definition ex_malloc (h : heap) : nat := S (fold_right (fun e n => Nat.max (fst e) n) 0%nat (hp_stores h)).
Definition ex_tree : list pkcs7 :=
  [P7Null; P7Enc (Some [CertBag (Some 1); SafeContentsBag [KeyBag (Some 7); SafeContentsBag [OtherBag; CertBag (Some 2)]; ShroudedKeyBag (Some (Some 8))]]);
   P7Other; P7Data (Some [KeyBag (Some 9)])]%nat.
Example C56_ex : malloc_ok ex_malloc /\ p12_fresh heap0 (Some (P12 true (Some ex_tree))) /\ readable (Some (P12 true (Some ex_tree))) ex_tree /\
  objs Keys (items_of ex_tree) = [7; 8; 9]%nat /\ objs Certs (items_of ex_tree) = [1; 2]%nat.
Proof.
  split; [|split; [|split; [|split; reflexivity]]].
  - intros h. unfold hp_store, ex_malloc.
    assert (H : forall l n, (fold_right (fun e k => Nat.max (fst e) k) 0%nat l < n)%nat -> assoc l n = None).
    { induction l as [|[j s] l IH]; intros n Hn; [reflexivity|]. cbn [assoc fold_right fst] in *.
      destruct (Nat.eqb_spec n j) as [->|_]; [exfalso; apply (Nat.lt_irrefl j); eapply Nat.le_lt_trans; [apply Nat.le_max_l|exact Hn]|].
      apply IH. eapply Nat.le_lt_trans; [apply Nat.le_max_r|exact Hn]. }
    apply H. apply Nat.lt_succ_diag_r.
  - intros s [= <-]. cbn. split; repeat constructor; cbn; intuition discriminate.
  - split; [reflexivity|]. split; [repeat constructor|]. split; [discriminate|]. cbn. repeat constructor; cbn; discriminate.
Qed.

(** C57: a PKCS#12 read that fails after the store was created leaves the caller's pointer at
    the freed store: using it or freeing it is undefined. *)
Theorem C57_pkcs12_dangling_refuted : forall m h safes ks, Forall p7_ok safes -> ~ Forall (fun i : item => snd i <> None) (items_of safes) ->
  p12_fresh h (Some (P12 true (Some safes))) ->
  exists h' a, parsePKCS12 m h (Some (P12 true (Some safes))) ks = Some (h', false, Some a) /\ hp_store h' a = None /\ ks_free h' (Some a) = None.
Proof. exact pkcs12_dangling. Qed.
Print Assumptions C57_pkcs12_dangling_refuted.
(** A container whose only key cannot be decrypted with the given password. *)
Example C57_ex : let safes := [P7Data (Some [ShroudedKeyBag None])] in
  Forall p7_ok safes /\ ~ Forall (fun i : item => snd i <> None) (items_of safes) /\ p12_fresh heap0 (Some (P12 true (Some safes))).
Proof.
  split; [repeat constructor|]. split; [intros H; inversion H as [|? ? H1 _]; apply H1; reflexivity|].
  intros s [= <-]. cbn. split; constructor.
Qed.

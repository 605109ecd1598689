(** The readers with enough memory. *)
From Coq Require Import Lia Permutation.
From Verif Require Import Base Spec_Gost89 Model_Gost89 Model_Params Model_Pkcs12 Model_KeyStore Model_Utils Model_Jks Model_Key6 Model_ReadBio Model_Kmem Spec_Keylib Spec_Pkcs12 Spec_Hash Spec_Params Spec_Md Spec_Key6 Spec_Jks Spec_Kmem.
From Verif Require Import Proof_Kmem4 Proof_Kmem5.

Lemma pkcs12_enough malloc p h n : kallocator malloc -> kenough malloc -> kheap_ok h ->
  match h_parsePKCS12 malloc p (h, n) with
  | KRet ((true, Some q), (h', _)) => exists safes, readable p safes /\ store_added q (objs Keys (items_of safes)) (objs Certs (items_of safes)) h h'
  | KRet ((false, _), (h', _)) => unchanged h h' /\ ~ exists safes, readable p safes
  | _ => False
  end.
Proof.
  intros HA HE Hh. pose proof (pkcs12_any malloc p h n HA Hh) as T. destruct (h_parsePKCS12 malloc p (h, n)) as [| |[[[|] [q|]] [h' n']]]; try contradiction; try exact T;
    destruct T as [T1 T2]; split; [exact T1|exact (T2 HE)|exact T1|exact (T2 HE)].
Qed.
Lemma pkcs12_stream_enough malloc (d : list N -> option pkcs12) evs data h n : kallocator malloc -> kenough malloc -> kheap_ok h -> delivers evs data ->
  match h_read_bio malloc (fun x => h_parsePKCS12 malloc (d x)) evs (h, n) with
  | KRet (Some (true, Some q), (h', _)) => exists safes, readable (d data) safes /\ store_added q (objs Keys (items_of safes)) (objs Certs (items_of safes)) h h'
  | KRet (Some (false, _), (h', _)) => unchanged h h' /\ ~ exists safes, readable (d data) safes
  | KRet (None, (h', _)) => unchanged h h' /\ data = []
  | _ => False
  end.
Proof.
  intros HA HE Hh Hd. pose proof (pkcs12_stream malloc d evs data h n HA Hh Hd) as T. destruct (h_read_bio _ _ evs (h, n)) as [| |[[[[|] [q|]]|] [h' n']]]; try contradiction; try exact T;
    destruct T as [T1 T2]; split; try exact T1; exact (T2 HE).
Qed.
Section Key6.
Context {spec grp : Type} (ae : attr_env spec grp) (p8 : list N -> option p8info).
Hypothesis Hp8 : forall x i, p8 x = Some i -> attrs_bytes (p8_attrs i).
Lemma key6_enough malloc r mac data pad password h n : kallocator malloc -> kenough malloc -> kheap_ok h ->
  bytes password -> hashable (length password) -> mask_wf (k6_mask r) -> bytes (key6_cipher data pad) -> apart r (length (key6_cipher data pad)) ->
  let seen := key6_seen r data pad password in
  match h_parseKey6 malloc ae p8 r (Some (key6_store mac data pad)) password (h, n) with
  | KRet (Some q, (h', _)) => exists i l, p8 seen = Some i /\ keys_in ae i l /\ store_added q l [] h h'
  | KRet (None, (h', _)) => unchanged h h' /\ match p8 seen with None => True | Some i => p8_pkey i = None end
  | _ => False
  end.
Proof.
  intros HA HE Hh H1 H2 H3 H4 H5 seen. pose proof (key6_any ae p8 Hp8 malloc r mac data pad password h n HA Hh H1 H2 H3 H4 H5) as T. cbv zeta in T. fold seen in T.
  destruct (h_parseKey6 _ _ _ _ _ _ (h, n)) as [| |[[q|] [h' n']]]; [destruct (T HE)|exact T| |].
  - destruct T as [i [l [E [S1 [K|[N1 _]]]]]]; [exists i, l; auto|contradiction].
  - destruct T as [T1 T2]. split; [exact T1|exact (T2 HE)].
Qed.
Lemma key6_stream_enough malloc (d : list N -> option iit_store) r mac data pad password evs input h n : kallocator malloc -> kenough malloc -> kheap_ok h -> delivers evs input -> d input = Some (key6_store mac data pad) ->
  bytes password -> hashable (length password) -> mask_wf (k6_mask r) -> bytes (key6_cipher data pad) -> apart r (length (key6_cipher data pad)) ->
  let seen := key6_seen r data pad password in
  match h_read_bio malloc (fun x => h_parseKey6 malloc ae p8 r (d x) password) evs (h, n) with
  | KRet (Some (Some q), (h', _)) => exists i l, p8 seen = Some i /\ keys_in ae i l /\ store_added q l [] h h'
  | KRet (Some None, (h', _)) => unchanged h h' /\ match p8 seen with None => True | Some i => p8_pkey i = None end
  | KRet (None, (h', _)) => unchanged h h' /\ input = []
  | _ => False
  end.
Proof.
  intros HA HE Hh Hd Ed H1 H2 H3 H4 H5 seen. pose proof (key6_stream ae p8 Hp8 malloc d r mac data pad password evs input h n HA Hh Hd Ed H1 H2 H3 H4 H5) as T. cbv zeta in T. fold seen in T.
  destruct (h_read_bio _ _ evs (h, n)) as [| |[[[q|]|] [h' n']]]; [destruct (T HE)|exact T| | |].
  - destruct T as [i [l [E [S1 [K|[N1 _]]]]]]; [exists i, l; auto|contradiction].
  - destruct T as [T1 T2]. split; [exact T1|exact (T2 HE)].
  - destruct T as [T1 T2]. split; [exact T1|exact (T2 HE)].
Qed.
Lemma key6_refused_enough malloc r s password h n : kallocator malloc -> kenough malloc -> kheap_ok h ->
  (forall st, s = Some st -> forall hd, is_header st = Some hd -> ih_type hd <> Some [1;3;6;1;4;1;19398;1;1;1;2] \/ is_data st = None \/ ih_params hd = None) ->
  match h_parseKey6 malloc ae p8 r s password (h, n) with KRet (None, (h', _)) => unchanged h h' | _ => False end.
Proof.
  intros HA HE Hh Hs. pose proof (key6_refused ae p8 malloc r s password h n HA Hh Hs) as T. destruct (h_parseKey6 _ _ _ _ _ _ (h, n)) as [| |[[q|] [h' n']]]; [destruct (T HE)|exact T..].
Qed.
End Key6.
Lemma half_password_differs (cs : list (list N)) : Forall (fun c => length c = 2%nat) cs -> (2 <= length cs)%nat -> concat (skipn (length cs / 2) cs) <> concat cs.
Proof.
  intros Hc Hl E. apply (f_equal (@length N)) in E.
  assert (L : forall l : list (list N), Forall (fun c => length c = 2%nat) l -> length (concat l) = (2 * length l)%nat) by (induction 1 as [|c l E1 _ IH]; [reflexivity|]; cbn; rewrite app_length, IH, E1; lia).
  rewrite !L, skipn_length in E; [|exact Hc|apply Forall_forall; intros x Hx; apply (proj1 (Forall_forall _ _) Hc); rewrite <- (firstn_skipn (length cs / 2) cs); apply in_or_app; auto].
  assert (1 <= length cs / 2)%nat by (apply Nat.div_le_lower_bound; lia). lia.
Qed.

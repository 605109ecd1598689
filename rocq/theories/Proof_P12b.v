(** Private keys encrypted with the algorithms of the engine in PKCS#12 containers. *)
From Coq Require Import ZArith List Lia.
Import ListNotations.
From Verif Require Import Base Lib Model_Gost89 Model_Params Spec_Params Spec_Md
  Model_Gf2m Model_Compress Model_Ec Model_Curves Model_Sign Model_Asn1 Model_Pmeth Model_Key Model_Ameth Model_Evp
  Spec_Gf2m Spec_Compress Spec_Curves Spec_Asn1 Spec_Sign Spec_Pmeth Spec_Key.
From Verif Require Import Spec_Gost89 Model_Cipher Spec_Cipher Model_Hash Spec_Hash Model_Pbe Spec_Pbe Model_P12 Spec_P12.
From Verif Require Import Model_KeyStore Model_Utils Model_Pkcs12 Model_Iit Model_KeyFile Model_P8
  Spec_Keylib Spec_Pkcs12 Spec_Stored Spec_Iit Spec_Ber Spec_KeyFile Spec_P8.
From Verif Require Import Proof_Asn1 Proof_P8.
From Verif Require Proof_Stored Proof_Pkcs12 Proof_Pbe2 Proof_P12 Proof_P8b.
Open Scope N_scope.

Lemma parse_run os st outs p x P S r c stored : legal no_slots os -> md_run md_empty os = Some (st, outs) -> NoDup [hm_md x; hm_i x; hm_o x] -> bytes P -> bytes S -> hashable (length P + length S + 96) -> (1 <= r)%nat -> bytes c -> hashable (32 + length c) ->
  exists st' ok, verify_mac st p x P S r c stored = Some (st', ok) /\
    forall m h ks safes, malloc_ok m -> p12_fresh h (Some (P12 ok safes)) ->
      (stored <> p12_mac_of P S r c -> parsePKCS12 m h (Some (P12 ok safes)) ks = Some (h, false, ks)) /\
      (stored = p12_mac_of P S r c -> exists h' done ks', parsePKCS12 m h (Some (P12 ok safes)) ks = Some (h', done, ks') /\ (done = true <-> exists l, safes = Some l /\ Forall p7_ok l /\ items_of l <> [] /\ Forall (fun i : item => snd i <> None) (items_of l))).
Proof.
  intros Hl E D BP BS L Hr Bc Lc. destruct (Proof_P12.mac_run os st outs p x P S r c stored Hl E D BP BS L Hr Bc Lc) as (st' & ok & E1 & Hok & _). exists st', ok. split; [exact E1|]. intros m h ks safes Hm Hf. split.
  - intros Nq. destruct ok; [exfalso; apply Nq, Hok; reflexivity|reflexivity].
  - intros Eq. assert (ok = true) as -> by (apply Hok, Eq). destruct (Proof_Pkcs12.pkcs12_total m h _ ks Hm Hf) as (h' & dn & ks' & K1 & K2 & _). exists h', dn, ks'. split; [exact K1|].
    etransitivity; [exact K2|]. split; intros (l & Hrd).
    + destruct Hrd as (X & R1 & R2 & R3). injection X as ->. exists l. auto.
    + destruct Hrd as (-> & R1 & R2 & R3). exists l. split; [reflexivity|auto].
Qed.

Section Life.
Variables (solve : N -> N -> option N) (nid : Z) (g : group) (t : Z) (sb : option (list N)) (fuel : nat) (d0 : option N) (q0 : option point) (src : source) (k : eckey).
Hypotheses (Hg : group_from_nid nid = Some g) (Hs : good_solver (c_p (g_curve g)) solve)
  (Ht : key_type t) (Hsb : sbox_ok sb) (Hr : ranged (g_order g) src) (Hk : generate_key fuel (ECKEY (Some (Binary g)) d0 q0) src = Done k)
  (Hc : (nid <> 1160 /\ nid <> 1168)%Z \/ (forall P, ek_pub k = Some P -> has_compressed_form (g_curve g) P)).
Lemma life_pbe : exists info pub kv, priv_encode (PKEY t (Some (DKEY k sb))) = Ok info /\ pub_encode (PKEY t (Some (DKEY k sb))) = Ok pub /\
  d2i_pub (enc_pub pub) = Some pub /\ pub_decode d2i_params d2i_octets solve pub = Some kv /\
  forall obj p8 der attrs, ber_p8 true info attrs der -> bytes der -> N.of_nat (length der) < 2 ^ 31 -> opens d2i_params solve d2i_p8 obj der (p8 der) ->
  forall os st outs x tpl os' st' outs' x' tpl' pass salt iter iv rnd0 stale r1 r2 r3 r4,
    legal no_slots os -> md_run md_empty os = Some (st, outs) -> legal no_slots os' -> md_run md_empty os' = Some (st', outs') ->
    NoDup [hm_md x; hm_i x; hm_o x; hm_md tpl; hm_i tpl; hm_o tpl] -> NoDup [hm_md x'; hm_i x'; hm_o x'; hm_md tpl'; hm_i tpl'; hm_o tpl'] ->
    bytes pass -> hashable (length pass) -> bytes salt -> hashable (36 + length salt) -> bytesn 8 iv -> rows16 stale -> mask_wf r2 -> mask_wf r4 ->
    let p := pbe2_set rnd0 stale iv salt iter in
  exists ct a, pbe2_crypt r1 r2 st x tpl p pass true der = Some (Some ct) /\
    shrouded p8 r3 r4 st' x' tpl' p pass ct = Some (ShroudedKeyBag (Some (Some a))) /\ signs_for d2i_octets g (obj a) kv /\
    forall m h ks safes bags, malloc_ok m -> readable (Some (P12 true (Some safes))) safes -> p12_fresh h (Some (P12 true (Some safes))) ->
      In (P7Data (Some bags)) safes \/ In (P7Enc (Some bags)) safes -> In (ShroudedKeyBag (Some (Some a))) bags ->
    exists h' store l, parsePKCS12 m h (Some (P12 true (Some safes))) ks = Some (h', true, Some store) /\ shows h' store Keys l /\ In a l.
Proof.
  destruct (Proof_Stored.life d2i_params d2i_octets solve nid g t sb fuel d0 q0 src k d2i_params_reads d2i_octets_reads Hg Hs Ht Hsb Hr Hk Hc) as (info & pub & kd & kv & A & B & C & D & E).
  destruct (Proof_P8b.sizes nid g t sb fuel d0 q0 src k Hg Hsb Hr Hk Hc info pub A B) as [_ L2]. exists info, pub, kv. split; [exact A|]. split; [exact B|].
  split; [rewrite <- (app_nil_r (enc_pub pub)); exact (Proof_P8b.written_pub _ _ [] B L2)|]. split; [exact D|].
  intros obj p8 der attrs Hd Bd Ld Hop os st outs x tpl os' st' outs' x' tpl' pass salt iter iv rnd0 stale r1 r2 r3 r4 Hl Ee Hl' Ee' Dx Dx' Bp Lp Bs Ls Hiv Hst M2 M4 p.
  pose proof (d2i_p8_complete _ _ _ [] Hd Ld) as Er. rewrite app_nil_r in Er.
  assert (Nd : der <> []) by (intros ->; vm_compute in Er; discriminate Er).
  destruct (Proof_Pbe2.set_roundtrip os st outs x tpl os' st' outs' x' tpl' pass salt iter iv rnd0 stale r1 r2 r3 r4 der Hl Ee Hl' Ee' Dx Dx' Bp Lp Bs Ls Hiv Hst M2 M4 Bd Nd Ld) as (ct & E1 & _ & E2).
  unfold opens in Hop. rewrite Er, C in Hop. destruct Hop as (i & Ei & _ & a & Ea & Ho). exists ct, a. split; [exact E1|]. split; [|split; [rewrite Ho; exact E|]].
  - unfold shrouded. fold p in E2. rewrite E2, Ei. cbn [option_map]. rewrite Ea. reflexivity.
  - intros m h ks safes bags Hm Hrd Hf Hin Hb. destruct (Proof_Pkcs12.pkcs12_total m h _ ks Hm Hf) as (h' & rr & ks' & K1 & K2 & _ & K3 & _).
    destruct (K3 safes Hrd) as (s & -> & _ & S1 & _). assert (rr = true) as -> by (apply K2; eauto).
    exists h', s, (objs Keys (items_of safes)). split; [exact K1|]. split; [exact S1|]. unfold objs. apply in_flat_map. exists (Keys, Some a). split; [|cbn; auto].
    unfold items_of. apply in_flat_map. destruct Hin as [Hin|Hin]; (eexists; split; [exact Hin|]); cbn [items_p7]; apply in_flat_map; eexists; (split; [exact Hb|]); cbn; auto.
Qed.
End Life.

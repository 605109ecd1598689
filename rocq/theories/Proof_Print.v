(** Printing and the control method of keys. *)
From Coq Require Import ZArith List Lia.
Import ListNotations.
From Verif Require Import Base Model_Gf2m Model_Compress Model_Ec Model_Sign Model_Asn1 Model_Pmeth Model_Key Model_Ameth Model_Ctx Model_Print Spec_Ctx.
Open Scope N_scope.

Lemma live_cons : forall h p o q, live h p = None -> live h q <> None -> live ((p, o) :: h) q = live h q.
Proof. intros h p o q E L. cbn. destruct (Nat.eqb_spec q p) as [-> |N]; [contradiction|reflexivity]. Qed.
Lemma print_run : forall malloc ec_print what t key e s v indent h n, allocator malloc -> live h key = Some (OKey (Ptr (Some e)) s) -> live h e = Some (OEc v) ->
  h_print malloc ec_print what (t, Some key) indent (h, n) =
    match malloc n h with
    | None => Ret (None, (h, S n))
    | Some p => match malloc (S n) ((p, OTemp) :: h) with
                | None => Ret (None, ((p, OTemp) :: h, S (S n)))
                | Some _ => Ret (match malloc (S (S n)) ((p, OTemp) :: h) with Some _ => ec_print what v indent | None => None end, (h, S (S (S n))))
                end
    end.
Proof.
  intros malloc ec_print what t key e s v indent h n HA Hk He. unfold h_print, bindM, new. destruct (malloc n h) as [p|] eqn:E1; [|reflexivity].
  unfold deref, get_key, bindM, get, ret, rd, try. cbn [snd]. rewrite live_cons, Hk by (try exact (HA _ _ _ E1); congruence). unfold ret. cbn beta iota.
  destruct (malloc (S n) ((p, OTemp) :: h)) as [q|] eqn:E2; [|reflexivity].
  unfold get_ec, bindM, get. rewrite live_cons, He by (try exact (HA _ _ _ E1); congruence). unfold ret. cbn beta iota. unfold free.
  destruct (malloc (S (S n)) ((p, OTemp) :: h)) as [q'|] eqn:E3; cbn [live release]; rewrite Nat.eqb_refl; reflexivity.
Qed.
Lemma print_same : forall malloc ec_print what t key e s v indent h n, allocator malloc -> never_fails malloc -> live h key = Some (OKey (Ptr (Some e)) s) -> live h e = Some (OEc v) ->
  exists n', h_print malloc ec_print what (t, Some key) indent (h, n) = Ret (ec_print what v indent, (h, n')).
Proof.
  intros malloc ec_print what t key e s v indent h n HA HF Hk He. rewrite (print_run malloc ec_print what t key e s v indent h n HA Hk He).
  destruct (malloc n h) as [p|] eqn:E1; [|destruct (HF _ _ E1)]. destruct (malloc (S n) _) as [q|] eqn:E2; [|destruct (HF _ _ E2)].
  destruct (malloc (S (S n)) _) as [r|] eqn:E3; [|destruct (HF _ _ E3)]. eexists. reflexivity.
Qed.
Lemma print_safe : forall malloc ec_print what t key e s v indent h n, allocator malloc -> live h key = Some (OKey (Ptr (Some e)) s) -> live h e = Some (OEc v) ->
  exists r m, h_print malloc ec_print what (t, Some key) indent (h, n) = Ret (r, m) /\ (r = None \/ r = ec_print what v indent).
Proof.
  intros malloc ec_print what t key e s v indent h n HA Hk He. rewrite (print_run malloc ec_print what t key e s v indent h n HA Hk He).
  destruct (malloc n h) as [p|]; [|eauto]. destruct (malloc (S n) _) as [q|]; [|eauto]. destruct (malloc (S (S n)) _); eauto.
Qed.
Lemma print_leak : forall malloc ec_print what t key e s v indent h n p, allocator malloc -> live h key = Some (OKey (Ptr (Some e)) s) -> live h e = Some (OEc v) ->
  malloc n h = Some p -> malloc (S n) ((p, OTemp) :: h) = None ->
  exists n', h_print malloc ec_print what (t, Some key) indent (h, n) = Ret (None, ((p, OTemp) :: h, n')).
Proof. intros malloc ec_print what t key e s v indent h n p HA Hk He E1 E2. rewrite (print_run malloc ec_print what t key e s v indent h n HA Hk He), E1, E2. eexists. reflexivity. Qed.
Lemma print_null : forall malloc ec_print what t indent h n, malloc n h <> None -> h_print malloc ec_print what (t, None) indent (h, n) = Undef.
Proof. intros malloc ec_print what t indent h n E. unfold h_print, bindM, new. destruct (malloc n h); [reflexivity|contradiction]. Qed.
Lemma print_blind : forall malloc ec_print what t t' key key' e e' s s' v indent h h' n n', allocator malloc -> never_fails malloc ->
  live h key = Some (OKey (Ptr (Some e)) s) -> live h e = Some (OEc v) -> live h' key' = Some (OKey (Ptr (Some e')) s') -> live h' e' = Some (OEc v) ->
  exists r m m', h_print malloc ec_print what (t, Some key) indent (h, n) = Ret (r, m) /\ h_print malloc ec_print what (t', Some key') indent (h', n') = Ret (r, m').
Proof.
  intros malloc ec_print what t t' key key' e e' s s' v indent h h' n n' HA HF A B C D.
  destruct (print_same malloc ec_print what t key e s v indent h n HA HF A B) as [m E]. destruct (print_same malloc ec_print what t' key' e' s' v indent h' n' HA HF C D) as [m' E'].
  do 3 eexists. split; [exact E|exact E'].
Qed.

Lemma ctrl_sets : forall base op s, base <> 0%Z -> op = ASN1_PKEY_CTRL_PKCS7_SIGN \/ op = ASN1_PKEY_CTRL_CMS_SIGN ->
  asn1_ctrl (fun _ => true) base op 0 (PSigner s) = Some (1%Z, PSigner (SIGNER (ALGID 1157 (Some V_ASN1_NULL)) (ALGID base (Some V_ASN1_NULL)))).
Proof.
  intros base op [[d [dp|]] [g [gp|]]] B [-> | ->]; unfold asn1_ctrl, algor_set0; cbn; apply Z.eqb_neq in B; rewrite B; reflexivity.
Qed.
Lemma ctrl_rest : forall malloc base op arg1 p r p', asn1_ctrl malloc base op arg1 p = Some (r, p') ->
  (op = ASN1_PKEY_CTRL_DEFAULT_MD_NID /\ r = 2%Z /\ p' = PInt 1157) \/ ((op = ASN1_PKEY_CTRL_PKCS7_SIGN \/ op = ASN1_PKEY_CTRL_CMS_SIGN) /\ arg1 = 0%Z) \/
  (p' = p /\ (r = if ((op =? ASN1_PKEY_CTRL_PKCS7_SIGN) || (op =? ASN1_PKEY_CTRL_CMS_SIGN))%Z then 1 else 0)%Z).
Proof.
  intros malloc base op arg1 p r p'. unfold asn1_ctrl. destruct ((op =? _) || (op =? _))%Z eqn:E.
  - apply orb_true_iff in E. rewrite !Z.eqb_eq in E. destruct (Z.eqb_spec arg1 0) as [-> |N]; [auto|]. intros [= <- <-]. auto.
  - destruct (Z.eqb_spec op ASN1_PKEY_CTRL_DEFAULT_MD_NID) as [-> |N]; [|intros [= <- <-]; auto]. destruct p; try discriminate. intros [= <- <-]. auto.
Qed.
Lemma ctrl_unset : forall base op s, base <> 0%Z -> op = ASN1_PKEY_CTRL_PKCS7_SIGN \/ op = ASN1_PKEY_CTRL_CMS_SIGN -> al_param (si_digest s) = None -> al_param (si_sig s) = None ->
  asn1_ctrl (fun _ => false) base op 0 (PSigner s) = Some (1%Z, PSigner s).
Proof.
  intros base op [[d dp] [g gp]] B H E1 E2. cbn in E1, E2. subst. apply Z.eqb_neq in B. destruct H as [-> | ->]; unfold asn1_ctrl, algor_set0; cbn; rewrite B; reflexivity.
Qed.

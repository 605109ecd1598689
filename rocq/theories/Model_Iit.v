(** Model of keylib/utils.c:98-226: the key made from IIT attributes, with every allocation and
    release.  Simplification: the numbers taken from the BN_CTX are always available. *)
From Coq Require Import ZArith.
From Verif Require Import Base Model_Gf2m Model_Compress Model_Ec Model_Curves Model_Sign Model_Asn1 Model_Pmeth Model_Key Model_Utils Model_Ameth Model_Ctx.

(** attrcurvespec_asn1.h:8-13 DSTU_AttrCurveSpec *)
Record attr_spec := ASPEC { as_spec : custom; as_dke : list N; as_dke1 : list N }.

Section Iit.
Variable malloc : nat -> heap -> option nat.
(** BN_GF2m_mod_solve_quad; ASN1_TYPE_unpack_sequence for DSTU_AttrCurveSpec. *)
Variable solve : N -> N -> option N.
Variable unpack : asn1_val -> option attr_spec.

(** utils.c:26-70 getPrivateKeyNum.  OPENSSL_malloc(0) is NULL; the buffer is written without a
    test. *)
Definition h_getPrivateKeyNum (a : attribute) : M (option N) :=
  match first_string (at_vals a) with
  | None => ret None
  | Some data =>
      buf <- match data with [] => ret None | _ => new malloc OTemp end ;;
      match buf, data with
      | None, _ :: _ => undef
      | _, _ => ok <- try malloc ;; free_opt free buf ;;; ret (if ok : bool then Some (be_val (swap_loop data [])) else None)
      end
  end.

(** EC_POINT_is_on_curve *)
Definition is_on_curve (c : curve) (P : point) : bool := match P with None => true | Some (x, y) => on_curveb c x y end.

(** utils.c:98-108 makePoint: dstu_point_expand writes to the point it is given, NULL or not. *)
Definition h_makePoint (c : curve) (s : list N) : M (option (nat * point)) :=
  res <- new malloc OTemp ;;
  ok <- try malloc ;;
  match (if ok : bool then expand solve s c else None) with
  | None => free_opt free res ;;; ret None
  | Some P => r <- deref res ;; ret (Some (r, P))
  end.
(** utils.c:110-146 makeECGROUPFromSpec.  The result of makePoly is not tested;
    EC_GROUP_new_curve_GF2m copies the number given and so dereferences NULL.
    It ignores the sign of a.  EC_GROUP_set_generator refuses a negative order. *)
Definition h_makeECGROUPFromSpec (spec : custom) : M (option nat) :=
  match makePoly (cu_field spec) with
  | None => undef
  | Some p =>
      res <- match new_curve p (Z.abs_N (cu_a spec)) (be_val (cu_b spec)) with
             | None => ret None
             | Some c => r <- new malloc (OGroup (Binary (GROUP c None 0 0))) ;; ret (option_map (fun r => (r, c)) r)
             end ;;
      match res with
      | None => ret None
      | Some (res, c) =>
          point <- h_makePoint c (cu_bp spec) ;;
          match point with
          | None => free_group res ;;; ret None
          | Some (pt, G) =>
              if negb (is_on_curve c G) then free pt ;;; free_group res ;;; ret None
              else
                ok <- try malloc ;;
                match (if ok : bool then if (cu_n spec <? 0)%Z then None else set_generator c G (Z.to_N (cu_n spec)) 1 else None) with
                | None => free_group res ;;; free pt ;;; ret None
                | Some g => put res (OGroup (Binary g)) ;;; free pt ;;; ret (Some res)
                end
          end
      end
  end.
(** utils.c:158-163 *)
Fixpoint first_aspec (vs : list asn1_val) : option attr_spec :=
  match vs with [] => None | v :: t => match unpack v with Some s => Some s | None => first_aspec t end end.
(** utils.c:148-171 makeECGROUP *)
Definition h_makeECGROUP (a : attribute) : M (option nat) :=
  match first_aspec (at_vals a) with
  | None => ret None
  | Some s =>
      spec <- new malloc OTemp ;;
      match spec with
      | None => ret None
      | Some spec => res <- h_makeECGROUPFromSpec (as_spec s) ;; free spec ;;; ret res
      end
  end.

(** utils.c:173-226 makePKey: the EVP_PKEY's address and contents.  The result of BN_CTX_new is
    not tested; BN_CTX_start dereferences it. *)
Definition h_makePKey (curveAttr keyAttr : attribute) : M (option (nat * evp_key)) :=
  ctx0 <- new malloc OTemp ;; ctx <- deref ctx0 ;;
  pkNum <- h_getPrivateKeyNum keyAttr ;;
  group <- h_makeECGROUP curveAttr ;;
  match pkNum, group with
  | Some d, Some group =>
      key <- key_new malloc ;;
      match key with
      | None => free_group group ;;; free ctx ;;; ret None
      | Some _ =>
          res <- new malloc OTemp ;;
          ok <- match res with
                | None => ret false
                | Some _ =>
                    ec <- key_ec key ;; g <- get_group group ;; ok <- set_group malloc ec g ;;
                    if negb ok then ret false
                    else ok <- set_private malloc ec d ;; if negb ok then ret false else h_add_public_key malloc ec
                end ;;
          if negb ok then key_free key ;;; free_group group ;;; free ctx ;;; ret None
          else
            r <- deref res ;;
            '(ok, pk) <- set_type malloc (0%Z, None) NID_dstu4145le ;;
            '(ok, pk) <- (if ok : bool then assign malloc pk (fst pk) key else ret (false, pk)) ;;
            out <- (if ok : bool then ret (Some (r, pk)) else key_free key ;;; free r ;;; ret None) ;;
            free_group group ;;; free ctx ;;; ret out
      end
  | _, _ => free ctx ;;; ret None
  end.
(** EVP_PKEY_free of the result. *)
Definition h_evp_free (k : nat * evp_key) : M unit := pkey_free (snd k) ;;; free (fst k).
End Iit.

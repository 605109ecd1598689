(** Model of the memory held by keys and key contexts: dstulib/key.c, engine/pmeth.c and
    engine/ameth.c with every allocation and release.  An allocation may fail.  The values are
    those of Model_Key, Model_Ameth and Model_Pmeth. *)
From Coq Require Import ZArith.
From Verif Require Import Base Model_Gf2m Model_Compress Model_Ec Model_Params Model_Curves Model_Sign Model_Asn1 Model_Pmeth Model_Key Model_Ameth.

(** A pointer field: not yet written, NULL, or an address. *)
Inductive field := Uninit | Ptr (p : option nat).
(** Allocated objects: EC_GROUP, S-box bytes, DSTU_KEY_CTX and DSTU_KEY (key.h:14-25), EC_KEY,
    ASN1_STRING with its data, and other temporary memory (buffers, BIGNUM, EC_POINT, decoded
    structures).  What OpenSSL's objects own is part of them. *)
Inductive obj := OGroup (g : egroup) | OSbox (s : list N) | OCtx (type : Z) (group sbox : field)
               | OKey (ec sbox : field) | OEc (ec : eckey) | OStr (data : option nat) | OTemp.
(** Address and contents; an address is live if it is listed. *)
Definition heap := list (nat * obj).
(** Contents of a live address. *)
Fixpoint live (h : heap) (p : nat) : option obj :=
  match h with [] => None | (q, o) :: t => if Nat.eqb p q then Some o else live t p end.
(** OPENSSL_free: the address is no longer live. *)
Fixpoint release (h : heap) (p : nat) : heap :=
  match h with [] => [] | (q, o) :: t => if Nat.eqb p q then t else (q, o) :: release t p end.
(** A write to a live address. *)
Fixpoint store (h : heap) (p : nat) (o : obj) : heap :=
  match h with [] => [] | (q, x) :: t => if Nat.eqb p q then (q, o) :: t else (q, x) :: store t p o end.

(** The heap and the number of allocations so far. *)
Definition mem := (heap * nat)%type.
(** A call: undefined behaviour (use of memory that is not live, of NULL, of an unwritten
    field), still running, or returned. *)
Inductive step (A : Type) := Undef | Loop | Ret (a : A).
Arguments Undef {A}. Arguments Loop {A}. Arguments Ret {A} a.
(** A call of the code, run on memory. *)
Definition M (A : Type) := mem -> step (A * mem).
(** Return. *)
Definition ret {A} (a : A) : M A := fun m => Ret (a, m).
(** Undefined behaviour. *)
Definition undef {A} : M A := fun _ => Undef.
(** One call after another. *)
Definition bindM {A B} (x : M A) (f : A -> M B) : M B :=
  fun m => match x m with Undef => Undef | Loop => Loop | Ret (a, m') => f a m' end.
Declare Scope ctx_scope.
Delimit Scope ctx_scope with ctx.
Notation "x <- m ;; k" := (bindM m (fun x => k)) (at level 61, m at next level, right associativity) : ctx_scope.
Notation "' pat <- m ;; k" := (bindM m (fun x => match x with pat => k end)) (at level 61, pat pattern, m at next level, right associativity) : ctx_scope.
Notation "m ;;; k" := (bindM m (fun _ => k)) (at level 61, right associativity) : ctx_scope.
Open Scope ctx_scope.

(** A read through a pointer. *)
Definition get (p : nat) : M obj := fun '(h, n) => match live h p with Some o => Ret (o, (h, n)) | None => Undef end.
(** A write through a pointer. *)
Definition put (p : nat) (o : obj) : M unit := fun '(h, n) => match live h p with Some _ => Ret (tt, (store h p o, n)) | None => Undef end.
(** OPENSSL_free of a pointer that is not NULL. *)
Definition free (p : nat) : M unit := fun '(h, n) => match live h p with Some _ => Ret (tt, (release h p, n)) | None => Undef end.
(** Reads of a pointer field, of the fields of DSTU_KEY_CTX and DSTU_KEY, of an EC_KEY, and of an S-box. *)
Definition rd (f : field) : M (option nat) := match f with Uninit => undef | Ptr p => ret p end.
(** The fields of a DSTU_KEY_CTX (key.h:20-25). *)
Definition get_ctx (p : nat) : M (Z * field * field) := o <- get p ;; match o with OCtx t g s => ret (t, g, s) | _ => undef end.
(** The fields of a DSTU_KEY (key.h:14-18). *)
Definition get_key (p : nat) : M (field * field) := o <- get p ;; match o with OKey e s => ret (e, s) | _ => undef end.
(** An EC_KEY read by OpenSSL. *)
Definition get_ec (p : nat) : M eckey := o <- get p ;; match o with OEc k => ret k | _ => undef end.
(** An EC_GROUP read by OpenSSL. *)
Definition get_group (p : nat) : M egroup := o <- get p ;; match o with OGroup g => ret g | _ => undef end.
(** The 64 bytes of an S-box. *)
Definition get_sbox (p : nat) : M (list N) := o <- get p ;; match o with OSbox s => ret s | _ => undef end.
(** EC_GROUP_free, EC_KEY_free, OPENSSL_free of an S-box: the object has the right kind. *)
Definition free_group (p : nat) : M unit := get_group p ;;; free p.
(** EC_KEY_free (key.c:42, 62). *)
Definition free_ec (p : nat) : M unit := get_ec p ;;; free p.
(** OPENSSL_free of an S-box (key.c:49, 60, 463, 512). *)
Definition free_sbox (p : nat) : M unit := get_sbox p ;;; free p.
(** if (p) free(p); *)
Definition free_opt (f : nat -> M unit) (p : option nat) : M unit := match p with Some p => f p | None => ret tt end.
(** A dereference of the pointer. *)
Definition deref (p : option nat) : M nat := match p with Some p => ret p | None => undef end.

Section Ctx.
(** The allocator: the address given by the n-th allocation, None if it fails. *)
Variable malloc : nat -> heap -> option nat.
(** OBJ_sn2nid, d2i_DSTU_AlgorithmParameters, d2i_ASN1_OCTET_STRING, BN_GF2m_mod_solve_quad. *)
Variable sn2nid : list N -> Z.
Variable d2i : list N -> option params.
Variable d2o : list N -> option (list N).
Variable solve : N -> N -> option N.

Definition new (o : obj) : M (option nat) :=
  fun '(h, n) => match malloc n h with None => Ret (None, (h, S n)) | Some p => Ret (Some p, ((p, o) :: h, S n)) end.
(** Allocations inside an OpenSSL object or call: they may fail. *)
Definition try : M bool := fun '(h, n) => Ret (match malloc n h with None => false | Some _ => true end, (h, S n)).

(** params.c:593-601 copy_sbox of the bytes given. *)
Definition copy_sbox (s : list N) : M (option nat) := new (OSbox s).
(** OpenSSL: EC_KEY_set_group frees the old group and duplicates the new one. *)
Definition set_group (ec : nat) (g : egroup) : M bool :=
  k <- get_ec ec ;; ok <- try ;;
  put ec (OEc (ECKEY (if ok then Some g else None) (ek_priv k) (ek_pub k))) ;;; ret ok.

(** key.c:19-35 DSTU_KEY_new *)
Definition key_new : M (option nat) :=
  key <- new (OKey Uninit Uninit) ;;
  match key with
  | None => ret None
  | Some key =>
      ec <- new (OEc (ECKEY None None None)) ;;
      put key (OKey (Ptr ec) Uninit) ;;;
      match ec with
      | None => free key ;;; ret None
      | Some _ => put key (OKey (Ptr ec) (Ptr None)) ;;; ret (Some key)
      end
  end.
(** key.c:37-52 DSTU_KEY_set *)
Definition key_set (key : nat) (ec sbox : option nat) : M unit :=
  match ec with
  | Some _ => '(e, s) <- get_key key ;; old <- rd e ;; free_opt free_ec old ;;; put key (OKey (Ptr ec) s)
  | None => ret tt
  end ;;;
  match sbox with
  | Some _ => '(e, s) <- get_key key ;; old <- rd s ;; free_opt free_sbox old ;;; put key (OKey e (Ptr sbox))
  | None => ret tt
  end.
(** key.c:54-64 DSTU_KEY_free *)
Definition key_free (key : option nat) : M unit :=
  match key with
  | None => ret tt
  | Some key =>
      '(e, s) <- get_key key ;; sb <- rd s ;; free_opt free_sbox sb ;;;
      ec <- rd e ;; free_opt free_ec ec ;;; free key
  end.

(** key.c:440-449 DSTU_KEY_CTX_new *)
Definition ctx_new : M (option nat) := new (OCtx 0 (Ptr None) (Ptr None)).
(** key.c:451-466 DSTU_KEY_CTX_set *)
Definition ctx_set (ctx : nat) (group sbox : option nat) : M unit :=
  match group with
  | Some _ => '(t, g, s) <- get_ctx ctx ;; old <- rd g ;; free_opt free_group old ;;; put ctx (OCtx t (Ptr group) s)
  | None => ret tt
  end ;;;
  match sbox with
  | Some _ => '(t, g, s) <- get_ctx ctx ;; old <- rd s ;; free_opt free_sbox old ;;; put ctx (OCtx t g (Ptr sbox))
  | None => ret tt
  end.
(** key.c:500-516 DSTU_KEY_CTX_free *)
Definition ctx_free (ctx : option nat) : M unit :=
  match ctx with
  | None => ret tt
  | Some ctx =>
      '(t, g, s) <- get_ctx ctx ;; gp <- rd g ;; free_opt free_group gp ;;; put ctx (OCtx t (Ptr None) s) ;;;
      '(t, g, s) <- get_ctx ctx ;; sp <- rd s ;; free_opt free_sbox sp ;;; put ctx (OCtx t g (Ptr None)) ;;;
      free ctx
  end.
(** key.c:468-498 DSTU_KEY_CTX_copy *)
Definition ctx_copy (ctx : nat) : M (option nat) :=
  copy <- ctx_new ;;
  match copy with
  | None => ret None
  | Some copy =>
      '(t, g, s) <- get_ctx ctx ;;
      '(_, g', s') <- get_ctx copy ;; put copy (OCtx t g' s') ;;;
      gp <- rd g ;;
      ok <- match gp with
            | None => ret true
            | Some gp => gv <- get_group gp ;; dup <- new (OGroup gv) ;;
                         '(t', _, s') <- get_ctx copy ;; put copy (OCtx t' (Ptr dup) s') ;;;
                         ret (match dup with Some _ => true | None => false end)
            end ;;
      if ok : bool then
        sp <- rd s ;;
        ok <- match sp with
              | None => ret true
              | Some sp => sv <- get_sbox sp ;; dup <- copy_sbox sv ;;
                           '(t', g', _) <- get_ctx copy ;; put copy (OCtx t' g' (Ptr dup)) ;;;
                           ret (match dup with Some _ => true | None => false end)
              end ;;
        if ok : bool then ret (Some copy) else ctx_free (Some copy) ;;; ret None
      else ctx_free (Some copy) ;;; ret None
  end.

(** pmeth.c:27-60 dstu_pkey_init: the data pointer set, None if 0 is returned. *)
Definition pkey_init (nid : Z) : M (option nat) :=
  ctx <- ctx_new ;;
  match ctx with
  | None => ret None
  | Some ctx => '(_, g, s) <- get_ctx ctx ;; put ctx (OCtx nid g s) ;;; ret (Some ctx)
  end.
(** pmeth.c:62-72 dstu_pkey_cleanup: the data pointer afterwards is NULL. *)
Definition pkey_cleanup (data : option nat) : M unit := match data with Some _ => ctx_free data | None => ret tt end.
(** pmeth.c:397-414 dstu_pkey_copy: the data pointer of the copy, None if 0 is returned. *)
Definition pkey_copy (src : option nat) : M (option (option nat)) :=
  match src with
  | None => ret (Some None)
  | Some p => dst <- ctx_copy p ;; ret (match dst with None => None | Some _ => Some dst end)
  end.

(** Arguments of a control call: NULL, bytes, a group, a digest. *)
Inductive carg := ANull | ABytes (s : list N) | AGroup (g : egroup) | AMd (nid : Z).
(** engine/control.h:5-7; evp.h *)
Definition DSTU_SET_CUSTOM_SBOX : Z := 4097.
(** engine/control.h:7 *)
Definition DSTU_SET_CURVE : Z := 4098.
(** evp.h, used at pmeth.c:126-176 *)
Definition EVP_PKEY_CTRL_MD : Z := 1.
(** evp.h, used at pmeth.c:126-176 *)
Definition EVP_PKEY_CTRL_PKCS7_ENCRYPT : Z := 3.
(** evp.h, used at pmeth.c:126-176 *)
Definition EVP_PKEY_CTRL_PKCS7_DECRYPT : Z := 4.
(** evp.h, used at pmeth.c:126-176 *)
Definition EVP_PKEY_CTRL_PKCS7_SIGN : Z := 5.
(** evp.h, used at pmeth.c:126-176 *)
Definition EVP_PKEY_CTRL_DIGESTINIT : Z := 7.
(** evp.h, used at pmeth.c:126-176 *)
Definition EVP_PKEY_CTRL_CMS_SIGN : Z := 11.
(** pmeth.c:126-176 dstu_pkey_ctrl.  The S-box argument is read for 64 bytes. *)
Definition pkey_ctrl (data : option nat) (type p1 : Z) (p2 : carg) : M bool :=
  match data with
  | None => ret false
  | Some ctx =>
      if (type =? DSTU_SET_CUSTOM_SBOX)%Z then
        match p2 with
        | ANull => ret false
        | _ => if negb (64 =? p1)%Z then ret false
               else match p2 with
               | ABytes s =>
                   if (length s <? 64)%nat then undef
                   else sbox <- copy_sbox (firstn 64 s) ;;
                        match sbox with None => ret false | Some _ => ctx_set ctx None sbox ;;; ret true end
               | _ => undef
               end
        end
      else if (type =? DSTU_SET_CURVE)%Z then
        match p2 with
        | ANull => ret false
        | AGroup g => group <- new (OGroup g) ;;
                      match group with None => ret false | Some _ => ctx_set ctx group None ;;; ret true end
        | _ => undef
        end
      else if (type =? EVP_PKEY_CTRL_MD)%Z then
        match p2 with AMd nid => ret (NID_dstu34311 =? nid)%Z | _ => undef end
      else ret ((type =? EVP_PKEY_CTRL_PKCS7_ENCRYPT) || (type =? EVP_PKEY_CTRL_PKCS7_DECRYPT) || (type =? EVP_PKEY_CTRL_PKCS7_SIGN)
                || (type =? EVP_PKEY_CTRL_DIGESTINIT) || (type =? EVP_PKEY_CTRL_CMS_SIGN))%Z
  end.
(** The strings "curve" and "sbox" (pmeth.c:24-25). *)
Definition str_curve : list N := [99; 117; 114; 118; 101].
(** pmeth.c:25 *)
Definition str_sbox : list N := [115; 98; 111; 120].
(** strcmp = 0 (pmeth.c:178-226) *)
Definition str_eqb (a b : list N) : bool := if list_eq_dec N.eq_dec a b then true else false.
(** pmeth.c:178-226 dstu_pkey_ctrl_str; the value of the option "sbox" is that of Model_Pmeth. *)
Definition pkey_ctrl_str (data : option nat) (type value : list N) : M bool :=
  if str_eqb str_curve type then
    let nid := sn2nid value in
    if (nid =? 0)%Z then ret false
    else match group_from_nid nid with
    | None => ret false
    | Some g =>
        group <- new (OGroup (Binary g)) ;;
        match group with
        | None => ret false
        | Some p => v <- get_group p ;; res <- pkey_ctrl data DSTU_SET_CURVE 0 (AGroup v) ;; free_group p ;;; ret res
        end
    end
  else if str_eqb str_sbox type then
    tmp <- new OTemp ;;
    match tmp with
    | None => ret false
    | Some tmp =>
        res <- match sbox_option value with
               | None => ret false
               | Some sbox => pkey_ctrl data DSTU_SET_CUSTOM_SBOX 64 (ABytes sbox)
               end ;;
        free tmp ;;; ret res
    end
  else ret false.

(** EVP_PKEY: its type (0 is EVP_PKEY_NONE) and its key pointer. *)
Definition evp_key := (Z * option nat)%type.
(** ameth.c:386-392 dstu_asn1_pkey_free.  OpenSSL: EVP_PKEY_assign frees the old key through
    it, may fail to find the type, sets the pointer and returns whether it is not NULL. *)
Definition pkey_free (pk : evp_key) : M unit := match snd pk with Some _ => key_free (snd pk) | None => ret tt end.
(** EVP_PKEY_assign (OpenSSL), called at pmeth.c:74-124 and ameth.c:28-66, 182-273, 394-517. *)
Definition assign (pk : evp_key) (type : Z) (key : option nat) : M (bool * evp_key) :=
  pkey_free pk ;;; ok <- try ;;
  ret (if ok : bool then (match key with Some _ => true | None => false end, (type, key)) else (false, (fst pk, None))).

(** params.c:490-535 dstu_generate_key on the EC_KEY.  Simplification: a failing call leaves
    the EC_KEY unchanged; it is freed then. *)
Definition ec_generate (fuel : nat) (src : source) (ec : nat) : M bool :=
  k <- get_ec ec ;; ok <- try ;;
  if ok : bool then
    match generate_key fuel k src with
    | Running => fun _ => Loop
    | Failed => ret false
    | Done k' => put ec (OEc k') ;;; ret true
    end
  else ret false.
(** params.h:15 get_default_group; DEFAULT_CURVE is 6 (params.h:14).  The allocations count as one. *)
Definition default_group : option egroup := option_map Binary (group_from_named_curve 6).
(** A group made by params.c:394-488. *)
Definition new_group (g : option egroup) : M (option nat) := match g with Some g => new (OGroup g) | None => ret None end.
(** params.h:15 *)
Definition get_default_group : M (option nat) := new_group default_group.

(** pmeth.c:74-124 dstu_pkey_keygen *)
Definition pkey_keygen (data : option nat) (pk : evp_key) (fuel : nat) (src : source) : M (bool * evp_key) :=
  match data with
  | None => ret (false, pk)
  | Some ctx =>
      '(t, g, s) <- get_ctx ctx ;; gp <- rd g ;;
      ok <- match gp with
            | Some _ => ret true
            | None => d <- get_default_group ;; put ctx (OCtx t (Ptr d) s) ;;; ret (match d with Some _ => true | None => false end)
            end ;;
      if negb ok then ret (false, pk)
      else
        key <- key_new ;;
        match key with
        | None => ret (false, pk)
        | Some k =>
            '(e, _) <- get_key k ;; ec0 <- rd e ;; ec <- deref ec0 ;;
            '(_, g, s) <- get_ctx ctx ;; gp0 <- rd g ;; gp <- deref gp0 ;; gv <- get_group gp ;;
            ok <- set_group ec gv ;;
            if negb ok then key_free key ;;; ret (false, pk)
            else
              ok <- ec_generate fuel src ec ;;
              if negb ok then key_free key ;;; ret (false, pk)
              else
                sp <- rd s ;;
                ok <- match sp with
                      | None => ret true
                      | Some sp => sv <- get_sbox sp ;; sbox <- copy_sbox sv ;;
                                   match sbox with None => ret false | Some _ => key_set k None sbox ;;; ret true end
                      end ;;
                if negb ok then key_free key ;;; ret (false, pk)
                else
                  '(t, _, _) <- get_ctx ctx ;;
                  '(ok, pk') <- assign pk t key ;;
                  if negb ok then key_free key ;;; ret (false, pk') else ret (true, pk')
        end
  end.

(** The value of a DSTU_KEY. *)
Definition read_key (key : nat) : M dstu_key :=
  '(e, s) <- get_key key ;; ec0 <- rd e ;; ec <- deref ec0 ;; k <- get_ec ec ;; sp <- rd s ;;
  match sp with None => ret (DKEY k None) | Some sp => sv <- get_sbox sp ;; ret (DKEY k (Some sv)) end.

(** key.c:374-438 key_from_asn1; the allocations of group_from_asn1 and group_from_nid count as
    one. *)
Definition h_key_from_asn1 (p : params) (le : bool) : M (option nat) :=
  key <- key_new ;;
  match key with
  | None => ret None
  | Some k =>
      ok <- match ap_sbox p with
            | None => ret true
            | Some s =>
                if negb (length s =? 64)%nat then ret false
                else if is_default_sbox s then ret true
                else sbox <- copy_sbox s ;; '(e, _) <- get_key k ;; put k (OKey e (Ptr sbox)) ;;;
                     ret (match sbox with Some _ => true | None => false end)
            end ;;
      if negb ok then key_free key ;;; ret None
      else
        group <- match match ap_curve p with
                       | Named o => group_from_nid (curve_obj2nid o)
                       | Custom c => group_from_asn1 solve c le
                       end with
                 | None => ret None
                 | Some g => new (OGroup (Binary g))
                 end ;;
        match group with
        | None => key_free key ;;; ret None
        | Some gp =>
            '(e, _) <- get_key k ;; ec0 <- rd e ;; ec <- deref ec0 ;; gv <- get_group gp ;;
            ok <- set_group ec gv ;;
            free_group gp ;;;
            if negb ok then key_free key ;;; ret None else ret key
        end
  end.
(** ameth.c:28-66 dstu_asn1_param_decode *)
Definition h_param_decode (pk : evp_key) (der : list N) : M (bool * evp_key) :=
  params <- match d2i der with None => ret None | Some p => t <- new OTemp ;; ret (match t with Some a => Some (a, p) | None => None end) end ;;
  match params with
  | None => ret (false, pk)
  | Some (a, p) =>
      let type := fst pk in
      key <- h_key_from_asn1 p (is_le type) ;;
      match key with
      | None => free a ;;; ret (false, pk)
      | Some _ =>
          '(ok, pk') <- assign pk type key ;;
          free a ;;;
          if negb ok then key_free key ;;; ret (false, pk') else ret (true, pk')
      end
  end.
(** EVP_PKEY_set_type: frees the old key; may fail. *)
Definition set_type (pk : evp_key) (type : Z) : M (bool * evp_key) :=
  pkey_free pk ;;; ok <- try ;; ret (ok, (if ok : bool then type else fst pk, None)).
(** EC_KEY_set_private_key, dstu_add_public_key (params.c:537-567), EC_KEY_set_public_key. *)
Definition set_private (ec : nat) (d : N) : M bool :=
  k <- get_ec ec ;; ok <- try ;; if ok : bool then put ec (OEc (ECKEY (ek_group k) (Some d) (ek_pub k))) ;;; ret true else ret false.
(** params.c:537-567 dstu_add_public_key *)
Definition h_add_public_key (ec : nat) : M bool :=
  k <- get_ec ec ;; ok <- try ;;
  if ok : bool then match add_public_key k with None => ret false | Some k' => put ec (OEc k') ;;; ret true end else ret false.
(** EC_KEY_set_public_key (OpenSSL), called at ameth.c:394-517. *)
Definition set_public (ec : nat) (Q : point) : M bool :=
  k <- get_ec ec ;; ok <- try ;; if ok : bool then put ec (OEc (ECKEY (ek_group k) (ek_priv k) (Some Q))) ;;; ret true else ret false.
(** The EC_KEY of a key. *)
Definition key_ec (key : option nat) : M nat := k <- deref key ;; '(e, _) <- get_key k ;; ec <- rd e ;; deref ec.

(** ameth.c:182-273 dstu_asn1_priv_decode *)
Definition h_priv_decode (pk : evp_key) (p8 : keyinfo) : M (bool * evp_key) :=
  let nid := al_nid (ki_alg p8) in
  if negb (is_dstu nid) then ret (false, pk)
  else
    '(ok, pk) <- set_type pk nid ;;
    if negb ok then ret (false, pk)
    else match al_params (ki_alg p8) with
    | None => ret (false, pk)
    | Some prm =>
        '(ok, pk) <- h_param_decode pk prm ;;
        if negb ok then ret (false, pk)
        else
          bn_bytes <- match ki_key p8 with [] => ret None | _ => new OTemp end ;;
          match bn_bytes with
          | None => ret (false, pk)
          | Some bn_bytes =>
              prk <- new OTemp ;;
              res <- match prk with
                     | None => ret false
                     | Some _ =>
                         ec <- key_ec (snd pk) ;;
                         ok <- set_private ec (be_val (rev (ki_key p8))) ;;
                         if negb ok then ret false else h_add_public_key ec
                     end ;;
              free_opt free prk ;;; free bn_bytes ;;; ret (res, pk)
          end
    end.
(** ameth.c:394-517 dstu_asn1_pub_decode *)
Definition h_pub_decode (pk : evp_key) (pub : keyinfo) : M (bool * evp_key) :=
  let nid := al_nid (ki_alg pub) in
  match al_params (ki_alg pub) with
  | None => ret (false, pk)
  | Some prm =>
      if negb (is_dstu nid) then ret (false, pk)
      else
        '(ok, pk) <- set_type pk nid ;;
        if negb ok then ret (false, pk)
        else
          '(ok, pk) <- h_param_decode pk prm ;;
          if negb ok then ret (false, pk)
          else match snd pk with
          | None => ret (false, pk)
          | Some _ =>
              ec <- key_ec (snd pk) ;; k <- get_ec ec ;;
              point <- new OTemp ;;
              match point with
              | None => ret (false, pk)
              | Some point =>
                  public_key <- match d2o (ki_key pub) with None => ret None | Some s => t <- new OTemp ;; ret (match t with Some a => Some (a, s) | None => None end) end ;;
                  res <- match public_key with
                         | None => ret false
                         | Some (_, s) =>
                             Q <- (if is_le nid then
                                     compressed <- match s with [] => ret None | _ => new OTemp end ;;
                                     match compressed with
                                     | None => ret None
                                     | Some c =>
                                         ok <- try ;;
                                         let Q := match ok, ek_group k with true, Some (Binary g) => expand solve (rev s) (g_curve g) | _, _ => None end in
                                         match Q with None => free c ;;; ret None | Some _ => free c ;;; ret Q end
                                     end
                                   else ok <- try ;; ret (match ok, ek_group k with true, Some (Binary g) => expand solve s (g_curve g) | _, _ => None end)) ;;
                             match Q with None => ret false | Some Q => set_public ec Q end
                         end ;;
                  free_opt free (option_map fst public_key) ;;; free point ;;; ret (res, pk)
              end
          end
  end.

(** key.c:66-219 asn1_from_key: the structure made, and its contents.  It does not test the
    result of DSTU_AlgorithmParameters_new (line 80) and uses it; nor that of BN_CTX_new.
    Failures of the allocations inside count as one. *)
Definition h_asn1_from_key (key : nat) (le : bool) : M (option (nat * params)) :=
  k <- read_key key ;;
  match ek_group (dk_ec k) with
  | None => ret None
  | Some _ =>
      p <- new OTemp ;;
      match p with
      | None => undef
      | Some p =>
          ok <- try ;;
          match asn1_from_key k le with
          | Undefined => undef
          | Error => free p ;;; ret None
          | Ok v => if ok : bool then ret (Some (p, v)) else free p ;;; ret None
          end
      end
  end.
(** ameth.c:68-89 dstu_asn1_param_encode with a NULL output pointer: the value returned, the
    buffer and its contents.  i2d returns -1 when it cannot allocate. *)
Definition h_param_encode (pk : evp_key) : M (Z * option (nat * list N)) :=
  match snd pk with
  | None => ret (0%Z, None)
  | Some key =>
      params <- h_asn1_from_key key (is_le (fst pk)) ;;
      match params with
      | None => ret (0%Z, None)
      | Some (p, v) =>
          buf <- new OTemp ;;
          free p ;;;
          ret (match buf with Some b => (Z.of_nat (length (enc_params v)), Some (b, enc_params v)) | None => ((-1)%Z, None) end)
      end
  end.
(** ASN1_STRING_free, with its data. *)
Definition free_str (p : nat) : M unit := o <- get p ;; match o with OStr d => free_opt free d ;;; free p | _ => undef end.
(** Memory handed over to a structure of the caller. *)
Definition give (p : nat) : M unit := free p.
(** ASN1_STRING handed to X509_PUBKEY_set0_param or PKCS8_pkey_set0 (ameth.c:275-356, 519-629). *)
Definition give_str (p : nat) : M unit := free_str p.

(** ameth.c:275-356 dstu_asn1_priv_encode.  A SEQUENCE without data is left out of the
    encoding. *)
Definition h_priv_encode (pk : evp_key) : M (option keyinfo) :=
  if negb (is_dstu (fst pk)) then ret None
  else
    params <- new (OStr None) ;;
    match params with
    | None => ret None
    | Some params =>
        '(n, encoded) <- h_param_encode pk ;;
        if (n =? 0)%Z then free_str params ;;; ret None
        else match snd pk with
        | None => free_str params ;;; ret None
        | Some key =>
            k <- read_key key ;;
            match ek_priv (dk_ec k) with
            | None => free_str params ;;; ret None
            | Some d =>
                prk <- (if num_bytes d =? 0 then ret None else new OTemp) ;;
                match prk with
                | None => free_str params ;;; ret None
                | Some prk =>
                    put params (OStr (option_map fst encoded)) ;;;
                    ok <- try ;;
                    if ok : bool then give_str params ;;; give prk ;;; ret (Some (KEYINFO (ALGOR (fst pk) (option_map snd encoded)) (rev (be_bytes (N.to_nat (num_bytes d)) d))))
                    else free prk ;;; free_str params ;;; ret None
                end
            end
        end
    end.
(** ameth.c:519-629 dstu_asn1_pub_encode *)
Definition h_pub_encode (pk : evp_key) : M (option keyinfo) :=
  if negb (is_dstu (fst pk)) then ret None
  else
    params <- new (OStr None) ;;
    match params with
    | None => ret None
    | Some params =>
        '(n, encoded) <- h_param_encode pk ;;
        put params (OStr (option_map fst encoded)) ;;;
        if (n <=? 0)%Z then free_str params ;;; ret None
        else match snd pk with
        | None => free_str params ;;; ret None
        | Some key =>
            k <- read_key key ;;
            match ek_group (dk_ec k), ek_pub (dk_ec k) with
            | Some (Binary g), Some Q =>
                compressed <- (if field_size (g_curve g) =? 0 then ret None else new OTemp) ;;
                match compressed with
                | None => free_str params ;;; ret None
                | Some c =>
                    ok <- try ;;
                    match (if ok : bool then compress (g_curve g) Q (field_size (g_curve g)) else None) with
                    | None => free c ;;; free_str params ;;; ret None
                    | Some out =>
                        let out := if is_le (fst pk) then rev out else out in
                        public_key <- new (OStr None) ;;
                        match public_key with
                        | None => free c ;;; free_str params ;;; ret None
                        | Some pub =>
                            put pub (OStr (Some c)) ;;;
                            pbk_encoded <- new OTemp ;;
                            match pbk_encoded with
                            | None => free_str pub ;;; free_str params ;;; ret None
                            | Some pbk =>
                                ok <- try ;;
                                if ok : bool then
                                  give pbk ;;; free_str pub ;;; give_str params ;;;
                                  ret (Some (KEYINFO (ALGOR (fst pk) (option_map snd encoded)) (enc_octets out)))
                                else free pbk ;;; free_str pub ;;; free_str params ;;; ret None
                            end
                        end
                    end
                end
            | _, _ => free_str params ;;; ret None
            end
        end
    end.

(** pmeth.c:228-314 dstu_pkey_sign with a buffer that is large enough. *)
Definition h_pkey_sign (pk : evp_key) (fuel : nat) (tbs : list N) (src : source) : M (option (list N)) :=
  match snd pk with
  | None => ret None
  | Some key =>
      k <- read_key key ;;
      match ek_group (dk_ec k) with
      | None => ret None
      | Some group =>
          n <- new OTemp ;;
          match n with
          | None => ret None
          | Some n =>
              match get_order group with
              | None => free n ;;; ret None
              | Some _ =>
                  dstu_sig <- new (OStr None) ;;
                  match dstu_sig with
                  | None => free n ;;; ret None
                  | Some ds =>
                      sig_data <- new OTemp ;;
                      match sig_data with
                      | None => free_str ds ;;; free n ;;; ret None
                      | Some sd =>
                          ok <- try ;;
                          match (if ok : bool then do_sign fuel (dk_ec k) tbs src else Failed) with
                          | Running => fun _ => Loop
                          | Failed => free sd ;;; free_str ds ;;; free n ;;; ret None
                          | Done s =>
                              put ds (OStr (Some sd)) ;;;
                              free_str ds ;;; free n ;;;
                              ret (Some (enc_octets (if is_le (fst pk) then rev s else s)))
                          end
                      end
                  end
              end
          end
      end
  end.
(** pmeth.c:316-395 dstu_pkey_verify *)
Definition h_pkey_verify (pk : evp_key) (sig tbs : list N) : M bool :=
  match snd pk with
  | None => ret false
  | Some key =>
      k <- read_key key ;;
      match ek_group (dk_ec k) with
      | None => ret false
      | Some group =>
          n <- new OTemp ;;
          match n with
          | None => ret false
          | Some np =>
              match get_order group with
              | None => free np ;;; ret false
              | Some n =>
                  dstu_sig <- match d2o sig with None => ret None | Some s => t <- new OTemp ;; ret (match t with Some a => Some (a, s) | None => None end) end ;;
                  let s := match dstu_sig with Some (_, s) => s | None => sig end in
                  let siglen := N.of_nat (length s) in
                  res <- (if N.testbit siglen 0 then ret false
                          else if siglen <? 2 * num_bytes n then ret false
                          else if is_le (fst pk) then
                            sig_be <- match s with [] => ret None | _ => new OTemp end ;;
                            match sig_be with
                            | None => ret false
                            | Some b => ok <- try ;; free b ;;; ret (ok && do_verify (dk_ec k) tbs (rev s))
                            end
                          else ok <- try ;; ret (ok && do_verify (dk_ec k) tbs s)) ;;
                  free np ;;; free_opt free (option_map fst dstu_sig) ;;; ret res
              end
          end
      end
  end.

(** ameth.c:91-132 dstu_asn1_param_copy.  Copying a key to itself is undefined: EC_KEY_set_group
    frees the group of the EC_KEY before it copies the argument, here the same group. *)
Definition h_param_copy (to from : evp_key) : M (bool * evp_key) :=
  match snd from with
  | None => ret (false, to)
  | Some fk =>
      fec <- key_ec (Some fk) ;; fe <- get_ec fec ;;
      match ek_group fe with
      | None => ret (false, to)
      | Some g =>
          '(ok, to') <- match snd to with
                        | Some _ => ret (true, to)
                        | None => tk <- key_new ;; '(ok, to') <- assign to (fst from) tk ;;
                                  if ok : bool then ret (true, to') else key_free tk ;;; ret (false, (fst to', None))
                        end ;;
          if negb ok then ret (false, to')
          else
            tec <- key_ec (snd to') ;;
            ok <- (if Nat.eqb tec fec then undef else set_group tec g) ;;
            if negb ok then ret (false, to')
            else
              '(_, s) <- get_key fk ;; sp <- rd s ;;
              match sp with
              | None => ret (true, to')
              | Some sp =>
                  sv <- get_sbox sp ;; dup <- copy_sbox sv ;;
                  tk <- deref (snd to') ;; '(e, _) <- get_key tk ;; put tk (OKey e (Ptr dup)) ;;;
                  ret (match dup with Some _ => true | None => false end, to')
              end
      end
  end.

(** The program: its contexts (with their data pointer) and keys, by handle. *)
Record world := W { w_mem : mem; w_ctx : list (nat * option nat); w_key : list (nat * evp_key) }.
(** A program that has made no call. *)
Definition world0 : world := W ([], O) [] [].
(** Look-up by handle. *)
Fixpoint assoc {A} (l : list (nat * A)) (k : nat) : option A :=
  match l with [] => None | (q, a) :: t => if Nat.eqb k q then Some a else assoc t k end.
(** A handle given up. *)
Fixpoint without {A} (l : list (nat * A)) (k : nat) : list (nat * A) :=
  match l with [] => [] | (q, a) :: t => if Nat.eqb k q then without t k else (q, a) :: without t k end.

(** Calls of the OpenSSL API that reach the methods.  Keys and contexts are named by handles.
    EVP_PKEY_CTX_new_id, EVP_PKEY_CTX_dup, EVP_PKEY_CTX_free, EVP_PKEY_CTX_ctrl,
    EVP_PKEY_CTX_ctrl_str, EVP_PKEY_keygen, EVP_PKEY_new, EVP_PKEY_free, the reading of
    parameters into a key of a type, EVP_PKCS82PKEY, X509_PUBKEY_get, i2d of parameters,
    EVP_PKEY2PKCS8, X509_PUBKEY_set, EVP_PKEY_sign, EVP_PKEY_verify. *)
Inductive op :=
| CtxNew (c : nat) (nid : Z) | CtxDup (dst src : nat) | CtxFree (c : nat)
| Ctrl (c : nat) (type p1 : Z) (p2 : carg) | CtrlStr (c : nat) (type value : list N)
| Keygen (c k : nat) (fuel : nat) (src : source)
| KeyNew (k : nat) | KeyFree (k : nat)
| ParamDecode (k : nat) (type : Z) (der : list N) | PrivDecode (k : nat) (p8 : keyinfo) | PubDecode (k : nat) (pub : keyinfo)
| ParamEncode (k : nat) | PrivEncode (k : nat) | PubEncode (k : nat)
| Sign (k : nat) (fuel : nat) (tbs : list N) (src : source) | Verify (k : nat) (sig tbs : list N).
(** What a call of the API returns. *)
Inductive answer := Bool (b : bool) | Bytes (s : list N) | Info (i : keyinfo).

(** A method called on the memory, then [f] says what becomes of the result. *)
Definition call {A B} (w : world) (m : M A) (f : A -> mem -> B) : step B :=
  match m (w_mem w) with Undef => Undef | Loop => Loop | Ret (a, h) => Ret (f a h) end.
(** A call that makes a new key: on failure OpenSSL frees it. *)
Definition finish (k : nat) (m : M (bool * evp_key)) : M (bool * evp_key) :=
  '(ok, pk) <- m ;; if ok : bool then ret (true, pk) else pkey_free pk ;;; ret (false, pk).
(** The key under its handle, or none after a failure. *)
Definition set_key (w : world) (k : nat) : bool * evp_key -> mem -> answer * world :=
  fun '(ok, pk) h => (Bool ok, W h (w_ctx w) (if ok : bool then (k, pk) :: without (w_key w) k else without (w_key w) k)).
(** Success with a value, or failure. *)
Definition as_answer {A} (f : A -> answer) (w : world) : option A -> mem -> answer * world :=
  fun a h => (match a with Some a => f a | None => Bool false end, W h (w_ctx w) (w_key w)).
(** A handle that does not exist, or a new one that does: undefined. *)
Definition with_ctx {B} (w : world) (c : nat) (f : option nat -> step B) : step B := match assoc (w_ctx w) c with Some d => f d | None => Undef end.
(** A call on an existing key. *)
Definition with_key {B} (w : world) (k : nat) (f : evp_key -> step B) : step B := match assoc (w_key w) k with Some pk => f pk | None => Undef end.
(** The handle of a new context is not in use. *)
Definition no_ctx {B} (w : world) (c : nat) (r : step B) : step B := match assoc (w_ctx w) c with Some _ => Undef | None => r end.
(** The handle of a new key is not in use. *)
Definition no_key {B} (w : world) (k : nat) (r : step B) : step B := match assoc (w_key w) k with Some _ => Undef | None => r end.

(** One call of the API: OpenSSL checks the handles and calls the methods of pmeth.c:27-443 and ameth.c:28-750 modelled above. *)
Definition exec (w : world) (o : op) : step (answer * world) :=
  match o with
  | CtxNew c nid => no_ctx w c (call w (pkey_init nid) (fun d h =>
      match d with Some _ => (Bool true, W h ((c, d) :: w_ctx w) (w_key w)) | None => (Bool false, W h (w_ctx w) (w_key w)) end))
  | CtxDup dst src => no_ctx w dst (with_ctx w src (fun d => call w (pkey_copy d) (fun d' h =>
      match d' with Some d' => (Bool true, W h ((dst, d') :: w_ctx w) (w_key w)) | None => (Bool false, W h (w_ctx w) (w_key w)) end)))
  | CtxFree c => with_ctx w c (fun d => call w (pkey_cleanup d) (fun _ h => (Bool true, W h (without (w_ctx w) c) (w_key w))))
  | Ctrl c type p1 p2 => with_ctx w c (fun d => call w (pkey_ctrl d type p1 p2) (fun r h => (Bool r, W h (w_ctx w) (w_key w))))
  | CtrlStr c type value => with_ctx w c (fun d => call w (pkey_ctrl_str d type value) (fun r h => (Bool r, W h (w_ctx w) (w_key w))))
  | Keygen c k fuel src => with_ctx w c (fun d =>
      let pk := match assoc (w_key w) k with Some pk => pk | None => (0%Z, None) end in
      call w (finish k (pkey_keygen d pk fuel src)) (set_key w k))
  | KeyNew k => no_key w k (Ret (Bool true, W (w_mem w) (w_ctx w) ((k, (0%Z, None)) :: w_key w)))
  | KeyFree k => with_key w k (fun pk => call w (pkey_free pk) (fun _ h => (Bool true, W h (w_ctx w) (without (w_key w) k))))
  | ParamDecode k type der => no_key w k (call w (finish k (h_param_decode (type, None) der)) (set_key w k))
  | PrivDecode k p8 => no_key w k (call w (finish k (h_priv_decode (al_nid (ki_alg p8), None) p8)) (set_key w k))
  | PubDecode k pub => no_key w k (call w (finish k (h_pub_decode (al_nid (ki_alg pub), None) pub)) (set_key w k))
  | ParamEncode k => with_key w k (fun pk => call w (n_buf <- h_param_encode pk ;; match n_buf with (_, None) => ret None | (_, Some (b, s)) => free b ;;; ret (Some s) end) (as_answer Bytes w))
  | PrivEncode k => with_key w k (fun pk => call w (h_priv_encode pk) (as_answer Info w))
  | PubEncode k => with_key w k (fun pk => call w (h_pub_encode pk) (as_answer Info w))
  | Sign k fuel tbs src => with_key w k (fun pk => call w (h_pkey_sign pk fuel tbs src) (as_answer Bytes w))
  | Verify k sig tbs => with_key w k (fun pk => call w (h_pkey_verify pk sig tbs) (fun r h => (Bool r, W h (w_ctx w) (w_key w))))
  end.
(** A history: the answers, in order. *)
Fixpoint run (w : world) (l : list op) : step (list answer * world) :=
  match l with
  | [] => Ret ([], w)
  | o :: t => match exec w o with
              | Undef => Undef
              | Loop => Loop
              | Ret (a, w') => match run w' t with Undef => Undef | Loop => Loop | Ret (l, w'') => Ret (a :: l, w'') end
              end
  end.
End Ctx.

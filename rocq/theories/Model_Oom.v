(** Model of dstulib/compress.c, engine/sign.c, dstulib/params.c and the conversion of groups in
    dstulib/key.c with every allocation, release and call that fails when memory runs out.  The
    values are those of Model_Compress, Model_Sign, Model_Curves and Model_Key; heap and calls are
    those of Model_Ctx. *)
From Coq Require Import ZArith.
From Verif Require Import Base Model_Params Model_Gf2m Model_Compress Model_Ec Model_Utils Model_Curves Model_Sign Model_Asn1 Model_Pmeth Model_Key Model_Ameth Model_Ctx.

Section Oom.
Variable malloc : nat -> heap -> option nat.
(** BN_GF2m_mod_solve_quad *)
Variable solve : N -> N -> option N.

(** A call of OpenSSL that computes [o] (None: it fails) if the memory it needs is available.
    BN_clear_bit, BN_zero, BN_cmp and BN_bn2bin need none. *)
Definition call {A} (o : option A) : M (option A) := ok <- try malloc ;; ret (if ok : bool then o else None).
(** if (!x) goto err; *)
Notation "x <-- m ;; k" := (bindM m (fun r => match r with Some x => k | None => ret None end)) (at level 61, m at next level, right associativity).
Notation "' pat <-- m ;; k" := (bindM m (fun r => match r with Some pat => k | None => ret None end)) (at level 61, pat pattern, m at next level, right associativity).
(** BN_CTX_start and k calls of BN_CTX_get of which the last is tested: once it has failed
    BN_CTX_get returns NULL until BN_CTX_end. *)
Fixpoint gets (k : nat) : M (option unit) := match k with O => ret (Some tt) | S k => _ <-- call (Some tt) ;; gets k end.

(** compress.c:14-42 bn_trace; None is -1.  The result of BN_CTX_get is not tested; BN_copy
    writes to it. *)
Fixpoint h_trace_loop (n : nat) (bn p r : N) : M (option N) :=
  match n with
  | O => ret (Some r)
  | S k => r <-- call (Some (gsqr p r)) ;; r <-- call (Some (N.lxor r bn)) ;; h_trace_loop k bn p r
  end.
(** compress.c:14-42 bn_trace *)
Definition h_trace (bn p : N) : M (option bool) :=
  ok <- try malloc ;;
  if negb ok then undef
  else
    r <-- call (Some bn) ;; r <-- h_trace_loop (N.to_nat (num_bits p - 2)) bn p r ;;
    ret (if r =? 1 then Some true else if r =? 0 then Some false else None).

(** compress.c:44-113 dstu_point_compress *)
Definition h_compress (c : curve) (P : point) (len : N) : M (option (list N)) :=
  let p := c_p c in
  if len <? field_size c then ret None
  else
    ctx <- new malloc OTemp ;;
    match ctx with
    | None => ret None
    | Some ctx =>
        res <- (_ <-- gets 4 ;; _ <-- call (Some tt) ;; '(x, y) <-- call P ;;
                if x =? 0 then ret (Some (zeros (N.to_nat (field_size c))))
                else
                  x_inv <-- call (ginv p x) ;; y <-- call (Some (gmul p y x_inv)) ;;
                  trace <-- h_trace y p ;;
                  x <-- (if trace : bool then call (Some (N.setbit x 0)) else ret (Some (N.clearbit x 0))) ;;
                  ret (match bn_encode x (field_size c) with Some (out, r) => if r =? 0 then None else Some out | None => None end)) ;;
        free ctx ;;; ret res
    end.

(** compress.c:115-219 dstu_point_expand: the point set.  The value -1 of the last bn_trace is
    not tested. *)
Definition h_expand (compressed : list N) (c : curve) : M (option point) :=
  let p := c_p c in let a := c_a c in
  if N.of_nat (length compressed) <? field_size c then ret None
  else
    ctx <- new malloc OTemp ;;
    match ctx with
    | None => ret None
    | Some ctx =>
        res <- (_ <-- gets 6 ;; _ <-- call (Some tt) ;; x <-- call (Some (be_val compressed)) ;;
                if x =? 0 then y <-- call (Some (gsqrt p (c_b c))) ;; call (set_affine c x y)
                else
                  let k := N.testbit x 0 in
                  let x := N.clearbit x 0 in
                  trace <-- h_trace x p ;;
                  x <-- (if (trace && (a =? 0)) || (negb trace && (a =? 1)) then call (Some (N.setbit x 0)) else ret (Some x)) ;;
                  x2 <-- call (Some (gsqr p x)) ;;
                  y <-- call (Some (gmul p x2 x)) ;;
                  y <-- (if a =? 1 then call (Some (N.lxor y x2)) else ret (Some y)) ;;
                  y <-- call (Some (N.lxor y (c_b c))) ;;
                  x2 <-- call (ginv p x2) ;;
                  y <-- call (Some (gmul p y x2)) ;;
                  y <-- call (solve p y) ;;
                  trace <- h_trace y p ;;
                  let trace := match trace with Some t => t | None => true end in
                  y <-- (if xorb k trace then call (Some (N.lxor y 1)) else ret (Some y)) ;;
                  y <-- call (Some (gmul p y x)) ;;
                  call (set_affine c x y)) ;;
        free ctx ;;; ret res
    end.

(** sign.c:27-49 hash_to_field.  The result of BN_one is not tested: if it fails the value stays
    0.  BN_clear_bit needs no memory. *)
Definition h_hash_to_field (hash : list N) (fieldsize : N) : M (option N) :=
  h <- match hash with [] => ret None | _ => new malloc OTemp end ;;
  match h with
  | None => ret None
  | Some h =>
      fe <- call (Some (be_val (rev hash))) ;; free h ;;;
      match fe with
      | None => ret None
      | Some fe =>
          fe <- (if fe =? 0 then ok <- try malloc ;; ret (if ok : bool then 1 else fe) else ret fe) ;;
          ret (bn_truncate_bits fe (Z.of_N fieldsize))
      end
  end.

(** sign.c:108-146: see Model_Sign.attempt; BN_rand_range succeeded. *)
Definition h_attempt (g : group) (d h e : N) : M (outcome (N * N)) :=
  let p := c_p (g_curve g) in let n := g_order g in
  r <- (eG <-- call (Some (pmul (g_curve g) e (g_gen g))) ;; '(Fe, _) <-- call eG ;;
        if Fe =? 0 then ret (Some Running)
        else
          r <-- call (Some (gmul p h Fe)) ;;
          match field_to_bn r n with
          | None => ret None
          | Some r =>
              if r =? 0 then ret (Some Running)
              else
                s <-- call (Some ((d * r) mod n)) ;; s <-- call (Some (mod_add_quick s e n)) ;;
                ret (Some (if s =? 0 then Running else Done (s, r)))
          end) ;;
  ret (match r with Some o => o | None => Failed end).
(** At most [fuel] nonces; then the call is still running. *)
Fixpoint h_sign_loop (fuel : nat) (g : group) (d h : N) (src : source) (i : nat) : M (option (N * N)) :=
  match fuel with
  | O => fun _ => Loop
  | S k =>
      match src i with
      | None => ret None
      | Some e =>
          o <- h_attempt g d h e ;;
          match o with Running => h_sign_loop k g d h src (S i) | Failed => ret None | Done sr => ret (Some sr) end
      end
  end.
(** sign.c:56-161 dstu_do_sign *)
Definition h_do_sign (fuel : nat) (key : eckey) (tbs : list N) (src : source) : M (option (list N)) :=
  match ek_priv key, ek_group key with
  | Some d, Some (Binary g) =>
      let n := g_order g in
      ctx <- new malloc OTemp ;;
      match ctx with
      | None => ret None
      | Some ctx =>
          eG <- (_ <-- gets 7 ;; _ <-- call (get_order (Binary g)) ;; _ <-- call (Some tt) ;; new malloc OTemp) ;;
          res <- match eG with
                 | None => ret None
                 | Some _ =>
                     h <-- h_hash_to_field tbs (degree (c_p (g_curve g))) ;;
                     '(s, r) <-- h_sign_loop fuel g d h src 0 ;;
                     ret (match bn_encode s (num_bytes n), bn_encode r (num_bytes n) with
                          | Some (bs, ns), Some (br, nr) => if (ns =? 0) || (nr =? 0) then None else Some (bs ++ br)
                          | _, _ => None
                          end)
                 end ;;
          free_opt free eG ;;; free ctx ;;; ret res
      end
  | _, _ => ret None
  end.

(** sign.c:163-254 dstu_do_verify *)
Definition h_do_verify (key : eckey) (tbs sig : list N) : M bool :=
  match ek_group key, ek_pub key with
  | Some (Binary g), Some Q =>
      let c := g_curve g in let n := g_order g in
      ctx <- new malloc OTemp ;;
      match ctx with
      | None => ret false
      | Some ctx =>
          srr <- (_ <-- gets 6 ;; r1 <-- h_hash_to_field tbs (degree (c_p c)) ;;
                  _ <-- call (get_order (Binary g)) ;; _ <-- call (Some tt) ;;
                  let half := (length sig / 2)%nat in
                  s <-- call (Some (be_val (firstn half sig))) ;;
                  r <-- call (Some (be_val (firstn half (skipn half sig)))) ;;
                  ret (if (s =? 0) || (r =? 0) then None else if (n <=? s) || (n <=? r) then None else Some (s, r, r1))) ;;
          res <- match srr with
                 | None => ret None
                 | Some (s, r, r1) =>
                     R <- new malloc OTemp ;;
                     match R with
                     | None => ret None
                     | Some R =>
                         res <- (RP <-- call (Some (padd c (pmul c s (g_gen g)) (pmul c r Q))) ;;
                                 match RP with
                                 | None => ret None
                                 | Some P =>
                                     '(Rx, _) <-- call (Some P) ;; r1 <-- call (Some (gmul (c_p c) r1 Rx)) ;;
                                     ret (match field_to_bn r1 n with Some r1 => if r =? r1 then Some tt else None | None => None end)
                                 end) ;;
                         free R ;;; ret res
                     end
                 end ;;
          free ctx ;;; ret (match res with Some _ => true | None => false end)
      end
  | _, _ => ret false
  end.

(** params.c:537-567 dstu_add_public_key: the result, and the key afterwards. *)
Definition h_do_add_public (key : eckey) : M (bool * eckey) :=
  match ek_group key, ek_priv key with
  | Some (Binary g), Some prk =>
      pbk <- new malloc OTemp ;;
      match pbk with
      | None => ret (false, key)
      | Some pbk =>
          Q <- (P <-- call (Some (pmul (g_curve g) prk (g_gen g))) ;; Q <-- call (Some (pneg P)) ;; call (Some Q)) ;;
          free pbk ;;;
          ret (match Q with Some Q => (true, ECKEY (ek_group key) (ek_priv key) (Some Q)) | None => (false, key) end)
      end
  | _, _ => ret (false, key)
  end.
(** params.c:515-520: BN_rand_range until the number is not zero. *)
Fixpoint h_prk_loop (fuel : nat) (src : source) (i : nat) : M (option N) :=
  match fuel with
  | O => fun _ => Loop
  | S k => match src i with
           | None => ret None
           | Some prk => if prk =? 0 then h_prk_loop k src (S i) else ret (Some prk)
           end
  end.
(** params.c:490-535 dstu_generate_key, for a binary group: the result, and the key afterwards. *)
Definition h_do_generate (fuel : nat) (key : eckey) (src : source) : M (bool * eckey) :=
  match ek_group key with
  | Some (Binary g) =>
      ctx <- new malloc OTemp ;;
      match ctx with
      | None => ret (false, key)
      | Some ctx =>
          prk <- (_ <-- gets 2 ;; _ <-- call (get_order (Binary g)) ;; prk <-- h_prk_loop fuel src 0 ;; call (Some prk)) ;;
          res <- match prk with
                 | None => ret (false, key)
                 | Some prk => h_do_add_public (ECKEY (ek_group key) (Some prk) (ek_pub key))
                 end ;;
          free ctx ;;; ret res
      end
  | _ => ret (false, key)
  end.

(** params.c:394-475 group_from_named_curve.  The result of BN_one is not tested: if it fails a
    stays 0. *)
Definition h_named_curve (i : nat) : M (option nat) :=
  match nth_error dstu_curves i with
  | None => ret None
  | Some n =>
      let bytesize := Z.to_nat ((hd 0%Z (nc_poly n) + 7) / 8) in
      let field k := be_val (firstn bytesize (skipn (1 + k * bytesize) (nc_data n))) in
      ctx <- new malloc OTemp ;;
      match ctx with
      | None => ret None
      | Some ctx =>
          group <- (_ <-- gets 6 ;; p <-- call (arr2poly (nc_poly n) 0) ;;
                    a <- (if hd 0 (nc_data n) =? 0 then ret 0 else ok <- try malloc ;; ret (if ok : bool then 1 else 0)) ;;
                    b <-- call (Some (field 0%nat)) ;;
                    match new_curve p a b with
                    | None => ret None
                    | Some c => q <-- new malloc (OGroup (Binary (GROUP c None 0 0))) ;; ret (Some (q, c))
                    end) ;;
          res <- match group with
                 | None => ret None
                 | Some (q, c) =>
                     Np <- (n <-- call (Some (field 1%nat)) ;; P <-- new malloc OTemp ;; ret (Some (n, P))) ;;
                     match Np with
                     | None => free_group q ;;; ret None
                     | Some (n, P) =>
                         g <- (x <-- call (Some (field 2%nat)) ;; y <-- call (Some (field 3%nat)) ;; G <-- call (set_affine c x y) ;; call (set_generator c G n 1)) ;;
                         match g with
                         | None => free P ;;; free_group q ;;; ret None
                         | Some g => put q (OGroup (Binary g)) ;;; free P ;;; ret (Some q)
                         end
                     end
                 end ;;
          free ctx ;;; ret res
      end
  end.
(** params.c:477-488 group_from_nid *)
Definition h_group_from_nid (nid : Z) : M (option nat) :=
  match find_curve (fun n => (nid =? nc_nid n)%Z) dstu_curves 0 with Some i => h_named_curve i | None => ret None end.
(** params.c:284-312 curve_nid_from_group: EC_GROUP_cmp returns -1 if memory runs out. *)
Definition h_curve_nid (g : group) : M Z :=
  match find_curve (fun n => (Z.of_N (degree (c_p (g_curve g))) =? hd 0 (nc_poly n))%Z) dstu_curves 0 with
  | None => ret 0%Z
  | Some i =>
      std_group <- h_named_curve i ;;
      match std_group with
      | None => ret 0%Z
      | Some q =>
          std <- get_group q ;; ok <- try malloc ;; free_group q ;;;
          ret (match std, nth_error dstu_curves i with
               | Binary std, Some n => if (ok : bool) && group_eqb g std then nc_nid n else 0%Z
               | _, _ => 0%Z
               end)
      end
  end.

(** key.c:284-303 etc.: a string in the order asked for, through a buffer that is released after
    [use]. *)
Definition in_buffer {A} (le : bool) (s : list N) (use : list N -> M (option A)) : M (option A) :=
  if le then
    buf <- match s with [] => ret None | _ => new malloc OTemp end ;;
    match buf with
    | None => ret None
    | Some buf => r <- use (rev s) ;; free buf ;;; ret r
    end
  else use s.
(** key.c:231-259: the exponents, None if one is not positive. *)
Definition exps_of_spec (f : bfield) : option (list Z) :=
  let m := asn1_get (bf_m f) in
  if (m <=? 0)%Z then None
  else match bf_poly f with
       | Trinomial k => let k := asn1_get k in if (k <=? 0)%Z then None else Some [m; k; 0; -1]%Z
       | Pentanomial k j l =>
           let l := asn1_get l in let j := asn1_get j in let k := asn1_get k in
           if (l <=? 0)%Z then None else if (j <=? 0)%Z then None else if (k <=? 0)%Z then None else Some [m; l; j; k; 0; -1]%Z
       end.
(** key.c:221-372 group_from_asn1 *)
Definition h_group_from_asn1 (spec : custom) (le : bool) : M (option nat) :=
  match exps_of_spec (cu_field spec) with
  | None => ret None
  | Some poly =>
      ctx <- new malloc OTemp ;;
      match ctx with
      | None => ret None
      | Some ctx =>
          group <- (_ <-- gets 4 ;; p <-- call (arr2poly poly 0) ;; a <-- call (Some (cu_a spec)) ;;
                    if negb (a =? 1)%Z && negb (a =? 0)%Z then ret None
                    else
                      b <-- in_buffer le (cu_b spec) (fun b => call (Some (be_val b))) ;;
                      n <-- call (Some (cu_n spec)) ;;
                      match new_curve p (Z.to_N a) b with
                      | None => ret None
                      | Some c => q <-- new malloc (OGroup (Binary (GROUP c None 0 0))) ;; ret (Some (q, c, n))
                      end) ;;
          '(ret', g, group) <- match group with
                 | None => ret (None, None, None)
                 | Some (q, c, n) =>
                     g <- new malloc OTemp ;;
                     match g with
                     | None => ret (None, None, Some q)
                     | Some g =>
                         gr <- (G <-- in_buffer le (cu_bp spec) (fun bp => h_expand bp c) ;;
                                call (if (n <? 0)%Z then None else set_generator c G (Z.to_N n) 1)) ;;
                         match gr with
                         | None => ret (None, Some g, Some q)
                         | Some gr => put q (OGroup (Binary gr)) ;;; ret (Some q, Some g, None)
                         end
                     end
                 end ;;
          free ctx ;;; free_opt free g ;;; free_opt free_group group ;;; ret ret'
      end
  end.

(** key.c:66-219 asn1_from_key for a key with the binary group g and the S-box given: the structure
    made and its contents.  Strings and numbers inside the structure belong to it.  The results of
    DSTU_AlgorithmParameters_new and of BN_CTX_new are not tested. *)
Definition of_result {A} (r : result A) : M (option A) := match r with Undefined => undef | Error => ret None | Ok a => ret (Some a) end.
(** Several allocations in a row (key.c:99-191). *)
Fixpoint calls (k : nat) : M (option unit) := match k with O => ret (Some tt) | S k => _ <-- call (Some tt) ;; calls k end.
(** key.c:99-191 *)
Definition h_custom_from_group (g : group) (le : bool) : M (option custom) :=
  let c := g_curve g in
  _ <-- call (Some tt) ;;
  ctx0 <- new malloc OTemp ;; ctx <- deref ctx0 ;;
  '(compressed, res) <-
    (r <- (_ <-- gets 4 ;; _ <-- call (Some tt) ;; _ <-- call (get_order (Binary g)) ;;
           if c_p c =? 0 then ret None
           else
             let poly := poly2arr (c_p c) 6 in
             m <-- of_result (elt poly 0) ;; _ <-- call (Some tt) ;;
             mid <-- of_result (middle_of poly) ;; _ <-- calls (match mid with Trinomial _ => 2 | Pentanomial _ _ _ => 4 end) ;;
             _ <-- calls 2 ;;
             let size := Z.to_N ((m + 7) / 8) in
             compressed <-- (if size =? 0 then ret None else new malloc OTemp) ;; ret (Some (m, mid, size, compressed))) ;;
     match r with
     | None => ret (None, None)
     | Some (m, mid, size, compressed) =>
         res <- match bn_encode (c_b c) size with
                | None => ret None
                | Some (b, r) =>
                    if r =? 0 then ret None
                    else
                      _ <-- call (Some tt) ;; bp <-- h_compress c (g_gen g) size ;; _ <-- call (Some tt) ;;
                      ret (Some (CUSTOM (BF m mid) (Z.of_N (c_a c)) (if le then rev b else b) (Z.of_N (g_order g)) (if le then rev bp else bp)))
                end ;;
         ret (Some compressed, res)
     end) ;;
  free_opt free compressed ;;; free ctx ;;; ret res.
(** key.c:66-219 asn1_from_key *)
Definition h_from_key (g : group) (sb : option (list N)) (le : bool) : M (option (nat * params)) :=
  p0 <- new malloc OTemp ;; p <- deref p0 ;;
  let sbox := match sb with Some s => if is_default_sbox s then None else Some s | None => None end in
  r <- (_ <-- calls (match sbox with Some _ => 2 | None => 0 end) ;;
        nid <- h_curve_nid g ;;
        if (nid =? 0)%Z then c <-- h_custom_from_group g le ;; ret (Some (PARAMS (Custom c) sbox))
        else ret (match curve_nid2obj nid with Some o => Some (PARAMS (Named o) sbox) | None => None end)) ;;
  match r with
  | None => free p ;;; ret None
  | Some v => ret (Some (p, v))
  end.
End Oom.

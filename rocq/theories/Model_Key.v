(** Model of dstulib/key.c: keys to and from algorithm parameters.  Memory is sufficient. *)
From Coq Require Import ZArith.
From Verif Require Import Base Model_Params Model_Gf2m Model_Compress Model_Ec Model_Utils Model_Curves Model_Sign Model_Asn1 Model_Pmeth.

(** What a call does: undefined behaviour, failure, or success with a result. *)
Inductive result (A : Type) := Undefined | Error | Ok (a : A).
Arguments Undefined {A}. Arguments Error {A}. Arguments Ok {A} a.
(** One step after another. *)
Definition bind {A B} (x : result A) (f : A -> result B) : result B := match x with Undefined => Undefined | Error => Error | Ok a => f a end.
(** A step that fails or succeeds. *)
Definition of_option {A} (x : option A) : result A := match x with Some a => Ok a | None => Error end.

(** BN_GF2m_poly2arr (OpenSSL): the exponents, largest first, ended by -1 if there is room; the
    rest of the array keeps its contents (None: never written). *)
Fixpoint pexponents (p : positive) (i : N) : list N :=
  match p with xH => [i] | xO q => pexponents q (i + 1) | xI q => i :: pexponents q (i + 1) end.
(** The exponents of a polynomial, largest first. *)
Definition exponents (p : N) : list N := match p with 0 => [] | Npos q => rev (pexponents q 0) end.
(** BN_GF2m_poly2arr (OpenSSL), called at key.c:126. *)
Definition poly2arr (p : N) (max : nat) : list (option Z) :=
  firstn max (map (fun i => Some (Z.of_N i)) (exponents p) ++ Some (-1)%Z :: repeat None max).
(** Reading an element that was never written is undefined. *)
Definition elt (arr : list (option Z)) (i : nat) : result Z := match nth i arr None with Some x => Ok x | None => Undefined end.

(** key.c:132-160: trinomial or pentanomial. *)
Definition middle_of (poly : list (option Z)) : result middle :=
  let penta :=
    bind (elt poly 5) (fun x5 => if negb (x5 =? -1)%Z then Error else
    bind (elt poly 4) (fun x4 => if negb (x4 =? 0)%Z then Error else
    bind (elt poly 1) (fun l => bind (elt poly 2) (fun j => bind (elt poly 3) (fun k => Ok (Pentanomial k j l)))))) in
  bind (elt poly 3) (fun x3 => if negb (x3 =? -1)%Z then penta else
  bind (elt poly 2) (fun x2 => if negb (x2 =? 0)%Z then penta else
  bind (elt poly 1) (fun k => Ok (Trinomial k)))).

(** key.c:99-191: a custom curve. *)
Definition custom_from_group (g : group) (le : bool) : result custom :=
  let c := g_curve g in
  if g_order g =? 0 then Error
  else if c_p c =? 0 then Error
  else let poly := poly2arr (c_p c) 6 in
  bind (elt poly 0) (fun m =>
  bind (middle_of poly) (fun mid =>
  let size := Z.to_N ((m + 7) / 8) in
  match bn_encode (c_b c) size with
  | None => Error
  | Some (b, r) =>
      if r =? 0 then Error
      else match compress c (g_gen g) size with
      | None => Error
      | Some bp => Ok (CUSTOM (BF m mid) (Z.of_N (c_a c)) (if le then rev b else b) (Z.of_N (g_order g)) (if le then rev bp else bp))
      end
  end)).
(** key.c:66-219 asn1_from_key.  Other than binary groups are not modelled. *)
Definition asn1_from_key (key : dstu_key) (le : bool) : result params :=
  match ek_group (dk_ec key) with
  | Some (Binary g) =>
      let sbox := match dk_sbox key with Some s => if is_default_sbox s then None else Some s | None => None end in
      let nid := curve_nid_from_group g in
      if (nid =? 0)%Z then bind (custom_from_group g le) (fun c => Ok (PARAMS (Custom c) sbox))
      else match curve_nid2obj nid with Some o => Ok (PARAMS (Named o) sbox) | None => Error end
  | _ => Error
  end.

(** reverse_bytes_copy into a buffer from OPENSSL_malloc, which is NULL for the size 0; or the
    string itself. *)
Definition in_order (le : bool) (s : list N) : option (list N) :=
  if le then match s with [] => None | _ => Some (rev s) end else Some s.
(** key.c:221-372 group_from_asn1.  [solve] is BN_GF2m_mod_solve_quad. *)
Definition group_from_asn1 (solve : N -> N -> option N) (spec : custom) (le : bool) : option group :=
  match poly_of_spec (cu_field spec) with
  | None => None
  | Some p =>
      if negb (cu_a spec =? 1)%Z && negb (cu_a spec =? 0)%Z then None
      else match in_order le (cu_b spec) with
      | None => None
      | Some b =>
          match new_curve p (Z.to_N (cu_a spec)) (be_val b) with
          | None => None
          | Some c =>
              match in_order le (cu_bp spec) with
              | None => None
              | Some bp =>
                  match expand solve bp c with
                  | None => None
                  | Some G => if (cu_n spec <? 0)%Z then None else set_generator c G (Z.to_N (cu_n spec)) 1
                  end
              end
          end
      end
  end.
(** key.c:374-438 key_from_asn1 *)
Definition key_from_asn1 (solve : N -> N -> option N) (p : params) (le : bool) : option dstu_key :=
  match match ap_sbox p with
        | Some s => if negb (length s =? 64)%nat then None else Some (if is_default_sbox s then None else Some s)
        | None => Some None
        end with
  | None => None
  | Some sbox =>
      match match ap_curve p with
            | Named o => group_from_nid (curve_obj2nid o)
            | Custom c => group_from_asn1 solve c le
            end with
      | None => None
      | Some g => Some (DKEY (ECKEY (Some (Binary g)) None None) sbox)
      end
  end.

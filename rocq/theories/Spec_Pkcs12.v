(** What reading a PKCS#12 container should give. *)
From Verif Require Import Base Model_KeyStore Model_Pkcs12.

(** The key and certificate bags of a tree, depth first, with the object each converts to
    (None = cannot be converted). *)
Definition item := (side * option nat)%type.
Fixpoint items (b : bag) : list item :=
  match b with
  | KeyBag o => [(Keys, o)]
  | ShroudedKeyBag None => [(Keys, None)]
  | ShroudedKeyBag (Some o) => [(Keys, o)]
  | CertBag o => [(Certs, o)]
  | SafeContentsBag l => flat_map items l
  | OtherBag => []
  end.
Definition items_p7 (p : pkcs7) : list item :=
  match p with P7Data (Some l) | P7Enc (Some l) => flat_map items l | _ => [] end.
Definition items_of (safes : list pkcs7) : list item := flat_map items_p7 safes.

(** The objects of one side. *)
Definition side_eqb (a b : side) : bool := match a, b with Keys, Keys | Certs, Certs => true | _, _ => false end.
Definition objs (d : side) (l : list item) : list nat :=
  flat_map (fun i : item => if side_eqb d (fst i) then match snd i with Some n => [n] | None => [] end else []) l.

(** Every safe that should hold bags can be unpacked; every bag can be converted; there is at
    least one key or certificate. *)
Definition p7_ok (p : pkcs7) : Prop := match p with P7Data None | P7Enc None => False | _ => True end.
Definition readable (p : option pkcs12) (safes : list pkcs7) : Prop :=
  p = Some (P12 true (Some safes)) /\ Forall p7_ok safes /\ items_of safes <> [] /\ Forall (fun i : item => snd i <> None) (items_of safes).

(** The items before the first that cannot be converted. *)
Fixpoint good_prefix (l : list item) : list item :=
  match l with [] => [] | (d, None) :: _ => [] | i :: t => i :: good_prefix t end.

(** A store holds exactly these keys and certificates, as seen through the API. *)
Definition shows (h : heap) (a : nat) (d : side) (l : list nat) : Prop :=
  ks_num h d a = Some (length l) /\
  forall pos, ks_get h d a pos = Some (match nth_error l pos with Some n => Ptr n | None => Null end).
(** The objects OpenSSL creates are new: different from each other and from those released. *)
Definition p12_fresh (h : heap) (p : option pkcs12) : Prop :=
  forall safes, p = Some (P12 true (Some safes)) ->
    NoDup (hp_fk h ++ objs Keys (items_of safes)) /\ NoDup (hp_fc h ++ objs Certs (items_of safes)).

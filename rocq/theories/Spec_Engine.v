(** What the engine promises about lookups, independent of how it keeps its objects. *)
From Coq Require Import ZArith.
From Verif Require Import Base Model_Err Model_Engine.
#[local] Open Scope Z_scope.

(** The method a call asks for, when it is an advertised one.  1157 is the digest, 1154 the
    cipher, 1158 and 1159 the two key types. *)
Definition wanted (o : eng_op) : option method :=
  match o with
  | GDigests true _ n => if n =? 1157 then Some MDigest else None
  | GCiphers true _ n => if n =? 1154 then Some MCipher else None
  | GPkey true _ n => if (n =? 1158) || (n =? 1159) then Some (MPkey n) else None
  | GAsn1 true _ n => if (n =? 1158) || (n =? 1159) then Some (MAsn1 n) else None
  | _ => None
  end.
(** The list a call asks for. *)
Definition listed (o : eng_op) : option (list Z) :=
  match o with
  | GDigests o true n => if o && negb (n =? 0) then None else Some [1157]
  | GCiphers o true n => if o && negb (n =? 0) then None else Some [1154]
  | GPkey false true _ | GAsn1 false true _ => Some [1158; 1159]
  | _ => None
  end.
(** A lookup. *)
Definition lookup (o : eng_op) : bool :=
  match o with GDigests _ _ _ | GCiphers _ _ _ | GPkey _ _ _ | GAsn1 _ _ _ => true | _ => false end.

(** The right answer, if [addr] says where each method object is. *)
Definition right_answer (h : mheap) (addr : method -> nat) (o : eng_op) (a : answer) : Prop :=
  match wanted o with
  | Some m => a_ret a = 1 /\ a_meth a = Some (Some (addr m)) /\ live h (addr m) = Some m
  | None =>
      match listed o with
      | Some l => a_ret a = Z.of_nat (length l) /\ a_nids a = Some l /\ a_meth a = None
      | None => (lookup o = true -> a_ret a <= 0) /\ (a_meth a = None \/ a_meth a = Some None)
      end
  end.

(** Calls made before the engine is finished, none with both pointers NULL. *)
Definition before_finish (o : eng_op) : Prop :=
  match o with
  | GFinish | GDestroy | GUse _ => False
  | GPkey o n _ | GAsn1 o n _ => o = true \/ n = true
  | _ => True
  end.
(** Memory for method objects is there and new. *)
Definition malloc_good (malloc : mheap -> option nat) : Prop := forall h, exists p, malloc h = Some p /\ live h p = None.
(** A bind in which every library call succeeds. *)
Definition good_bind : eng_op := GBind true (BENV true true true true).

(** What was last set on a context, read off the history of calls and answers, latest first. *)
From Coq Require Import ZArith.
From Verif Require Import Base Model_Compress Model_Ec Model_Params Model_Curves Model_Sign Model_Asn1 Model_Pmeth Model_Key Model_Ameth Model_Ctx Spec_Ctx.

Section Hist.
(** OBJ_sn2nid. *)
Variable sn2nid : list N -> Z.
(** The curve last set on context [c]; a copied context starts with the curve of the context it
    was copied from, at that time. *)
Fixpoint last_curve (h : list (op * answer)) (c : nat) : option egroup :=
  match h with
  | [] => None
  | (CtxNew c' _, Bool true) :: t => if Nat.eqb c' c then None else last_curve t c
  | (CtxDup dst src, Bool true) :: t => if Nat.eqb dst c then last_curve t src else last_curve t c
  | (Ctrl c' type _ (AGroup g), Bool true) :: t => if Nat.eqb c' c && (type =? 4098%Z)%Z then Some g else last_curve t c
  | (CtrlStr c' type value, Bool true) :: t => if Nat.eqb c' c && same_text type [99; 117; 114; 118; 101] (* "curve" *) then option_map Binary (group_from_nid (sn2nid value)) else last_curve t c
  | _ :: t => last_curve t c
  end.
(** The S-box last set: 64 bytes, or one of the named and built-in ones by a string. *)
Fixpoint last_sbox (h : list (op * answer)) (c : nat) : option (list N) :=
  match h with
  | [] => None
  | (CtxNew c' _, Bool true) :: t => if Nat.eqb c' c then None else last_sbox t c
  | (CtxDup dst src, Bool true) :: t => if Nat.eqb dst c then last_sbox t src else last_sbox t c
  | (Ctrl c' type _ (ABytes s), Bool true) :: t => if Nat.eqb c' c && (type =? 4097%Z)%Z then Some (firstn 64 s) else last_sbox t c
  | (CtrlStr c' type value, Bool true) :: t => if Nat.eqb c' c && same_text type [115; 98; 111; 120] (* "sbox" *) then sbox_option value else last_sbox t c
  | _ :: t => last_sbox t c
  end.
End Hist.

(** Polynomials over GF(2) four coefficients at a time, for fast checking by reduction.
    The digit tables are generated. *)
From Coq Require Import Lia Hexadecimal.
From Verif Require Import Base Lib Model_Gf2m Proof_Gf2.

(** Lowest digit first. *)
Notation hx := Hexadecimal.uint.
Fixpoint val (x : hx) : N :=
  match x with
  | Nil => 0
  | D0 x => 0 ⊕ 16 ⊗ val x
  | D1 x => 1 ⊕ 16 ⊗ val x
  | D2 x => 2 ⊕ 16 ⊗ val x
  | D3 x => 3 ⊕ 16 ⊗ val x
  | D4 x => 4 ⊕ 16 ⊗ val x
  | D5 x => 5 ⊕ 16 ⊗ val x
  | D6 x => 6 ⊕ 16 ⊗ val x
  | D7 x => 7 ⊕ 16 ⊗ val x
  | D8 x => 8 ⊕ 16 ⊗ val x
  | D9 x => 9 ⊕ 16 ⊗ val x
  | Da x => 10 ⊕ 16 ⊗ val x
  | Db x => 11 ⊕ 16 ⊗ val x
  | Dc x => 12 ⊕ 16 ⊗ val x
  | Dd x => 13 ⊕ 16 ⊗ val x
  | De x => 14 ⊕ 16 ⊗ val x
  | Df x => 15 ⊕ 16 ⊗ val x
  end.
Fixpoint hxor (x y : hx) : hx :=
  match x with
  | Nil => y
  | D0 x' => match y with Nil => x | D0 y' => D0 (hxor x' y') | D1 y' => D1 (hxor x' y') | D2 y' => D2 (hxor x' y') | D3 y' => D3 (hxor x' y') | D4 y' => D4 (hxor x' y') | D5 y' => D5 (hxor x' y') | D6 y' => D6 (hxor x' y') | D7 y' => D7 (hxor x' y') | D8 y' => D8 (hxor x' y') | D9 y' => D9 (hxor x' y') | Da y' => Da (hxor x' y') | Db y' => Db (hxor x' y') | Dc y' => Dc (hxor x' y') | Dd y' => Dd (hxor x' y') | De y' => De (hxor x' y') | Df y' => Df (hxor x' y') end
  | D1 x' => match y with Nil => x | D0 y' => D1 (hxor x' y') | D1 y' => D0 (hxor x' y') | D2 y' => D3 (hxor x' y') | D3 y' => D2 (hxor x' y') | D4 y' => D5 (hxor x' y') | D5 y' => D4 (hxor x' y') | D6 y' => D7 (hxor x' y') | D7 y' => D6 (hxor x' y') | D8 y' => D9 (hxor x' y') | D9 y' => D8 (hxor x' y') | Da y' => Db (hxor x' y') | Db y' => Da (hxor x' y') | Dc y' => Dd (hxor x' y') | Dd y' => Dc (hxor x' y') | De y' => Df (hxor x' y') | Df y' => De (hxor x' y') end
  | D2 x' => match y with Nil => x | D0 y' => D2 (hxor x' y') | D1 y' => D3 (hxor x' y') | D2 y' => D0 (hxor x' y') | D3 y' => D1 (hxor x' y') | D4 y' => D6 (hxor x' y') | D5 y' => D7 (hxor x' y') | D6 y' => D4 (hxor x' y') | D7 y' => D5 (hxor x' y') | D8 y' => Da (hxor x' y') | D9 y' => Db (hxor x' y') | Da y' => D8 (hxor x' y') | Db y' => D9 (hxor x' y') | Dc y' => De (hxor x' y') | Dd y' => Df (hxor x' y') | De y' => Dc (hxor x' y') | Df y' => Dd (hxor x' y') end
  | D3 x' => match y with Nil => x | D0 y' => D3 (hxor x' y') | D1 y' => D2 (hxor x' y') | D2 y' => D1 (hxor x' y') | D3 y' => D0 (hxor x' y') | D4 y' => D7 (hxor x' y') | D5 y' => D6 (hxor x' y') | D6 y' => D5 (hxor x' y') | D7 y' => D4 (hxor x' y') | D8 y' => Db (hxor x' y') | D9 y' => Da (hxor x' y') | Da y' => D9 (hxor x' y') | Db y' => D8 (hxor x' y') | Dc y' => Df (hxor x' y') | Dd y' => De (hxor x' y') | De y' => Dd (hxor x' y') | Df y' => Dc (hxor x' y') end
  | D4 x' => match y with Nil => x | D0 y' => D4 (hxor x' y') | D1 y' => D5 (hxor x' y') | D2 y' => D6 (hxor x' y') | D3 y' => D7 (hxor x' y') | D4 y' => D0 (hxor x' y') | D5 y' => D1 (hxor x' y') | D6 y' => D2 (hxor x' y') | D7 y' => D3 (hxor x' y') | D8 y' => Dc (hxor x' y') | D9 y' => Dd (hxor x' y') | Da y' => De (hxor x' y') | Db y' => Df (hxor x' y') | Dc y' => D8 (hxor x' y') | Dd y' => D9 (hxor x' y') | De y' => Da (hxor x' y') | Df y' => Db (hxor x' y') end
  | D5 x' => match y with Nil => x | D0 y' => D5 (hxor x' y') | D1 y' => D4 (hxor x' y') | D2 y' => D7 (hxor x' y') | D3 y' => D6 (hxor x' y') | D4 y' => D1 (hxor x' y') | D5 y' => D0 (hxor x' y') | D6 y' => D3 (hxor x' y') | D7 y' => D2 (hxor x' y') | D8 y' => Dd (hxor x' y') | D9 y' => Dc (hxor x' y') | Da y' => Df (hxor x' y') | Db y' => De (hxor x' y') | Dc y' => D9 (hxor x' y') | Dd y' => D8 (hxor x' y') | De y' => Db (hxor x' y') | Df y' => Da (hxor x' y') end
  | D6 x' => match y with Nil => x | D0 y' => D6 (hxor x' y') | D1 y' => D7 (hxor x' y') | D2 y' => D4 (hxor x' y') | D3 y' => D5 (hxor x' y') | D4 y' => D2 (hxor x' y') | D5 y' => D3 (hxor x' y') | D6 y' => D0 (hxor x' y') | D7 y' => D1 (hxor x' y') | D8 y' => De (hxor x' y') | D9 y' => Df (hxor x' y') | Da y' => Dc (hxor x' y') | Db y' => Dd (hxor x' y') | Dc y' => Da (hxor x' y') | Dd y' => Db (hxor x' y') | De y' => D8 (hxor x' y') | Df y' => D9 (hxor x' y') end
  | D7 x' => match y with Nil => x | D0 y' => D7 (hxor x' y') | D1 y' => D6 (hxor x' y') | D2 y' => D5 (hxor x' y') | D3 y' => D4 (hxor x' y') | D4 y' => D3 (hxor x' y') | D5 y' => D2 (hxor x' y') | D6 y' => D1 (hxor x' y') | D7 y' => D0 (hxor x' y') | D8 y' => Df (hxor x' y') | D9 y' => De (hxor x' y') | Da y' => Dd (hxor x' y') | Db y' => Dc (hxor x' y') | Dc y' => Db (hxor x' y') | Dd y' => Da (hxor x' y') | De y' => D9 (hxor x' y') | Df y' => D8 (hxor x' y') end
  | D8 x' => match y with Nil => x | D0 y' => D8 (hxor x' y') | D1 y' => D9 (hxor x' y') | D2 y' => Da (hxor x' y') | D3 y' => Db (hxor x' y') | D4 y' => Dc (hxor x' y') | D5 y' => Dd (hxor x' y') | D6 y' => De (hxor x' y') | D7 y' => Df (hxor x' y') | D8 y' => D0 (hxor x' y') | D9 y' => D1 (hxor x' y') | Da y' => D2 (hxor x' y') | Db y' => D3 (hxor x' y') | Dc y' => D4 (hxor x' y') | Dd y' => D5 (hxor x' y') | De y' => D6 (hxor x' y') | Df y' => D7 (hxor x' y') end
  | D9 x' => match y with Nil => x | D0 y' => D9 (hxor x' y') | D1 y' => D8 (hxor x' y') | D2 y' => Db (hxor x' y') | D3 y' => Da (hxor x' y') | D4 y' => Dd (hxor x' y') | D5 y' => Dc (hxor x' y') | D6 y' => Df (hxor x' y') | D7 y' => De (hxor x' y') | D8 y' => D1 (hxor x' y') | D9 y' => D0 (hxor x' y') | Da y' => D3 (hxor x' y') | Db y' => D2 (hxor x' y') | Dc y' => D5 (hxor x' y') | Dd y' => D4 (hxor x' y') | De y' => D7 (hxor x' y') | Df y' => D6 (hxor x' y') end
  | Da x' => match y with Nil => x | D0 y' => Da (hxor x' y') | D1 y' => Db (hxor x' y') | D2 y' => D8 (hxor x' y') | D3 y' => D9 (hxor x' y') | D4 y' => De (hxor x' y') | D5 y' => Df (hxor x' y') | D6 y' => Dc (hxor x' y') | D7 y' => Dd (hxor x' y') | D8 y' => D2 (hxor x' y') | D9 y' => D3 (hxor x' y') | Da y' => D0 (hxor x' y') | Db y' => D1 (hxor x' y') | Dc y' => D6 (hxor x' y') | Dd y' => D7 (hxor x' y') | De y' => D4 (hxor x' y') | Df y' => D5 (hxor x' y') end
  | Db x' => match y with Nil => x | D0 y' => Db (hxor x' y') | D1 y' => Da (hxor x' y') | D2 y' => D9 (hxor x' y') | D3 y' => D8 (hxor x' y') | D4 y' => Df (hxor x' y') | D5 y' => De (hxor x' y') | D6 y' => Dd (hxor x' y') | D7 y' => Dc (hxor x' y') | D8 y' => D3 (hxor x' y') | D9 y' => D2 (hxor x' y') | Da y' => D1 (hxor x' y') | Db y' => D0 (hxor x' y') | Dc y' => D7 (hxor x' y') | Dd y' => D6 (hxor x' y') | De y' => D5 (hxor x' y') | Df y' => D4 (hxor x' y') end
  | Dc x' => match y with Nil => x | D0 y' => Dc (hxor x' y') | D1 y' => Dd (hxor x' y') | D2 y' => De (hxor x' y') | D3 y' => Df (hxor x' y') | D4 y' => D8 (hxor x' y') | D5 y' => D9 (hxor x' y') | D6 y' => Da (hxor x' y') | D7 y' => Db (hxor x' y') | D8 y' => D4 (hxor x' y') | D9 y' => D5 (hxor x' y') | Da y' => D6 (hxor x' y') | Db y' => D7 (hxor x' y') | Dc y' => D0 (hxor x' y') | Dd y' => D1 (hxor x' y') | De y' => D2 (hxor x' y') | Df y' => D3 (hxor x' y') end
  | Dd x' => match y with Nil => x | D0 y' => Dd (hxor x' y') | D1 y' => Dc (hxor x' y') | D2 y' => Df (hxor x' y') | D3 y' => De (hxor x' y') | D4 y' => D9 (hxor x' y') | D5 y' => D8 (hxor x' y') | D6 y' => Db (hxor x' y') | D7 y' => Da (hxor x' y') | D8 y' => D5 (hxor x' y') | D9 y' => D4 (hxor x' y') | Da y' => D7 (hxor x' y') | Db y' => D6 (hxor x' y') | Dc y' => D1 (hxor x' y') | Dd y' => D0 (hxor x' y') | De y' => D3 (hxor x' y') | Df y' => D2 (hxor x' y') end
  | De x' => match y with Nil => x | D0 y' => De (hxor x' y') | D1 y' => Df (hxor x' y') | D2 y' => Dc (hxor x' y') | D3 y' => Dd (hxor x' y') | D4 y' => Da (hxor x' y') | D5 y' => Db (hxor x' y') | D6 y' => D8 (hxor x' y') | D7 y' => D9 (hxor x' y') | D8 y' => D6 (hxor x' y') | D9 y' => D7 (hxor x' y') | Da y' => D4 (hxor x' y') | Db y' => D5 (hxor x' y') | Dc y' => D2 (hxor x' y') | Dd y' => D3 (hxor x' y') | De y' => D0 (hxor x' y') | Df y' => D1 (hxor x' y') end
  | Df x' => match y with Nil => x | D0 y' => Df (hxor x' y') | D1 y' => De (hxor x' y') | D2 y' => Dd (hxor x' y') | D3 y' => Dc (hxor x' y') | D4 y' => Db (hxor x' y') | D5 y' => Da (hxor x' y') | D6 y' => D9 (hxor x' y') | D7 y' => D8 (hxor x' y') | D8 y' => D7 (hxor x' y') | D9 y' => D6 (hxor x' y') | Da y' => D5 (hxor x' y') | Db y' => D4 (hxor x' y') | Dc y' => D3 (hxor x' y') | Dd y' => D2 (hxor x' y') | De y' => D1 (hxor x' y') | Df y' => D0 (hxor x' y') end
  end.
Fixpoint hdbl (c : bool) (x : hx) : hx :=
  match x with
  | Nil => if c then D1 Nil else Nil
  | D0 x' => if c then D1 (hdbl false x') else D0 (hdbl false x')
  | D1 x' => if c then D3 (hdbl false x') else D2 (hdbl false x')
  | D2 x' => if c then D5 (hdbl false x') else D4 (hdbl false x')
  | D3 x' => if c then D7 (hdbl false x') else D6 (hdbl false x')
  | D4 x' => if c then D9 (hdbl false x') else D8 (hdbl false x')
  | D5 x' => if c then Db (hdbl false x') else Da (hdbl false x')
  | D6 x' => if c then Dd (hdbl false x') else Dc (hdbl false x')
  | D7 x' => if c then Df (hdbl false x') else De (hdbl false x')
  | D8 x' => if c then D1 (hdbl true x') else D0 (hdbl true x')
  | D9 x' => if c then D3 (hdbl true x') else D2 (hdbl true x')
  | Da x' => if c then D5 (hdbl true x') else D4 (hdbl true x')
  | Db x' => if c then D7 (hdbl true x') else D6 (hdbl true x')
  | Dc x' => if c then D9 (hdbl true x') else D8 (hdbl true x')
  | Dd x' => if c then Db (hdbl true x') else Da (hdbl true x')
  | De x' => if c then Dd (hdbl true x') else Dc (hdbl true x')
  | Df x' => if c then Df (hdbl true x') else De (hdbl true x')
  end.
Fixpoint hsqr (x : hx) : hx :=
  match x with
  | Nil => Nil
  | D0 x' => D0 (D0 (hsqr x'))
  | D1 x' => D1 (D0 (hsqr x'))
  | D2 x' => D4 (D0 (hsqr x'))
  | D3 x' => D5 (D0 (hsqr x'))
  | D4 x' => D0 (D1 (hsqr x'))
  | D5 x' => D1 (D1 (hsqr x'))
  | D6 x' => D4 (D1 (hsqr x'))
  | D7 x' => D5 (D1 (hsqr x'))
  | D8 x' => D0 (D4 (hsqr x'))
  | D9 x' => D1 (D4 (hsqr x'))
  | Da x' => D4 (D4 (hsqr x'))
  | Db x' => D5 (D4 (hsqr x'))
  | Dc x' => D0 (D5 (hsqr x'))
  | Dd x' => D1 (D5 (hsqr x'))
  | De x' => D4 (D5 (hsqr x'))
  | Df x' => D5 (D5 (hsqr x'))
  end.
Fixpoint hmulT (t1 t2 t3 t4 t5 t6 t7 t8 t9 ta tb tc td te tf : hx) (x : hx) : hx :=
  match x with
  | Nil => Nil
  | D0 x' => D0 (hmulT t1 t2 t3 t4 t5 t6 t7 t8 t9 ta tb tc td te tf x')
  | D1 x' => hxor t1 (D0 (hmulT t1 t2 t3 t4 t5 t6 t7 t8 t9 ta tb tc td te tf x'))
  | D2 x' => hxor t2 (D0 (hmulT t1 t2 t3 t4 t5 t6 t7 t8 t9 ta tb tc td te tf x'))
  | D3 x' => hxor t3 (D0 (hmulT t1 t2 t3 t4 t5 t6 t7 t8 t9 ta tb tc td te tf x'))
  | D4 x' => hxor t4 (D0 (hmulT t1 t2 t3 t4 t5 t6 t7 t8 t9 ta tb tc td te tf x'))
  | D5 x' => hxor t5 (D0 (hmulT t1 t2 t3 t4 t5 t6 t7 t8 t9 ta tb tc td te tf x'))
  | D6 x' => hxor t6 (D0 (hmulT t1 t2 t3 t4 t5 t6 t7 t8 t9 ta tb tc td te tf x'))
  | D7 x' => hxor t7 (D0 (hmulT t1 t2 t3 t4 t5 t6 t7 t8 t9 ta tb tc td te tf x'))
  | D8 x' => hxor t8 (D0 (hmulT t1 t2 t3 t4 t5 t6 t7 t8 t9 ta tb tc td te tf x'))
  | D9 x' => hxor t9 (D0 (hmulT t1 t2 t3 t4 t5 t6 t7 t8 t9 ta tb tc td te tf x'))
  | Da x' => hxor ta (D0 (hmulT t1 t2 t3 t4 t5 t6 t7 t8 t9 ta tb tc td te tf x'))
  | Db x' => hxor tb (D0 (hmulT t1 t2 t3 t4 t5 t6 t7 t8 t9 ta tb tc td te tf x'))
  | Dc x' => hxor tc (D0 (hmulT t1 t2 t3 t4 t5 t6 t7 t8 t9 ta tb tc td te tf x'))
  | Dd x' => hxor td (D0 (hmulT t1 t2 t3 t4 t5 t6 t7 t8 t9 ta tb tc td te tf x'))
  | De x' => hxor te (D0 (hmulT t1 t2 t3 t4 t5 t6 t7 t8 t9 ta tb tc td te tf x'))
  | Df x' => hxor tf (D0 (hmulT t1 t2 t3 t4 t5 t6 t7 t8 t9 ta tb tc td te tf x'))
  end.
Definition hmul (x y : hx) : hx :=
  let t1 := y in
  let t2 := hdbl false t1 in
  let t3 := hxor t1 t2 in
  let t4 := hdbl false t2 in
  let t5 := hxor t1 t4 in
  let t6 := hdbl false t3 in
  let t7 := hxor t1 t6 in
  let t8 := hdbl false t4 in
  let t9 := hxor t1 t8 in
  let ta := hdbl false t5 in
  let tb := hxor t1 ta in
  let tc := hdbl false t6 in
  let td := hxor t1 tc in
  let te := hdbl false t7 in
  let tf := hxor t1 te in
  hmulT t1 t2 t3 t4 t5 t6 t7 t8 t9 ta tb tc td te tf x.
(** From a number. *)
Fixpoint ofp (x : positive) : hx :=
  match x with
  | xH => D1 Nil
  | (xO xH) => D2 Nil
  | (xI xH) => D3 Nil
  | (xO (xO xH)) => D4 Nil
  | (xI (xO xH)) => D5 Nil
  | (xO (xI xH)) => D6 Nil
  | (xI (xI xH)) => D7 Nil
  | (xO (xO (xO xH))) => D8 Nil
  | (xI (xO (xO xH))) => D9 Nil
  | (xO (xI (xO xH))) => Da Nil
  | (xI (xI (xO xH))) => Db Nil
  | (xO (xO (xI xH))) => Dc Nil
  | (xI (xO (xI xH))) => Dd Nil
  | (xO (xI (xI xH))) => De Nil
  | (xI (xI (xI xH))) => Df Nil
  | (xO (xO (xO (xO x)))) => D0 (ofp x)
  | (xI (xO (xO (xO x)))) => D1 (ofp x)
  | (xO (xI (xO (xO x)))) => D2 (ofp x)
  | (xI (xI (xO (xO x)))) => D3 (ofp x)
  | (xO (xO (xI (xO x)))) => D4 (ofp x)
  | (xI (xO (xI (xO x)))) => D5 (ofp x)
  | (xO (xI (xI (xO x)))) => D6 (ofp x)
  | (xI (xI (xI (xO x)))) => D7 (ofp x)
  | (xO (xO (xO (xI x)))) => D8 (ofp x)
  | (xI (xO (xO (xI x)))) => D9 (ofp x)
  | (xO (xI (xO (xI x)))) => Da (ofp x)
  | (xI (xI (xO (xI x)))) => Db (ofp x)
  | (xO (xO (xI (xI x)))) => Dc (ofp x)
  | (xI (xO (xI (xI x)))) => Dd (ofp x)
  | (xO (xI (xI (xI x)))) => De (ofp x)
  | (xI (xI (xI (xI x)))) => Df (ofp x)
  end.
Definition ofN (x : N) : hx := match x with 0 => Nil | Npos x => ofp x end.
(** The digits below and from position n. *)
Fixpoint hlo (n : nat) (x : hx) : hx :=
  match n with
  | O => Nil
  | S n =>
      match x with
      | Nil => Nil
      | D0 x => D0 (hlo n x)
      | D1 x => D1 (hlo n x)
      | D2 x => D2 (hlo n x)
      | D3 x => D3 (hlo n x)
      | D4 x => D4 (hlo n x)
      | D5 x => D5 (hlo n x)
      | D6 x => D6 (hlo n x)
      | D7 x => D7 (hlo n x)
      | D8 x => D8 (hlo n x)
      | D9 x => D9 (hlo n x)
      | Da x => Da (hlo n x)
      | Db x => Db (hlo n x)
      | Dc x => Dc (hlo n x)
      | Dd x => Dd (hlo n x)
      | De x => De (hlo n x)
      | Df x => Df (hlo n x)
      end
  end.
Fixpoint hhi (n : nat) (x : hx) : hx :=
  match n with
  | O => x
  | S n =>
      match x with
      | Nil => Nil
      | D0 x | D1 x | D2 x | D3 x | D4 x | D5 x | D6 x | D7 x | D8 x | D9 x | Da x | Db x | Dc x | Dd x | De x | Df x => hhi n x
      end
  end.

Lemma val_xor x : forall y, val (hxor x y) = val x ⊕ val y.
Proof.
  assert (E : forall a b u v, (a ⊕ 16 ⊗ u) ⊕ (b ⊕ 16 ⊗ v) = (a ⊕ b) ⊕ 16 ⊗ (u ⊕ v)).
  { intros. rewrite clmul_lxor_r. apply lxor4. }
  induction x as [|x IH|x IH|x IH|x IH|x IH|x IH|x IH|x IH|x IH|x IH|x IH|x IH|x IH|x IH|x IH|x IH]; intros y; [reflexivity|..];
    destruct y as [|y|y|y|y|y|y|y|y|y|y|y|y|y|y|y|y]; cbn [hxor val]; rewrite ?N.lxor_0_r; try reflexivity; rewrite IH, E; reflexivity.
Qed.

Lemma val_dbl x : forall c, val (hdbl c x) = (if c then 1 else 0) ⊕ 2 ⊗ val x.
Proof.
  induction x as [|x IH|x IH|x IH|x IH|x IH|x IH|x IH|x IH|x IH|x IH|x IH|x IH|x IH|x IH|x IH|x IH]; intros [|]; cbn [hdbl val]; try reflexivity;
    rewrite IH, !clmul_lxor_r, !clmul_assoc; change (2 ⊗ 16) with 32; change (16 ⊗ 2) with 32; rewrite <- !N.lxor_assoc; (apply (f_equal (fun t => t ⊕ 32 ⊗ val x)); reflexivity).
Qed.
Lemma sq_lxor a b : (a ⊕ b) ⊗ (a ⊕ b) = a ⊗ a ⊕ b ⊗ b.
Proof.
  rewrite clmul_lxor_l, !clmul_lxor_r, (clmul_comm b a), !N.lxor_assoc. f_equal. rewrite <- N.lxor_assoc, lxor_self. apply N.lxor_0_l.
Qed.
Lemma val_sqr x : val (hsqr x) = val x ⊗ val x.
Proof.
  assert (E : forall v, (16 ⊗ v) ⊗ (16 ⊗ v) = 256 ⊗ (v ⊗ v)).
  { intros v. rewrite (clmul_comm 16 v) at 2. rewrite clmul_assoc, <- (clmul_assoc 16 v v), (clmul_comm 16 (v ⊗ v)), <- clmul_assoc, clmul_comm. reflexivity. }
  induction x as [|x IH|x IH|x IH|x IH|x IH|x IH|x IH|x IH|x IH|x IH|x IH|x IH|x IH|x IH|x IH|x IH]; [reflexivity|..]; cbn [hsqr val];
    rewrite sq_lxor, E, IH, !clmul_lxor_r, !clmul_assoc; change (16 ⊗ 16) with 256; rewrite <- !N.lxor_assoc; (apply (f_equal (fun t => t ⊕ 256 ⊗ val x ⊗ val x)); reflexivity).
Qed.
Lemma val_mulT y t1 t2 t3 t4 t5 t6 t7 t8 t9 ta tb tc td te tf x : val t1 = 1 ⊗ y -> val t2 = 2 ⊗ y -> val t3 = 3 ⊗ y -> val t4 = 4 ⊗ y -> val t5 = 5 ⊗ y -> val t6 = 6 ⊗ y -> val t7 = 7 ⊗ y -> val t8 = 8 ⊗ y -> val t9 = 9 ⊗ y -> val ta = 10 ⊗ y -> val tb = 11 ⊗ y -> val tc = 12 ⊗ y -> val td = 13 ⊗ y -> val te = 14 ⊗ y -> val tf = 15 ⊗ y -> val (hmulT t1 t2 t3 t4 t5 t6 t7 t8 t9 ta tb tc td te tf x) = val x ⊗ y.
Proof.
  intros E1 E2 E3 E4 E5 E6 E7 E8 E9 Ea Eb Ec Ed Ee Ef. induction x as [|x IH|x IH|x IH|x IH|x IH|x IH|x IH|x IH|x IH|x IH|x IH|x IH|x IH|x IH|x IH|x IH]; [reflexivity|..]; cbn [hmulT val]; rewrite ?val_xor; cbn [val]; rewrite IH, clmul_lxor_l, <- clmul_assoc, ?N.lxor_0_l; (reflexivity || (apply (f_equal (fun t => t ⊕ 16 ⊗ (val x ⊗ y))); assumption)).
Qed.
Lemma val_mul x y : val (hmul x y) = val x ⊗ val y.
Proof.
  assert (D : forall t k, val t = k ⊗ val y -> val (hdbl false t) = (2 ⊗ k) ⊗ val y).
  { intros t k E. rewrite val_dbl, E, N.lxor_0_l. apply clmul_assoc. }
  assert (I : forall t k, val t = k ⊗ val y -> val (hxor y t) = (1 ⊕ k) ⊗ val y).
  { intros t k E. rewrite val_xor, E, clmul_lxor_l, clmul_1_l. reflexivity. }
  unfold hmul. cbv zeta.
  apply val_mulT; [exact (eq_sym (clmul_1_l (val y)))|exact (D _ _ (eq_sym (clmul_1_l (val y))))|exact (I _ _ (D _ _ (eq_sym (clmul_1_l (val y)))))|exact (D _ _ (D _ _ (eq_sym (clmul_1_l (val y)))))|exact (I _ _ (D _ _ (D _ _ (eq_sym (clmul_1_l (val y))))))|exact (D _ _ (I _ _ (D _ _ (eq_sym (clmul_1_l (val y))))))|exact (I _ _ (D _ _ (I _ _ (D _ _ (eq_sym (clmul_1_l (val y)))))))|exact (D _ _ (D _ _ (D _ _ (eq_sym (clmul_1_l (val y))))))|exact (I _ _ (D _ _ (D _ _ (D _ _ (eq_sym (clmul_1_l (val y)))))))|exact (D _ _ (I _ _ (D _ _ (D _ _ (eq_sym (clmul_1_l (val y)))))))|exact (I _ _ (D _ _ (I _ _ (D _ _ (D _ _ (eq_sym (clmul_1_l (val y))))))))|exact (D _ _ (D _ _ (I _ _ (D _ _ (eq_sym (clmul_1_l (val y)))))))|exact (I _ _ (D _ _ (D _ _ (I _ _ (D _ _ (eq_sym (clmul_1_l (val y))))))))|exact (D _ _ (I _ _ (D _ _ (I _ _ (D _ _ (eq_sym (clmul_1_l (val y))))))))|exact (I _ _ (D _ _ (I _ _ (D _ _ (I _ _ (D _ _ (eq_sym (clmul_1_l (val y)))))))))].
Qed.
Lemma val_ofp x : val (ofp x) = Npos x.
Proof.
  assert (E : forall k v, k < 16 -> k ⊕ 16 ⊗ v = k + 16 * v).
  { intros k v Hk. replace (16 ⊗ v) with (N.shiftl v 4). 2:{ destruct v; reflexivity. }
    rewrite <- N.add_nocarry_lxor; [rewrite N.shiftl_mul_pow2; change (2 ^ 4) with 16; lia|].
    apply N.bits_inj. intros i. rewrite N.land_spec, N.bits_0. destruct (N.lt_ge_cases i 4) as [H|H].
    - rewrite N.shiftl_spec_low by exact H. apply andb_false_r.
    - rewrite <- (N.mod_small k (2 ^ 4)) by exact Hk. rewrite N.mod_pow2_bits_high by exact H. reflexivity. }
  enough (H : forall n x, (Pos.size_nat x <= n)%nat -> val (ofp x) = Npos x) by (apply (H (Pos.size_nat x)); lia).
  clear x. induction n as [|n IH]; intros x Hx; [destruct x; cbn in Hx; lia|].
  destruct x as [[[[x|x|]|[x|x|]|]|[[x|x|]|[x|x|]|]|]|[[[x|x|]|[x|x|]|]|[[x|x|]|[x|x|]|]|]|]; cbn [ofp val]; try reflexivity;
    cbn [Pos.size_nat] in Hx; rewrite IH by lia; rewrite E by lia; lia.
Qed.
Lemma val_ofN x : val (ofN x) = x.
Proof. destruct x; [reflexivity|apply val_ofp]. Qed.
Lemma val_split n : forall x, val x = val (hlo n x) ⊕ N.shiftl (val (hhi n x)) (4 * N.of_nat n).
Proof.
  assert (E16 : forall u k, 16 ⊗ N.shiftl u k = N.shiftl u (4 + k)).
  { intros u k. replace (16 ⊗ N.shiftl u k) with (N.shiftl (N.shiftl u k) 4). 2:{ destruct (N.shiftl u k); reflexivity. } rewrite N.shiftl_shiftl. f_equal. lia. }
  induction n as [|n IH]; intros x; [cbn [hlo hhi val]; rewrite N.shiftl_0_r, N.lxor_0_l; reflexivity|].
  replace (4 * N.of_nat (S n)) with (4 + 4 * N.of_nat n) by lia.
  destruct x as [|x|x|x|x|x|x|x|x|x|x|x|x|x|x|x|x]; cbn [hlo hhi val]; [rewrite N.shiftl_0_l; reflexivity|..]; rewrite (IH x) at 1; rewrite clmul_lxor_r, E16, N.lxor_assoc; reflexivity.
Qed.

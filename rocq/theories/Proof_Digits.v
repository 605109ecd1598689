(** Natural numbers in base 16, for fast checking by reduction.  The digit tables are generated. *)
From Coq Require Import NArith Lia Bool Hexadecimal.
Open Scope N_scope.

(** Lowest digit first. *)
Notation dg := Hexadecimal.uint.
Fixpoint num (x : dg) : N :=
  match x with
  | Nil => 0
  | D0 x => 0 + 16 * num x
  | D1 x => 1 + 16 * num x
  | D2 x => 2 + 16 * num x
  | D3 x => 3 + 16 * num x
  | D4 x => 4 + 16 * num x
  | D5 x => 5 + 16 * num x
  | D6 x => 6 + 16 * num x
  | D7 x => 7 + 16 * num x
  | D8 x => 8 + 16 * num x
  | D9 x => 9 + 16 * num x
  | Da x => 10 + 16 * num x
  | Db x => 11 + 16 * num x
  | Dc x => 12 + 16 * num x
  | Dd x => 13 + 16 * num x
  | De x => 14 + 16 * num x
  | Df x => 15 + 16 * num x
  end.
Fixpoint dinc (x : dg) : dg :=
  match x with
  | Nil => D1 Nil
  | D0 x' => D1 x'
  | D1 x' => D2 x'
  | D2 x' => D3 x'
  | D3 x' => D4 x'
  | D4 x' => D5 x'
  | D5 x' => D6 x'
  | D6 x' => D7 x'
  | D7 x' => D8 x'
  | D8 x' => D9 x'
  | D9 x' => Da x'
  | Da x' => Db x'
  | Db x' => Dc x'
  | Dc x' => Dd x'
  | Dd x' => De x'
  | De x' => Df x'
  | Df x' => D0 (dinc x')
  end.
Fixpoint dadd (c : bool) (x y : dg) : dg :=
  match x with
  | Nil => if c then dinc y else y
  | D0 x' => match y with Nil => if c then dinc x else x | D0 y' => if c then D1 (dadd false x' y') else D0 (dadd false x' y') | D1 y' => if c then D2 (dadd false x' y') else D1 (dadd false x' y') | D2 y' => if c then D3 (dadd false x' y') else D2 (dadd false x' y') | D3 y' => if c then D4 (dadd false x' y') else D3 (dadd false x' y') | D4 y' => if c then D5 (dadd false x' y') else D4 (dadd false x' y') | D5 y' => if c then D6 (dadd false x' y') else D5 (dadd false x' y') | D6 y' => if c then D7 (dadd false x' y') else D6 (dadd false x' y') | D7 y' => if c then D8 (dadd false x' y') else D7 (dadd false x' y') | D8 y' => if c then D9 (dadd false x' y') else D8 (dadd false x' y') | D9 y' => if c then Da (dadd false x' y') else D9 (dadd false x' y') | Da y' => if c then Db (dadd false x' y') else Da (dadd false x' y') | Db y' => if c then Dc (dadd false x' y') else Db (dadd false x' y') | Dc y' => if c then Dd (dadd false x' y') else Dc (dadd false x' y') | Dd y' => if c then De (dadd false x' y') else Dd (dadd false x' y') | De y' => if c then Df (dadd false x' y') else De (dadd false x' y') | Df y' => if c then D0 (dadd true x' y') else Df (dadd false x' y') end
  | D1 x' => match y with Nil => if c then dinc x else x | D0 y' => if c then D2 (dadd false x' y') else D1 (dadd false x' y') | D1 y' => if c then D3 (dadd false x' y') else D2 (dadd false x' y') | D2 y' => if c then D4 (dadd false x' y') else D3 (dadd false x' y') | D3 y' => if c then D5 (dadd false x' y') else D4 (dadd false x' y') | D4 y' => if c then D6 (dadd false x' y') else D5 (dadd false x' y') | D5 y' => if c then D7 (dadd false x' y') else D6 (dadd false x' y') | D6 y' => if c then D8 (dadd false x' y') else D7 (dadd false x' y') | D7 y' => if c then D9 (dadd false x' y') else D8 (dadd false x' y') | D8 y' => if c then Da (dadd false x' y') else D9 (dadd false x' y') | D9 y' => if c then Db (dadd false x' y') else Da (dadd false x' y') | Da y' => if c then Dc (dadd false x' y') else Db (dadd false x' y') | Db y' => if c then Dd (dadd false x' y') else Dc (dadd false x' y') | Dc y' => if c then De (dadd false x' y') else Dd (dadd false x' y') | Dd y' => if c then Df (dadd false x' y') else De (dadd false x' y') | De y' => if c then D0 (dadd true x' y') else Df (dadd false x' y') | Df y' => if c then D1 (dadd true x' y') else D0 (dadd true x' y') end
  | D2 x' => match y with Nil => if c then dinc x else x | D0 y' => if c then D3 (dadd false x' y') else D2 (dadd false x' y') | D1 y' => if c then D4 (dadd false x' y') else D3 (dadd false x' y') | D2 y' => if c then D5 (dadd false x' y') else D4 (dadd false x' y') | D3 y' => if c then D6 (dadd false x' y') else D5 (dadd false x' y') | D4 y' => if c then D7 (dadd false x' y') else D6 (dadd false x' y') | D5 y' => if c then D8 (dadd false x' y') else D7 (dadd false x' y') | D6 y' => if c then D9 (dadd false x' y') else D8 (dadd false x' y') | D7 y' => if c then Da (dadd false x' y') else D9 (dadd false x' y') | D8 y' => if c then Db (dadd false x' y') else Da (dadd false x' y') | D9 y' => if c then Dc (dadd false x' y') else Db (dadd false x' y') | Da y' => if c then Dd (dadd false x' y') else Dc (dadd false x' y') | Db y' => if c then De (dadd false x' y') else Dd (dadd false x' y') | Dc y' => if c then Df (dadd false x' y') else De (dadd false x' y') | Dd y' => if c then D0 (dadd true x' y') else Df (dadd false x' y') | De y' => if c then D1 (dadd true x' y') else D0 (dadd true x' y') | Df y' => if c then D2 (dadd true x' y') else D1 (dadd true x' y') end
  | D3 x' => match y with Nil => if c then dinc x else x | D0 y' => if c then D4 (dadd false x' y') else D3 (dadd false x' y') | D1 y' => if c then D5 (dadd false x' y') else D4 (dadd false x' y') | D2 y' => if c then D6 (dadd false x' y') else D5 (dadd false x' y') | D3 y' => if c then D7 (dadd false x' y') else D6 (dadd false x' y') | D4 y' => if c then D8 (dadd false x' y') else D7 (dadd false x' y') | D5 y' => if c then D9 (dadd false x' y') else D8 (dadd false x' y') | D6 y' => if c then Da (dadd false x' y') else D9 (dadd false x' y') | D7 y' => if c then Db (dadd false x' y') else Da (dadd false x' y') | D8 y' => if c then Dc (dadd false x' y') else Db (dadd false x' y') | D9 y' => if c then Dd (dadd false x' y') else Dc (dadd false x' y') | Da y' => if c then De (dadd false x' y') else Dd (dadd false x' y') | Db y' => if c then Df (dadd false x' y') else De (dadd false x' y') | Dc y' => if c then D0 (dadd true x' y') else Df (dadd false x' y') | Dd y' => if c then D1 (dadd true x' y') else D0 (dadd true x' y') | De y' => if c then D2 (dadd true x' y') else D1 (dadd true x' y') | Df y' => if c then D3 (dadd true x' y') else D2 (dadd true x' y') end
  | D4 x' => match y with Nil => if c then dinc x else x | D0 y' => if c then D5 (dadd false x' y') else D4 (dadd false x' y') | D1 y' => if c then D6 (dadd false x' y') else D5 (dadd false x' y') | D2 y' => if c then D7 (dadd false x' y') else D6 (dadd false x' y') | D3 y' => if c then D8 (dadd false x' y') else D7 (dadd false x' y') | D4 y' => if c then D9 (dadd false x' y') else D8 (dadd false x' y') | D5 y' => if c then Da (dadd false x' y') else D9 (dadd false x' y') | D6 y' => if c then Db (dadd false x' y') else Da (dadd false x' y') | D7 y' => if c then Dc (dadd false x' y') else Db (dadd false x' y') | D8 y' => if c then Dd (dadd false x' y') else Dc (dadd false x' y') | D9 y' => if c then De (dadd false x' y') else Dd (dadd false x' y') | Da y' => if c then Df (dadd false x' y') else De (dadd false x' y') | Db y' => if c then D0 (dadd true x' y') else Df (dadd false x' y') | Dc y' => if c then D1 (dadd true x' y') else D0 (dadd true x' y') | Dd y' => if c then D2 (dadd true x' y') else D1 (dadd true x' y') | De y' => if c then D3 (dadd true x' y') else D2 (dadd true x' y') | Df y' => if c then D4 (dadd true x' y') else D3 (dadd true x' y') end
  | D5 x' => match y with Nil => if c then dinc x else x | D0 y' => if c then D6 (dadd false x' y') else D5 (dadd false x' y') | D1 y' => if c then D7 (dadd false x' y') else D6 (dadd false x' y') | D2 y' => if c then D8 (dadd false x' y') else D7 (dadd false x' y') | D3 y' => if c then D9 (dadd false x' y') else D8 (dadd false x' y') | D4 y' => if c then Da (dadd false x' y') else D9 (dadd false x' y') | D5 y' => if c then Db (dadd false x' y') else Da (dadd false x' y') | D6 y' => if c then Dc (dadd false x' y') else Db (dadd false x' y') | D7 y' => if c then Dd (dadd false x' y') else Dc (dadd false x' y') | D8 y' => if c then De (dadd false x' y') else Dd (dadd false x' y') | D9 y' => if c then Df (dadd false x' y') else De (dadd false x' y') | Da y' => if c then D0 (dadd true x' y') else Df (dadd false x' y') | Db y' => if c then D1 (dadd true x' y') else D0 (dadd true x' y') | Dc y' => if c then D2 (dadd true x' y') else D1 (dadd true x' y') | Dd y' => if c then D3 (dadd true x' y') else D2 (dadd true x' y') | De y' => if c then D4 (dadd true x' y') else D3 (dadd true x' y') | Df y' => if c then D5 (dadd true x' y') else D4 (dadd true x' y') end
  | D6 x' => match y with Nil => if c then dinc x else x | D0 y' => if c then D7 (dadd false x' y') else D6 (dadd false x' y') | D1 y' => if c then D8 (dadd false x' y') else D7 (dadd false x' y') | D2 y' => if c then D9 (dadd false x' y') else D8 (dadd false x' y') | D3 y' => if c then Da (dadd false x' y') else D9 (dadd false x' y') | D4 y' => if c then Db (dadd false x' y') else Da (dadd false x' y') | D5 y' => if c then Dc (dadd false x' y') else Db (dadd false x' y') | D6 y' => if c then Dd (dadd false x' y') else Dc (dadd false x' y') | D7 y' => if c then De (dadd false x' y') else Dd (dadd false x' y') | D8 y' => if c then Df (dadd false x' y') else De (dadd false x' y') | D9 y' => if c then D0 (dadd true x' y') else Df (dadd false x' y') | Da y' => if c then D1 (dadd true x' y') else D0 (dadd true x' y') | Db y' => if c then D2 (dadd true x' y') else D1 (dadd true x' y') | Dc y' => if c then D3 (dadd true x' y') else D2 (dadd true x' y') | Dd y' => if c then D4 (dadd true x' y') else D3 (dadd true x' y') | De y' => if c then D5 (dadd true x' y') else D4 (dadd true x' y') | Df y' => if c then D6 (dadd true x' y') else D5 (dadd true x' y') end
  | D7 x' => match y with Nil => if c then dinc x else x | D0 y' => if c then D8 (dadd false x' y') else D7 (dadd false x' y') | D1 y' => if c then D9 (dadd false x' y') else D8 (dadd false x' y') | D2 y' => if c then Da (dadd false x' y') else D9 (dadd false x' y') | D3 y' => if c then Db (dadd false x' y') else Da (dadd false x' y') | D4 y' => if c then Dc (dadd false x' y') else Db (dadd false x' y') | D5 y' => if c then Dd (dadd false x' y') else Dc (dadd false x' y') | D6 y' => if c then De (dadd false x' y') else Dd (dadd false x' y') | D7 y' => if c then Df (dadd false x' y') else De (dadd false x' y') | D8 y' => if c then D0 (dadd true x' y') else Df (dadd false x' y') | D9 y' => if c then D1 (dadd true x' y') else D0 (dadd true x' y') | Da y' => if c then D2 (dadd true x' y') else D1 (dadd true x' y') | Db y' => if c then D3 (dadd true x' y') else D2 (dadd true x' y') | Dc y' => if c then D4 (dadd true x' y') else D3 (dadd true x' y') | Dd y' => if c then D5 (dadd true x' y') else D4 (dadd true x' y') | De y' => if c then D6 (dadd true x' y') else D5 (dadd true x' y') | Df y' => if c then D7 (dadd true x' y') else D6 (dadd true x' y') end
  | D8 x' => match y with Nil => if c then dinc x else x | D0 y' => if c then D9 (dadd false x' y') else D8 (dadd false x' y') | D1 y' => if c then Da (dadd false x' y') else D9 (dadd false x' y') | D2 y' => if c then Db (dadd false x' y') else Da (dadd false x' y') | D3 y' => if c then Dc (dadd false x' y') else Db (dadd false x' y') | D4 y' => if c then Dd (dadd false x' y') else Dc (dadd false x' y') | D5 y' => if c then De (dadd false x' y') else Dd (dadd false x' y') | D6 y' => if c then Df (dadd false x' y') else De (dadd false x' y') | D7 y' => if c then D0 (dadd true x' y') else Df (dadd false x' y') | D8 y' => if c then D1 (dadd true x' y') else D0 (dadd true x' y') | D9 y' => if c then D2 (dadd true x' y') else D1 (dadd true x' y') | Da y' => if c then D3 (dadd true x' y') else D2 (dadd true x' y') | Db y' => if c then D4 (dadd true x' y') else D3 (dadd true x' y') | Dc y' => if c then D5 (dadd true x' y') else D4 (dadd true x' y') | Dd y' => if c then D6 (dadd true x' y') else D5 (dadd true x' y') | De y' => if c then D7 (dadd true x' y') else D6 (dadd true x' y') | Df y' => if c then D8 (dadd true x' y') else D7 (dadd true x' y') end
  | D9 x' => match y with Nil => if c then dinc x else x | D0 y' => if c then Da (dadd false x' y') else D9 (dadd false x' y') | D1 y' => if c then Db (dadd false x' y') else Da (dadd false x' y') | D2 y' => if c then Dc (dadd false x' y') else Db (dadd false x' y') | D3 y' => if c then Dd (dadd false x' y') else Dc (dadd false x' y') | D4 y' => if c then De (dadd false x' y') else Dd (dadd false x' y') | D5 y' => if c then Df (dadd false x' y') else De (dadd false x' y') | D6 y' => if c then D0 (dadd true x' y') else Df (dadd false x' y') | D7 y' => if c then D1 (dadd true x' y') else D0 (dadd true x' y') | D8 y' => if c then D2 (dadd true x' y') else D1 (dadd true x' y') | D9 y' => if c then D3 (dadd true x' y') else D2 (dadd true x' y') | Da y' => if c then D4 (dadd true x' y') else D3 (dadd true x' y') | Db y' => if c then D5 (dadd true x' y') else D4 (dadd true x' y') | Dc y' => if c then D6 (dadd true x' y') else D5 (dadd true x' y') | Dd y' => if c then D7 (dadd true x' y') else D6 (dadd true x' y') | De y' => if c then D8 (dadd true x' y') else D7 (dadd true x' y') | Df y' => if c then D9 (dadd true x' y') else D8 (dadd true x' y') end
  | Da x' => match y with Nil => if c then dinc x else x | D0 y' => if c then Db (dadd false x' y') else Da (dadd false x' y') | D1 y' => if c then Dc (dadd false x' y') else Db (dadd false x' y') | D2 y' => if c then Dd (dadd false x' y') else Dc (dadd false x' y') | D3 y' => if c then De (dadd false x' y') else Dd (dadd false x' y') | D4 y' => if c then Df (dadd false x' y') else De (dadd false x' y') | D5 y' => if c then D0 (dadd true x' y') else Df (dadd false x' y') | D6 y' => if c then D1 (dadd true x' y') else D0 (dadd true x' y') | D7 y' => if c then D2 (dadd true x' y') else D1 (dadd true x' y') | D8 y' => if c then D3 (dadd true x' y') else D2 (dadd true x' y') | D9 y' => if c then D4 (dadd true x' y') else D3 (dadd true x' y') | Da y' => if c then D5 (dadd true x' y') else D4 (dadd true x' y') | Db y' => if c then D6 (dadd true x' y') else D5 (dadd true x' y') | Dc y' => if c then D7 (dadd true x' y') else D6 (dadd true x' y') | Dd y' => if c then D8 (dadd true x' y') else D7 (dadd true x' y') | De y' => if c then D9 (dadd true x' y') else D8 (dadd true x' y') | Df y' => if c then Da (dadd true x' y') else D9 (dadd true x' y') end
  | Db x' => match y with Nil => if c then dinc x else x | D0 y' => if c then Dc (dadd false x' y') else Db (dadd false x' y') | D1 y' => if c then Dd (dadd false x' y') else Dc (dadd false x' y') | D2 y' => if c then De (dadd false x' y') else Dd (dadd false x' y') | D3 y' => if c then Df (dadd false x' y') else De (dadd false x' y') | D4 y' => if c then D0 (dadd true x' y') else Df (dadd false x' y') | D5 y' => if c then D1 (dadd true x' y') else D0 (dadd true x' y') | D6 y' => if c then D2 (dadd true x' y') else D1 (dadd true x' y') | D7 y' => if c then D3 (dadd true x' y') else D2 (dadd true x' y') | D8 y' => if c then D4 (dadd true x' y') else D3 (dadd true x' y') | D9 y' => if c then D5 (dadd true x' y') else D4 (dadd true x' y') | Da y' => if c then D6 (dadd true x' y') else D5 (dadd true x' y') | Db y' => if c then D7 (dadd true x' y') else D6 (dadd true x' y') | Dc y' => if c then D8 (dadd true x' y') else D7 (dadd true x' y') | Dd y' => if c then D9 (dadd true x' y') else D8 (dadd true x' y') | De y' => if c then Da (dadd true x' y') else D9 (dadd true x' y') | Df y' => if c then Db (dadd true x' y') else Da (dadd true x' y') end
  | Dc x' => match y with Nil => if c then dinc x else x | D0 y' => if c then Dd (dadd false x' y') else Dc (dadd false x' y') | D1 y' => if c then De (dadd false x' y') else Dd (dadd false x' y') | D2 y' => if c then Df (dadd false x' y') else De (dadd false x' y') | D3 y' => if c then D0 (dadd true x' y') else Df (dadd false x' y') | D4 y' => if c then D1 (dadd true x' y') else D0 (dadd true x' y') | D5 y' => if c then D2 (dadd true x' y') else D1 (dadd true x' y') | D6 y' => if c then D3 (dadd true x' y') else D2 (dadd true x' y') | D7 y' => if c then D4 (dadd true x' y') else D3 (dadd true x' y') | D8 y' => if c then D5 (dadd true x' y') else D4 (dadd true x' y') | D9 y' => if c then D6 (dadd true x' y') else D5 (dadd true x' y') | Da y' => if c then D7 (dadd true x' y') else D6 (dadd true x' y') | Db y' => if c then D8 (dadd true x' y') else D7 (dadd true x' y') | Dc y' => if c then D9 (dadd true x' y') else D8 (dadd true x' y') | Dd y' => if c then Da (dadd true x' y') else D9 (dadd true x' y') | De y' => if c then Db (dadd true x' y') else Da (dadd true x' y') | Df y' => if c then Dc (dadd true x' y') else Db (dadd true x' y') end
  | Dd x' => match y with Nil => if c then dinc x else x | D0 y' => if c then De (dadd false x' y') else Dd (dadd false x' y') | D1 y' => if c then Df (dadd false x' y') else De (dadd false x' y') | D2 y' => if c then D0 (dadd true x' y') else Df (dadd false x' y') | D3 y' => if c then D1 (dadd true x' y') else D0 (dadd true x' y') | D4 y' => if c then D2 (dadd true x' y') else D1 (dadd true x' y') | D5 y' => if c then D3 (dadd true x' y') else D2 (dadd true x' y') | D6 y' => if c then D4 (dadd true x' y') else D3 (dadd true x' y') | D7 y' => if c then D5 (dadd true x' y') else D4 (dadd true x' y') | D8 y' => if c then D6 (dadd true x' y') else D5 (dadd true x' y') | D9 y' => if c then D7 (dadd true x' y') else D6 (dadd true x' y') | Da y' => if c then D8 (dadd true x' y') else D7 (dadd true x' y') | Db y' => if c then D9 (dadd true x' y') else D8 (dadd true x' y') | Dc y' => if c then Da (dadd true x' y') else D9 (dadd true x' y') | Dd y' => if c then Db (dadd true x' y') else Da (dadd true x' y') | De y' => if c then Dc (dadd true x' y') else Db (dadd true x' y') | Df y' => if c then Dd (dadd true x' y') else Dc (dadd true x' y') end
  | De x' => match y with Nil => if c then dinc x else x | D0 y' => if c then Df (dadd false x' y') else De (dadd false x' y') | D1 y' => if c then D0 (dadd true x' y') else Df (dadd false x' y') | D2 y' => if c then D1 (dadd true x' y') else D0 (dadd true x' y') | D3 y' => if c then D2 (dadd true x' y') else D1 (dadd true x' y') | D4 y' => if c then D3 (dadd true x' y') else D2 (dadd true x' y') | D5 y' => if c then D4 (dadd true x' y') else D3 (dadd true x' y') | D6 y' => if c then D5 (dadd true x' y') else D4 (dadd true x' y') | D7 y' => if c then D6 (dadd true x' y') else D5 (dadd true x' y') | D8 y' => if c then D7 (dadd true x' y') else D6 (dadd true x' y') | D9 y' => if c then D8 (dadd true x' y') else D7 (dadd true x' y') | Da y' => if c then D9 (dadd true x' y') else D8 (dadd true x' y') | Db y' => if c then Da (dadd true x' y') else D9 (dadd true x' y') | Dc y' => if c then Db (dadd true x' y') else Da (dadd true x' y') | Dd y' => if c then Dc (dadd true x' y') else Db (dadd true x' y') | De y' => if c then Dd (dadd true x' y') else Dc (dadd true x' y') | Df y' => if c then De (dadd true x' y') else Dd (dadd true x' y') end
  | Df x' => match y with Nil => if c then dinc x else x | D0 y' => if c then D0 (dadd true x' y') else Df (dadd false x' y') | D1 y' => if c then D1 (dadd true x' y') else D0 (dadd true x' y') | D2 y' => if c then D2 (dadd true x' y') else D1 (dadd true x' y') | D3 y' => if c then D3 (dadd true x' y') else D2 (dadd true x' y') | D4 y' => if c then D4 (dadd true x' y') else D3 (dadd true x' y') | D5 y' => if c then D5 (dadd true x' y') else D4 (dadd true x' y') | D6 y' => if c then D6 (dadd true x' y') else D5 (dadd true x' y') | D7 y' => if c then D7 (dadd true x' y') else D6 (dadd true x' y') | D8 y' => if c then D8 (dadd true x' y') else D7 (dadd true x' y') | D9 y' => if c then D9 (dadd true x' y') else D8 (dadd true x' y') | Da y' => if c then Da (dadd true x' y') else D9 (dadd true x' y') | Db y' => if c then Db (dadd true x' y') else Da (dadd true x' y') | Dc y' => if c then Dc (dadd true x' y') else Db (dadd true x' y') | Dd y' => if c then Dd (dadd true x' y') else Dc (dadd true x' y') | De y' => if c then De (dadd true x' y') else Dd (dadd true x' y') | Df y' => if c then Df (dadd true x' y') else De (dadd true x' y') end
  end.
Fixpoint ddbl (c : bool) (x : dg) : dg :=
  match x with
  | Nil => if c then D1 Nil else Nil
  | D0 x' => if c then D1 (ddbl false x') else D0 (ddbl false x')
  | D1 x' => if c then D3 (ddbl false x') else D2 (ddbl false x')
  | D2 x' => if c then D5 (ddbl false x') else D4 (ddbl false x')
  | D3 x' => if c then D7 (ddbl false x') else D6 (ddbl false x')
  | D4 x' => if c then D9 (ddbl false x') else D8 (ddbl false x')
  | D5 x' => if c then Db (ddbl false x') else Da (ddbl false x')
  | D6 x' => if c then Dd (ddbl false x') else Dc (ddbl false x')
  | D7 x' => if c then Df (ddbl false x') else De (ddbl false x')
  | D8 x' => if c then D1 (ddbl true x') else D0 (ddbl true x')
  | D9 x' => if c then D3 (ddbl true x') else D2 (ddbl true x')
  | Da x' => if c then D5 (ddbl true x') else D4 (ddbl true x')
  | Db x' => if c then D7 (ddbl true x') else D6 (ddbl true x')
  | Dc x' => if c then D9 (ddbl true x') else D8 (ddbl true x')
  | Dd x' => if c then Db (ddbl true x') else Da (ddbl true x')
  | De x' => if c then Dd (ddbl true x') else Dc (ddbl true x')
  | Df x' => if c then Df (ddbl true x') else De (ddbl true x')
  end.
Fixpoint dmulT (t1 t2 t3 t4 t5 t6 t7 t8 t9 ta tb tc td te tf : dg) (x : dg) : dg :=
  match x with
  | Nil => Nil
  | D0 x' => D0 (dmulT t1 t2 t3 t4 t5 t6 t7 t8 t9 ta tb tc td te tf x')
  | D1 x' => dadd false t1 (D0 (dmulT t1 t2 t3 t4 t5 t6 t7 t8 t9 ta tb tc td te tf x'))
  | D2 x' => dadd false t2 (D0 (dmulT t1 t2 t3 t4 t5 t6 t7 t8 t9 ta tb tc td te tf x'))
  | D3 x' => dadd false t3 (D0 (dmulT t1 t2 t3 t4 t5 t6 t7 t8 t9 ta tb tc td te tf x'))
  | D4 x' => dadd false t4 (D0 (dmulT t1 t2 t3 t4 t5 t6 t7 t8 t9 ta tb tc td te tf x'))
  | D5 x' => dadd false t5 (D0 (dmulT t1 t2 t3 t4 t5 t6 t7 t8 t9 ta tb tc td te tf x'))
  | D6 x' => dadd false t6 (D0 (dmulT t1 t2 t3 t4 t5 t6 t7 t8 t9 ta tb tc td te tf x'))
  | D7 x' => dadd false t7 (D0 (dmulT t1 t2 t3 t4 t5 t6 t7 t8 t9 ta tb tc td te tf x'))
  | D8 x' => dadd false t8 (D0 (dmulT t1 t2 t3 t4 t5 t6 t7 t8 t9 ta tb tc td te tf x'))
  | D9 x' => dadd false t9 (D0 (dmulT t1 t2 t3 t4 t5 t6 t7 t8 t9 ta tb tc td te tf x'))
  | Da x' => dadd false ta (D0 (dmulT t1 t2 t3 t4 t5 t6 t7 t8 t9 ta tb tc td te tf x'))
  | Db x' => dadd false tb (D0 (dmulT t1 t2 t3 t4 t5 t6 t7 t8 t9 ta tb tc td te tf x'))
  | Dc x' => dadd false tc (D0 (dmulT t1 t2 t3 t4 t5 t6 t7 t8 t9 ta tb tc td te tf x'))
  | Dd x' => dadd false td (D0 (dmulT t1 t2 t3 t4 t5 t6 t7 t8 t9 ta tb tc td te tf x'))
  | De x' => dadd false te (D0 (dmulT t1 t2 t3 t4 t5 t6 t7 t8 t9 ta tb tc td te tf x'))
  | Df x' => dadd false tf (D0 (dmulT t1 t2 t3 t4 t5 t6 t7 t8 t9 ta tb tc td te tf x'))
  end.
Definition dmul (x y : dg) : dg :=
  let t1 := y in
  let t2 := ddbl false t1 in
  let t3 := dadd false t1 t2 in
  let t4 := ddbl false t2 in
  let t5 := dadd false t1 t4 in
  let t6 := ddbl false t3 in
  let t7 := dadd false t1 t6 in
  let t8 := ddbl false t4 in
  let t9 := dadd false t1 t8 in
  let ta := ddbl false t5 in
  let tb := dadd false t1 ta in
  let tc := ddbl false t6 in
  let td := dadd false t1 tc in
  let te := ddbl false t7 in
  let tf := dadd false t1 te in
  dmulT t1 t2 t3 t4 t5 t6 t7 t8 t9 ta tb tc td te tf x.
(** From a number. *)
Fixpoint ofp (x : positive) : dg :=
  match x with
  | xH => D1 Nil
  | (xO xH) => D2 Nil
  | (xI xH) => D3 Nil
  | (xO (xO xH)) => D4 Nil
  | (xI (xO xH)) => D5 Nil
  | (xO (xI xH)) => D6 Nil
  | (xI (xI xH)) => D7 Nil
  | (xO (xO (xO xH))) => D8 Nil
  | (xI (xO (xO xH))) => D9 Nil
  | (xO (xI (xO xH))) => Da Nil
  | (xI (xI (xO xH))) => Db Nil
  | (xO (xO (xI xH))) => Dc Nil
  | (xI (xO (xI xH))) => Dd Nil
  | (xO (xI (xI xH))) => De Nil
  | (xI (xI (xI xH))) => Df Nil
  | (xO (xO (xO (xO x)))) => D0 (ofp x)
  | (xI (xO (xO (xO x)))) => D1 (ofp x)
  | (xO (xI (xO (xO x)))) => D2 (ofp x)
  | (xI (xI (xO (xO x)))) => D3 (ofp x)
  | (xO (xO (xI (xO x)))) => D4 (ofp x)
  | (xI (xO (xI (xO x)))) => D5 (ofp x)
  | (xO (xI (xI (xO x)))) => D6 (ofp x)
  | (xI (xI (xI (xO x)))) => D7 (ofp x)
  | (xO (xO (xO (xI x)))) => D8 (ofp x)
  | (xI (xO (xO (xI x)))) => D9 (ofp x)
  | (xO (xI (xO (xI x)))) => Da (ofp x)
  | (xI (xI (xO (xI x)))) => Db (ofp x)
  | (xO (xO (xI (xI x)))) => Dc (ofp x)
  | (xI (xO (xI (xI x)))) => Dd (ofp x)
  | (xO (xI (xI (xI x)))) => De (ofp x)
  | (xI (xI (xI (xI x)))) => Df (ofp x)
  end.
Definition ofN (x : N) : dg := match x with 0 => Nil | Npos x => ofp x end.
Fixpoint dzero (x : dg) : bool := match x with Nil => true | D0 x => dzero x | _ => false end.
Fixpoint deqb (x y : dg) : bool :=
  match x with
  | Nil => dzero y
  | D0 x' => match y with Nil => dzero x | D0 y' => deqb x' y' | _ => false end
  | D1 x' => match y with D1 y' => deqb x' y' | _ => false end
  | D2 x' => match y with D2 y' => deqb x' y' | _ => false end
  | D3 x' => match y with D3 y' => deqb x' y' | _ => false end
  | D4 x' => match y with D4 y' => deqb x' y' | _ => false end
  | D5 x' => match y with D5 y' => deqb x' y' | _ => false end
  | D6 x' => match y with D6 y' => deqb x' y' | _ => false end
  | D7 x' => match y with D7 y' => deqb x' y' | _ => false end
  | D8 x' => match y with D8 y' => deqb x' y' | _ => false end
  | D9 x' => match y with D9 y' => deqb x' y' | _ => false end
  | Da x' => match y with Da y' => deqb x' y' | _ => false end
  | Db x' => match y with Db y' => deqb x' y' | _ => false end
  | Dc x' => match y with Dc y' => deqb x' y' | _ => false end
  | Dd x' => match y with Dd y' => deqb x' y' | _ => false end
  | De x' => match y with De y' => deqb x' y' | _ => false end
  | Df x' => match y with Df y' => deqb x' y' | _ => false end
  end.

Lemma num_inc x : num (dinc x) = num x + 1.
Proof. induction x as [|x IH|x IH|x IH|x IH|x IH|x IH|x IH|x IH|x IH|x IH|x IH|x IH|x IH|x IH|x IH|x IH]; cbn [dinc num]; lia. Qed.
Lemma num_add x : forall c y, num (dadd c x y) = num x + num y + (if c then 1 else 0).
Proof.
  induction x as [|x IH|x IH|x IH|x IH|x IH|x IH|x IH|x IH|x IH|x IH|x IH|x IH|x IH|x IH|x IH|x IH]; intros c y; [destruct c; cbn [dadd]; rewrite ?num_inc; cbn [num]; lia|..];
    destruct y as [|y|y|y|y|y|y|y|y|y|y|y|y|y|y|y|y]; destruct c; cbn [dadd]; rewrite ?num_inc; cbn [num]; rewrite ?IH; lia.
Qed.
Lemma num_dbl x : forall c, num (ddbl c x) = 2 * num x + (if c then 1 else 0).
Proof. induction x as [|x IH|x IH|x IH|x IH|x IH|x IH|x IH|x IH|x IH|x IH|x IH|x IH|x IH|x IH|x IH|x IH]; intros [|]; cbn [ddbl num]; rewrite ?IH; lia. Qed.
Lemma num_mulT y t1 t2 t3 t4 t5 t6 t7 t8 t9 ta tb tc td te tf x : num t1 = 1 * y -> num t2 = 2 * y -> num t3 = 3 * y -> num t4 = 4 * y -> num t5 = 5 * y -> num t6 = 6 * y -> num t7 = 7 * y -> num t8 = 8 * y -> num t9 = 9 * y -> num ta = 10 * y -> num tb = 11 * y -> num tc = 12 * y -> num td = 13 * y -> num te = 14 * y -> num tf = 15 * y -> num (dmulT t1 t2 t3 t4 t5 t6 t7 t8 t9 ta tb tc td te tf x) = num x * y.
Proof.
  intros E1 E2 E3 E4 E5 E6 E7 E8 E9 Ea Eb Ec Ed Ee Ef. induction x as [|x IH|x IH|x IH|x IH|x IH|x IH|x IH|x IH|x IH|x IH|x IH|x IH|x IH|x IH|x IH|x IH]; cbn [dmulT num]; rewrite ?num_add; cbn [num]; rewrite ?IH, ?E1, ?E2, ?E3, ?E4, ?E5, ?E6, ?E7, ?E8, ?E9, ?Ea, ?Eb, ?Ec, ?Ed, ?Ee, ?Ef; lia.
Qed.
Lemma num_mul x y : num (dmul x y) = num x * num y.
Proof. unfold dmul. cbv zeta. apply num_mulT; rewrite ?num_add, ?num_dbl, ?num_add, ?num_dbl, ?num_add, ?num_dbl, ?num_add; lia. Qed.
Lemma num_ofp x : num (ofp x) = Npos x.
Proof.
  enough (H : forall n x, (Pos.size_nat x <= n)%nat -> num (ofp x) = Npos x) by (apply (H (Pos.size_nat x)); lia).
  clear x. induction n as [|n IH]; intros x Hx; [destruct x; cbn in Hx; lia|].
  destruct x as [[[[x|x|]|[x|x|]|]|[[x|x|]|[x|x|]|]|]|[[[x|x|]|[x|x|]|]|[[x|x|]|[x|x|]|]|]|]; cbn [ofp num]; try reflexivity;
    cbn [Pos.size_nat] in Hx; rewrite IH by lia; lia.
Qed.
Lemma num_ofN x : num (ofN x) = x.
Proof. destruct x; [reflexivity|apply num_ofp]. Qed.
Lemma dzero_ok x : dzero x = true -> num x = 0.
Proof. induction x as [|x IH|x IH|x IH|x IH|x IH|x IH|x IH|x IH|x IH|x IH|x IH|x IH|x IH|x IH|x IH|x IH]; cbn [dzero num]; intros H; try discriminate; [reflexivity|]. now rewrite (IH H). Qed.
Lemma deqb_ok x : forall y, deqb x y = true -> num x = num y.
Proof.
  induction x as [|x IH|x IH|x IH|x IH|x IH|x IH|x IH|x IH|x IH|x IH|x IH|x IH|x IH|x IH|x IH|x IH]; intros y H; [cbn [deqb num] in *; now rewrite (dzero_ok y H)|..];
    destruct y as [|y|y|y|y|y|y|y|y|y|y|y|y|y|y|y|y]; cbn [deqb] in H; try discriminate; [apply dzero_ok in H; cbn [dzero num] in *; rewrite H; reflexivity|..]; cbn [num]; now rewrite (IH _ H).
Qed.

(** The predefined substitution blocks of dstulib/gost/gost89.c. *)
From Verif Require Import Base Model_Gost89.

(** gost89.c:52-76 *)
Definition GostR3411_94_CryptoProParamSet : subst_block := SB
  [0x1; 0x3; 0xA; 0x9; 0x5; 0xB; 0x4; 0xF; 0x8; 0x6; 0x7; 0xE; 0xD; 0x0; 0x2; 0xC]
  [0xD; 0xE; 0x4; 0x1; 0x7; 0x0; 0x5; 0xA; 0x3; 0xC; 0x8; 0xF; 0x6; 0x2; 0x9; 0xB]
  [0x7; 0x6; 0x2; 0x4; 0xD; 0x9; 0xF; 0x0; 0xA; 0x1; 0x5; 0xB; 0x8; 0xE; 0xC; 0x3]
  [0x7; 0x6; 0x4; 0xB; 0x9; 0xC; 0x2; 0xA; 0x1; 0x8; 0x0; 0xE; 0xF; 0xD; 0x3; 0x5]
  [0x4; 0xA; 0x7; 0xC; 0x0; 0xF; 0x2; 0x8; 0xE; 0x1; 0x6; 0x5; 0xD; 0xB; 0x9; 0x3]
  [0x7; 0xF; 0xC; 0xE; 0x9; 0x4; 0x1; 0x0; 0x3; 0xB; 0x5; 0x2; 0x6; 0xA; 0x8; 0xD]
  [0x5; 0xF; 0x4; 0x0; 0x2; 0xD; 0xB; 0x9; 0x1; 0x7; 0x6; 0x3; 0xC; 0xE; 0xA; 0x8]
  [0xA; 0x4; 0x5; 0x6; 0x8; 0x1; 0x3; 0x7; 0xD; 0xC; 0xE; 0x0; 0x9; 0x2; 0xB; 0xF].
(** gost89.c:79-103 *)
Definition Gost28147_TestParamSet : subst_block := SB
  [0xC; 0x6; 0x5; 0x2; 0xB; 0x0; 0x9; 0xD; 0x3; 0xE; 0x7; 0xA; 0xF; 0x4; 0x1; 0x8]
  [0x9; 0xB; 0xC; 0x0; 0x3; 0x6; 0x7; 0x5; 0x4; 0x8; 0xE; 0xF; 0x1; 0xA; 0x2; 0xD]
  [0x8; 0xF; 0x6; 0xB; 0x1; 0x9; 0xC; 0x5; 0xD; 0x3; 0x7; 0xA; 0x0; 0xE; 0x2; 0x4]
  [0x3; 0xE; 0x5; 0x9; 0x6; 0x8; 0x0; 0xD; 0xA; 0xB; 0x7; 0xC; 0x2; 0x1; 0xF; 0x4]
  [0xE; 0x9; 0xB; 0x2; 0x5; 0xF; 0x7; 0x1; 0x0; 0xD; 0xC; 0x6; 0xA; 0x4; 0x3; 0x8]
  [0xD; 0x8; 0xE; 0xC; 0x7; 0x3; 0x9; 0xA; 0x1; 0x5; 0x2; 0x4; 0x6; 0xF; 0x0; 0xB]
  [0xC; 0x9; 0xF; 0xE; 0x8; 0x1; 0x3; 0xA; 0x2; 0x7; 0x4; 0xD; 0x6; 0x0; 0xB; 0x5]
  [0x4; 0x2; 0xF; 0x5; 0x9; 0x1; 0x0; 0x8; 0xE; 0x3; 0xB; 0xC; 0xD; 0x7; 0xA; 0x6].
(** gost89.c:106-130 *)
Definition Gost28147_CryptoProParamSetA : subst_block := SB
  [0xB; 0xA; 0xF; 0x5; 0x0; 0xC; 0xE; 0x8; 0x6; 0x2; 0x3; 0x9; 0x1; 0x7; 0xD; 0x4]
  [0x1; 0xD; 0x2; 0x9; 0x7; 0xA; 0x6; 0x0; 0x8; 0xC; 0x4; 0x5; 0xF; 0x3; 0xB; 0xE]
  [0x3; 0xA; 0xD; 0xC; 0x1; 0x2; 0x0; 0xB; 0x7; 0x5; 0x9; 0x4; 0x8; 0xF; 0xE; 0x6]
  [0xB; 0x5; 0x1; 0x9; 0x8; 0xD; 0xF; 0x0; 0xE; 0x4; 0x2; 0x3; 0xC; 0x7; 0xA; 0x6]
  [0xE; 0x7; 0xA; 0xC; 0xD; 0x1; 0x3; 0x9; 0x0; 0x2; 0xB; 0x4; 0xF; 0x8; 0x5; 0x6]
  [0xE; 0x4; 0x6; 0x2; 0xB; 0x3; 0xD; 0x8; 0xC; 0xF; 0x5; 0xA; 0x0; 0x7; 0x1; 0x9]
  [0x3; 0x7; 0xE; 0x9; 0x8; 0xA; 0xF; 0x0; 0x5; 0x2; 0x6; 0xC; 0xB; 0x4; 0xD; 0x1]
  [0x9; 0x6; 0x3; 0x2; 0x8; 0xB; 0x1; 0x7; 0xA; 0x4; 0xE; 0xF; 0xC; 0x0; 0xD; 0x5].
(** gost89.c:133-157 *)
Definition Gost28147_CryptoProParamSetB : subst_block := SB
  [0x0; 0x4; 0xB; 0xE; 0x8; 0x3; 0x7; 0x1; 0xA; 0x2; 0x9; 0x6; 0xF; 0xD; 0x5; 0xC]
  [0x5; 0x2; 0xA; 0xB; 0x9; 0x1; 0xC; 0x3; 0x7; 0x4; 0xD; 0x0; 0x6; 0xF; 0x8; 0xE]
  [0x8; 0x3; 0x2; 0x6; 0x4; 0xD; 0xE; 0xB; 0xC; 0x1; 0x7; 0xF; 0xA; 0x0; 0x9; 0x5]
  [0x2; 0x7; 0xC; 0xF; 0x9; 0x5; 0xA; 0xB; 0x1; 0x4; 0x0; 0xD; 0x6; 0x8; 0xE; 0x3]
  [0x7; 0x5; 0x0; 0xD; 0xB; 0x6; 0x1; 0x2; 0x3; 0xA; 0xC; 0xF; 0x4; 0xE; 0x9; 0x8]
  [0xE; 0xC; 0x0; 0xA; 0x9; 0x2; 0xD; 0xB; 0x7; 0x5; 0x8; 0xF; 0x3; 0x6; 0x1; 0x4]
  [0x0; 0x1; 0x2; 0xA; 0x4; 0xD; 0x5; 0xC; 0x9; 0x7; 0x3; 0xF; 0xB; 0x8; 0x6; 0xE]
  [0x8; 0x4; 0xB; 0x1; 0x3; 0x5; 0x0; 0x9; 0x2; 0xE; 0xA; 0xC; 0xD; 0x6; 0x7; 0xF].
(** gost89.c:160-184 *)
Definition Gost28147_CryptoProParamSetC : subst_block := SB
  [0x7; 0x4; 0x0; 0x5; 0xA; 0x2; 0xF; 0xE; 0xC; 0x6; 0x1; 0xB; 0xD; 0x9; 0x3; 0x8]
  [0xA; 0x9; 0x6; 0x8; 0xD; 0xE; 0x2; 0x0; 0xF; 0x3; 0x5; 0xB; 0x4; 0x1; 0xC; 0x7]
  [0xC; 0x9; 0xB; 0x1; 0x8; 0xE; 0x2; 0x4; 0x7; 0x3; 0x6; 0x5; 0xA; 0x0; 0xF; 0xD]
  [0x8; 0xD; 0xB; 0x0; 0x4; 0x5; 0x1; 0x2; 0x9; 0x3; 0xC; 0xE; 0x6; 0xF; 0xA; 0x7]
  [0x3; 0x6; 0x0; 0x1; 0x5; 0xD; 0xA; 0x8; 0xB; 0x2; 0x9; 0x7; 0xE; 0xF; 0xC; 0x4]
  [0x8; 0x2; 0x5; 0x0; 0x4; 0x9; 0xF; 0xA; 0x3; 0x7; 0xC; 0xD; 0x6; 0xE; 0x1; 0xB]
  [0x0; 0x1; 0x7; 0xD; 0xB; 0x4; 0x5; 0x2; 0x8; 0xE; 0xF; 0xC; 0x9; 0xA; 0x6; 0x3]
  [0x1; 0xB; 0xC; 0x2; 0x9; 0xD; 0x0; 0xF; 0x4; 0x5; 0x8; 0xE; 0xA; 0x7; 0x6; 0x3].
(** gost89.c:187-211 *)
Definition Gost28147_CryptoProParamSetD : subst_block := SB
  [0x1; 0xA; 0x6; 0x8; 0xF; 0xB; 0x0; 0x4; 0xC; 0x3; 0x5; 0x9; 0x7; 0xD; 0x2; 0xE]
  [0x3; 0x0; 0x6; 0xF; 0x1; 0xE; 0x9; 0x2; 0xD; 0x8; 0xC; 0x4; 0xB; 0xA; 0x5; 0x7]
  [0x8; 0x0; 0xF; 0x3; 0x2; 0x5; 0xE; 0xB; 0x1; 0xA; 0x4; 0x7; 0xC; 0x9; 0xD; 0x6]
  [0x0; 0xC; 0x8; 0x9; 0xD; 0x2; 0xA; 0xB; 0x7; 0x3; 0x6; 0x5; 0x4; 0xE; 0xF; 0x1]
  [0x1; 0x5; 0xE; 0xC; 0xA; 0x7; 0x0; 0xD; 0x6; 0x2; 0xB; 0x4; 0x9; 0x3; 0xF; 0x8]
  [0x1; 0xC; 0xB; 0x0; 0xF; 0xE; 0x6; 0x5; 0xA; 0xD; 0x4; 0x8; 0x9; 0x3; 0x7; 0x2]
  [0xB; 0x6; 0x3; 0x4; 0xC; 0xF; 0xE; 0x2; 0x7; 0xD; 0x8; 0x0; 0x5; 0xA; 0x9; 0x1]
  [0xF; 0xC; 0x2; 0xA; 0x6; 0x4; 0x5; 0x0; 0x7; 0x9; 0xE; 0xD; 0x1; 0xB; 0x8; 0x3].
(** gost89.c:214-238 *)
Definition Gost28147_TC26ParamSetZ : subst_block := SB
  [0x1; 0x7; 0xE; 0xD; 0x0; 0x5; 0x8; 0x3; 0x4; 0xF; 0xA; 0x6; 0x9; 0xC; 0xB; 0x2]
  [0x8; 0xE; 0x2; 0x5; 0x6; 0x9; 0x1; 0xC; 0xF; 0x4; 0xB; 0x0; 0xD; 0xA; 0x3; 0x7]
  [0x5; 0xD; 0xF; 0x6; 0x9; 0x2; 0xC; 0xA; 0xB; 0x7; 0x8; 0x1; 0x4; 0x3; 0xE; 0x0]
  [0x7; 0xF; 0x5; 0xA; 0x8; 0x1; 0x6; 0xD; 0x0; 0x9; 0x3; 0xE; 0xB; 0x4; 0x2; 0xC]
  [0xC; 0x8; 0x2; 0x1; 0xD; 0x4; 0xF; 0x6; 0x7; 0x0; 0xA; 0x5; 0x3; 0xE; 0x9; 0xB]
  [0xB; 0x3; 0x5; 0x8; 0x2; 0xF; 0xA; 0xD; 0xE; 0x1; 0x7; 0x4; 0xC; 0x9; 0x6; 0x0]
  [0x6; 0x8; 0x2; 0x3; 0x9; 0xA; 0x5; 0xC; 0x1; 0xE; 0x4; 0x7; 0xB; 0xD; 0x0; 0xF]
  [0xC; 0x4; 0x6; 0x2; 0xA; 0x5; 0xB; 0x9; 0xE; 0x8; 0xD; 0x7; 0x0; 0x3; 0xF; 0x1].
(** gost89.h:93-100: all of them. *)
Definition predefined : list subst_block :=
  [GostR3411_94_TestParamSet; GostR3411_94_CryptoProParamSet; Gost28147_TestParamSet; Gost28147_CryptoProParamSetA; Gost28147_CryptoProParamSetB; Gost28147_CryptoProParamSetC; Gost28147_CryptoProParamSetD; Gost28147_TC26ParamSetZ].

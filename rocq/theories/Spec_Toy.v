(** A small curve for examples: 34 points over GF(2^5), base point of order 17. *)
From Verif Require Import Base Model_Gf2m Model_Compress Model_Ec.
Definition toy : curve := CURVE 37 1 2.
Definition toy_group : group := GROUP toy (Some (3, 25)) 17 1.

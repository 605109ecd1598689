(** The block cipher Magma as in RFC 8891 (GOST R 34.12-2015), over integers. Independent of the
    model. *)
From Verif Require Import Base.

(** RFC 8891, 4.1: the substitutions Pi'_0 to Pi'_7. *)
Definition magma_pi : list (list N) :=
  [[12; 4; 6; 2; 10; 5; 11; 9; 14; 8; 13; 7; 0; 3; 15; 1];
   [6; 8; 2; 3; 9; 10; 5; 12; 1; 14; 4; 7; 11; 13; 0; 15];
   [11; 3; 5; 8; 2; 15; 10; 13; 14; 1; 7; 4; 12; 9; 6; 0];
   [12; 8; 2; 1; 13; 4; 15; 6; 7; 0; 10; 5; 3; 14; 9; 11];
   [7; 15; 5; 10; 8; 1; 6; 13; 0; 9; 3; 14; 11; 4; 2; 12];
   [5; 13; 15; 6; 9; 2; 12; 10; 11; 7; 8; 1; 4; 3; 14; 0];
   [8; 14; 2; 5; 6; 9; 1; 12; 15; 4; 11; 0; 13; 10; 3; 7];
   [1; 7; 14; 13; 0; 5; 8; 3; 4; 15; 10; 6; 9; 12; 11; 2]].
(** 4.2: t substitutes the digits to base 16, g[k] adds the key, substitutes and rotates by 11. *)
Fixpoint magma_t (rows : list (list N)) (a : N) : N :=
  match rows with [] => 0 | p :: rows => nth (N.to_nat (a mod 16)) p 0 + 16 * magma_t rows (a / 16) end.
Definition magma_g (k a : N) : N := let y := magma_t magma_pi ((a + k) mod 2 ^ 32) in (y * 2 ^ 11) mod 2 ^ 32 + y / 2 ^ 21.
Definition magma_G (k : N) (a : N * N) : N * N := (snd a, N.lxor (magma_g k (snd a)) (fst a)).
Definition magma_Gs (k : N) (a : N * N) : N := N.lxor (magma_g k (snd a)) (fst a) * 2 ^ 32 + snd a.
(** 4.3: the words of the key (32 bytes) from the first on, three times, then from the last on. *)
Definition magma_word (K : list N) (i : nat) : N := be_val (firstn 4 (skipn (4 * i) K)).
Definition magma_keys (K : list N) : list N := let w := map (magma_word K) (seq 0 8) in w ++ w ++ w ++ rev w.
(** 4.4, 4.5 *)
Definition magma_run (ks : list N) (a : N) : N := magma_Gs (nth 31 ks 0) (fold_left (fun s k => magma_G k s) (firstn 31 ks) (a / 2 ^ 32, a mod 2 ^ 32)).
Definition magma_encrypt (K : list N) (a : N) : N := magma_run (magma_keys K) a.
Definition magma_decrypt (K : list N) (a : N) : N := magma_run (rev (magma_keys K)) a.

(** A table row with 16 different entries. *)
Definition row_permutes (row : list N) : Prop := length row = 16%nat /\ forall v, v < 16 -> exists e, (e < 16)%nat /\ nth e row 16 = v /\ forall e', (e' < 16)%nat -> nth e' row 16 = v -> e' = e.

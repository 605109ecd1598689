(** Model of engine/sign.c and of key generation in dstulib/params.c.  Memory is sufficient;
    OpenSSL's BN and EC functions compute what Model_Gf2m and Model_Ec say. *)
From Coq Require Import ZArith.
From Verif Require Import Base Model_Gf2m Model_Compress Model_Ec.

(** EC_GROUP: over a binary field, or some other kind (EC_METHOD_get_field_type), of
    which only the order matters. *)
Inductive egroup := Binary (g : group) | OtherField (order : N).
(** EC_KEY; None is a part not set. *)
Record eckey := ECKEY { ek_group : option egroup; ek_priv : option N; ek_pub : option point }.

(** The random source: the result of the i-th call of BN_rand_range, None if it fails. *)
Definition source := nat -> option N.
(** The result of a loop that may run for ever: still running after the steps allowed, 0
    returned, or 1 returned with a result. *)
Inductive outcome (A : Type) := Running | Failed | Done (a : A).
Arguments Running {A}. Arguments Failed {A}. Arguments Done {A} a.

(** sign.c:15-25 bn_truncate_bits; BN_clear_bit fails for a negative index.  A turn of the loop
    shortens bn, so its length bounds the turns. *)
Fixpoint truncate_loop (fuel : nat) (bn : N) (bitsize : Z) : option N :=
  let nb := num_bits bn in
  if (bitsize <? Z.of_N nb)%Z then
    match fuel with
    | O => None
    | S k => if nb =? 0 then None else truncate_loop k (N.clearbit bn (nb - 1)) bitsize
    end
  else Some bn.
(** sign.c:15-25 bn_truncate_bits *)
Definition bn_truncate_bits (bn : N) (bitsize : Z) : option N := truncate_loop (N.to_nat (num_bits bn)) bn bitsize.

(** sign.c:27-49 hash_to_field.  OPENSSL_malloc(0) is NULL.  Simplification: the length fits in
    an int. *)
Definition hash_to_field (hash : list N) (fieldsize : N) : option N :=
  match hash with
  | [] => None
  | _ => let fe := be_val (rev hash) in
         let fe := if fe =? 0 then 1 else fe in
         bn_truncate_bits fe (Z.of_N fieldsize)
  end.
(** sign.c:51-54 *)
Definition field_to_bn (fe order : N) : option N := bn_truncate_bits fe (Z.of_N (num_bits order) - 1).

(** BN_mod_add_quick: arguments below m. *)
Definition mod_add_quick (a b m : N) : N := let s := a + b in if m <=? s then s - m else s.

(** sign.c:108-146: the body of the three nested loops for the nonce e.  All three conditions
    continue at the same place, the call of BN_rand_range; this is [Running].  The point at
    infinity has no affine coordinates. *)
Definition attempt (g : group) (d h e : N) : outcome (N * N) :=
  let p := c_p (g_curve g) in let n := g_order g in
  match pmul (g_curve g) e (g_gen g) with
  | None => Failed
  | Some (Fe, _) =>
      if Fe =? 0 then Running
      else match field_to_bn (gmul p h Fe) n with
      | None => Failed
      | Some r =>
          if r =? 0 then Running
          else let s := mod_add_quick ((d * r) mod n) e n in
               if s =? 0 then Running else Done (s, r)
      end
  end.
(** sign.c:108-140: the three loops. *)
Fixpoint sign_loop (fuel : nat) (g : group) (d h : N) (src : source) (i : nat) : outcome (N * N) :=
  match fuel with
  | O => Running
  | S k =>
      match src i with
      | None => Failed
      | Some e => match attempt g d h e with
                  | Running => sign_loop k g d h src (S i)
                  | o => o
                  end
      end
  end.

(** sign.c:56-161 dstu_do_sign with at most [fuel] nonces drawn: the signature. *)
Definition do_sign (fuel : nat) (key : eckey) (tbs : list N) (src : source) : outcome (list N) :=
  match ek_priv key, ek_group key with
  | Some d, Some (Binary g) =>
      let n := g_order g in
      let field_size := num_bytes n in
      if n =? 0 then Failed
      else match hash_to_field tbs (degree (c_p (g_curve g))) with
      | None => Failed
      | Some h =>
          match sign_loop fuel g d h src 0 with
          | Running => Running
          | Failed => Failed
          | Done (s, r) =>
              match bn_encode s field_size, bn_encode r field_size with
              | Some (bs, ns), Some (br, nr) => if (ns =? 0) || (nr =? 0) then Failed else Done (bs ++ br)
              | _, _ => Failed
              end
          end
      end
  | _, _ => Failed
  end.

(** sign.c:163-254 dstu_do_verify. *)
Definition do_verify (key : eckey) (tbs sig : list N) : bool :=
  match ek_group key, ek_pub key with
  | Some (Binary g), Some Q =>
      let c := g_curve g in let n := g_order g in
      match hash_to_field tbs (degree (c_p c)) with
      | None => false
      | Some r1 =>
          if n =? 0 then false
          else let half := (length sig / 2)%nat in
               let s := be_val (firstn half sig) in
               let r := be_val (firstn half (skipn half sig)) in
               if (s =? 0) || (r =? 0) then false
               else if (n <=? s) || (n <=? r) then false
               else match padd c (pmul c s (g_gen g)) (pmul c r Q) with
               | None => false
               | Some (Rx, _) =>
                   match field_to_bn (gmul (c_p c) r1 Rx) n with
                   | None => false
                   | Some r1 => r =? r1
                   end
               end
      end
  | _, _ => false
  end.

(** params.c:537-567 dstu_add_public_key. *)
Definition add_public_key (key : eckey) : option eckey :=
  match ek_group key, ek_priv key with
  | Some (Binary g), Some prk => Some (ECKEY (ek_group key) (ek_priv key) (Some (pneg (pmul (g_curve g) prk (g_gen g)))))
  | _, _ => None
  end.
(** params.c:515-520 *)
Fixpoint prk_loop (fuel : nat) (src : source) (i : nat) : outcome N :=
  match fuel with
  | O => Running
  | S k => match src i with
           | None => Failed
           | Some prk => if prk =? 0 then prk_loop k src (S i) else Done prk
           end
  end.
(** params.c:490-535 dstu_generate_key, for a binary group (other kinds are not modelled: None
    in add_public_key). *)
Definition generate_key (fuel : nat) (key : eckey) (src : source) : outcome eckey :=
  match ek_group key with
  | Some (Binary g) =>
      if g_order g =? 0 then Failed
      else match prk_loop fuel src 0 with
      | Running => Running
      | Failed => Failed
      | Done prk =>
          match add_public_key (ECKEY (ek_group key) (Some prk) (ek_pub key)) with
          | Some k => Done k
          | None => Failed
          end
      end
  | _ => Failed
  end.

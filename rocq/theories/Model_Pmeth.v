(** Model of signing and verification in engine/pmeth.c and of the sizes in engine/ameth.c.
    Memory is sufficient. *)
From Coq Require Import ZArith.
From Verif Require Import Base Model_Gf2m Model_Compress Model_Ec Model_Sign Model_Asn1.

(** Numbers of the algorithm identifiers, OpenSSL 1.1.1. *)
Definition NID_dstu34311 : Z := 1157.
(** obj_mac.h *)
Definition NID_dstu4145le : Z := 1158.
(** obj_mac.h *)
Definition NID_dstu4145be : Z := 1159.

(** key.h: DSTU_KEY; EVP_PKEY with its type and its key (None is NULL). *)
Record dstu_key := DKEY { dk_ec : eckey; dk_sbox : option (list N) }.
(** EVP_PKEY (OpenSSL). *)
Record pkey := PKEY { pk_type : Z; pk_key : option dstu_key }.

(** EC_KEY_get0_group for EVP_PKEY_get0. *)
Definition pkey_group (pk : pkey) : option egroup := match pk_key pk with Some k => ek_group (dk_ec k) | None => None end.
(** EC_GROUP_get_order, which fails for the order 0; EC_GROUP_get_degree. *)
Definition get_order (g : egroup) : option N :=
  let n := match g with Binary g => g_order g | OtherField n => n end in if n =? 0 then None else Some n.

(** ameth.c:369-384 dstu_asn1_pkey_size *)
Definition pkey_size (pk : pkey) : N :=
  match pkey_group pk with
  | Some g => match get_order g with Some n => object_size (num_bytes n * 2) | None => 0 end
  | None => 0
  end.

(** pmeth.c:228-314 dstu_pkey_sign.  [sig] is false for a NULL buffer, [siglen] the value of
    *siglen before.  Result: what is returned, *siglen afterwards, the bytes written to the
    buffer.  [Failed] does not occur. *)
Definition pkey_sign (fuel : nat) (pk : option pkey) (sig : bool) (siglen : N) (tbs : list N) (src : source) : outcome (bool * N * list N) :=
  match pk with
  | None => Done (false, siglen, [])
  | Some pk =>
      match pk_key pk, pkey_group pk with
      | Some key, Some group =>
          match get_order group with
          | None => Done (false, siglen, [])
          | Some n =>
              let encoded_sig_size := pkey_size pk in
              if sig && (siglen <? encoded_sig_size) then Done (false, encoded_sig_size, [])
              else if sig then
                match do_sign fuel (dk_ec key) tbs src with
                | Running => Running
                | Failed => Done (false, encoded_sig_size, [])
                | Done sig_data =>
                    let sig_data := if (pk_type pk =? NID_dstu4145le)%Z then rev sig_data else sig_data in
                    let out := enc_octets sig_data in
                    Done (true, N.of_nat (length out), out)
                end
              else Done (true, encoded_sig_size, [])
          end
      | _, _ => Done (false, siglen, [])
      end
  end.

(** pmeth.c:316-395 dstu_pkey_verify; [d2i] is d2i_ASN1_OCTET_STRING. *)
Definition pkey_verify (d2i : list N -> option (list N)) (pk : option pkey) (sig tbs : list N) : bool :=
  match pk with
  | None => false
  | Some pk =>
      match pk_key pk, pkey_group pk with
      | Some key, Some group =>
          match get_order group with
          | None => false
          | Some n =>
              let field_size := num_bytes n in
              let sig := match d2i sig with Some c => c | None => sig end in
              let siglen := N.of_nat (length sig) in
              if N.testbit siglen 0 then false
              else if siglen <? 2 * field_size then false
              else if (pk_type pk =? NID_dstu4145le)%Z then do_verify (dk_ec key) tbs (rev sig)
              else do_verify (dk_ec key) tbs sig
          end
      | _, _ => false
      end
  end.

(** A C string is the list of its characters, without the final 0. *)
Definition hex_digit (ch : N) : option N :=
  if (48 <=? ch) && (ch <=? 57) then Some (ch - 48)
  else if (65 <=? ch) && (ch <=? 70) then Some (ch - 55)
  else if (97 <=? ch) && (ch <=? 102) then Some (ch - 87)
  else None.
(** BN_hex2bn (OpenSSL): an optional minus sign, then the hexadecimal digits up to the first
    other character.  Result: the number of characters used (0: failure), sign and value.
    Simplification: fewer than 2^29 digits. *)
Fixpoint hex_prefix (s : list N) (acc : N) (count : N) : N * N :=
  match s with
  | [] => (count, acc)
  | ch :: t => match hex_digit ch with Some d => hex_prefix t (16 * acc + d) (count + 1) | None => (count, acc) end
  end.
(** BN_hex2bn (OpenSSL), called at pmeth.c:201-223. *)
Definition hex2bn (s : list N) : N * bool * N :=
  let '(neg, s) := match s with 45 :: t => (true, t) | _ => (false, s) end in
  let '(count, v) := hex_prefix s 0 0 in
  if count =? 0 then (0, false, 0)
  else (count + (if neg then 1 else 0), neg && negb (v =? 0), v).

(** pmeth.c:201-223, the option "sbox" of dstu_pkey_ctrl_str: the S-box handed to
    dstu_pkey_ctrl. *)
Definition sbox_option (value : list N) : option (list N) :=
  let '(n, neg, v) := hex2bn value in
  if negb (n =? 128) then None
  else if neg then None
  else match bn_encode v 64 with
       | None => None
       | Some (sbox, r) => if r =? 0 then None else Some sbox
       end.

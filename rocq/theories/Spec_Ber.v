(** Basic encodings (X.690, chapter 8), independently of the decoder.  With [strict] an encoding
    keeps to X.690 and empty contents have a length of one octet; without it tags may be
    written in the long form without need, the octets of a length may be 127, and the parts of
    an octet string may have any tag. *)
From Coq Require Import ZArith.
From Verif Require Import Base Model_Utils Model_Asn1 Spec_Asn1.

(** 8.1.2.4: digits in base 128, most significant first, all but the last with the top bit. *)
Definition base128 (digits : list N) : N := fold_left (fun a b => 128 * a + b mod 128) digits 0.
Definition long_tag (n : N) (digits : list N) : Prop :=
  exists i l, digits = i ++ [l] /\ Forall (fun b => 128 <= b < 256) i /\ l < 128 /\ base128 digits = n /\ n < 2 ^ 31.
(** 8.1.2: identifier octets, of the given universal tag or of any tag. *)
Definition identifier (strict : bool) (tag : option N) (cst : bool) (id : list N) : Prop :=
  exists b more n, id = b :: more /\ b < 256 /\ N.testbit b 5 = cst /\
    (b mod 32 <> 31 /\ more = [] /\ n = b mod 32 \/ strict = false /\ b mod 32 = 31 /\ long_tag n more) /\
    match tag with Some t => b < 64 /\ n = t | None => True end.
(** 8.1.3.3-8.1.3.5: length octets of the definite form. *)
Definition definite (strict : bool) (n : nat) (l : list N) : Prop :=
  (n < 128)%nat /\ l = [N.of_nat n] \/
  exists digits, l = (128 + N.of_nat (length digits)) :: digits /\ digits <> [] /\ (length digits < (if strict then 127 else 128))%nat /\ bytes digits /\
    be_val digits = N.of_nat n /\ (strict = true -> n <> 0%nat).

(** A primitive encoding with content [c]. *)
Definition ber_primitive (strict : bool) (tag : N) (c w : list N) : Prop :=
  exists id l, identifier strict (Some tag) false id /\ definite strict (length c) l /\ w = id ++ l ++ c.
(** A constructed encoding with content [c]: of definite length, or up to an end marker (8.1.3.6). *)
Definition ber_constructed (strict : bool) (tag : option N) (c w : list N) : Prop :=
  exists id, identifier strict tag true id /\ ((exists l, definite strict (length c) l /\ w = id ++ l ++ c) \/ w = id ++ [128] ++ c ++ [0; 0]).
(** 8.7: an octet string is primitive, or constructed of parts that are octet strings; parts of
    parts up to [d] deep. *)
Inductive ber_string (strict : bool) : nat -> option N -> list N -> list N -> Prop :=
| ber_prim d tag id l c : identifier strict tag false id -> definite strict (length c) l -> ber_string strict d tag c (id ++ l ++ c)
| ber_cons d tag c v w : ber_parts strict d v c -> ber_constructed strict tag c w -> ber_string strict (S d) tag v w
with ber_parts (strict : bool) : nat -> list N -> list N -> Prop :=
| parts_nil d : ber_parts strict d [] []
| parts_cons d v w v' w' : ber_string strict d (if strict then Some 4 else None) v w -> (forall t, w <> 0 :: 0 :: t) -> ber_parts strict d v' w' ->
    ber_parts strict d (v ++ v') (w ++ w').
Definition ber_octets (strict : bool) : list N -> list N -> Prop := ber_string strict 6 (Some 4).

(** 8.19: the content of an object identifier is a sequence of numbers in base 128 that do not
    start with the digit 0. *)
Definition subidentifier (s : list N) : Prop := exists i l, s = i ++ [l] /\ Forall (fun b => 128 <= b) i /\ l < 128 /\ hd 0 s <> 128.
Definition oid_content (c : list N) : Prop := exists ids, ids <> [] /\ Forall subidentifier ids /\ c = concat ids.
Definition ber_oid (strict : bool) (c w : list N) : Prop := oid_content c /\ ber_primitive strict 6 c w.
Definition ber_integer (strict : bool) (x : Z) (w : list N) : Prop := exists c, shortest c /\ twos_complement c = x /\ ber_primitive strict 2 c w.
Definition ber_sequence (strict : bool) (parts : list (list N)) (w : list N) : Prop := ber_constructed strict (Some 16) (concat parts) w.

(** The structures of DSTU 4145 keys, as in Spec_Asn1. *)
Definition ber_middle (strict : bool) (p : middle) (w : list N) : Prop :=
  match p with
  | Trinomial k => ber_integer strict k w
  | Pentanomial k j l => exists wk wj wl, ber_integer strict k wk /\ ber_integer strict j wj /\ ber_integer strict l wl /\ ber_sequence strict [wk; wj; wl] w
  end.
Definition ber_field (strict : bool) (f : bfield) (w : list N) : Prop :=
  exists wm wp, ber_integer strict (bf_m f) wm /\ ber_middle strict (bf_poly f) wp /\ ber_sequence strict [wm; wp] w.
Definition ber_custom (strict : bool) (c : custom) (w : list N) : Prop :=
  exists wf wa wb wn wbp, ber_field strict (cu_field c) wf /\ ber_integer strict (cu_a c) wa /\ ber_octets strict (cu_b c) wb /\ ber_integer strict (cu_n c) wn /\ ber_octets strict (cu_bp c) wbp /\
    ber_sequence strict [wf; wa; wb; wn; wbp] w.
Definition ber_params (strict : bool) (p : params) (w : list N) : Prop :=
  exists wc ws, match ap_curve p with Named o => ber_oid strict o wc | Custom c => ber_custom strict c wc end /\
    match ap_sbox p with Some s => exists v, ber_octets strict s v /\ ws = [v] | None => ws = [] end /\ ber_sequence strict (wc :: ws) w.

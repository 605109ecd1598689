(** Basic encodings of IIT key files and of curve attributes. *)
From Coq Require Import ZArith.
From Verif Require Import Base Model_Asn1 Model_Utils Model_Key6 Model_Iit Spec_Asn1 Spec_Ber.

(** X.690, 8.19: the number of a subidentifier, and the numbers of an object identifier. *)
Definition oid_says (c : list N) (numbers : list N) : Prop :=
  bytes c /\ exists ids x y t, Forall subidentifier ids /\ c = concat ids /\ numbers = x :: y :: t /\ map base128 ids = (40 * x + y) :: t /\ x <= 2 /\ (x < 2 -> y < 40).
(** A file: the type, the mac, the pad if there is one, the data. *)
Definition ber_iit (strict : bool) (type mac : list N) (pad : option (list N)) (data w : list N) : Prop :=
  exists c wt wm ws wp wh wd, oid_says c type /\ ber_oid strict c wt /\ ber_octets strict mac wm /\
    match pad with Some p => exists v, ber_octets strict p v /\ ws = [v] | None => ws = [] end /\
    ber_sequence strict (wm :: ws) wp /\ ber_sequence strict [wt; wp] wh /\ ber_octets strict data wd /\ ber_sequence strict [wh; wd] w.
(** A curve attribute: the curve and two strings. *)
Definition ber_attr_spec (strict : bool) (a : attr_spec) (w : list N) : Prop :=
  exists wc w1 w2, ber_custom strict (as_spec a) wc /\ ber_octets strict (as_dke a) w1 /\ ber_octets strict (as_dke1 a) w2 /\ ber_sequence strict [wc; w1; w2] w.
(** The type of key files. *)
Definition key6_type : list N := [1; 3; 6; 1; 4; 1; 19398; 1; 1; 1; 2].

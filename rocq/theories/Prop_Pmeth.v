(** Properties of signing and verification through the public interface (engine/pmeth.c). *)
From Coq Require Import Lia ZArith.
From Verif Require Import Base Lib Model_Gf2m Model_Compress Model_Ec Model_Curves Model_Sign Model_Asn1 Model_Pmeth Spec_Asn1 Spec_Curves Spec_Sign Spec_Pmeth Spec_Toy
  Proof_Asn1 Proof_Toy Proof_Sign Proof_Pmeth Proof_Hextext.

(** The key of the small curve with d = 5, Q = -5G, of both types; the signature (12, 12) of
    the digest 11 is made with the nonce 3. *)
Definition toy_pkey (t : Z) (d : option N) : option pkey := Some (key_of t toy_group d (Some (21, 17)) None).
Example toy_pkey_ex : key_pair toy_group 5 (Some (21, 17)) /\ well_formed toy_group /\ reads_octets d2i_octets.
Proof. split; [vm_compute; reflexivity|]. split; [exact toy_good|exact d2i_octets_reads]. Qed.

(** C41: verification of a string is the equation of the standard for the pair (s, r) in the
    octet string it encodes, or in the string itself if the decoder rejects it. *)
Theorem C41_evp : forall d2i t g d Q sb sig tbs body, 1 < c_p (g_curve g) -> g_order g <> 0 ->
  body = match d2i sig with Some c => c | None => sig end ->
  pkey_verify d2i (Some (key_of t g d Q sb)) sig tbs = true <->
  tbs <> [] /\ Nat.even (length body) = true /\ 2 * num_bytes (g_order g) <= N.of_nat (length body) /\ valid_signature g Q tbs (s_of t body) (r_of t body).
Proof. exact verify_body. Qed.
Print Assumptions C41_evp.
Example C41_evp_ex : let v := pkey_verify d2i_octets (toy_pkey be_type None) in let w := pkey_verify d2i_octets (toy_pkey le_type None) in
  v [4; 2; 12; 12] [11] = true /\ v [12; 12] [11] = true /\ v [4; 2; 5; 12] [11] = true /\ w [4; 2; 5; 12] [11] = false /\ w [4; 2; 12; 5] [11] = true /\
  v [4; 2; 12; 0] [11] = false /\ v [4; 2; 12; 29] [11] = false /\ v [4; 3; 0; 12; 12] [11] = false /\ v [] [11] = false /\ v [4; 2; 12; 12] [] = false.
Proof. vm_compute. repeat split. Qed.

(** C43 does not hold: whatever is appended to an accepted encoding is accepted too, for any
    key and digest. *)
Theorem C43_refuted : forall d2i pk c w tbs t, reads_octets d2i -> N.of_nat (length c) < 2 ^ 31 -> der_octets c w ->
  pkey_verify d2i pk (w ++ t) tbs = pkey_verify d2i pk w tbs.
Proof. exact trailing. Qed.
Print Assumptions C43_refuted.
(** And both halves may be longer than needed, with the same s and r. *)
Theorem C43_padded_refuted : forall d2i t g d Q sb tbs c w w', reads_octets d2i -> 1 < c_p (g_curve g) -> g_order g <> 0 -> N.of_nat (length c) + 2 < 2 ^ 31 ->
  der_octets c w -> der_octets (padded t c) w' -> pkey_verify d2i (Some (key_of t g d Q sb)) w tbs = true ->
  pkey_verify d2i (Some (key_of t g d Q sb)) w' tbs = true.
Proof. exact padded_accepted. Qed.
Print Assumptions C43_padded_refuted.
Theorem C43_padded_same : forall t body, Nat.even (length body) = true ->
  length (padded t body) = (length body + 2)%nat /\ s_of t (padded t body) = s_of t body /\ r_of t (padded t body) = r_of t body.
Proof. exact padded_ok. Qed.
Print Assumptions C43_padded_same.
(** Among distinguished encodings of bodies of one length the encoding is unique. *)
Theorem C43_canonical_unique : forall t c c' w w', bytes c -> bytes c' -> length c = length c' -> Nat.even (length c) = true -> s_of t c = s_of t c' -> r_of t c = r_of t c' ->
  der_octets c w -> der_octets c' w' -> w = w'.
Proof. exact canonical_unique. Qed.
Print Assumptions C43_canonical_unique.
Example C43_ex : let v := pkey_verify d2i_octets (toy_pkey be_type None) in
  v [4; 2; 12; 12] [11] = true /\ v [4; 2; 12; 12; 7; 7; 7] [11] = true /\ v [4; 4; 0; 12; 0; 12] [11] = true /\
  der_octets [12; 12] [4; 2; 12; 12] /\ padded be_type [12; 12] = [0; 12; 0; 12] /\ padded le_type [12; 13] = [12; 0; 13; 0] /\
  pkey_verify d2i_octets (toy_pkey le_type None) [4; 4; 12; 0; 13; 0] [11] = true.
Proof. split; [vm_compute; reflexivity|]. repeat split; try (vm_compute; reflexivity). exists [2]. split; [reflexivity|]. left. split; [cbn; lia|reflexivity]. Qed.

(** C45: the protocol of sizes.  [pkey_sign] returns what the function returns, *siglen and the
    bytes written. *)
Theorem C45_sizes : forall pk key g n, pk_key pk = Some key -> ek_group (dk_ec key) = Some g -> get_order g = Some n ->
  let size := object_size (num_bytes n * 2) in
  forall fuel siglen tbs src,
  pkey_sign fuel (Some pk) false siglen tbs src = Done (true, size, []) /\
  (siglen < size -> pkey_sign fuel (Some pk) true siglen tbs src = Done (false, size, [])) /\
  (size <= siglen ->
    match do_sign fuel (dk_ec key) tbs src with
    | Running => pkey_sign fuel (Some pk) true siglen tbs src = Running
    | Failed => pkey_sign fuel (Some pk) true siglen tbs src = Done (false, size, [])
    | Done sg => exists w, pkey_sign fuel (Some pk) true siglen tbs src = Done (true, size, w) /\ N.of_nat (length w) = size /\
        der_octets (if (pk_type pk =? le_type)%Z then rev sg else sg) w
    end).
Proof. exact sign_protocol. Qed.
Print Assumptions C45_sizes.
(** What signing writes fits in the buffer, is the reported length, is the encoding of two
    halves of the order's size, and is accepted by whoever has the public key. *)
Theorem C45_round_trip : forall d2i fuel t g d Q sb siglen tbs src len w, reads_octets d2i -> well_formed g -> key_pair g d Q -> ranged (g_order g) src -> num_bytes (g_order g) < 2 ^ 30 ->
  pkey_sign fuel (Some (key_of t g (Some d) Q sb)) true siglen tbs src = Done (true, len, w) ->
  (exists c, bytes c /\ N.of_nat (length c) = 2 * num_bytes (g_order g) /\ der_octets c w) /\ len = N.of_nat (length w) /\ len <= siglen /\
  forall d' sb', pkey_verify d2i (Some (key_of t g d' Q sb')) w tbs = true.
Proof. exact round_trip. Qed.
Print Assumptions C45_round_trip.
Example C45_ex : let sign t b l := pkey_sign 1 (toy_pkey t (Some 5)) b l [11] (fun _ => Some 3) in
  sign be_type false 0 = Done (true, 4, []) /\ sign be_type true 3 = Done (false, 4, []) /\ sign be_type true 4 = Done (true, 4, [4; 2; 12; 12]) /\
  sign le_type true 9 = Done (true, 4, [4; 2; 12; 12]) /\ object_size (num_bytes (2 ^ 430) * 2) = 110 /\ object_size (num_bytes (2 ^ 1000) * 2) = 255.
Proof. vm_compute. repeat split. Qed.

(** C46: a string the decoder rejects is treated like its encoding, for all keys. *)
Theorem C46_bare : forall d2i pk sig w tbs, reads_octets d2i -> N.of_nat (length sig) < 2 ^ 31 -> d2i sig = None -> der_octets sig w ->
  pkey_verify d2i pk sig tbs = pkey_verify d2i pk w tbs.
Proof. exact bare_same_der. Qed.
Print Assumptions C46_bare.
(** A string that happens to be an encoding itself is not: there is a key on the curve of
    degree 167, and a signature made with it, whose bare form is rejected although the wrapped
    form is accepted. *)
Theorem C46_refuted : exists g d Q sig w, group_from_nid 1161 = Some g /\ 1 <= d < g_order g /\ key_pair g d Q /\ der_octets sig w /\ forall d2i, reads_octets d2i ->
  pkey_sign 1 (Some (key_of be_type g (Some d) Q None)) true 44 [1] (fun _ => Some 1) = Done (true, 44, w) /\
  pkey_verify d2i (Some (key_of be_type g None Q None)) w [1] = true /\
  pkey_verify d2i (Some (key_of be_type g None Q None)) sig [1] = false.
Proof. exact bare_refuted. Qed.
Print Assumptions C46_refuted.
Example C46_ex : d2i_octets [12; 12] = None /\ pkey_verify d2i_octets (toy_pkey be_type None) [12; 12] [11] = true /\ enc_octets [12; 12] = [4; 2; 12; 12].
Proof. vm_compute. repeat split. Qed.

(** C52: what the option accepts. *)
Theorem C52_exact : forall value s, sbox_option value = Some s <->
  exists text rest, value = text ++ rest /\ length text = 128%nat /\ hex_text text s /\ (forall v, rest <> [] -> ~ is_hex (hd 0 rest) v) /\ s <> zeros 64.
Proof. exact sbox_option_iff. Qed.
Print Assumptions C52_exact.
(** So it does not hold: anything may follow the digits, and 128 zeros are rejected. *)
Theorem C52_refuted : (exists value s, length value = 135%nat /\ sbox_option value = Some s) /\
  (exists value s, length value = 128%nat /\ hex_text value s /\ sbox_option value = None).
Proof. exact junk_accepted. Qed.
Print Assumptions C52_refuted.
Example C52_ex : let digits := map (fun i => nth i [48; 49; 97; 66; 70; 102; 57] 48) (map (fun i => Nat.modulo i 7) (seq 0 128)) in
  sbox_option (firstn 127 digits) = None /\ sbox_option (digits ++ [48]) = None /\ sbox_option (45 :: tl digits) = None /\
  option_map (firstn 4) (sbox_option digits) = Some [0x01; 0xab; 0xff; 0x90].
Proof. vm_compute. repeat split. Qed.

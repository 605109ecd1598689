{
 "C07": {
  "note": "REFUTED, the code violates this property: for lengths that are not whole bytes the mask expression (1 < rembits) - 1 is wrong. C07_mac_bits_exact_refuted says exactly for which MACs and lengths the result is right all the same; C07_mac_bits_actual states what the code computes for every length."
 },
 "C08": {
  "note": "REFUTED, the code violates this property for data of 2^32-8 bytes or more: the 32-bit loop index wraps and the data is read out of bounds. Smaller lengths are covered by C06."
 },
 "C15": {
  "note": "REFUTED, the code violates this property: with the IV set first and the key afterwards, and a first piece shorter than 8 bytes, the first 8 bytes are processed with the key the context had before, the all-zero key in a new context (C15_iv_then_key_new, C15_iv_then_key_old: exact output for all inputs); with parameters set first and the key afterwards the custom S-box is lost (C15_params_then_key_long, C15_params_then_key_short). The orders and lengths that do work are proved (C15_key_then_iv, C15_iv_then_key_long, C14_import)."
 },
 "C16": {
  "note": "REFUTED, the code violates this property: the control does not reset the position inside the block (C16_custom_sbox_restart_exact: exact output after any number of bytes). Proved when the bytes processed before are a multiple of 8."
 },
 "C23": {
  "note": "REFUTED, the code violates this property: for 2^60..2^63-1 bytes fin_len <<= 3 overflows the signed counter. Lengths below 2^60 bytes are covered by C18-C21."
 },
 "C27": {
  "note": "REFUTED, the code violates this property: a failed request fills the whole buffer with zeros, in every process."
 },
 "C28": {
  "note": "REFUTED, the code violates this property: cleanup frees the lock and keeps the pointer, so every later call locks freed memory. C28_safe_iff gives the exact set of safe histories."
 },
 "C29": {
  "note": "REFUTED, the code violates this property: the loop bound is (unsigned)num, so a negative length n writes 2^32+n bytes. C29_writes gives the count for every int."
 },
 "C33": {
  "note": "REFUTED, the code violates this property: for zero the encoder returns 0 (its failure code) at every width, because it returns BN_bn2bin's byte count. Positive integers are covered by C32."
 },
 "C34": {
  "note": "All ten tables: field polynomial irreducible (Rabin test, proved sound), base point on the curve and in the compressible class, order annihilates it (addition chains checked by a verified nibble-polynomial checker). The group law, including associativity, is proved for the addition formulas used. The orders are prime: Pocklington's theorem is proved in Proof_Prime and certificates are checked by the kernel (C34_prime). OpenSSL's curve arithmetic is modelled in affine coordinates."
 },
 "C35": {
  "note": "BN_rand_range is the random source; its contract (values below the order) is a hypothesis."
 },
 "C36": {
  "note": "For every solver of z^2+z=a that satisfies the contract of BN_GF2m_mod_solve_quad_arr; the half-trace method OpenSSL uses for odd degrees is proved to satisfy it."
 },
 "C37": {
  "note": "REFUTED, the code violates this property: a point with x = 1 and trace(y) = 0 has the compressed form 0, which the code then refuses; such a point exists on the standard curves of degree 163 and 367 (C37_refuted), annihilated by the order as public keys are (C37_annihilated_refuted). These are exactly the points that fail (C37_fails_iff) and the other eight standard curves have none (C37_other_curves)."
 },
 "C38": {
  "note": "For all curves, also invalid ones, and whatever the quadratic solver returns."
 },
 "C39": {
  "note": "For every well-formed group (all ten standard ones are, C34), every private key, digest, nonce sequence. OpenSSL's point multiplication is trusted to compute the group multiple."
 },
 "C40": {
  "note": "For every binary group, also invalid ones."
 },
 "C41": {
  "note": "C41_verify_iff at the level of dstu_do_verify, C41_evp through the public interface, for every binary group, key, type and byte string; d2i_ASN1_OCTET_STRING is any function."
 },
 "C42": {
  "note": "REFUTED, the code violates this property: a 32 byte digest whose low m bits are zero (but is not all zero) gives field element 0, so r = 0 for every nonce and the loop never ends, on the six standard curves with m < 256 (C42_refuted). For all other digests signing returns on the standard curves once the source has drawn the needed nonce (C42_returns), so for all 32 byte digests on the four larger curves; a nonce 0 makes signing fail instead of being redrawn (C42_zero_nonce). C42_exact_refuted: with a source that draws every nonce, it returns iff the field element of the digest is not 0."
 },
 "C43": {
  "note": "REFUTED, the code violates this property: bytes after the OCTET STRING are ignored (C43_refuted), and both halves may be padded with zero bytes (C43_padded_refuted). Distinguished encodings of one length are unique (C43_canonical_unique)."
 },
 "C44": {
  "note": "The empty digest is refused (OPENSSL_malloc(0))."
 },
 "C45": {
  "note": "d2i_ASN1_OCTET_STRING is any decoder that reads distinguished encodings (reads_octets; satisfied by the modelled one, d2i_octets_reads). Holds on every well-formed binary group, so on the ten standard curves (C34)."
 },
 "C46": {
  "note": "REFUTED, the code violates this property: a signature on the degree 167 curve whose bare bytes start 04 28 is itself a well-formed OCTET STRING, so the bare form is rejected while the wrapped form is accepted (C46_refuted). Strings the decoder rejects are treated like their encoding (C46_bare)."
 },
 "C52": {
  "note": "REFUTED, the code violates this property: text after the 128 digits is ignored and the all-zero S-box is rejected (C52_refuted). C52_exact says exactly what is accepted. BN_hex2bn is modelled from OpenSSL 1.1.1."
 },
 "C57": {
  "note": "REFUTED, the code violates this property: a PKCS#12 or JKS read that fails after the store was created frees it and leaves the caller's pointer at it."
 },
 "C58": {
  "note": "REFUTED, the code violates this property: JKS data shorter than the 12 byte header or than the lengths it declares is read out of bounds."
 },
 "C61": {
  "note": "REFUTED, the code violates this property: a trusted-certificate entry makes the whole read fail (or be parsed at the wrong offset)."
 },
 "C63": {
  "note": "REFUTED, the code violates this property: protected blobs under 40 bytes underflow the size, and a blob whose plaintext holds no key dereferences NULL."
 },
 "C65": {
  "note": "REFUTED, the code violates this property: the stored MAC is never looked at."
 },
 "C69": {
  "note": "REFUTED, the code violates this property: an error after at least one byte was delivered is treated as end of input."
 },
 "C70": {
  "note": "REFUTED, the code violates this property: the reader for IIT attributes accepts the exponent 0 which the other refuses. Proved: on positive exponents both build the same polynomial; exactly what each refuses."
 },
 "C71": {
  "note": "Proved when memory suffices; C71_no_memory_refuted: without memory the digest lookup returns 1 with a NULL method."
 },
 "C72": {
  "note": "REFUTED, the code violates this property: finish frees the digest and cipher methods and keeps the static pointers; the key methods freed by OpenSSL stay in the slots. Proved safe up to the first finish."
 },
 "C73": {
  "note": "REFUTED, the code violates this property: two threads interleaved at the NULL test get different objects. Proved for lookups after the first one."
 },
 "C76": {
  "note": "REFUTED, the code violates this property: an entry with an unknown protection algorithm is silently skipped and the read reports success with no key."
 },
 "C47": {
  "note": "REFUTED, the code violates this property: a group whose stored cofactor is not 1 (for instance the true cofactor 2 or 4) is written without it and read back with cofactor 1, so the groups compare different (C47_cofactor_refuted). With cofactor 1, as in every group the engine itself builds, group and effective S-box survive for standard and custom curves and both byte orders (C47_round_trip), and encoding succeeds whenever the base point has a compressed form (C47_encodes). d2i_DSTU_AlgorithmParameters is any function that reads what the encoder writes (reads_params, met by the modelled decoder)."
 },
 "C48": {
  "note": "For every group with stored cofactor 1 (all groups the engine builds), key type, private key and S-box. The effective S-box is the same; an explicit default S-box is dropped. Encoding succeeds for every private key other than 0 (C48_encodes)."
 },
 "C49": {
  "note": "REFUTED, the code violates this property: on the standard curves of degree 163 and 367 the points (1, y) with trace of y zero satisfy n*P = infinity but cannot be encoded (C49_refuted). All other points of the subgroup, exactly those (C49_encodes), survive (C49_round_trip)."
 },
 "C50": {
  "note": "REFUTED, the code violates this property: the copy method leaves the target's S-box in place when the source has none (C50_refuted), and a key with the explicit default S-box differs from its own decoded encoding (the 0 case of C50_decoded). In all other cases equality holds (C50_copy, C50_decoded, C50_evp)."
 },
 "C51": {
  "note": "REFUTED, the code violates this property: the exponents are converted to int modulo 2^32, so a negative degree is accepted (C51_refuted); for every custom curve, exponents shifted by any multiples of 2^32 give the same key (C51_truncated_refuted). The other checks hold for every structure (C51_valid)."
 },
 "C77": {
  "note": "REFUTED, the code violates this property: comparing two keys that hold only parameters dereferences the absent public key (C77_refuted, for every decoded parameter set). With curve and public key present it is defined and exact (C77_defined, C77_equal). EVP_PKEY_cmp is modelled from OpenSSL 1.1.1."
 },
 "C78": {
  "note": "REFUTED, the code violates this property: the order is not checked (C78_order_refuted) and singular curves are accepted over every field (C78_singular_refuted); reducible polynomials too (C78_ex)."
 },
 "C79": {
  "note": "REFUTED, the code violates this property: on every well-formed group the all-zero string decodes to a point of order 2 outside the subgroup (C79_refuted). Decoded points are always on the curve and finite (C79_on_curve)."
 },
 "C80": {
  "note": "REFUTED, the code violates this property: every non-empty octet string is accepted (C80_any), in particular 0 and numbers beyond the order (C80_refuted)."
 },
 "C82": {
  "note": "REFUTED, the code violates this property: the engine installs no param_missing method, so OpenSSL 1.1.1 compares instead of copying and fails (C82_refuted). EVP_PKEY_copy_parameters is modelled from OpenSSL 1.1.1."
 },
 "C83": {
  "note": "REFUTED, the code violates this property: for a field polynomial of three terms without constant term, which OpenSSL accepts, an array element that was never written is read (C83_refuted). C83_exact: these are the only cases."
 },
 "C53": {
  "note": "Model_Ctx models the calls on keys and contexts with every allocation; C53_history shows that for every history and every pattern of failing allocations the answers are those of Spec_Ctx, where contexts and keys are values. C53_options and C53_keygen tie the options and the generated key to the calls in the history (Spec_Hist). Concurrent use of one context is not modelled."
 },
 "C81": {
  "note": "REFUTED, the code violates this property: encoding a key without private number leaks its encoded parameters each time (C81_leak_refuted). Everything else holds for all histories and allocation failures: C81_safe, C81_returns, and C81_freed when no private key encoding failed."
 },
 "C84": {
  "note": "REFUTED, the code violates this property: parameter encoding dereferences the NULL result of DSTU_AlgorithmParameters_new (C84_crash_refuted), and a private key can be encoded without parameters, which cannot be read back (C84_degraded_refuted). All calls that do not encode fail cleanly (C84_fails_cleanly). Expanding a point, building a group and encoding after the first allocation are single steps here; C97, C98, C101-C103 take them apart."
 },
 "C85": {
  "note": "REFUTED, the code violates this property: EVP_PKEY_CTRL_MD with NULL crashes in EVP_MD_type (C85_null_digest_refuted; EVP_MD_type is taken from OpenSSL 1.1.1). All other control numbers behave (C85_null)."
 },
 "C86": {
  "note": "makePKey and the functions it calls are modelled with every allocation (Model_Iit); the reading of the curve structure from its DER form is a parameter. The described group is defined in Spec_Iit."
 },
 "C87": {
  "note": "REFUTED, the code violates this property: a negative exponent in the field description makes makePoly return NULL, which EC_GROUP_new_curve_GF2m dereferences (C87_crash_refuted); the result of BN_CTX_new is not tested either (C87_memory_refuted), nor is the buffer for the number (C87_buffer_refuted). C87_safe: otherwise, with enough memory, the call returns."
 },
 "C88": {
  "note": "REFUTED, the code violates this property: the group leaks if the key attribute holds no string (C88_leak_refuted), and the EVP_PKEY leaks if memory runs out after it was made (C88_memory_refuted). With enough memory the other refusals release everything (C86_refused)."
 },
 "C89": {
  "note": "REFUTED, the code violates this property: the fields dke and dke1 of the curve structure are never read and the key made has no S-box, so the default one is used (C89_sbox_refuted)."
 },
 "C90": {
  "note": "Spec_Wire and the DER relation in Spec_Asn1 define the format independently of the encoder. Curves: those of DSTU 4145 (odd degree, a 0 or 1). The private number is written least octet first for both key types."
 },
 "C91": {
  "note": "The decoders of OpenSSL are any functions that read distinguished encodings (reads_params, reads_octets)."
 },
 "C92": {
  "note": "Rests on the proved primality of the ten orders (C34_prime) and the proved group law (C34_group_law)."
 },
 "C93": {
  "note": "The condition on the curves of degree 163 and 367 is needed (C49_refuted). The decoders of OpenSSL are any functions that read distinguished encodings. Signing may still fail or wait for the random source; the claim is about what it writes."
 },
 "C94": {
  "note": "REFUTED, the code violates this property: if EVP_PKEY_set1_EC_KEY fails the EVP_PKEY made for printing leaks (C94_leak_refuted), and an EVP_PKEY of the engine's type without a key crashes (C94_crash_refuted). C94_print: with enough memory the property holds. C94_safe: with a key there is no crash whatever fails."
 },
 "C95": {
  "note": "REFUTED, the code violates this property: the S-box is never printed, so keys with the same EC key print alike whatever their S-boxes (C95_sbox_refuted)."
 },
 "C96": {
  "note": "REFUTED, the code violates this property: the result of X509_ALGOR_set0 is not looked at, so success is reported although no algorithm was entered (C96_memory_refuted). C96_algorithms: with enough memory it holds. C96_others: the rest."
 },
 "C97": {
  "note": "REFUTED, the code violates this property: if an allocation in the second bn_trace fails, its result -1 is not the trace bit, so the opposite point is returned with success (C97_refuted on a small curve; C97_every_refuted: for every curve, every string that stands for a point with x other than 0 and every state of the memory there is such an allocation, because the root found by BN_GF2m_mod_solve_quad has trace 0). C97_opposite: that is all that can go wrong. C97_enough: with enough memory the answer is that of C36 and C38."
 },
 "C98": {
  "note": "REFUTED, the code violates this property: bn_trace uses the result of BN_CTX_get unchecked (C98_crash_refuted; C98_every_refuted: with every point and string on every curve, x = 0 apart; OpenSSL 1.1.1 hands out 16 numbers from one block, so there this needs the block to be full), and asn1_from_key the result of BN_CTX_new (C98_encode_refuted). A string that is returned is right (C98_right, C98_enough)."
 },
 "C99": {
  "note": "Each OpenSSL call that allocates may fail; the loops over random values are bounded by fuel, running out of which is the outcome Loop. When key generation fails after the private number was set, the key keeps the new private and the old public part (C99_ex)."
 },
 "C100": {
  "note": "REFUTED, the code violates this property: a digest of zeros whose replacement by one fails makes signing loop for ever (C100_refuted). C100_otherwise: nothing else does."
 },
 "C101": {
  "note": "The result of BN_one for the coefficient a is not tested, but then the generator is not on the curve and the call fails."
 },
 "C102": {
  "note": "C102_same. C102_explicit: the octets may differ, a standard curve may be written with all parameters instead of its identifier. The encoding may also crash: C98_encode_refuted."
 },
 "C103": {
  "note": "REFUTED, the code violates this property: the base point may be the opposite one, see C97 (C103_refuted on a small curve; C103_every_refuted: with all parameters of a curve of the standard whose base point has not x = 0). C103_opposite: that is all; C103_enough: with enough memory the curve is right."
 },
 "C104": {
  "note": "C104_exact holds for keys of any group; C104_standard gives both numbers for the ten curves."
 },
 "C105": {
  "note": "REFUTED for Java key stores, the code violates this property: when an entry cannot be read the converted password stays allocated (C105_jks_leak_refuted), and where C58 and C63 show undefined behaviour there is nothing to leave. Everything else is proved: PKCS#12 and Key-6 for every container, Java stores that are read, releasing."
 },
 "C106": {
  "note": "REFUTED, the code violates this property: every readable PKCS#12 container, every Key-6 container with a ciphertext and every Java key store crash the reader if one particular allocation fails. C106_pkcs12_clean and C107_key6_rest say what holds of any allocator."
 },
 "C107": {
  "note": "REFUTED for Key-6, the code violates this property: a second key is silently missing (C107_key6_refuted). Nothing else can be missing (C107_key6_rest); PKCS#12 stores are complete (C106_pkcs12_clean)."
 },
 "C108": {
  "note": "REFUTED, the code violates this property: if growing the output buffer of the conversion fails, only the second half of the password counts; a store sealed with that half is accepted and the right one refused. C108_some_characters bounds the damage."
 },
 "C109": {
  "note": "The steps OpenSSL takes between the methods of the engine (m_sigver.c) are modelled; the condition on curves 163 and 367 is that of C93. The default S-box is not stored and comes back as the default."
 },
 "C110": {
  "note": "REFUTED, the code violates this property: every successful reading of a Java key store leaves the store password, the key password and the unprotected keys in blocks released with OPENSSL_free (C110_jks_refuted); reading a Key-6 container leaves the derived key on the stack (C110_key6_refuted); loading a PKCS#8 key leaves its number in a released block (C110_pkcs8_refuted)."
 },
 "C111": {
  "note": "REFUTED, the code violates this property: both steps of the generator (the one DSTU 4145 gives) are invertible, so its memory gives back every byte delivered since seeding, and the seed."
 },
 "C112": {
  "note": "The period is in bytes; that it is not much shorter than 2^64 cannot be proved."
 },
 "C113": {
  "note": "C113_byte gives every byte of either direction exactly; the others follow from it or from C10."
 },
 "C114": {
  "note": "REFUTED, the code violates this property: zeros appended inside the last block, or a block of zeros after a single block, do not change the MAC (C114_zeros_refuted, C114_one_block_refuted), and MACs of whole-block strings combine to the MAC of a third string (C114_combine_refuted), all for every key; this is how the MAC of the standard is defined, callers must bind the length. What holds, for every key: any change inside one block of data of the same length changes the 64-bit MAC (C114_change_in_a_block)."
 },
 "C115": {
  "note": "REFUTED, the code violates this property: on the six curves of degree up to 233 every 32 byte digest has a twin with the same signatures (C115_small_curves_refuted); the zero digest and 1 are twins on all curves (C115_zero_is_one_refuted). What holds: the number of field elements a signature is accepted for is bounded by the excess of the field over the order (C115_few_digests), at most four digests on the larger curves (C115_large_curves); C115_ex shows the bound is met."
 },
 "C116": {
  "note": "That the key cannot be computed from signatures with fresh nonces is a hardness assumption, not a theorem."
 },
 "C117": {
  "note": "REFUTED, the code violates this property: DSTU 4145 signs field elements, and for every public key and nearly every (s, r) a digest for which it is accepted is computed from the public key (C117_forgery_refuted); 32 bytes long on the curves of degree up to 233. Only the hash function in front of it protects. What holds: an accepted signature together with the multiplier of its point determines the private key (C117_signer_knows_key). That no one can sign a given digest is a hardness assumption."
 },
 "C118": {
  "note": "REFUTED, the code violates this property: only the x coordinate enters the check, so each accepted signature is accepted under a second key, which anyone can compute and whose private key the signer knows (C118_twin_refuted). What holds: the number of such keys is bounded (C118_few_keys), by eight on the standard curves (C118_standard_curves); C118_ex shows that the bound is met."
 },
 "C120": {
  "note": "REFUTED, the code violates this property: for every program in which one thread cleans up and another makes any call there is a schedule that uses a freed (or never created) lock, because cleanup frees the lock that others may be waiting for."
 },
 "C121": {
  "note": "REFUTED, the code violates this property: S-boxes are taken unchecked; for every S-box with constant rows the ciphertext is proved to be a function of IV and data alone, and the MAC the xor of the blocks."
 },
 "C122": {
  "note": "REFUTED, the code violates this property: keys carry any 64 bytes as S-box and the digest uses them unchecked; with constant rows the step function is linear, and exchanging two neighbouring blocks that differ by a fixed pattern keeps the digest. Proved for every beginning and end, through generation, storage, loading, signing and verification."
 },
 "C123": {
  "note": "REFUTED, the code violates this property: for every key whose eight words read the same from both ends (2^128 keys; none is refused) decryption equals encryption."
 },
 "C125": {
  "note": "REFUTED, the code violates this property: the context encrypts with the all-zero key (C125_no_key_refuted, for every IV, message and direction)."
 },
 "C126": {
  "note": "REFUTED, the code violates this property: if the first piece of the ciphertext is shorter than 8 bytes (so for every message shorter than 8 bytes) the message comes back if and only if the block cipher gives the same first bytes for the IV with the key and with the all-zero key (C126_short_refuted; C126_short_is says what comes back). Proved if the first piece has 8 bytes or more (C126_enveloped)."
 },
 "C127": {
  "note": "REFUTED, the code violates this property: add and seed go to the system generator only, which is asked once, so after the first success two histories with the same requests draw the same bytes whatever data is added (C127_added_data_refuted). What holds: data added before the first request reaches the seed (C127_before_first_request)."
 },
 "C128": {
  "note": "REFUTED, the code violates this property: the statics are copied by fork and nothing notices it, so parent and child draw the same bytes (C128_fork_refuted), and the first signatures of both give away the private key as the one solution of a linear equation (C128_fork_reveals_key_refuted)."
 },
 "C130": {
  "note": "Spec_Magma writes the cipher down from RFC 8891 over integers; its test vectors are the Example."
 },
 "C131": {
  "note": "REFUTED, the code violates this property: digest and cipher lookups without memory return 1 with a NULL method, a bind reads the missing digest, and dstu_asn1_meth_new hands the untested result of EVP_PKEY_asn1_new to setters that write through it.  Proved in full: for every allocator these are the only failures; everything else is answered correctly or refused."
 },
 "C132": {
  "note": "REFUTED, the code violates this property: parts of an octet string may have any tag (C132_foreign_parts_refuted), tags may be written in the long form, and an empty string with a long length at the end of the input is refused (C132_empty_refuted).  Proved in full: every BER encoding (empty contents with a one-octet length, strings nested at most six deep) is read as what it encodes; whatever is read is an encoding up to these liberties; keys in such encodings are read as the keys they say; the decoder meets what the theorems on keys ask of one."
 },
 "C133": {
  "note": "REFUTED, the code violates this property: C133_copy and C133_new give every outcome for two different keys and for an empty target. The source never changes, and success gives what is claimed. But the S-box the target had is leaked by every successful copy of an S-box, a failed copy has already dropped the target's curve or its S-box, and copying a key to itself reads the curve after freeing it. OpenSSL's EVP_PKEY_copy_parameters does not reach this method since the engine sets no param_missing (C50)."
 },
 "C134": {
  "note": "REFUTED, the code violates this property in its last part: the mac is not looked at (C134_mac_refuted, as C65). The rest is proved: C134_reads, C134_only, C134_file, C134_otherwise, C134_type for files, C134_attr_reads, C134_attr_only, C134_second_key for attributes. Sizes are below 2^31. The decoder accepts a little more than basic encodings, as described for C132."
 },
 "C140": {
  "note": "REFUTED, the code violates this property: data shorter than 8 bytes is encrypted with the all-zero key, so that the result does not depend on the password (C140_short_refuted), and an S-box in the parameters other than the default is not used (C140_sbox_refuted). What holds: the parameters that are written, data of 8 bytes or more, and that decryption undoes encryption (C140_params, C140_crypt, C140_roundtrip)."
 },
 "C141": {
  "note": "OpenSSL's PBES2, HMAC and PKCS#8 decoder are modelled; memory suffices."
 },
 "C142": {
  "note": "OpenSSL's PKCS12_key_gen_uni and PKCS12_verify_mac are modelled; iteration counts are at least one; memory suffices."
 },
 "C143": {
  "note": "The proviso is needed: C143_empty shows that an empty coefficient string is refused in the little-endian order and read as zero in the other."
 }
}
# Formal model of dstu-engine: design

Everything lives in `rocq/theories` (logical name `Verif`), Coq 8.16.1, standard library
only. The code in `/repo` is read as text; it is never built or run here, so the tie between
model and code is the citation on every definition.

This file is written by `tools/gen_design.py` from `tools/design_head.md` (this text),
`tools/plan.json` (what is modelled and how it is proved) and the theorem statements.

## File layout and conventions

* `Model_*.v`  - the model: total computable Gallina functions, one per C function, each with
  a comment giving file and lines. No proofs.
* `Spec_*.v`   - small specifications that do not use the model's helpers: the standard's
  formulas, abstract lists, maps and streams, the DER rules. They mention model types (a key,
  a group) only to say what is being described.
* `Proof_*.v`  - lemmas. No theorem statement uses a definition from these files.
* `Prop_*.v`   - only the property theorems (closed by `exact`), `Print Assumptions` under
  each, and an `Example` showing a concrete case that meets the hypotheses.
* `Base.v`, `Lib.v` - bytes as `N`, list helpers.

Bytes and machine words are `N` with explicit bounds; C wrap-around is written as `mod 2^32`
(or `mod 2^64`); `int` values are `Z`. Loops are structural recursion or fuel; running out of
fuel is a separate outcome. Undefined behaviour (out-of-bounds access, use after free, NULL
dereference, read of an unwritten field, signed overflow) is a separate outcome, never a
default value. Calls into OpenSSL are section variables or explicit arguments; what is assumed
of them is a visible hypothesis of the theorem. No `Axiom`, `Parameter` or section-less
`Variable` is used; no functor or module type is defined.

If the code violates a property the theorem is called `..._refuted` and exhibits the violating
inputs, for all of them where that is possible; further theorems state what does hold.

Theorems are tested against wrong programs with `tools/mutate.py`: it edits one definition in
a scratch copy, rebuilds, admits the lemmas that break and reports which property theorems
depend on them. The edits are in `seeded/mutants_*.json`, the results in `seeded/LOG.jsonl`.

## Trusted base

* Coq's kernel, including `vm_compute`; `coqchk` (which has no `vm_compute`) rechecks every file.
* Axioms: none. `Print Assumptions` says "Closed under the global context" for every property
  theorem. (The modules of `Coq.ssr`, loaded with the standard library, declare seven constants of
  `Coq.ssr.ssrunder`; no theorem depends on them.)
* The reading of the C code: the model functions are hand-written from the cited lines. As a check the
  signature model was once extracted to OCaml and run on the test vector of `tests/dstu.cpp` for
  the curve of degree 163: it gave the expected signature and accepted it.
* The curve tables, S-boxes and constants in the models were copied from the source by a script.
* What OpenSSL computes, as stated in the models:
  * BIGNUM functions compute with mathematical integers; BN_GF2m functions with polynomials over
    GF(2) (`Model_Gf2m`); BN_GF2m_mod_solve_quad is any function that returns a solution of
    z^2+z=a if there is one (`good_solver`; an instance is given and proved).
  * EC_POINT functions for binary curves use the affine formulas of `Model_Ec`; that these form a
    group is proved, not assumed. EC_GROUP_new_curve_GF2m, EC_GROUP_set_generator and EC_GROUP_cmp
    check what `Model_Ec`, `Model_Curves` and `Model_Key` say.
  * BN_rand_range and RAND_bytes: any source of values; range hypotheses (`ranged`) are visible.
  * The ASN.1 template engine: the encoder writes DER and the decoder reads BER as `Model_Asn1`, `Model_KeyFile` and `Model_P8` say.
    Theorems that need less are stated for any decoder of distinguished encodings (`reads_params`,
    `reads_octets`); C132 shows that the modelled one is such a decoder.
  * EVP dispatch: which method is called with which context; EVP_CIPHER_CTX fields; digest contexts
    as blocks of memory (`Model_Cipher`, `Model_Hash`).
  * Memory: `malloc` is any function that never returns a live address and may fail at any call
    (`allocator`); where a model says "memory is sufficient" it never fails.
  * Locks give mutual exclusion; threads are interleavings of atomic steps (`Model_Rbg`,
    `Model_Engine`).
  * iconv converts piecewise into the buffer it is given (`Model_Utf16`); SHA-1 and PBES1
    decryption are functions (`Model_Jks`).

## What is modelled

| code | model | not modelled |
|------|-------|--------------|
| dstulib/gost/gost89.c | `Model_Gost89`, `Model_Sboxes`: everything | - |
| dstulib/gost/gosthash.c, engine/md.c | `Model_Hash`: everything, contexts as heap objects; `Model_Evp`: the digest and the key method as OpenSSL joins them; `Model_Pbe`: HMAC and PBKDF2 of OpenSSL over the digest, `Model_P12`: its PKCS#12 key derivation | - |
| engine/cipher.c | `Model_Cipher`: everything but the method object; `Model_CipherHist`: histories of calls on many contexts; `Model_CipherMem`: storing parameters when memory runs out, reading them from bytes; `Model_Pbe`: password-based encryption (PBES2) of OpenSSL with the cipher | - |
| engine/rbg.c | `Model_Rbg`: everything, with threads for bytes; `Model_RbgMt`: all functions with threads, the creation and the free of the lock; `Model_RbgSys`: add and seed with an arbitrary system generator, and fork | the C11 memory model: every access to the statics is a step of its own, in program order |
| engine/sign.c | `Model_Sign` (values), `Model_Oom` (failing allocations) | - |
| engine/pmeth.c | `Model_Pmeth` (values), `Model_Ctx` (memory) | - |
| engine/ameth.c | `Model_Key`, `Model_Ameth` (values), `Model_Ctx` (memory), `Model_Print` | - |
| engine/dstu.c, engine/err.c | `Model_Engine`, `Model_Err`: everything, with threads | registration inside OpenSSL |
| dstulib/params.c | `Model_Params`, `Model_Curves`, `Model_Sign` (values), `Model_Oom` (failing allocations) | - |
| dstulib/compress.c | `Model_Compress` (values), `Model_Oom` (failing allocations) | - |
| dstulib/key.c | `Model_Key` (values), `Model_Ctx` (memory; asn1_from_key after the first allocation, and group_from_asn1, are one step), `Model_Oom` (these step by step) | - |
| dstulib/asn1.c | `Model_Asn1` | - |
| keylib/keystore.c | `Model_KeyStore`: everything, `Model_Kmem` (memory) | - |
| keylib/pkcs12.c | `Model_Pkcs12`: everything, `Model_Kmem` (memory); `Model_P12`: OpenSSL's MAC check and its decryption of shrouded key bags, with the engine's algorithms | decoding of the PKCS#12 structure inside OpenSSL |
| keylib/jks.c | `Model_Jks`, `Model_Utf16`: everything, `Model_Kmem` (memory), `Model_Wipe` (what stays in released memory) | - |
| keylib/key6.c, iit_asn1.c | `Model_Key6`: everything, `Model_KeyFile` (the decoder), `Model_Kmem` (memory) | - |
| keylib/utils.c, attrcurvespec_asn1.c | `Model_Utils`, `Model_Iit`, `Model_KeyFile` (the decoder), `Model_P8` (OpenSSL's PKCS#8, public key and X509_SIG decoders on bytes), `Model_Kmem` (memory) | - |
| read*_bio and read* in keylib | `Model_ReadBio`, `Model_File` | - |
| tests, checks, build files | - | all |

## Properties


| id | property | modelled as | proved how | theorems |
|----|----------|-------------|------------|----------|
| C01 | Block decryption undoes block encryption | `gostcrypt`, `gostdecrypt` over a table context | Feistel induction over the round-key list | `C01_block_roundtrip` `C01_block_roundtrip_ctx` |
| C02 | Block encryption is GOST 28147-89 and does not depend on the random key mask | same, with `kboxinit`, `gost_key` and an arbitrary mask | refinement to a nibble-level GOST 28147-89 specification | `C02_block_is_gost_28147` `C02_default_block` |
| C03 | The key read back from a context is the key that was set | `gost_key`, `gost_get_key`, `magma_*` | word arithmetic mod 2^32 | `C03_key_readback` `C03_magma_key_readback` `C03_magma_is_swapped` |
| C04 | Multi-block ECB is blockwise and invertible | ECB loops over a byte memory with two pointers | induction on the number of blocks | `C04_ecb_encrypt` `C04_ecb_decrypt` `C04_ecb_inverse` |
| C05 | Multi-block CFB functions implement cipher feedback | CFB loops, same memory | induction, equality with the CFB equations | `C05_cfb_encrypt` `C05_cfb_decrypt` `C05_cfb_inverse` |
| C06 | The GOST MAC is the 16-round CBC-MAC of the zero-padded data | `mac_block`, `gost_mac`, `gost_mac_iv`, `get_mac` | loop = fold over padded blocks | `C06_mac` `C06_mac_iv` |
| C07 | A MAC of n bits is the first n bits of the full MAC | `get_mac` | refuted for every length that is not whole bytes; actual behaviour stated | `C07_mac_bits_exact_refuted` `C07_mac_bits_refuted` `C07_mac_bits_actual` |
| C08 | Computing a MAC terminates for every data length the API accepts | loop with a 32-bit index | refuted: the loop reads past the data; the exact boundary | `C08_mac_length_refuted` `C08_mac_length_boundary` |
| C09 | Key meshing replaces the key (and IV) as specified | key meshing functions | equations against the specification | `C09_cryptopro_meshing` `C09_cryptopro_meshing_no_iv` `C09_acpkm_meshing` |
| C10 | Cipher output does not depend on how the data is split over update calls | EVP cipher context machine; memory-level update | invariant linking (num, buffer, IV) to the position in the CFB stream | `C10_split_independent` |
| C11 | Decryption recovers the message under any independent splitting | EVP cipher context machine; memory-level update | invariant linking (num, buffer, IV) to the position in the CFB stream | `C11_roundtrip` |
| C12 | Every update call returns the number of bytes it was given, or a distinct code | EVP cipher context machine; memory-level update | invariant linking (num, buffer, IV) to the position in the CFB stream | `C12_return_codes` `C12_return_length` |
| C13 | In-place cipher operation is safe | EVP cipher context machine; memory-level update | invariant linking (num, buffer, IV) to the position in the CFB stream | `C13_in_place` |
| C14 | Algorithm parameters carry IV and S-box from one context to another | parameter export and import on bytes | DER specification and S-box round trip | `C14_export` `C14_import` |
| C15 | The order of setting key, IV and parameters does not matter | cipher context machine | refuted for all inputs of a shape; the positive part proved | `C15_key_then_iv` `C15_iv_then_key_long` `C15_iv_then_key_refuted` `C15_params_then_key_refuted` `C15_iv_then_key_new` `C15_iv_then_key_old` `C15_params_then_key_long` `C15_params_then_key_short` |
| C16 | Selecting a custom S-box restarts the stream from the IV | cipher context machine | refuted for all inputs of a shape; the positive part proved | `C16_custom_sbox_restart_aligned` `C16_custom_sbox_restart_refuted` `C16_custom_sbox_restart_exact` |
| C17 | Importing cipher parameters rejects malformed input without effect | parameter export and import on bytes | DER specification and S-box round trip | `C17_import_checks` |
| C18 | The digest is GOST 34.311-95 | `hash_step`, `hash_block`, `finish_hash` | refinement to a 256-bit integer specification | `C18_digest_standard` |
| C19 | The digest does not depend on how the message is split over update calls | buffering machine | invariant: state = fold over whole blocks + remainder | `C19_split_independent` `C19_restart` |
| C20 | Finishing a digest does not disturb the context | buffering machine | invariant: state = fold over whole blocks + remainder | `C20_finish_keeps_state` |
| C21 | A copied digest context is independent of its source | heap of contexts with their self-pointers | simulation with a map from contexts to (S-box, bytes) | `C21_contexts_independent` |
| C22 | The digest uses the key's S-box when the context has a key that carries one, else the default | heap of contexts with their self-pointers | simulation with a map from contexts to (S-box, bytes) | `C22_init_selects` `C22_ctrl_replaces` `C22_ctrl_code` `C22_ctrl_refused` |
| C23 | The digest is defined for every message length | signed 64-bit shift | undefined exactly from 2^60 bytes on | `C23_long_messages_undefined` `C23_defined_for_every_length_refuted` |
| C24 | Random output is one deterministic stream per seed, split arbitrarily over calls | generator machine | stream invariant | `C24_one_stream` |
| C25 | Concurrent random requests get disjoint consecutive pieces of the stream | threads as interleavings | linearisation by the lock | `C25_concurrent_stream` `C25_progress` |
| C26 | An unseeded generator reports failure and reveals that in its result | generator machine with lock and free flags | invariants over histories; refutations | `C26_success_iff_seeded` `C26_success_iff_seeded_after_cleanup` |
| C27 | A failed random request does not hand out predictable bytes | generator machine with lock and free flags | invariants over histories; refutations | `C27_failed_request_refuted` |
| C28 | The generator can be used again after cleanup | generator machine with lock and free flags | invariants over histories; refutations | `C28_safe_iff` `C28_use_after_cleanup_refuted` |
| C29 | A request with a negative length writes nothing | generator machine with lock and free flags | invariants over histories; refutations | `C29_writes` `C29_negative_refuted` |
| C30 | Packed and unpacked S-box forms are inverse, and the S-box can be read back from a cipher context | S-box packing, byte reversal, `bn_encode` | list and bit arithmetic; refutation for zero | `C30_pack_unpack` `C30_unpack_pack` `C30_unpack_layout` `C30_readback` `C30_default_is_DKE1` `C30_default_rows_permutation` |
| C31 | Byte reversal | S-box packing, byte reversal, `bn_encode` | list and bit arithmetic; refutation for zero | `C31_reverse_in_place` `C31_reverse_copy` `C31_reverse_twice` |
| C32 | Fixed-width big-endian integer encoding | S-box packing, byte reversal, `bn_encode` | list and bit arithmetic; refutation for zero | `C32_bn_encode` `C32_bn_encode_negative_width` |
| C33 | Encoding succeeds for every integer that fits, including zero | S-box packing, byte reversal, `bn_encode` | list and bit arithmetic; refutation for zero | `C33_bn_encode_zero_refuted` `C33_bn_encode_zero` |
| C34 | Each standard curve is a well-formed group and is recognised | curve tables | Rabin irreducibility test, addition-chain and Pocklington certificates, each with a proved checker; the group law proved algebraically | `C34_standard` `C34_others_refused` `C34_recognised` `C34_distinct` `C34_prime` `C34_group_law` `C34_multiples` |
| C35 | A generated key pair is valid | key generation loop over a random source | induction on retries | `C35_generate` `C35_retries_on_zero` |
| C36 | Expanding a compressed point gives the point back | compression over GF(2)[X]/p | trace and half-trace theory for irreducible p of odd degree | `C36_expand_compress` `C36_subgroup` `C36_not_others` |
| C37 | Compression succeeds for every point of the subgroup | compression over GF(2)[X]/p | trace and half-trace theory for irreducible p of odd degree | `C37_refuted` `C37_fails_iff` `C37_other_curves` `C37_success` `C37_annihilated_refuted` |
| C38 | Expansion returns only curve points and rejects malformed input | compression over GF(2)[X]/p | trace and half-trace theory for irreducible p of odd degree | `C38_on_curve` `C38_short` `C38_oversize` `C38_exact` |
| C39 | Every signature made is accepted | `dstu_do_sign`, `dstu_do_verify` over the proved group | algebra mod n, induction over the nonce stream | `C39_sign_verify` |
| C40 | Signatures have fixed size and both halves in range | `dstu_do_sign`, `dstu_do_verify` over the proved group | algebra mod n, induction over the nonce stream | `C40_format` |
| C41 | Verification accepts exactly the DSTU 4145 verification equation | `dstu_do_sign`, `dstu_do_verify` over the proved group | algebra mod n, induction over the nonce stream | `C41_evp` `C41_verify_iff` |
| C42 | Signing terminates for every digest | `dstu_do_sign`, `dstu_do_verify` over the proved group | algebra mod n, induction over the nonce stream | `C42_exact_refuted` `C42_refuted` `C42_returns` `C42_large_curves` `C42_stable` `C42_zero_nonce` |
| C43 | A signature has only one accepted encoding | `dstu_do_sign`, `dstu_do_verify` over the proved group | algebra mod n, induction over the nonce stream | `C43_refuted` `C43_padded_refuted` `C43_padded_same` `C43_canonical_unique` |
| C44 | Message digests map to field elements as little-endian integers | `dstu_do_sign`, `dstu_do_verify` over the proved group | algebra mod n, induction over the nonce stream | `C44_hash_to_field` `C44_empty` |
| C45 | Sign and verify round trip through the public interface, with the two-call size protocol | `dstu_pkey_sign`, `dstu_pkey_verify` with DER OCTET STRING | round trip; refutation for the bare form | `C45_sizes` `C45_round_trip` |
| C46 | A bare (unwrapped) signature is accepted like the wrapped one | `dstu_pkey_sign`, `dstu_pkey_verify` with DER OCTET STRING | round trip; refutation for the bare form | `C46_bare` `C46_refuted` |
| C47 | Key parameters survive encoding and decoding | ASN.1 structures and keys as records | round trips; refutations | `C47_round_trip` `C47_encodes` `C47_cofactor_refuted` |
| C48 | Private keys survive encoding and decoding | ASN.1 structures and keys as records | round trips; refutations | `C48_round_trip` `C48_encodes` |
| C49 | Public keys survive encoding and decoding | ASN.1 structures and keys as records | round trips; refutations | `C49_round_trip` `C49_encodes` `C49_refuted` |
| C50 | Parameter comparison agrees with parameter copy and with encode/decode | ASN.1 structures and keys as records | round trips; refutations | `C50_copy` `C50_refuted` `C50_decoded` `C50_evp` `C50_numbers` |
| C51 | Decoding custom curve parameters validates them | ASN.1 structures and keys as records | round trips; refutations | `C51_valid` `C51_refuted` `C51_truncated_refuted` |
| C52 | The textual S-box option accepts exactly 128 hex digits | text option parser | exact set of accepted texts | `C52_exact` `C52_refuted` |
| C53 | Key generation honours curve and S-box options; copied contexts are independent | heap of contexts and keys, all calls, any allocation failing | simulation with a specification without memory, over all histories | `C53_history` `C53_options` `C53_keygen` |
| C54 | A key store behaves like two lists | key store heap with ownership | invariant over histories | `C54_two_lists` |
| C55 | Every key and certificate is released exactly once | key store heap with ownership | invariant over histories | `C55_released_once` `C55_all_released` |
| C56 | Reading a PKCS#12 container never writes outside the store and fills every slot | bag trees, count and fill passes | mutual induction on the tree | `C56_bags` |
| C57 | A failed container read leaves the caller's handle usable | bag trees, count and fill passes | mutual induction on the tree | `C57_jks_dangling_refuted` `C57_jks_kind_dangling_refuted` `C57_pkcs12_dangling_refuted` |
| C58 | Reading a Java key store never reads outside the given buffer | byte-level JKS parser with an out-of-bounds outcome | parser/serialiser round trip; refutations | `C58_short_refuted` `C58_truncated_refuted` |
| C59 | A well-formed Java key store of private-key entries is read back | byte-level JKS parser with an out-of-bounds outcome | parser/serialiser round trip; refutations | `C59_round_trip` |
| C60 | A Java key store is accepted only if its integrity digest matches | byte-level JKS parser with an out-of-bounds outcome | parser/serialiser round trip; refutations | `C60_digest` |
| C61 | Trusted-certificate entries of a Java key store are read | byte-level JKS parser with an out-of-bounds outcome | parser/serialiser round trip; refutations | `C61_trusted_cert_refuted` |
| C62 | Recovering a protected key inverts protection, and wrong protection data fails cleanly | byte-level JKS parser with an out-of-bounds outcome | parser/serialiser round trip; refutations | `C62_unprotect` `C62_only_protected` `C62_refused` |
| C63 | Protected-key data that is too short or does not hold a key is refused cleanly | byte-level JKS parser with an out-of-bounds outcome | parser/serialiser round trip; refutations | `C63_short_blob_refuted` `C63_no_key_refuted` |
| C64 | Key-6 containers: the decrypted data is what was encrypted | Key-6 container | ECB and CFB inverse; the MAC is not looked at | `C64_plaintext` `C64_any_size` `C64_refused` |
| C65 | Key-6 containers: tampering is detected | Key-6 container | ECB and CFB inverse; the MAC is not looked at | `C65_mac_ignored_refuted` |
| C66 | The private number in IIT attributes is the bit reversal of the stored string | attribute scan, bit reversal, polynomial readers | induction over attributes and strings | `C66_private_number` `C66_none` `C66_involution` |
| C67 | Keys from PKCS#8 data | attribute scan, bit reversal, polynomial readers | induction over attributes and strings | `C67_keys_from_pkcs8` `C67_undecodable` |
| C68 | Container contents do not depend on how the input stream delivers them | chunked read loop | induction over the chunks; refutation | `C68_chunks` `C68_zero_chunk` `C68_write_fails` |
| C69 | A read error is reported | chunked read loop | induction over the chunks; refutation | `C69_error_is_end_refuted` |
| C70 | Field polynomials are read the same way from key parameters and from IIT attributes | attribute scan, bit reversal, polynomial readers | induction over attributes and strings | `C70_polynomial` `C70_agree` `C70_order` `C70_refused` `C70_zero_refuted` |
| C71 | Engine lookups return exactly the advertised algorithms | engine objects | invariant over histories; refutations | `C71_lookups` `C71_bind` `C71_no_memory_refuted` |
| C72 | The engine can be finished and used again | engine objects | invariant over histories; refutations | `C72_until_finish` `C72_after_finish_refuted` `C72_after_destroy_refuted` |
| C73 | Concurrent first lookups of a key method return one object | two threads | refuted by an interleaving; invariant after the first lookup | `C73_race_refuted` `C73_after_first` |
| C74 | Error strings are loaded at most once at a time and one library code is used throughout | error-string flags | invariant over histories | `C74_error_strings` |
| C75 | Converting a password to UTF-16 does not depend on the converter's output buffer | `toUTF16BE` over a piecewise converter | induction over the conversion steps | `C75_password_conversion` |
| C76 | A Java key store whose keys cannot be recovered is refused | JKS entry loop | refuted for every unknown algorithm | `C76_unknown_algorithm_refuted` |
| C77 | Comparing two keys is safe and exact | `dstu_asn1_pub_cmp`, `dstu_asn1_param_cmp` | exact condition for defined behaviour and equality | `C77_defined` `C77_equal` `C77_refuted` |
| C78 | Decoded custom curve parameters describe a usable group | decoders of parameters and keys | refuted for all data of a shape; the positive part proved | `C78_order_refuted` `C78_singular_refuted` |
| C79 | Decoded public keys belong to the group | decoders of parameters and keys | refuted for all data of a shape; the positive part proved | `C79_on_curve` `C79_refuted` |
| C80 | Decoded private keys are in range | decoders of parameters and keys | refuted for all data of a shape; the positive part proved | `C80_any` `C80_refuted` `C80_zero` |
| C81 | Keys and contexts: memory is used and released correctly | heap of contexts and keys, all calls, any allocation failing | weakest preconditions with a frame rule; invariant over histories | `C81_safe` `C81_returns` `C81_freed` `C81_set` `C81_key_free` `C81_leak_refuted` |
| C82 | Parameters can be copied to an empty key | EVP_PKEY_copy_parameters with the engine's methods | refuted for every key | `C82_refuted` |
| C83 | Encoding a key never depends on uninitialised memory | `asn1_from_key` with unwritten array cells | undefined exactly for some trinomials | `C83_exact` `C83_refuted` |
| C84 | With too little memory calls on keys fail cleanly | heap of contexts and keys, all calls, any allocation failing | weakest preconditions with a frame rule; invariant over histories | `C84_crash_refuted` `C84_degraded_refuted` `C84_fails_cleanly` |
| C85 | A control call with a missing argument is refused | heap of contexts and keys, all calls, any allocation failing | weakest preconditions with a frame rule; invariant over histories | `C85_null_digest_refuted` `C85_null` |
| C86 | The key made from IIT attributes is the one they describe | `makePKey` with every allocation | weakest preconditions with a frame rule; refutations | `C86_key` `C86_refused` `C86_same_group` |
| C87 | Reading IIT attributes never crashes | `makePKey` with every allocation | weakest preconditions with a frame rule; refutations | `C87_safe` `C87_crash_refuted` `C87_memory_refuted` `C87_buffer_refuted` |
| C88 | Reading IIT attributes does not leak | `makePKey` with every allocation | weakest preconditions with a frame rule; refutations | `C88_leak_refuted` `C88_memory_refuted` |
| C89 | A key made from IIT attributes keeps the S-box stored with its curve | `makePKey` with every allocation | weakest preconditions with a frame rule; refutations | `C89_sbox_refuted` |
| C90 | Keys are written in the format of the standard | encoders and decoders of keys | against a separate description of the wire format (Spec_Wire, DER rules) | `C90_params` `C90_priv` `C90_pub` |
| C91 | Keys in the format of the standard are read as what they say | encoders and decoders of keys | against a separate description of the wire format (Spec_Wire, DER rules) | `C91_params` `C91_priv` `C91_pub` |
| C92 | Different private keys have different public keys | key completion on the standard groups | prime order and the group law | `C92_order` `C92_injective` `C92_finite` |
| C93 | A generated key can be stored, loaded and used | generation, storage, loading, signing, verification composed | composition of C35, C45, C48, C49, C92 | `C93_lifetime` |
| C94 | Printing a key leaves it unchanged and releases what it used | `h_print` over the heap of contexts | symbolic execution over any allocator | `C94_print` `C94_safe` `C94_leak_refuted` `C94_crash_refuted` |
| C95 | Printed parameters show everything that is a parameter | `h_print` | the printed text depends on the EC key only | `C95_sbox_refuted` |
| C96 | PKCS#7 and CMS signatures name the algorithms used | `asn1_ctrl` with each allocation of X509_ALGOR_set0 | case analysis | `C96_algorithms` `C96_others` `C96_memory_refuted` |
| C97 | Out of memory, expanding a point fails or gives the right point | dstulib/compress.c, engine/sign.c, dstulib/params.c and dstulib/key.c again, each OpenSSL call that allocates a step that may fail (`Model_Oom`) | weakest preconditions against the value model; evaluation on a curve over GF(2^5) for the failure, and for all curves the count of the allocations before it | `C97_refuted` `C97_every_refuted` `C97_opposite` `C97_enough` |
| C98 | Out of memory, compressing a point fails or gives the right string | dstulib/compress.c, engine/sign.c, dstulib/params.c and dstulib/key.c again, each OpenSSL call that allocates a step that may fail (`Model_Oom`) | weakest preconditions against the value model; evaluation for the failure | `C98_crash_refuted` `C98_every_refuted` `C98_encode_refuted` `C98_right` `C98_enough` |
| C99 | Out of memory, no wrong signature is made or accepted and no wrong key reported | dstulib/compress.c, engine/sign.c, dstulib/params.c and dstulib/key.c again, each OpenSSL call that allocates a step that may fail (`Model_Oom`) | weakest preconditions against the value model, induction over the random values | `C99_sign` `C99_sign_enough` `C99_verify` `C99_generate` `C99_public` |
| C100 | Out of memory, signing still ends | dstulib/compress.c, engine/sign.c, dstulib/params.c and dstulib/key.c again, each OpenSSL call that allocates a step that may fail (`Model_Oom`) | every attempt with the digest 0 gives r = 0; induction on the number of attempts | `C100_refuted` `C100_otherwise` |
| C101 | Out of memory, a standard curve is built right or not at all | dstulib/compress.c, engine/sign.c, dstulib/params.c and dstulib/key.c again, each OpenSSL call that allocates a step that may fail (`Model_Oom`) | weakest preconditions; no generator of the table is on the curve with a = 0 | `C101_curve` `C101_recognised` |
| C102 | Parameters written while memory runs out describe the same curve | dstulib/compress.c, engine/sign.c, dstulib/params.c and dstulib/key.c again, each OpenSSL call that allocates a step that may fail (`Model_Oom`) | weakest preconditions and the round trip of C47 | `C102_same` `C102_explicit` |
| C103 | Out of memory, a curve given by parameters is built right or not at all | dstulib/compress.c, engine/sign.c, dstulib/params.c and dstulib/key.c again, each OpenSSL call that allocates a step that may fail (`Model_Oom`) | weakest preconditions; negation of the expanded point | `C103_refuted` `C103_every_refuted` `C103_opposite` `C103_enough` |
| C104 | The size reported for a key is the size of its signatures | `pkey_size`, `pkey_bits`, `pkey_sign` | case analysis on C45; evaluation of the table | `C104_exact` `C104_standard` |
| C105 | Reading a container leaves exactly the key store, freeing it leaves nothing | `Model_Kmem`: the readers over a heap of allocated objects with any allocator | separation style triples over the heap up to permutation; simulation of the value models | `C105_pkcs12` `C105_pkcs12_stream` `C105_key6` `C105_key6_stream` `C105_key6_refused` `C105_jks_round_trip` `C105_jks` `C105_jks_stream` `C105_jks_leak_refuted` `C105_release` |
| C106 | Out of memory, reading a container does not crash | `Model_Kmem` with one allocation failing | symbolic execution for every container; triples for any allocator | `C106_pkcs12_refuted` `C106_key6_refuted` `C106_jks_refuted` `C106_jks_leak_refuted` `C106_pkcs12_clean` `C106_pkcs12_stream_clean` |
| C107 | A store reported read is complete | `Model_Kmem` with one allocation failing | symbolic execution for every container; triples for any allocator | `C107_key6_refuted` `C107_key6_rest` |
| C108 | Out of memory, a password is not replaced by another | `Model_Kmem` with one allocation failing | symbolic execution of the conversion and of the rest of the read for every store | `C108_jks_refuted` `C108_half_differs` `C108_some_characters` |
| C109 | Messages can be signed and verified in pieces, with stored keys | `Model_Evp`: EVP_DigestSign / EVP_DigestVerify over `md_run`, `pkey_sign` and `pkey_verify` | refinement of C84 for the digest, then composition as in C93 | `C109_sign_is` `C109_verify_is` `C109_messages` |
| C110 | Passwords and private keys are not left in memory that was given back | `Model_Wipe`: what jks.c, key6.c and ameth.c release without clearing, computed along the parsers of `Model_Jks`, `Model_Key6` and `Model_Ameth` | inversion of a successful parse (as C60), then induction over the entries | `C110_jks_refuted` `C110_key6_refuted` `C110_pkcs8_refuted` `C110_destroy` |
| C111 | Random bytes already delivered cannot be computed from the generator's memory | `Model_Rbg`; `Spec_RbgBack` runs the generator backwards with the decryption function and the contents of its memory | invariant over histories as C24, with decryption inverting encryption (C01) | `C111_past_output_refuted` |
| C112 | The random generator does not lose its seed's entropy | `Model_Rbg` as in C24 | injectivity of the step from C111; pigeonhole over the 2^64 states | `C112_seeds_stay_apart` `C112_stream_is_a_cycle` |
| C113 | A damaged ciphertext spoils only what it must | `Model_Cipher` as in C10; `Spec_Locality` names the block before a position and strings that differ in one block | from C10 by induction over blocks; injectivity of the block cipher for the change that shows | `C113_prefix` `C113_byte` `C113_error` `C113_error_shows` `C113_resynchronises` `C113_same_iv_leaks` |
| C114 | Different data have different MACs | `Model_Gost89` (gost_mac, gost_mac_iv) as in C06 | from C06: the 16 rounds are one-to-one, so a difference in one block survives; rewriting of the padded blocks for the refutations | `C114_change_in_a_block` `C114_zeros_refuted` `C114_one_block_refuted` `C114_combine_refuted` |
| C115 | A signature is for one digest | `Model_Sign` | from C41 and C44: multiplication by x is one-to-one in the field, then counting; twins by adding 2^255 | `C115_few_digests` `C115_large_curves` `C115_zero_never` `C115_small_curves_refuted` `C115_zero_is_one_refuted` `C115_large_fields` |
| C116 | The key is safe only while every signature has a nonce of its own that nobody knows | `Model_Sign` | from C40, arithmetic modulo a prime; group law (C34) for the second signature | `C116_same_nonce` `C116_known_nonce` `C116_second_signature` |
| C117 | Only the private key makes signatures | `Model_Sign` | from C41: the digest is r / x in the field (inverse proved to exist in C36's field theory); group law for the point | `C117_forgery_refuted` `C117_forgery_general_refuted` `C117_signer_knows_key` |
| C118 | A signature is for one public key | `Model_Sign` | from C41 and the group law (C34): s G + r Q' = -(s G + r Q); counting as for C115, two points per x coordinate | `C118_twin_refuted` `C118_few_keys` `C118_standard_curves` |
| C119 | Concurrent calls of the random functions behave as if made one after the other | rbg.c as a transition system with one step per access to the statics, the lock created by the first call, and undefined behaviour as an outcome (Model_RbgMt.v). | Invariant relating every reachable world to a sequential history (the holder of the lock will end as the sequential call would); progress by a measure on the holder's remaining steps. | `C119_linearizable` `C119_defined` |
| C120 | Cleaning up the random generator is safe while other threads use it | The same transition system. | Schedule built for any such program: run the cleaning thread until the lock is freed, then the other. | `C120_cleanup_refuted` |
| C121 | What is encrypted cannot be read without the key, whichever S-box is accepted | The cipher and MAC models of C10 and C06, constant-row S-boxes as a predicate on the 64 bytes (Spec_Flat.v). | With constant rows the round function is constant, four rounds are the identity; then the specifications proved in C10 and C06. | `C121_no_key_refuted` `C121_mac_refuted` |
| C122 | A signature is for one message, whichever key was accepted | The digest, key and message models of C18, C93 and C109. | Linearity of the step function over xor for constant-row S-boxes; the pattern's image is followed through two steps on the 16 words, one boolean per word, for all values of the word at once. | `C122_same_digest_refuted` `C122_messages_differ` `C122_two_messages_refuted` `C122_lifetime_refuted` |
| C123 | Encrypting a block twice does not give it back | The block cipher model of C01 and C02. | The round key sequences of encryption and decryption coincide; then C02 and C01. | `C123_involution_refuted` |
| C124 | Whatever is done with cipher contexts, every answer is that of byte-by-byte GOST 28147 cipher feedback | cipher context machine over many contexts, copies included | simulation between the code and the reference, one lemma per call, induction over the history | `C124_reference` |
| C125 | A cipher context without a key does not encrypt | cipher context as EVP_CIPHER_CTX_new leaves it, initialised without a key | refuted for all inputs: exact output | `C125_no_key_refuted` |
| C126 | Enveloped data comes back | the two orders of calls on the cipher context machine | exact output for short first pieces, round trip for the others | `C126_enveloped` `C126_short_refuted` `C126_short_is` |
| C127 | Data added to the generator influences later output | The generator with an arbitrary system generator as a state machine (Model_RbgSys) | invariant: initialised or freed; the bytes of a history are a prefix of one stream | `C127_added_data_refuted` `C127_never_reseeded_refuted` `C127_before_first_request` |
| C128 | Forked processes draw different random bytes | fork as a copy of the statics with any state of the system generator in the child | both streams are prefixes of one; composed with the same-nonce theorem of C116 | `C128_fork_refuted` `C128_fork_reveals_key_refuted` |
| C129 | A key kept in a container signs for its public key | The container models with EVP_PKCS82PKEY tied to the model of the engine's private key decoding (Spec_Stored) | composition of C64, C59, C56, C67, C93 and C109 | `C129_key6` `C129_jks` `C129_pkcs12` |
| C130 | The predefined S-boxes make the standard ciphers | `Model_Sboxes`: all predefined blocks | refinement of the proved GOST 28147 specification to Magma; a proved permutation check | `C130_magma` `C130_permutations` |
| C131 | With too little memory the engine's lookups fail cleanly | the engine's method objects with an allocator that may fail at any point (Model_Engine) | comparison with the same history under an allocator that does not fail, invariant over the history; the crashes are undefined outcomes of the model | `C131_any_memory` `C131_null_success_refuted` `C131_asn1_crash_refuted` `C131_bind_crash_refuted` |
| C132 | Key parameters and octet strings are read from exactly their basic encodings | OpenSSL's decoder as it treats the templates of asn1.c: headers, lengths, indefinite forms, strings in parts, choices, the optional S-box (Model_Asn1) | a grammar of BER (Spec_Ber); induction over the parts of strings, both directions; mutual induction on the grammar | `C132_reads_params` `C132_reads_octets` `C132_only_params` `C132_only_octets` `C132_distinguished` `C132_key_params` `C132_key_priv` `C132_key_pub` `C132_foreign_parts_refuted` `C132_empty_refuted` |
| C133 | Copying the parameters of one key to another | h_param_copy on the heap of Model_Ctx (ameth.c:91-132), with EC_KEY_set_group freeing the old group first | separation-style execution over both keys' cells; the outcomes are listed in Spec_Copy | `C133_copy` `C133_new` `C133_sbox_leak_refuted` `C133_group_lost_refuted` `C133_self_refuted` |
| C134 | Key-6 files and curve attributes in any basic encoding | the templates of iit_asn1.c and attrcurvespec_asn1.c as decoders over the BER decoder of Model_Asn1; identifiers by their numbers | completeness and soundness of each template by those of its parts (Proof_Ber); base 128 numbers are read injectively; composed with C64, C65 and C86 | `C134_reads` `C134_only` `C134_file` `C134_otherwise` `C134_type` `C134_mac_refuted` `C134_attr_reads` `C134_attr_only` `C134_second_key` |
| C135 | Private and public keys as bytes, in any basic encoding | Model_P8: OpenSSL's decoders and encoders of PKCS8_PRIV_KEY_INFO, X509_PUBKEY, X509_SIG, X509_ALGOR, X509_ATTRIBUTE and ANY on byte strings | the encodings are relations (Spec_P8) that do not mention the decoders; completeness and soundness by induction over them; the chains join C129, C132, C134 with the byte level | `C135_p8_reads` `C135_p8_only` `C135_pub_reads` `C135_pub_only` `C135_sig_reads` `C135_sig_only` `C135_written_priv` `C135_written_pub` `C135_life` `C135_key6` `C135_jks` |
| C136 | Containers are read from open files to the end, and the files stay open | `Model_File`: FILE with contents, position and a point from which reads fail; BIO_new_fp with BIO_NOCLOSE; the chunk loop of read*_bio over it. | induction on what is left in the file, with the memory triples of `Proof_Kmem`. | `C136_pkcs12` `C136_key6` `C136_jks` |
| C137 | Storing cipher parameters is all or nothing when memory runs out | `Model_CipherMem`: ASN1_TYPE_set1 with its allocations. | memory triples of `Proof_Kmem`. | `C137_set` |
| C138 | Cipher parameters are accepted from bytes exactly in their distinguished encoding | `Model_CipherMem`: the decoder of values of any type (`Model_P8`) followed by `get_asn1`. | case analysis on identifier and length octets: 78 bytes with the checked bytes in place leave only one form. | `C138_reads` `C138_only` `C138_other_encodings` |
| C139 | HMAC and PBKDF2 over the engine's digest are the standard ones | `Model_Pbe`: HMAC_Init_ex, HMAC_Update, HMAC_Final, HMAC_CTX_copy and PKCS5_PBKDF2_HMAC of OpenSSL calling the digest callbacks of `Model_Hash` on three contexts each. | refinement to `Spec_Md` call by call, then induction on pieces, messages, rounds and blocks; RFC 2104 and RFC 8018 are stated in `Spec_Pbe`. | `C139_hmac` `C139_pbkdf2` |
| C140 | Password-based encryption protects what it encrypts | `Model_Pbe`: PKCS5_pbe2_set_iv, PKCS5_v2_PBE_keyivgen, PKCS5_v2_PBKDF2_keyivgen and one EVP_CipherUpdate, calling the cipher callbacks of `Model_Cipher` in OpenSSL's order: parameters first, key afterwards. | C139 for the key, the exact results of C15 for the order of the calls. | `C140_params` `C140_crypt` `C140_roundtrip` `C140_short_refuted` `C140_sbox_refuted` |
| C141 | A private key encrypted under a password with the engine's algorithms comes back and signs | Model_P12 shrouded over Model_Pbe, Model_P8, Model_Pkcs12 | composition of C140 (password-based encryption), C135 (encodings) and C93/C56 | `C141_encrypted` |
| C142 | A container's MAC over the engine's digest is the standard one and protects its contents | Model_P12 key_gen, gen_mac, verify_mac over the digest contexts of Model_Hash | induction over blocks and iterations with the context invariant of C139; add-with-carry equals addition of numbers; a MAC match reduces to a digest collision | `C142_kdf` `C142_mac` `C142_parse` `C142_bind` |
| C143 | The two key types are the same keys in the other byte order | `pkey_sign`, `pkey_verify`, `priv_encode`, `priv_decode`, `pub_encode`, `pub_decode` with the two types | the two runs step by step, over the specification of reversed parameters (`Spec_Mirror`) | `C143_sign` `C143_verify` `C143_private_written` `C143_public_written` `C143_private_read` `C143_public_read` `C143_empty` |

Notes on each claim, including what exactly is refuted, are in `MANIFEST.json`.

{"id": "C01", "title": "Block decryption undoes block encryption", "statement": "For any 256-bit key, any S-box and any 8-byte block, decrypting the encrypted block with the same context returns the original block (and encrypting the decrypted block too). The law does not need the S-box rows to be permutations.", "quantifier": "all keys, all S-boxes, all random key masks, all 8-byte blocks", "why_tests_cant": "2^256 keys x 2^64 blocks x all S-boxes cannot be enumerated; a wrong round-key order in decryption shows only relative to encryption", "anchors": ["dstulib/gost/gost89.c: gostcrypt", "dstulib/gost/gost89.c: gostdecrypt", "dstulib/gost/gost89.c: f", "dstulib/gost/gost89.c: kboxinit"]}
{"id": "C02", "title": "Block encryption is GOST 28147-89 and does not depend on the random key mask", "statement": "After loading an S-box and a key, encrypting a block gives the ciphertext of the standard 32-round Feistel network (round keys K0..K7 three times, then K7..K0; round function: add key mod 2^32, substitute eight nibbles, rotate left 11). The result is the same whatever random mask the key-setting call draws, also when drawing random bytes fails.", "quantifier": "all keys, S-boxes with 4-bit entries, blocks, and mask values", "why_tests_cant": "the mask is random, so a test sees one value per run; agreement with the standard must hold for every key and block", "anchors": ["dstulib/gost/gost89.c: gostcrypt", "dstulib/gost/gost89.c: gost_key", "dstulib/gost/gost89.c: gost_key_nomask", "dstulib/gost/gost89.c: gost_init"]}
{"id": "C03", "title": "The key read back from a context is the key that was set", "statement": "Getting the key after setting it returns the same 32 bytes, for both the GOST byte order and the Magma byte order; a Magma-order key behaves as the GOST-order key with every 4-byte group reversed.", "quantifier": "all 32-byte keys and all masks", "why_tests_cant": "the stored key is masked with random words", "anchors": ["dstulib/gost/gost89.c: gost_key", "dstulib/gost/gost89.c: gost_get_key", "dstulib/gost/gost89.c: magma_key", "dstulib/gost/gost89.c: magma_get_key"]}
{"id": "C04", "title": "Multi-block ECB is blockwise and invertible", "statement": "Encrypting n blocks encrypts each 8-byte block independently, in order, touches exactly 8n output bytes, and decrypting n blocks gives the data back. Working in place (output buffer equals input buffer) gives the same bytes.", "quantifier": "all n, all data, all contexts, memory layouts with in==out or disjoint buffers", "why_tests_cant": "unbounded lengths; buffer aliasing", "anchors": ["dstulib/gost/gost89.c: gost_enc", "dstulib/gost/gost89.c: gost_dec"]}
{"id": "C05", "title": "Multi-block CFB functions implement cipher feedback", "statement": "Encrypting n blocks in CFB gives C_i = P_i xor E(C_{i-1}) with C_0 the IV; decrypting gives P_i = C_i xor E(C_{i-1}); the two are inverse for every n, also in place.", "quantifier": "all n, data, IVs, contexts", "why_tests_cant": "unbounded lengths", "anchors": ["dstulib/gost/gost89.c: gost_enc_cfb", "dstulib/gost/gost89.c: gost_dec_cfb"]}
{"id": "C06", "title": "The GOST MAC is the 16-round CBC-MAC of the zero-padded data", "statement": "For MAC lengths that are whole bytes (0..8 bytes) and data shorter than 2^32-8 bytes, the computed MAC is the prefix of the 16-round CBC-MAC of the data padded with zeros to whole blocks, with one extra zero block when the data is one block or shorter (and not empty); the variant with an IV starts the chain from the IV.", "quantifier": "all data, keys, S-boxes, whole-byte MAC lengths", "why_tests_cant": "unbounded lengths; the padding corner cases interact with the length", "anchors": ["dstulib/gost/gost89.c: mac_block", "dstulib/gost/gost89.c: gost_mac", "dstulib/gost/gost89.c: gost_mac_iv", "dstulib/gost/gost89.c: get_mac"]}
{"id": "C07", "title": "A MAC of n bits is the first n bits of the full MAC", "statement": "For every MAC length in bits 0..64 the last partial byte keeps exactly the low (n mod 8) bits of that MAC byte.", "quantifier": "all MAC lengths and states", "why_tests_cant": "the property is about every length and every value of the partial byte", "anchors": ["dstulib/gost/gost89.c: get_mac"]}
{"id": "C08", "title": "Computing a MAC terminates for every data length the API accepts", "statement": "For every 32-bit data length the MAC call reads only the given data and returns.", "quantifier": "all data lengths 0..2^32-1", "why_tests_cant": "needs 4 GiB inputs at the wrap-around boundary", "anchors": ["dstulib/gost/gost89.c: gost_mac", "dstulib/gost/gost89.c: gost_mac_iv"]}
{"id": "C09", "title": "Key meshing replaces the key (and IV) as specified", "statement": "CryptoPro key meshing sets the key to the ECB decryption of the fixed 32-byte constant under the old key and, if an IV is given, replaces it by its encryption under the new key; ACPKM meshing sets the key to the encryption of the D constant. The S-box is unchanged. Results do not depend on masks.", "quantifier": "all contexts, IVs, masks", "why_tests_cant": "all keys; the order of the two steps (which key encrypts the IV) matters", "anchors": ["dstulib/gost/gost89.c: cryptopro_key_meshing", "dstulib/gost/gost89.c: acpkm_magma_key_meshing"]}
{"id": "C10", "title": "Cipher output does not depend on how the data is split over update calls", "statement": "After initialising with a key and IV, feeding a message by any sequence of non-empty update calls produces the same bytes as one call, in both directions, and that output is CFB of the message under the key and IV.", "quantifier": "all messages, all splittings, all keys and IVs, both directions", "why_tests_cant": "exponentially many splittings; state carried between calls (partial block, feedback register)", "anchors": ["engine/cipher.c: dstu_cipher_do_cipher", "engine/cipher.c: dstu_cipher_init"]}
{"id": "C11", "title": "Decryption recovers the message under any independent splitting", "statement": "Data encrypted with one splitting and decrypted by a context with the same key, IV and S-box under any other splitting is the original message.", "quantifier": "all messages, all pairs of splittings, keys, IVs, custom S-boxes", "why_tests_cant": "product of two exponentially large sets of schedules", "anchors": ["engine/cipher.c: dstu_cipher_do_cipher", "engine/cipher.c: dstu_cipher_init", "engine/cipher.c: dstu_cipher_ctrl"]}
{"id": "C12", "title": "Every update call returns the number of bytes it was given, or a distinct code", "statement": "A call with a non-NULL input and positive length returns exactly that length and writes exactly that many bytes; a call with NULL input and zero length returns 0 and changes nothing; every other call returns -1 and changes nothing.", "quantifier": "all contexts, lengths and pointers", "why_tests_cant": "all states", "anchors": ["engine/cipher.c: dstu_cipher_do_cipher"]}
{"id": "C13", "title": "In-place cipher operation is safe", "statement": "Encrypting or decrypting with the output buffer equal to the input buffer leaves in memory the same bytes, and the context in the same state, as with disjoint buffers, and no other memory is changed.", "quantifier": "all memories, lengths, states, both directions", "why_tests_cant": "aliasing bugs depend on the length modulo the block size and on the state", "anchors": ["engine/cipher.c: dstu_cipher_do_cipher", "dstulib/gost/gost89.c: gost_enc_cfb", "dstulib/gost/gost89.c: gost_dec_cfb"]}
{"id": "C14", "title": "Algorithm parameters carry IV and S-box from one context to another", "statement": "The parameters exported from a context are the DER encoding of SEQUENCE { OCTET STRING iv, OCTET STRING s-box }; importing them into a context that has the same key makes it produce the same stream as the exporting context restarted at its IV.", "quantifier": "all contexts, keys, IVs, S-boxes", "why_tests_cant": "all values of IV and S-box, round trip through the table form of the S-box", "anchors": ["engine/cipher.c: dstu_cipher_set_asn1_parameters", "engine/cipher.c: dstu_cipher_get_asn1_parameters", "dstulib/params.c: dstu_get_sbox", "dstulib/params.c: pack_sbox"]}
{"id": "C15", "title": "The order of setting key, IV and parameters does not matter", "statement": "A context whose IV (or algorithm parameters) was set first and whose key was set afterwards - the order used when decrypting enveloped data - decrypts like a context that got key, IV and S-box together.", "quantifier": "all histories of init / set-parameters calls before the first update", "why_tests_cant": "histories; a violation shows only for some message lengths and S-boxes", "anchors": ["engine/cipher.c: dstu_cipher_init", "engine/cipher.c: dstu_cipher_get_asn1_parameters"]}
{"id": "C16", "title": "Selecting a custom S-box restarts the stream from the IV", "statement": "After the custom S-box control succeeds the context behaves like one freshly initialised with the same key and IV and that S-box, whatever was processed before.", "quantifier": "all histories before the control call", "why_tests_cant": "histories ending inside a block", "anchors": ["engine/cipher.c: dstu_cipher_ctrl"]}
{"id": "C17", "title": "Importing cipher parameters rejects malformed input without effect", "statement": "Import succeeds exactly when the value is a SEQUENCE of 78 bytes whose two inner headers are an 8-byte and a 64-byte OCTET STRING, and otherwise returns -1 leaving the context unchanged.", "quantifier": "all parameter values and contexts", "why_tests_cant": "all byte strings", "anchors": ["engine/cipher.c: dstu_cipher_get_asn1_parameters"]}
{"id": "C18", "title": "The digest is GOST 34.311-95", "statement": "For every message and S-box the digest equals the standard's definition over 256-bit integers: key generation with constants, four encryptions, mixing, length and control sum modulo 2^256, with zero starting value and zero padding of the last block.", "quantifier": "all messages (shorter than 2^60 bytes) and S-boxes", "why_tests_cant": "unbounded messages; the implementation works byte-wise and in place", "anchors": ["dstulib/gost/gosthash.c: hash_step", "dstulib/gost/gosthash.c: hash_block", "dstulib/gost/gosthash.c: finish_hash", "engine/md.c: dstu_md_final"]}
{"id": "C19", "title": "The digest does not depend on how the message is split over update calls", "statement": "Any sequence of update calls (including empty ones) whose concatenation is the same message gives the same digest.", "quantifier": "all messages and splittings", "why_tests_cant": "exponentially many splittings; buffering of partial blocks", "anchors": ["dstulib/gost/gosthash.c: hash_block", "engine/md.c: dstu_md_update"]}
{"id": "C20", "title": "Finishing a digest does not disturb the context", "statement": "Asking for the digest leaves the message state unchanged: asking again gives the same value and continuing gives the digest of the longer message.", "quantifier": "all histories", "why_tests_cant": "all states", "anchors": ["dstulib/gost/gosthash.c: finish_hash", "engine/md.c: dstu_md_final"]}
{"id": "C21", "title": "A copied digest context is independent of its source", "statement": "After copying a context, any interleaving of operations on the copy, the source and other contexts gives for each context the digest of exactly the bytes it was fed; cleaning up one context does not affect another.", "quantifier": "all histories of operations over any number of contexts", "why_tests_cant": "the copy is a raw memory copy of a structure that contains a pointer into itself", "anchors": ["engine/md.c: dstu_md_copy", "engine/md.c: dstu_md_cleanup", "engine/md.c: dstu_md_init"]}
{"id": "C22", "title": "The digest uses the key's S-box when the context has a key that carries one, else the default", "statement": "Initialising a digest selects the S-box of the associated key if it has one and the default S-box otherwise; the custom S-box control with a 64-byte value replaces it and any other control is refused without effect.", "quantifier": "all keys, S-boxes, control calls", "why_tests_cant": "all S-boxes", "anchors": ["engine/md.c: dstu_md_init", "engine/md.c: dstu_md_ctrl"]}
{"id": "C23", "title": "The digest is defined for every message length", "statement": "Finishing a digest is defined (no signed overflow) for every total length that fits the length counter.", "quantifier": "all counter values", "why_tests_cant": "needs 2^60 bytes of input", "anchors": ["dstulib/gost/gosthash.c: finish_hash"]}
{"id": "C24", "title": "Random output is one deterministic stream per seed, split arbitrarily over calls", "statement": "Once seeded, the concatenation of the outputs of successive calls is a prefix of the DSTU 4145 generator stream determined by seed and time, independent of how the requests are split; bits fill each byte from the least significant.", "quantifier": "all seeds, times, sequences of request sizes", "why_tests_cant": "all splittings of unbounded requests", "anchors": ["engine/rbg.c: dstu_rbg_bytes", "engine/rbg.c: dstu_rbg_get_bit", "engine/rbg.c: dstu_rbg_init"]}
{"id": "C25", "title": "Concurrent random requests get disjoint consecutive pieces of the stream", "statement": "For any number of threads and any schedule, each completed request returns a contiguous piece of the stream, pieces of different requests do not overlap, and together they are a prefix of the stream, provided the lock was created and no cleanup ran.", "quantifier": "all thread counts, request sizes and schedules", "why_tests_cant": "schedules", "anchors": ["engine/rbg.c: dstu_rbg_bytes", "engine/rbg.c: dstu_lock", "engine/rbg.c: dstu_unlock"]}
{"id": "C26", "title": "An unseeded generator reports failure and reveals that in its result", "statement": "A request returns success only if the generator has been seeded successfully since start or the last cleanup; the seeding state never reverts except by cleanup.", "quantifier": "all histories of status/bytes/cleanup calls and all outcomes of the system generator", "why_tests_cant": "histories with injected seeding failures", "anchors": ["engine/rbg.c: dstu_rbg_bytes", "engine/rbg.c: dstu_rbg_status_nolock", "engine/rbg.c: dstu_rbg_init"]}
{"id": "C27", "title": "A failed random request does not hand out predictable bytes", "statement": "When a request reports failure the caller's buffer is not filled with a value that is the same for every process.", "quantifier": "all failing requests", "why_tests_cant": "absence of information", "anchors": ["engine/rbg.c: dstu_rbg_bytes"]}
{"id": "C28", "title": "The generator can be used again after cleanup", "statement": "Any sequence of status, bytes and cleanup calls is memory-safe.", "quantifier": "all histories", "why_tests_cant": "histories; use after free shows only later", "anchors": ["engine/rbg.c: dstu_rbg_cleanup", "engine/rbg.c: dstu_lock", "engine/rbg.c: dstu_unlock"]}
{"id": "C29", "title": "A request with a negative length writes nothing", "statement": "A request for n bytes writes exactly max(n,0) bytes.", "quantifier": "all ints n", "why_tests_cant": "boundary of signed/unsigned conversion", "anchors": ["engine/rbg.c: dstu_rbg_bytes"]}
{"id": "C30", "title": "Packed and unpacked S-box forms are inverse, and the S-box can be read back from a cipher context", "statement": "Unpacking 64 bytes and packing again is the identity; packing 4-bit tables and unpacking is the identity; the S-box read back from a context equals the S-box loaded.", "quantifier": "all 64-byte S-boxes / all 4-bit tables", "why_tests_cant": "2^512 S-boxes", "anchors": ["dstulib/params.c: unpack_sbox", "dstulib/params.c: pack_sbox", "dstulib/params.c: dstu_get_sbox", "dstulib/gost/gost89.c: kboxinit"]}
{"id": "C31", "title": "Byte reversal", "statement": "In-place reversal and copying reversal both produce the byte string backwards, for every length including odd, one and zero; reversing twice is the identity.", "quantifier": "all byte strings", "why_tests_cant": "unbounded lengths", "anchors": ["dstulib/params.c: reverse_bytes", "dstulib/params.c: reverse_bytes_copy"]}
{"id": "C32", "title": "Fixed-width big-endian integer encoding", "statement": "Encoding a positive integer into a buffer of the given width succeeds exactly when it fits, fills the whole buffer, and decoding the buffer gives the integer back; too-small buffers are refused untouched.", "quantifier": "all integers and widths", "why_tests_cant": "unbounded", "anchors": ["dstulib/params.c: bn_encode"]}
{"id": "C33", "title": "Encoding succeeds for every integer that fits, including zero", "statement": "The encoder reports success for every value that fits in the buffer.", "quantifier": "all integers including 0", "why_tests_cant": "corner value used by S-box, curve and point encoders", "anchors": ["dstulib/params.c: bn_encode"]}
{"id": "C34", "title": "Each standard curve is a well-formed group and is recognised", "statement": "For each of the ten standard curve identifiers, constructing the group succeeds: the field polynomial is irreducible, the base point is on the curve, lies in the subgroup of points that point compression supports, and its stated order multiplied with it gives the point at infinity and is a prime number; asking for the identifier of the constructed group gives the identifier back; any other identifier is refused; the identifiers and degrees are pairwise different.", "quantifier": "all identifiers (ints) and the ten tables", "why_tests_cant": "the algebraic facts (irreducibility, order) quantify over the whole field", "anchors": ["dstulib/params.c: dstu_curves", "dstulib/params.c: group_from_named_curve", "dstulib/params.c: group_from_nid", "dstulib/params.c: curve_nid_from_group"]}
{"id": "C35", "title": "A generated key pair is valid", "statement": "Key generation yields a private key d with 1 <= d <= n-1 and the public key -dG, for whatever the random source returns, and retries exactly on zero.", "quantifier": "all random sources, groups", "why_tests_cant": "random source", "anchors": ["dstulib/params.c: dstu_generate_key", "dstulib/params.c: dstu_add_public_key"]}
{"id": "C36", "title": "Expanding a compressed point gives the point back", "statement": "On every standard curve, for every curve point with trace(x)=trace(a) (all points of the prime-order subgroup) for which compression succeeds, expansion of the compressed form returns the same point.", "quantifier": "all points of the curve, all ten fields", "why_tests_cant": "fields have 2^163..2^431 elements", "anchors": ["dstulib/compress.c: dstu_point_compress", "dstulib/compress.c: dstu_point_expand", "dstulib/compress.c: bn_trace"]}
{"id": "C37", "title": "Compression succeeds for every point of the subgroup", "statement": "Every finite point with trace(x)=trace(a) has a compressed form.", "quantifier": "all points", "why_tests_cant": "the failing points are a handful out of 2^163", "anchors": ["dstulib/compress.c: dstu_point_compress", "dstulib/params.c: bn_encode"]}
{"id": "C38", "title": "Expansion returns only curve points and rejects malformed input", "statement": "Whenever expansion succeeds the result is on the curve; inputs shorter than the field size and inputs whose value does not fit the field are rejected.", "quantifier": "all byte strings, all binary curves", "why_tests_cant": "all byte strings", "anchors": ["dstulib/compress.c: dstu_point_expand"]}
{"id": "C39", "title": "Every signature made is accepted", "statement": "For every key pair, message digest and random source, if signing returns a signature then verifying it with the public key over the same digest succeeds.", "quantifier": "all keys, digests, nonce sequences, all groups", "why_tests_cant": "unbounded; depends on algebra", "anchors": ["engine/sign.c: dstu_do_sign", "engine/sign.c: dstu_do_verify"]}
{"id": "C40", "title": "Signatures have fixed size and both halves in range", "statement": "A returned signature is exactly twice the byte size of the group order, and both halves encode integers in [1, n-1].", "quantifier": "all keys, digests, nonces", "why_tests_cant": "all nonces", "anchors": ["engine/sign.c: dstu_do_sign"]}
{"id": "C41", "title": "Verification accepts exactly the DSTU 4145 verification equation", "statement": "Verification succeeds iff both halves are in [1,n-1], sG+rQ is finite and the field product of the digest's field element and its x coordinate, truncated below the order's bit length, equals r, and the string has even length of at least twice the order's byte size; in particular zero and oversized halves and strings of odd or too small length are rejected.", "quantifier": "all byte strings as signatures", "why_tests_cant": "all byte strings", "anchors": ["engine/sign.c: dstu_do_verify", "engine/sign.c: hash_to_field", "engine/sign.c: field_to_bn"]}
{"id": "C42", "title": "Signing terminates for every digest", "statement": "For every digest and every fair random source signing returns.", "quantifier": "all digests, infinite nonce sequences", "why_tests_cant": "non-termination cannot be observed by a test", "anchors": ["engine/sign.c: dstu_do_sign", "engine/sign.c: hash_to_field"]}
{"id": "C43", "title": "A signature has only one accepted encoding", "statement": "If two byte strings are both accepted for the same key and digest and carry the same (s,r), they are equal.", "quantifier": "all pairs of byte strings", "why_tests_cant": "all byte strings", "anchors": ["engine/pmeth.c: dstu_pkey_verify", "engine/sign.c: dstu_do_verify"]}
{"id": "C44", "title": "Message digests map to field elements as little-endian integers", "statement": "The field element is the little-endian value of the digest reduced modulo 2^m, except that the zero digest maps to 1.", "quantifier": "all digests, all m", "why_tests_cant": "all digests", "anchors": ["engine/sign.c: hash_to_field", "engine/sign.c: bn_truncate_bits"]}
{"id": "C45", "title": "Sign and verify round trip through the public interface, with the two-call size protocol", "statement": "With a NULL buffer signing reports the needed size; with a smaller buffer it fails, reports the size and writes nothing; otherwise it writes a DER OCTET STRING of exactly the reported length, and verification of those bytes with the same key type succeeds, for little- and big-endian key types.", "quantifier": "all keys, digests, buffer sizes, both key types", "why_tests_cant": "all sizes", "anchors": ["engine/pmeth.c: dstu_pkey_sign", "engine/pmeth.c: dstu_pkey_verify", "engine/ameth.c: dstu_asn1_pkey_size"]}
{"id": "C46", "title": "A bare (unwrapped) signature is accepted like the wrapped one", "statement": "Verification of the bare signature bytes gives the same answer as verification of their OCTET STRING encoding.", "quantifier": "all signatures", "why_tests_cant": "ambiguity appears for a 2^-16 fraction of signatures", "anchors": ["engine/pmeth.c: dstu_pkey_verify"]}
{"id": "C47", "title": "Key parameters survive encoding and decoding", "statement": "Encoding a key's parameters and decoding them yields an equal group and the same effective S-box, for standard and custom curves, little- and big-endian.", "quantifier": "all keys with supported curves", "why_tests_cant": "all curves", "anchors": ["dstulib/key.c: asn1_from_key", "dstulib/key.c: key_from_asn1", "dstulib/key.c: group_from_asn1", "engine/ameth.c: dstu_asn1_param_encode", "engine/ameth.c: dstu_asn1_param_decode"]}
{"id": "C48", "title": "Private keys survive encoding and decoding", "statement": "Encoding a key pair to PKCS#8 and decoding gives the same private key, the same public key and parameters, and key type.", "quantifier": "all keys with private key >= 1", "why_tests_cant": "all keys incl. ones with leading/trailing zero bytes", "anchors": ["engine/ameth.c: dstu_asn1_priv_encode", "engine/ameth.c: dstu_asn1_priv_decode"]}
{"id": "C49", "title": "Public keys survive encoding and decoding", "statement": "Encoding a public key to SubjectPublicKeyInfo and decoding it gives the same point, parameters and key type.", "quantifier": "all public keys in the subgroup", "why_tests_cant": "all points", "anchors": ["engine/ameth.c: dstu_asn1_pub_encode", "engine/ameth.c: dstu_asn1_pub_decode"]}
{"id": "C50", "title": "Parameter comparison agrees with parameter copy and with encode/decode", "statement": "After copying parameters from one key to another the two compare equal; a key compares equal to its own decoded encoding.", "quantifier": "all pairs of keys, with and without S-boxes", "why_tests_cant": "histories of the destination key", "anchors": ["engine/ameth.c: dstu_asn1_param_copy", "engine/ameth.c: dstu_asn1_param_cmp"]}
{"id": "C51", "title": "Decoding custom curve parameters validates them", "statement": "Decoding succeeds only if a is 0 or 1, the field exponents are positive, the S-box (if any) has 64 bytes and the base point expands to a curve point.", "quantifier": "all parameter structures", "why_tests_cant": "all values", "anchors": ["dstulib/key.c: group_from_asn1", "dstulib/key.c: key_from_asn1"]}
{"id": "C52", "title": "The textual S-box option accepts exactly 128 hex digits", "statement": "The option is accepted iff its value is a string of exactly 128 hexadecimal digits, and then sets those 64 bytes.", "quantifier": "all strings", "why_tests_cant": "all strings", "anchors": ["engine/pmeth.c: dstu_pkey_ctrl_str"]}
{"id": "C53", "title": "Key generation honours curve and S-box options; copied contexts are independent", "statement": "A generated key has the curve and S-box last set on the context (default curve 6 and no S-box if none set); a copied context has equal options and later changes to one do not affect the other.", "quantifier": "all histories of options/copies", "why_tests_cant": "histories", "anchors": ["engine/pmeth.c: dstu_pkey_keygen", "engine/pmeth.c: dstu_pkey_ctrl", "engine/pmeth.c: dstu_pkey_copy", "dstulib/key.c: DSTU_KEY_CTX_copy", "dstulib/key.c: DSTU_KEY_CTX_set"]}
{"id": "C54", "title": "A key store behaves like two lists", "statement": "Counts, lookups and appending behave as lists of keys and certificates: lookups outside the range give NULL; appending moves all entries in order to the end of the target and leaves the source with NULL entries.", "quantifier": "all histories", "why_tests_cant": "histories", "anchors": ["keylib/keystore.c: KeyStoreNew", "keylib/keystore.c: KeyStoreAppend", "keylib/keystore.c: KeyStoreGetKey", "keylib/keystore.c: KeyStoreSetKey"]}
{"id": "C55", "title": "Every key and certificate is released exactly once", "statement": "For any history of creating, filling, appending and freeing stores where each object is put in one free slot, no object is freed twice, and after all stores are freed every object has been freed.", "quantifier": "all histories", "why_tests_cant": "ownership over histories", "anchors": ["keylib/keystore.c: KeyStoreFree", "keylib/keystore.c: KeyStoreAppend"]}
{"id": "C56", "title": "Reading a PKCS#12 container never writes outside the store and fills every slot", "statement": "For every bag structure (nested to any depth), if parsing succeeds the store has exactly one non-NULL entry per key bag and certificate bag, in depth-first order; no write is out of bounds on success or failure.", "quantifier": "all bag trees, all decryption outcomes", "why_tests_cant": "unbounded nesting", "anchors": ["keylib/pkcs12.c: countKeysCerts", "keylib/pkcs12.c: fromSafes", "keylib/pkcs12.c: parsePKCS12"]}
{"id": "C57", "title": "A failed container read leaves the caller's handle usable", "statement": "When a parse function returns failure, the out-parameter is not left pointing to freed memory.", "quantifier": "all failing inputs", "why_tests_cant": "all failure points", "anchors": ["keylib/pkcs12.c: parsePKCS12", "keylib/jks.c: parseJKS"]}
{"id": "C58", "title": "Reading a Java key store never reads outside the given buffer", "statement": "For every byte string and size the parser reads only bytes inside the buffer.", "quantifier": "all byte strings", "why_tests_cant": "all byte strings", "anchors": ["keylib/jks.c: parseJKS", "keylib/jks.c: parseKey", "keylib/jks.c: parseCert"]}
{"id": "C59", "title": "A well-formed Java key store of private-key entries is read back", "statement": "Parsing the serialisation of any list of private-key entries protected with the right passwords returns the keys and certificates in order.", "quantifier": "all entry lists", "why_tests_cant": "unbounded", "anchors": ["keylib/jks.c: parseJKS", "keylib/jks.c: parseKey", "keylib/jks.c: parseCert", "keylib/jks.c: decryptKey"]}
{"id": "C60", "title": "A Java key store is accepted only if its integrity digest matches", "statement": "If parsing succeeds, the 20 bytes after the entries equal the keyed digest of everything before, and magic and version are right.", "quantifier": "all byte strings", "why_tests_cant": "all byte strings", "anchors": ["keylib/jks.c: parseJKS", "keylib/jks.c: whiteHash"]}
{"id": "C61", "title": "Trusted-certificate entries of a Java key store are read", "statement": "Parsing a well-formed store with a trusted-certificate entry returns that certificate.", "quantifier": "all well-formed stores", "why_tests_cant": "format corner", "anchors": ["keylib/jks.c: parseEntry", "keylib/jks.c: parseCert"]}
{"id": "C62", "title": "Recovering a protected key inverts protection, and wrong protection data fails cleanly", "statement": "Unprotecting what was protected with the same password gives the plaintext key data; any data whose check digest differs is refused.", "quantifier": "all plaintexts, passwords, salts", "why_tests_cant": "all lengths", "anchors": ["keylib/jks.c: fromKeyProtector"]}
{"id": "C63", "title": "Protected-key data that is too short or does not hold a key is refused cleanly", "statement": "For every protected blob the call returns success or failure without undefined behaviour.", "quantifier": "all blobs", "why_tests_cant": "all lengths < 40 and all garbage plaintexts", "anchors": ["keylib/jks.c: fromKeyProtector"]}
{"id": "C64", "title": "Key-6 containers: the decrypted data is what was encrypted", "statement": "For every password and every plaintext whose size is a multiple of 8, parsing the container built by encrypting it (with any split into data and pad) hands exactly that plaintext to the key decoder, followed only by unspecified slack bytes.", "quantifier": "all passwords, plaintexts, splits", "why_tests_cant": "unbounded", "anchors": ["keylib/key6.c: decryptKey6", "keylib/key6.c: pkdf", "keylib/key6.c: hash"]}
{"id": "C65", "title": "Key-6 containers: tampering is detected", "statement": "Changing the stored MAC makes the parse fail.", "quantifier": "all containers", "why_tests_cant": "absence of a check", "anchors": ["keylib/key6.c: parseKey6"]}
{"id": "C66", "title": "The private number in IIT attributes is the bit reversal of the stored string", "statement": "The number read is the integer whose binary digits are those of the stored octets in reverse order; the map is an involution on fixed-length strings.", "quantifier": "all octet strings", "why_tests_cant": "unbounded", "anchors": ["keylib/utils.c: getPrivateKeyNum"]}
{"id": "C67", "title": "Keys from PKCS#8 data", "statement": "Success yields one key, or two when both IIT attributes are present and usable; among repeated attributes the last one counts; failure leaves the out-parameter untouched.", "quantifier": "all attribute lists", "why_tests_cant": "unbounded lists", "anchors": ["keylib/utils.c: keysFromPKCS8", "keylib/utils.c: pkeyFromAttributes"]}
{"id": "C68", "title": "Container contents do not depend on how the input stream delivers them", "statement": "Reading a container from a stream parses exactly the concatenation of the delivered chunks, whatever their sizes; an empty stream fails.", "quantifier": "all chunkings", "why_tests_cant": "all chunk schedules", "anchors": ["keylib/jks.c: readJKS_bio", "keylib/key6.c: readKey6_bio", "keylib/pkcs12.c: readPKCS12_bio"]}
{"id": "C69", "title": "A read error is reported", "statement": "If the stream fails before its end the read function fails.", "quantifier": "all error points", "why_tests_cant": "fault injection at every point", "anchors": ["keylib/jks.c: readJKS_bio", "keylib/key6.c: readKey6_bio", "keylib/pkcs12.c: readPKCS12_bio"]}
{"id": "C70", "title": "Field polynomials are read the same way from key parameters and from IIT attributes", "statement": "Both readers build the same field polynomial from the same structure, independent of the order in which exponents are stored.", "quantifier": "all exponents", "why_tests_cant": "all values", "anchors": ["keylib/utils.c: makePoly", "dstulib/key.c: group_from_asn1"]}
{"id": "C71", "title": "Engine lookups return exactly the advertised algorithms", "statement": "Asking for an advertised identifier yields its method and 1; any other identifier yields failure; asking for the list yields the advertised list; repeated lookups return the same object.", "quantifier": "all identifiers and call histories before finish", "why_tests_cant": "histories", "anchors": ["engine/dstu.c: dstu_digests", "engine/dstu.c: dstu_ciphers", "engine/dstu.c: dstu_pkey_meths", "engine/dstu.c: dstu_asn1_meths"]}
{"id": "C72", "title": "The engine can be finished and used again", "statement": "Any history of bind, lookups and finish is free of use-after-free and double free.", "quantifier": "all histories", "why_tests_cant": "histories", "anchors": ["engine/dstu.c: dstu_engine_finish", "engine/dstu.c: dstu_md_get", "engine/dstu.c: dstu_cipher_get"]}
{"id": "C73", "title": "Concurrent first lookups of a key method return one object", "statement": "For any schedule all threads that look up the same identifier get the same method object.", "quantifier": "all schedules", "why_tests_cant": "schedules", "anchors": ["engine/dstu.c: dstu_pkey_meth_get", "engine/dstu.c: dstu_asn1_meth_get"]}
{"id": "C74", "title": "Error strings are loaded at most once at a time and one library code is used throughout", "statement": "For any history of load, unload and error reporting, strings are registered exactly when the last load/unload was a load, never registered twice without an unload, and all reports use the same non-zero library code.", "quantifier": "all histories", "why_tests_cant": "histories", "anchors": ["engine/err.c: ERR_load_DSTU_strings", "engine/err.c: ERR_unload_DSTU_strings", "engine/err.c: ERR_DSTU_error"]}
{"id": "C75", "title": "Converting a password to UTF-16 does not depend on the converter's output buffer", "statement": "For every sequence of characters the conversion ends, and its result is the big-endian UTF-16 form of the password whatever the buffer growth needed.", "quantifier": "all passwords", "why_tests_cant": "all lengths around the buffer boundary", "anchors": ["keylib/jks.c: toUTF16BE"]}
{"id": "C76", "title": "A Java key store whose keys cannot be recovered is refused", "statement": "If an entry's protected key cannot be recovered the read fails.", "quantifier": "all stores", "why_tests_cant": "all algorithm identifiers", "anchors": ["keylib/jks.c: parseJKS", "keylib/jks.c: fromKeyProtector"]}
{"id": "C77", "title": "Comparing two keys is safe and exact", "statement": "EVP_PKEY_cmp of two keys of the engine returns without undefined behaviour, and returns 1 exactly if curve, S-box and public key are the same.", "quantifier": "all pairs of keys, including keys that hold only parameters", "why_tests_cant": "all pairs of states", "anchors": ["engine/ameth.c: dstu_asn1_param_cmp", "engine/ameth.c: dstu_asn1_pub_cmp"]}
{"id": "C78", "title": "Decoded custom curve parameters describe a usable group", "statement": "If custom curve parameters are accepted, the curve is non-singular over a field and the stated order annihilates the base point.", "quantifier": "all parameter structures", "why_tests_cant": "all values", "anchors": ["dstulib/key.c: group_from_asn1"]}
{"id": "C79", "title": "Decoded public keys belong to the group", "statement": "A public key accepted from a SubjectPublicKeyInfo is a finite point on the curve and a multiple of the base point.", "quantifier": "all byte strings and curves", "why_tests_cant": "all byte strings", "anchors": ["engine/ameth.c: dstu_asn1_pub_decode"]}
{"id": "C80", "title": "Decoded private keys are in range", "statement": "A private key accepted from PKCS#8 data is at least 1 and below the order of the group.", "quantifier": "all byte strings and curves", "why_tests_cant": "all byte strings", "anchors": ["engine/ameth.c: dstu_asn1_priv_decode"]}
{"id": "C81", "title": "Keys and contexts: memory is used and released correctly", "statement": "For every history of creating, copying, configuring and freeing contexts and generating, reading, encoding, using and freeing keys, with any allocation failing, no freed or unwritten memory is used and nothing is freed twice; once every context and key has been freed, no memory is left.", "quantifier": "all histories, all allocation failures", "why_tests_cant": "ownership over histories and fault points", "anchors": ["dstulib/key.c: DSTU_KEY_CTX_free", "dstulib/key.c: DSTU_KEY_free", "dstulib/key.c: DSTU_KEY_set", "engine/pmeth.c: dstu_pkey_keygen", "engine/ameth.c: dstu_asn1_priv_encode", "engine/ameth.c: dstu_asn1_pub_encode", "engine/ameth.c: dstu_asn1_priv_decode"]}
{"id": "C82", "title": "Parameters can be copied to an empty key", "statement": "EVP_PKEY_copy_parameters from a key with parameters to a fresh key succeeds.", "quantifier": "all source keys", "why_tests_cant": "absence of a method", "anchors": ["engine/ameth.c: dstu_asn1_meth_new", "engine/ameth.c: dstu_asn1_param_copy"]}
{"id": "C83", "title": "Encoding a key never depends on uninitialised memory", "statement": "For every group OpenSSL can build, encoding the parameters of a key has defined behaviour.", "quantifier": "all groups", "why_tests_cant": "all field polynomials", "anchors": ["dstulib/key.c: asn1_from_key"]}
{"id": "C84", "title": "With too little memory calls on keys fail cleanly", "statement": "At whatever allocation memory runs out, a call on keys and contexts does not crash, and either answers as with enough memory or fails.", "quantifier": "all histories and all patterns of failing allocations", "why_tests_cant": "fault injection at every allocation", "anchors": ["dstulib/key.c: asn1_from_key", "engine/ameth.c: dstu_asn1_param_encode", "engine/ameth.c: dstu_asn1_priv_encode"]}
{"id": "C85", "title": "A control call with a missing argument is refused", "statement": "A control call on a key context whose pointer argument is NULL either takes no argument or is refused; it never crashes.", "quantifier": "all histories and control numbers", "why_tests_cant": "all states and numbers", "anchors": ["engine/pmeth.c: dstu_pkey_ctrl"]}
{"id": "C86", "title": "The key made from IIT attributes is the one they describe", "statement": "The second key of a key file has the group described by the first curve structure in its curve attribute, the private number in its key attribute and the public key belonging to it; the group is the one the same structure gives in ordinary key parameters; without a number or a group no key is made.", "quantifier": "all attributes", "why_tests_cant": "all structures", "anchors": ["keylib/utils.c: makePKey", "keylib/utils.c: makeECGROUPFromSpec", "keylib/utils.c: getPrivateKeyNum"]}
{"id": "C87", "title": "Reading IIT attributes never crashes", "statement": "For every curve and key attribute, and with any allocation failing, the call returns.", "quantifier": "all attributes and all patterns of failing allocations", "why_tests_cant": "all field descriptions", "anchors": ["keylib/utils.c: makePKey", "keylib/utils.c: makePoly", "keylib/utils.c: makeECGROUPFromSpec"]}
{"id": "C88", "title": "Reading IIT attributes does not leak", "statement": "If no key is made from the attributes, all memory allocated on the way is released.", "quantifier": "all attributes and all patterns of failing allocations", "why_tests_cant": "all ways to fail", "anchors": ["keylib/utils.c: makePKey"]}
{"id": "C89", "title": "A key made from IIT attributes keeps the S-box stored with its curve", "statement": "The hash computed with the key uses the S-box given in the curve attribute.", "quantifier": "all attributes", "why_tests_cant": "all S-boxes", "anchors": ["keylib/utils.c: makePKey", "keylib/utils.c: makeECGROUP"]}
{"id": "C90", "title": "Keys are written in the format of the standard", "statement": "Encoded parameters, private and public keys are the distinguished encoding of the structure the standard prescribes: named standard curves or field, coefficients, order and base point in the byte order of the key type, the S-box unless it is the default one, the private number with its least octet first, the compressed public key.", "quantifier": "all keys, curves and S-boxes", "why_tests_cant": "all curves", "anchors": ["engine/ameth.c: dstu_asn1_param_encode", "engine/ameth.c: dstu_asn1_priv_encode", "engine/ameth.c: dstu_asn1_pub_encode", "dstulib/key.c: asn1_from_key", "dstulib/asn1.c: DSTU_AlgorithmParameters"]}
{"id": "C91", "title": "Keys in the format of the standard are read as what they say", "statement": "Whatever encoder wrote it, data that describe a curve, an S-box and a private or public key in the format of the standard are read as exactly that key.", "quantifier": "all keys, curves and S-boxes", "why_tests_cant": "other encoders", "anchors": ["engine/ameth.c: dstu_asn1_param_decode", "engine/ameth.c: dstu_asn1_priv_decode", "engine/ameth.c: dstu_asn1_pub_decode", "dstulib/key.c: key_from_asn1"]}
{"id": "C92", "title": "Different private keys have different public keys", "statement": "On a standard curve the public keys of two different private numbers below the order are different, and no private number from 1 to the order minus 1 has the point at infinity as its public key; exactly the multiples of the order annihilate the base point.", "quantifier": "all standard curves and private numbers", "why_tests_cant": "the numbers are too many to try", "anchors": ["dstulib/params.c: dstu_curves", "dstulib/params.c: dstu_add_public_key"]}
{"id": "C93", "title": "A generated key can be stored, loaded and used", "statement": "A key generated on a standard curve can be written as a private and as a public key; both are read back; every signature made with the loaded private key is accepted with the loaded public key, with the loaded private key and with the original key. On the curves of degree 163 and 367 this needs a public key that has a compressed form.", "quantifier": "all standard curves, key types, S-boxes, random sources, messages", "why_tests_cant": "all random values and messages", "anchors": ["dstulib/params.c: dstu_generate_key", "engine/ameth.c: dstu_asn1_priv_encode", "engine/ameth.c: dstu_asn1_pub_encode", "engine/ameth.c: dstu_asn1_priv_decode", "engine/ameth.c: dstu_asn1_pub_decode", "engine/pmeth.c: dstu_pkey_sign", "engine/pmeth.c: dstu_pkey_verify"]}
{"id": "C94", "title": "Printing a key leaves it unchanged and releases what it used", "statement": "Printing the parameters, the private or the public part of a key gives what OpenSSL prints for the EC key in it and leaves all memory as before; whatever allocation fails, it does not crash and nothing is lost.", "quantifier": "all keys and all patterns of failing allocations", "why_tests_cant": "fault injection at every allocation", "anchors": ["engine/ameth.c: dstu_asn1_param_print", "engine/ameth.c: dstu_asn1_priv_print", "engine/ameth.c: dstu_asn1_pub_print"]}
{"id": "C95", "title": "Printed parameters show everything that is a parameter", "statement": "Two keys whose parameters differ, be it only in the S-box, are not printed alike.", "quantifier": "all pairs of keys", "why_tests_cant": "all S-boxes", "anchors": ["engine/ameth.c: dstu_asn1_param_print"]}
{"id": "C96", "title": "PKCS#7 and CMS signatures name the algorithms used", "statement": "When the control for PKCS#7 or CMS signing reports success, the digest algorithm of the signer is GOST 34.311 and the signature algorithm is the type of the key; the default digest of a key is GOST 34.311; other controls change nothing.", "quantifier": "all signers, controls and patterns of failing allocations", "why_tests_cant": "fault injection", "anchors": ["engine/ameth.c: dstu_asn1_pkey_ctrl"]}
{"id": "C97", "title": "Out of memory, expanding a point fails or gives the right point", "statement": "At whatever allocation memory runs out, expanding a compressed point either fails or gives the point the string stands for, and everything allocated is released.", "quantifier": "all strings, curves and patterns of failing allocations", "why_tests_cant": "fault injection at every allocation", "anchors": ["dstulib/compress.c: dstu_point_expand", "dstulib/compress.c: bn_trace"]}
{"id": "C98", "title": "Out of memory, compressing a point fails or gives the right string", "statement": "At whatever allocation memory runs out, compressing a point or writing the parameters of a curve does not crash, and either fails or gives the string it gives with enough memory.", "quantifier": "all points, curves and patterns of failing allocations", "why_tests_cant": "fault injection at every allocation", "anchors": ["dstulib/compress.c: dstu_point_compress", "dstulib/compress.c: bn_trace", "dstulib/key.c: asn1_from_key"]}
{"id": "C99", "title": "Out of memory, no wrong signature is made or accepted and no wrong key reported", "statement": "At whatever allocation memory runs out, signing, verifying, generating a key and computing a public key do not crash and release what they allocated; a signature reported is one that would have been made with enough memory, a signature accepted would have been accepted, a key reported is the one that would have been made.", "quantifier": "all keys, messages, random sources and patterns of failing allocations", "why_tests_cant": "fault injection at every allocation", "anchors": ["engine/sign.c: dstu_do_sign", "engine/sign.c: dstu_do_verify", "dstulib/params.c: dstu_generate_key", "dstulib/params.c: dstu_add_public_key"]}
{"id": "C100", "title": "Out of memory, signing still ends", "statement": "If signing ends with enough memory it ends at whatever allocation memory runs out.", "quantifier": "all keys, digests, random sources and patterns of failing allocations", "why_tests_cant": "non-termination", "anchors": ["engine/sign.c: dstu_do_sign", "engine/sign.c: hash_to_field"]}
{"id": "C101", "title": "Out of memory, a standard curve is built right or not at all", "statement": "At whatever allocation memory runs out, a standard curve asked for by its identifier is built with exactly the standard's parameters or the call fails; a curve is recognised as the right standard curve or as none; nothing else stays allocated.", "quantifier": "all identifiers, curves and patterns of failing allocations", "why_tests_cant": "fault injection at every allocation", "anchors": ["dstulib/params.c: group_from_named_curve", "dstulib/params.c: group_from_nid", "dstulib/params.c: curve_nid_from_group"]}
{"id": "C102", "title": "Parameters written while memory runs out describe the same curve", "statement": "At whatever allocation memory runs out, if the parameters of a key are written, reading them gives the curve and the S-box of the key.", "quantifier": "all curves, S-boxes, byte orders and patterns of failing allocations", "why_tests_cant": "fault injection at every allocation", "anchors": ["dstulib/key.c: asn1_from_key", "dstulib/key.c: key_from_asn1"]}
{"id": "C103", "title": "Out of memory, a curve given by parameters is built right or not at all", "statement": "At whatever allocation memory runs out, reading explicit curve parameters gives the curve they describe or fails, and nothing else stays allocated.", "quantifier": "all parameters and patterns of failing allocations", "why_tests_cant": "fault injection at every allocation", "anchors": ["dstulib/key.c: group_from_asn1", "dstulib/compress.c: dstu_point_expand"]}
{"id": "C104", "title": "The size reported for a key is the size of its signatures", "statement": "Every signature a key makes has exactly the number of octets EVP_PKEY_size reports for the key, and no buffer shorter than that is written to; for the standard curves EVP_PKEY_bits is the degree of the field.", "quantifier": "all keys, messages and random sources", "why_tests_cant": "all values of r and s, also short ones", "anchors": ["engine/ameth.c: dstu_asn1_pkey_size", "engine/ameth.c: dstu_asn1_pkey_bits", "engine/pmeth.c: dstu_pkey_sign"]}
{"id": "C105", "title": "Reading a container leaves exactly the key store, freeing it leaves nothing", "statement": "With enough memory, reading a PKCS#12, Key-6 or Java container, from memory or from a stream in whatever chunks, leaves allocated exactly one store holding exactly its keys and certificates if it succeeds, and nothing if it fails; KeyStoreFree then gives everything back. Nothing is used after release or released twice.", "quantifier": "all containers, passwords, streams and memory contents", "why_tests_cant": "leak checks cover only the containers tried", "anchors": ["keylib/pkcs12.c: parsePKCS12", "keylib/key6.c: parseKey6", "keylib/jks.c: parseJKS", "keylib/utils.c: keysFromPKCS8", "keylib/keystore.c: KeyStoreFree"]}
{"id": "C106", "title": "Out of memory, reading a container does not crash", "statement": "At whatever allocation memory runs out, reading a container fails or succeeds but does not write through NULL, and a failed read leaves nothing allocated.", "quantifier": "all containers and patterns of failing allocations", "why_tests_cant": "fault injection at every allocation", "anchors": ["keylib/pkcs12.c: parsePKCS12", "keylib/key6.c: decryptKey6", "keylib/jks.c: parseJKS", "keylib/keystore.c: KeyStoreNew", "keylib/utils.c: toUTF16BE"]}
{"id": "C107", "title": "A store reported read is complete", "statement": "At whatever allocation memory runs out, a read that reports success gives a store with all the keys and certificates of the container.", "quantifier": "all containers and patterns of failing allocations", "why_tests_cant": "fault injection at every allocation", "anchors": ["keylib/utils.c: keysFromPKCS8", "keylib/utils.c: pkeyFromAttributes", "keylib/pkcs12.c: parsePKCS12"]}
{"id": "C108", "title": "Out of memory, a password is not replaced by another", "statement": "At whatever allocation memory runs out, a Java key store is accepted only if it was sealed with the given password.", "quantifier": "all stores, passwords and patterns of failing allocations", "why_tests_cant": "fault injection at every allocation", "anchors": ["keylib/utils.c: toUTF16BE", "keylib/jks.c: parseJKS"]}
{"id": "C109", "title": "Messages can be signed and verified in pieces, with stored keys", "statement": "Signing a message with EVP_DigestSign in any pieces gives what signing the digest of the whole message, taken with the S-box of the key, gives; verifying likewise. A signature made in pieces with a key that was generated on a standard curve, stored and loaded is accepted with the loaded public key, the loaded private key and the original, for the message in any other pieces, whatever memory the contexts get.", "quantifier": "all standard curves, key types, S-boxes, messages and ways to cut them, random sources, contents of fresh memory", "why_tests_cant": "all messages and all ways to cut them", "anchors": ["engine/md.c: dstu_md_init", "engine/md.c: dstu_md_update", "engine/md.c: dstu_md_final", "engine/md.c: dstu_md_copy", "engine/pmeth.c: dstu_pkey_sign", "engine/pmeth.c: dstu_pkey_verify", "engine/ameth.c: dstu_asn1_priv_decode", "engine/ameth.c: dstu_asn1_pub_decode"]}
{"id": "C110", "title": "Passwords and private keys are not left in memory that was given back", "statement": "After a container or a PKCS#8 key was read, memory that was released (heap blocks and the locals of functions that returned) holds neither the password, nor a key derived from it, nor a private key.", "quantifier": "all containers, passwords and keys", "why_tests_cant": "the contents of released memory are not observable through the API", "anchors": ["keylib/jks.c: parseJKS", "keylib/jks.c: decryptKey", "keylib/jks.c: fromKeyProtector", "keylib/key6.c: decryptKey6", "engine/ameth.c: dstu_asn1_priv_decode"]}
{"id": "C111", "title": "Random bytes already delivered cannot be computed from the generator's memory", "statement": "Whoever reads the memory of the random bit generator after it delivered some bytes cannot compute from it the bytes delivered before.", "quantifier": "all seeds, times and histories of requests", "why_tests_cant": "all states and histories", "anchors": ["engine/rbg.c: dstu_rbg_get_bit", "engine/rbg.c: dstu_rbg_init", "engine/rbg.c: dstu_rbg_bytes"]}
{"id": "C112", "title": "The random generator does not lose its seed's entropy", "statement": "Different seeds never lead to the same generator state after the same requests, and the stream of a seed repeats only by returning to its start (which it does after at most 2^64 bytes), never by falling into a shorter cycle.", "quantifier": "all seeds, times and histories of requests", "why_tests_cant": "needs all 2^64 states", "anchors": ["engine/rbg.c: dstu_rbg_get_bit", "engine/rbg.c: dstu_rbg_init"]}
{"id": "C113", "title": "A damaged ciphertext spoils only what it must", "statement": "The cipher works byte by byte: the first n bytes of output depend on the first n bytes of input only, in both directions, and there are as many bytes out as in. A ciphertext changed inside one 8-byte block decrypts to the message with the same bits changed in that block, a different next block (if that is whole) and nothing else changed; from the second block on decryption needs neither the IV nor what came before. Two messages encrypted with the same key and IV give away the xor of the first blocks in which they differ.", "quantifier": "all messages and changes of a ciphertext inside one block, all positions, keys, IVs, S-boxes, splittings and earlier contexts", "why_tests_cant": "a relation between two runs on inputs of any length", "anchors": ["engine/cipher.c: dstu_cipher_do_cipher", "engine/cipher.c: dstu_cipher_init"]}
{"id": "C114", "title": "Different data have different MACs", "statement": "Two data strings with the same MAC are the same: a change of the data, of their length, or a string put together from others whose MACs are known, is noticed by comparing full 64-bit MACs, as far as 64 bits can tell.", "quantifier": "all keys, S-boxes, starting values, data strings, changes inside one block, appended zeros, combinations of two strings", "why_tests_cant": "a relation between MACs of different strings under every key", "anchors": ["dstulib/gost/gost89.c: gost_mac", "dstulib/gost/gost89.c: gost_mac_iv", "dstulib/gost/gost89.c: mac_block", "dstulib/gost/gost89.c: get_mac"]}
{"id": "C115", "title": "A signature is for one digest", "statement": "A signature accepted under a public key for one digest is not accepted for another digest.", "quantifier": "all public keys, signatures and sets of digests, all standard curves", "why_tests_cant": "ranges over all keys, signatures and pairs of digests", "anchors": ["engine/sign.c: dstu_do_verify", "engine/sign.c: hash_to_field", "engine/sign.c: bn_truncate_bits"]}
{"id": "C116", "title": "The key is safe only while every signature has a nonce of its own that nobody knows", "statement": "Two signatures of one key made with the same nonce and different second halves have the private key as the only solution of a linear equation in the four numbers; so has one signature whose nonce is known. The owner of a key can make a second accepted signature from a first one by s' = 2dr - s.", "quantifier": "all groups with a base point of prime order, keys, digests, nonces", "why_tests_cant": "an algebraic relation for every key and nonce", "anchors": ["engine/sign.c: dstu_do_sign", "engine/sign.c: dstu_do_verify"]}
{"id": "C117", "title": "Only the private key makes signatures", "statement": "A signature accepted for some digest under a public key can only have been made with the private key. (The verification function takes any digest; a caller that passes data chosen by others instead of a hash relies on this.)", "quantifier": "all standard curves, key pairs and pairs of numbers (s, r)", "why_tests_cant": "a statement about every public key and every pair of numbers", "anchors": ["engine/sign.c: dstu_do_verify", "engine/sign.c: hash_to_field", "engine/pmeth.c: dstu_pkey_verify"]}
{"id": "C118", "title": "A signature is for one public key", "statement": "A signature is accepted for a digest under one public key only: it names its signer.", "quantifier": "all groups with a base point of prime order, public keys of the group, digests and signatures", "why_tests_cant": "a statement about every pair of public keys", "anchors": ["engine/sign.c: dstu_do_verify"]}
{"id": "C119", "title": "Concurrent calls of the random functions behave as if made one after the other", "statement": "For any number of threads calling status, bytes and cleanup in any interleaving, as long as nothing undefined happens, there is one order of the completed calls, keeping the order of each thread and the order in time, in which a single thread would get exactly the same results. If nobody cleans up and the lock can be created, every interleaving is defined and all calls can always complete.", "quantifier": "all numbers of threads, all call lists, all answers of the system generator and clock, all interleavings of the single memory accesses", "why_tests_cant": "interleavings cannot be enumerated by tests; a race in the first call, which seeds, shows only under rare schedules", "anchors": ["engine/rbg.c: dstu_rbg_status", "engine/rbg.c: dstu_rbg_bytes", "engine/rbg.c: dstu_rbg_cleanup", "engine/rbg.c: dstu_lock"]}
{"id": "C120", "title": "Cleaning up the random generator is safe while other threads use it", "statement": "If one thread cleans up the generator while others make calls, every interleaving is defined.", "quantifier": "all programs with a cleanup and a call in another thread", "why_tests_cant": "the failing schedule needs the other call to come after the free; tests pass when it comes before", "anchors": ["engine/rbg.c: dstu_rbg_cleanup", "engine/rbg.c: dstu_lock", "engine/rbg.c: dstu_rand_meth"]}
{"id": "C121", "title": "What is encrypted cannot be read without the key, whichever S-box is accepted", "statement": "For every S-box that the cipher accepts, the ciphertext and the MAC depend on the key.", "quantifier": "all S-boxes with constant rows, keys, IVs, data and splits", "why_tests_cant": "tests use standard S-boxes; that parameters arriving with the data can switch the cipher off shows only for S-boxes outside the tests", "anchors": ["engine/cipher.c: dstu_cipher_ctrl", "engine/cipher.c: dstu_cipher_get_asn1_parameters", "dstulib/gost/gost89.c: gost_init", "dstulib/gost/gost89.c: gost_mac"]}
{"id": "C122", "title": "A signature is for one message, whichever key was accepted", "statement": "For every key the engine accepts, including the S-box it carries, nobody (not even the owner of the key) can exhibit two different messages with the same signature without finding a collision of the standard digest.", "quantifier": "all keys with constant-row S-boxes, all beginnings of whole blocks, all ends, 2^16-1 differences", "why_tests_cant": "collisions are never found by tests; the S-box of the key is used unchecked by the digest", "anchors": ["engine/md.c: dstu_md_init", "dstulib/gost/gosthash.c: hash_step", "engine/pmeth.c: dstu_pkey_verify", "dstulib/key.c: key_from_asn1"]}
{"id": "C123", "title": "Encrypting a block twice does not give it back", "statement": "There is no key under which encryption is its own inverse.", "quantifier": "all keys with palindromic words, S-boxes, blocks", "why_tests_cant": "2^128 of 2^256 keys; tests use other keys", "anchors": ["dstulib/gost/gost89.c: gostcrypt", "dstulib/gost/gost89.c: gostdecrypt", "dstulib/gost/gost89.c: gost_key"]}
{"id": "C124", "title": "Whatever is done with cipher contexts, every answer is that of byte-by-byte GOST 28147 cipher feedback", "statement": "For every history of calls on any number of contexts (initialise with or without key and IV, update, finish, select an S-box, ask for the PRF, import and export parameters, copy a context), every return value, output byte and exported value is that of a small reference that holds only direction, key, S-box, IV, feedback register, gamma and position, and works one byte at a time with the block cipher of the standard.", "quantifier": "all histories of calls on any number of contexts, all keys, IVs, S-boxes, data and piece lengths, all key masks", "why_tests_cant": "unbounded interleaved histories; the code has separate paths for leftovers, whole blocks and tails, masks its keys and expands its S-boxes", "anchors": ["engine/cipher.c: dstu_cipher_init", "engine/cipher.c: dstu_cipher_do_cipher", "engine/cipher.c: dstu_cipher_ctrl", "engine/cipher.c: dstu_cipher_set_asn1_parameters", "engine/cipher.c: dstu_cipher_get_asn1_parameters"]}
{"id": "C125", "title": "A cipher context without a key does not encrypt", "statement": "A context that was initialised with an IV but never with a key refuses to process data.", "quantifier": "all IVs, all data, both directions", "why_tests_cant": "the output looks like ciphertext; only a statement about all IVs and messages shows which key is used", "anchors": ["engine/cipher.c: dstu_cipher_init", "engine/cipher.c: dstu_cipher_do_cipher"]}
{"id": "C126", "title": "Enveloped data comes back", "statement": "A message encrypted with key and IV and opened in the order used for enveloped data (select the cipher, import the exported parameters, give the key, update in pieces) comes back unchanged, however the ciphertext is cut in pieces.", "quantifier": "all keys, IVs, messages and ways to cut message and ciphertext in pieces", "why_tests_cant": "depends on the length of the first piece, the key and the IV", "anchors": ["engine/cipher.c: dstu_cipher_init", "engine/cipher.c: dstu_cipher_get_asn1_parameters", "engine/cipher.c: dstu_cipher_set_asn1_parameters", "engine/cipher.c: dstu_cipher_do_cipher"]}
{"id": "C127", "title": "Data added to the generator influences later output", "statement": "Data a program gives to RAND_add or RAND_seed while the engine's generator is the default influences the bytes drawn afterwards; in particular a program that adds fresh entropy gets output that does not depend on the earlier seed alone.", "quantifier": "all system generators, all histories of add, seed, status, bytes and cleanup calls before and after, all data, sizes and clock values", "why_tests_cant": "a test sees different bytes in two runs because the first seed differs; that added data never reaches an initialised generator is a statement about all pairs of histories", "anchors": ["engine/rbg.c: dstu_rbg_add", "engine/rbg.c: dstu_rbg_seed", "engine/rbg.c: dstu_rbg_init", "engine/rbg.c: dstu_rbg_bytes"]}
{"id": "C128", "title": "Forked processes draw different random bytes", "statement": "When a process forks after its generator was used, parent and child draw different bytes, so that signatures they make with one key have different nonces.", "quantifier": "all system generators (reseeded by fork or not), all histories before the fork and in both processes after it, all keys, digests and ways to take nonces from the bytes", "why_tests_cant": "a unit test runs in one process; equality of the streams must be shown for all later histories of both processes", "anchors": ["engine/rbg.c: dstu_rbg_bytes", "engine/rbg.c: dstu_rbg_status_nolock", "engine/sign.c: dstu_do_sign"]}
{"id": "C129", "title": "A key kept in a container signs for its public key", "statement": "A key generated on a standard curve and kept in a Key-6, Java or PKCS#12 container can be read back with the password, and messages signed with what was read are accepted with the public key exported when it was generated, however the messages are split.", "quantifier": "all standard curves, both key types, all S-boxes, all generated keys, passwords, paddings, attributes and container contents beside the key, all messages and splittings", "why_tests_cant": "goes through generation, encoding, encryption, parsing, decoding, signing and verification; tests use a few stored containers", "anchors": ["keylib/key6.c: parseKey6", "keylib/jks.c: parseJKS", "keylib/pkcs12.c: parsePKCS12", "keylib/utils.c: keysFromPKCS8", "engine/ameth.c: dstu_asn1_priv_decode", "engine/sign.c: dstu_do_sign"]}
{"id": "C130", "title": "The predefined S-boxes make the standard ciphers", "statement": "With the predefined TC26 S-box and a key set by magma_key, block encryption and decryption are those of Magma (GOST R 34.12-2015, RFC 8891) on blocks with their bytes reversed, for every key and block; every row of every predefined S-box is a permutation.", "quantifier": "all 32-byte keys, blocks and key masks; all predefined S-boxes", "why_tests_cant": "2^256 keys and 2^64 blocks; a test covers the vectors of the RFC", "anchors": ["dstulib/gost/gost89.c: magma_key", "dstulib/gost/gost89.c: Gost28147_TC26ParamSetZ", "dstulib/gost/gost89.c: gostcrypt", "dstulib/gost/gost89.c: gostdecrypt", "dstulib/gost/gost89.c: gost_init"]}
{"id": "C131", "title": "With too little memory the engine's lookups fail cleanly", "statement": "If memory runs out while the engine is bound or a method is looked up, the call reports failure and nothing is damaged: every later call that gets memory, and every lookup of what was already made, is answered correctly.", "quantifier": "all histories of binds, inits and lookups, all allocators (any allocation may fail)", "why_tests_cant": "every allocation of every history may be the one that fails; tests run with enough memory", "anchors": ["engine/dstu.c: dstu_digests", "engine/dstu.c: dstu_ciphers", "engine/dstu.c: dstu_pkey_meths", "engine/dstu.c: dstu_asn1_meths", "engine/dstu.c: dstu_engine_bind", "engine/ameth.c: dstu_asn1_meth_new"]}
{"id": "C132", "title": "Key parameters and octet strings are read from exactly their basic encodings", "statement": "Key parameters and octet strings are accepted exactly if the input begins with a BER encoding (X.690) of them, and are read as what is encoded, whatever follows: long and indefinite lengths and strings in parts included.  Keys written by others in such encodings are read as the keys they say.", "quantifier": "all inputs shorter than 2^31 bytes, all parameters, curves and keys", "why_tests_cant": "infinitely many encodings of each value; the repository's tests use the distinguished ones", "anchors": ["dstulib/asn1.c: DSTU_AlgorithmParameters", "dstulib/asn1.c: DSTU_CurveSpec", "dstulib/asn1.c: DSTU_BinaryField", "engine/ameth.c: dstu_asn1_param_decode", "engine/ameth.c: dstu_asn1_priv_decode", "engine/ameth.c: dstu_asn1_pub_decode", "engine/pmeth.c: dstu_pkey_verify"]}
{"id": "C133", "title": "Copying the parameters of one key to another", "statement": "The parameter-copying method of the keys, given a source key with a curve, gives the target the source's curve and a copy of its S-box and keeps the target's own numbers; it leaves the source and all other memory as they were, leaks nothing, and when it fails the target is as it was.", "quantifier": "every content of the two keys, every heap around them and every choice of failing allocations", "why_tests_cant": "the outcome depends on which allocation fails and on what the target owned before", "anchors": ["engine/ameth.c: dstu_asn1_param_copy", "dstulib/key.c: copy_sbox", "dstulib/key.c: DSTU_KEY_new"]}
{"id": "C134", "title": "Key-6 files and curve attributes in any basic encoding", "statement": "A Key-6 file, or the curve attribute of a key, is read as what it encodes in whatever basic encoding (BER) it is written and whatever bytes follow it; a file that does not begin with an encoding of a container of the right type is refused and changes nothing; a file whose mac was changed is refused.", "quantifier": "every byte string given as a file or as an attribute value, every container, every basic encoding of it", "why_tests_cant": "encodings of one container are unlimited in number (indefinite and long lengths, strings in parts), and every byte string is a possible input", "anchors": ["keylib/iit_asn1.c: IITStore", "keylib/iit_asn1.c: IITHeader", "keylib/iit_asn1.c: IITParams", "keylib/attrcurvespec_asn1.c: DSTU_AttrCurveSpec", "keylib/key6.c: parseKey6", "keylib/utils.c: makeECGROUP"]}
{"id": "C135", "title": "Private and public keys as bytes, in any basic encoding", "statement": "Every basic encoding (BER: long or indefinite lengths, strings in parts, attributes in any number) of a PKCS#8 private key, of a SubjectPublicKeyInfo and of the encrypted key of a Java key store is read as exactly the algorithm, parameters, key string and attributes it encodes, whatever bytes follow; nothing is read from bytes that encode no such structure. The bytes of an exported key are such an encoding and are read back as exported. A key generated on a standard curve and carried as bytes, through export, a Key-6 file or a Java key store, makes signatures that its exported public key, also carried as bytes, accepts.", "quantifier": "all byte strings, all encodings of all structures shorter than 2^31 bytes, all attributes; all standard curves, random sources, passwords, paddings and containers", "why_tests_cant": "Every structure has unboundedly many encodings; a test tries a few files made by one program.", "anchors": ["engine/ameth.c: dstu_asn1_pub_decode", "engine/ameth.c: dstu_asn1_priv_decode", "engine/ameth.c: dstu_asn1_priv_encode", "engine/ameth.c: dstu_asn1_pub_encode", "keylib/utils.c: keysFromPKCS8", "keylib/jks.c: decryptKey", "keylib/key6.c: parseKey6"]}
{"id": "C136", "title": "Containers are read from open files to the end, and the files stay open", "statement": "Reading a PKCS#12 container, a Java key store or a Key-6 container from an open file takes the bytes from the file's position on, exactly those that can be read, and parses them; the file is not closed and its position is at the end of what was read; when nothing can be read the call fails and memory is as before. Whatever memory there is, a container that is not read leaves the memory as it was.", "quantifier": "All files, positions, points from which reading fails, sizes, allocators, memories, passwords and decoders of the contents.", "why_tests_cant": "The number of chunks is unbounded and each may be the one that fails.", "anchors": ["keylib/pkcs12.c: readPKCS12", "keylib/jks.c: readJKS", "keylib/key6.c: readKey6"]}
{"id": "C137", "title": "Storing cipher parameters is all or nothing when memory runs out", "statement": "Storing the parameters of a cipher context in an ASN.1 holder returns 1, with the parameters in new blocks, the former value freed and all other memory as before, or returns -1, only when memory ran out, and the holder and the memory are as before; nothing else happens.", "quantifier": "All allocators, contexts, former values of the holder and memories.", "why_tests_cant": "Every allocation may be the one that fails, for every former value.", "anchors": ["engine/cipher.c: dstu_cipher_set_asn1_parameters"]}
{"id": "C138", "title": "Cipher parameters are accepted from bytes exactly in their distinguished encoding", "statement": "Of all byte strings given as encoded cipher parameters, those that begin with the DER encoding of an 8-byte IV and a 64-byte S-box are accepted, and that IV and S-box are selected; all others fail and leave the context as before. So any other basic (BER) encoding of the same parameters is refused.", "quantifier": "All byte strings, contexts, IVs, S-boxes and all basic encodings of them.", "why_tests_cant": "The space of encodings, with long tags, long lengths, indefinite lengths and strings in parts, is infinite.", "anchors": ["engine/cipher.c: dstu_cipher_get_asn1_parameters"]}
{"id": "C139", "title": "HMAC and PBKDF2 over the engine's digest are the standard ones", "statement": "With the digest the engine registers, OpenSSL's HMAC gives, for every key, every series of messages and every way of cutting each message in pieces, the HMAC of RFC 2104 over GOST 34.311; and the key derived from a password by PBKDF2 with this function is that of RFC 8018 for every password, salt, iteration count and key length. Other digest contexts that are in the middle of a message are not disturbed.", "quantifier": "All histories of digest calls before, keys, series of messages and their cuts, passwords, salts, iteration counts and key lengths.", "why_tests_cant": "Copying of digest contexts with hidden state, restarted any number of times; no finite set of inputs covers the iteration counts and cuts.", "anchors": ["engine/dstu.c: bind_dstu", "engine/md.c: dstu_md_copy", "engine/md.c: dstu_md_cleanup", "engine/md.c: dstu_md_init"]}
{"id": "C140", "title": "Password-based encryption protects what it encrypts", "statement": "Data encrypted with a password under PBES2 with the engine's cipher and function is encrypted in CFB mode with the key derived from the password, whatever its length, with the S-box the parameters name, and is decrypted with the same password.", "quantifier": "All passwords, salts, iteration counts, IVs, S-boxes in the parameters, data, and histories of digest calls in the encrypting and the decrypting process.", "why_tests_cant": "The result must depend on the password for every length of data and every S-box; a round-trip test passes on the broken cases.", "anchors": ["engine/dstu.c: bind_dstu", "engine/cipher.c: dstu_cipher_ctrl", "engine/cipher.c: dstu_cipher_init", "engine/cipher.c: dstu_cipher_get_asn1_parameters", "engine/cipher.c: dstu_cipher_set_asn1_parameters"]}
{"id": "C141", "title": "A private key encrypted under a password with the engine's algorithms comes back and signs", "statement": "Take a key generated on a standard curve, export it, encode the private key in any basic encoding, encrypt it under a password by PBES2 with the engine's cipher and the engine's HMAC. Decrypting with the same password, in the same process or another, whatever digest contexts are in use, gives a key object whose signatures the exported public key accepts. A PKCS#12 container that holds this encrypted key, if it can be read, delivers that object.", "quantifier": "every standard curve, key type, S-box, random source, encoding of the key with any attributes, password, salt, iteration count, IV, masks, digest history before encryption and before decryption, and every readable container", "why_tests_cant": "A test writes and reads one file in one process with one password and one encoding.", "anchors": ["keylib/pkcs12.c: parsePKCS12", "keylib/pkcs12.c: fromBag", "engine/cipher.c: dstu_cipher_init", "engine/md.c: dstu_md_init", "engine/dstu.c: bind_dstu"]}
{"id": "C142", "title": "A container's MAC over the engine's digest is the standard one and protects its contents", "statement": "When a PKCS#12 container names the engine's digest, the key derived from the password is that of RFC 7292 over GOST 34.311, and the container is accepted exactly if the stored MAC is the HMAC of its contents under this key. Other digest contexts are not disturbed. With a wrong MAC nothing is delivered and nothing changes. Two different contents accepted with one password, salt, count and MAC give two messages with one digest.", "quantifier": "every digest history, password, salt, purpose, iteration count, key length, contents and stored MAC", "why_tests_cant": "A test checks one password and one container; the derivation adds with carry over blocks, and the digest contexts are shared with other users.", "anchors": ["keylib/pkcs12.c: parsePKCS12", "engine/md.c: dstu_md_init", "engine/md.c: dstu_md_final", "engine/md.c: dstu_md_cleanup", "engine/dstu.c: bind_dstu"]}
{"id": "C143", "title": "The two key types are the same keys in the other byte order", "statement": "Let the same key, digest and random numbers be used with the big-endian and the little-endian key type. Signing succeeds or fails alike and reports the same length, and the two signatures encode a string and its reversal. A signature string is accepted by one exactly if its reversal is accepted by the other. Private and public keys are written or refused alike: the strings for the curve coefficient, the base point and the public point are reversed, everything else, the private number included, is the same. Reading encodings that correspond in this way is refused alike, or gives the same key apart from its type, provided none of these strings is empty.", "quantifier": "all keys (any group, with or without private and public part), digests, random sources, buffer sizes, signature strings, key parameters and key strings", "why_tests_cant": "It relates two programs over all keys, digests, nonces and encodings; a test compares the two on a few keys, mostly with standard curves whose parameters contain no strings at all.", "anchors": ["engine/pmeth.c: dstu_pkey_sign", "engine/pmeth.c: dstu_pkey_verify", "engine/ameth.c: dstu_asn1_priv_encode", "engine/ameth.c: dstu_asn1_priv_decode", "engine/ameth.c: dstu_asn1_pub_encode", "engine/ameth.c: dstu_asn1_pub_decode", "dstulib/key.c: asn1_from_key", "dstulib/key.c: group_from_asn1"]}

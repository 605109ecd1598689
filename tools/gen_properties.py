#!/usr/bin/env python3
# Writes ../properties.jsonl.  One P(...) call per property.
import json, os
OUT = []
def P(id, title, statement, quantifier, why, anchors):
    OUT.append(dict(id=id, title=title, statement=statement, quantifier=quantifier,
                    why_tests_cant=why, anchors=anchors))

G89 = "dstulib/gost/gost89.c"; GH = "dstulib/gost/gosthash.c"; CI = "engine/cipher.c"; MD = "engine/md.c"
RB = "engine/rbg.c"; SG = "engine/sign.c"; PM = "engine/pmeth.c"; AM = "engine/ameth.c"; PA = "dstulib/params.c"
CO = "dstulib/compress.c"; KE = "dstulib/key.c"; AS = "dstulib/asn1.c"; EN = "engine/dstu.c"; ER = "engine/err.c"
KS = "keylib/keystore.c"; JK = "keylib/jks.c"; K6 = "keylib/key6.c"; UT = "keylib/utils.c"; P12 = "keylib/pkcs12.c"; IA = "keylib/iit_asn1.c"; AT = "keylib/attrcurvespec_asn1.c"

P("C01", "Block decryption undoes block encryption",
  "For any 256-bit key, any S-box and any 8-byte block, decrypting the encrypted block with the same context returns the original block (and encrypting the decrypted block too). The law does not need the S-box rows to be permutations.",
  "all keys, all S-boxes, all random key masks, all 8-byte blocks",
  "2^256 keys x 2^64 blocks x all S-boxes cannot be enumerated; a wrong round-key order in decryption shows only relative to encryption",
  [f"{G89}: gostcrypt", f"{G89}: gostdecrypt", f"{G89}: f", f"{G89}: kboxinit"])
P("C02", "Block encryption is GOST 28147-89 and does not depend on the random key mask",
  "After loading an S-box and a key, encrypting a block gives the ciphertext of the standard 32-round Feistel network (round keys K0..K7 three times, then K7..K0; round function: add key mod 2^32, substitute eight nibbles, rotate left 11). The result is the same whatever random mask the key-setting call draws, also when drawing random bytes fails.",
  "all keys, S-boxes with 4-bit entries, blocks, and mask values",
  "the mask is random, so a test sees one value per run; agreement with the standard must hold for every key and block",
  [f"{G89}: gostcrypt", f"{G89}: gost_key", f"{G89}: gost_key_nomask", f"{G89}: gost_init"])
P("C03", "The key read back from a context is the key that was set",
  "Getting the key after setting it returns the same 32 bytes, for both the GOST byte order and the Magma byte order; a Magma-order key behaves as the GOST-order key with every 4-byte group reversed.",
  "all 32-byte keys and all masks", "the stored key is masked with random words",
  [f"{G89}: gost_key", f"{G89}: gost_get_key", f"{G89}: magma_key", f"{G89}: magma_get_key"])
P("C04", "Multi-block ECB is blockwise and invertible",
  "Encrypting n blocks encrypts each 8-byte block independently, in order, touches exactly 8n output bytes, and decrypting n blocks gives the data back. Working in place (output buffer equals input buffer) gives the same bytes.",
  "all n, all data, all contexts, memory layouts with in==out or disjoint buffers", "unbounded lengths; buffer aliasing",
  [f"{G89}: gost_enc", f"{G89}: gost_dec"])
P("C05", "Multi-block CFB functions implement cipher feedback",
  "Encrypting n blocks in CFB gives C_i = P_i xor E(C_{i-1}) with C_0 the IV; decrypting gives P_i = C_i xor E(C_{i-1}); the two are inverse for every n, also in place.",
  "all n, data, IVs, contexts", "unbounded lengths", [f"{G89}: gost_enc_cfb", f"{G89}: gost_dec_cfb"])
P("C06", "The GOST MAC is the 16-round CBC-MAC of the zero-padded data",
  "For MAC lengths that are whole bytes (0..8 bytes) and data shorter than 2^32-8 bytes, the computed MAC is the prefix of the 16-round CBC-MAC of the data padded with zeros to whole blocks, with one extra zero block when the data is one block or shorter (and not empty); the variant with an IV starts the chain from the IV.",
  "all data, keys, S-boxes, whole-byte MAC lengths", "unbounded lengths; the padding corner cases interact with the length",
  [f"{G89}: mac_block", f"{G89}: gost_mac", f"{G89}: gost_mac_iv", f"{G89}: get_mac"])
P("C07", "A MAC of n bits is the first n bits of the full MAC",
  "For every MAC length in bits 0..64 the last partial byte keeps exactly the low (n mod 8) bits of that MAC byte.",
  "all MAC lengths and states", "the property is about every length and every value of the partial byte",
  [f"{G89}: get_mac"])
P("C08", "Computing a MAC terminates for every data length the API accepts",
  "For every 32-bit data length the MAC call reads only the given data and returns.",
  "all data lengths 0..2^32-1", "needs 4 GiB inputs at the wrap-around boundary",
  [f"{G89}: gost_mac", f"{G89}: gost_mac_iv"])
P("C09", "Key meshing replaces the key (and IV) as specified",
  "CryptoPro key meshing sets the key to the ECB decryption of the fixed 32-byte constant under the old key and, if an IV is given, replaces it by its encryption under the new key; ACPKM meshing sets the key to the encryption of the D constant. The S-box is unchanged. Results do not depend on masks.",
  "all contexts, IVs, masks", "all keys; the order of the two steps (which key encrypts the IV) matters",
  [f"{G89}: cryptopro_key_meshing", f"{G89}: acpkm_magma_key_meshing"])
P("C10", "Cipher output does not depend on how the data is split over update calls",
  "After initialising with a key and IV, feeding a message by any sequence of non-empty update calls produces the same bytes as one call, in both directions, and that output is CFB of the message under the key and IV.",
  "all messages, all splittings, all keys and IVs, both directions", "exponentially many splittings; state carried between calls (partial block, feedback register)",
  [f"{CI}: dstu_cipher_do_cipher", f"{CI}: dstu_cipher_init"])
P("C11", "Decryption recovers the message under any independent splitting",
  "Data encrypted with one splitting and decrypted by a context with the same key, IV and S-box under any other splitting is the original message.",
  "all messages, all pairs of splittings, keys, IVs, custom S-boxes", "product of two exponentially large sets of schedules",
  [f"{CI}: dstu_cipher_do_cipher", f"{CI}: dstu_cipher_init", f"{CI}: dstu_cipher_ctrl"])
P("C12", "Every update call returns the number of bytes it was given, or a distinct code",
  "A call with a non-NULL input and positive length returns exactly that length and writes exactly that many bytes; a call with NULL input and zero length returns 0 and changes nothing; every other call returns -1 and changes nothing.",
  "all contexts, lengths and pointers", "all states", [f"{CI}: dstu_cipher_do_cipher"])
P("C13", "In-place cipher operation is safe",
  "Encrypting or decrypting with the output buffer equal to the input buffer leaves in memory the same bytes, and the context in the same state, as with disjoint buffers, and no other memory is changed.",
  "all memories, lengths, states, both directions", "aliasing bugs depend on the length modulo the block size and on the state",
  [f"{CI}: dstu_cipher_do_cipher", f"{G89}: gost_enc_cfb", f"{G89}: gost_dec_cfb"])
P("C14", "Algorithm parameters carry IV and S-box from one context to another",
  "The parameters exported from a context are the DER encoding of SEQUENCE { OCTET STRING iv, OCTET STRING s-box }; importing them into a context that has the same key makes it produce the same stream as the exporting context restarted at its IV.",
  "all contexts, keys, IVs, S-boxes", "all values of IV and S-box, round trip through the table form of the S-box",
  [f"{CI}: dstu_cipher_set_asn1_parameters", f"{CI}: dstu_cipher_get_asn1_parameters", f"{PA}: dstu_get_sbox", f"{PA}: pack_sbox"])
P("C15", "The order of setting key, IV and parameters does not matter",
  "A context whose IV (or algorithm parameters) was set first and whose key was set afterwards - the order used when decrypting enveloped data - decrypts like a context that got key, IV and S-box together.",
  "all histories of init / set-parameters calls before the first update", "histories; a violation shows only for some message lengths and S-boxes",
  [f"{CI}: dstu_cipher_init", f"{CI}: dstu_cipher_get_asn1_parameters"])
P("C16", "Selecting a custom S-box restarts the stream from the IV",
  "After the custom S-box control succeeds the context behaves like one freshly initialised with the same key and IV and that S-box, whatever was processed before.",
  "all histories before the control call", "histories ending inside a block", [f"{CI}: dstu_cipher_ctrl"])
P("C17", "Importing cipher parameters rejects malformed input without effect",
  "Import succeeds exactly when the value is a SEQUENCE of 78 bytes whose two inner headers are an 8-byte and a 64-byte OCTET STRING, and otherwise returns -1 leaving the context unchanged.",
  "all parameter values and contexts", "all byte strings", [f"{CI}: dstu_cipher_get_asn1_parameters"])
P("C18", "The digest is GOST 34.311-95",
  "For every message and S-box the digest equals the standard's definition over 256-bit integers: key generation with constants, four encryptions, mixing, length and control sum modulo 2^256, with zero starting value and zero padding of the last block.",
  "all messages (shorter than 2^60 bytes) and S-boxes", "unbounded messages; the implementation works byte-wise and in place",
  [f"{GH}: hash_step", f"{GH}: hash_block", f"{GH}: finish_hash", f"{MD}: dstu_md_final"])
P("C19", "The digest does not depend on how the message is split over update calls",
  "Any sequence of update calls (including empty ones) whose concatenation is the same message gives the same digest.",
  "all messages and splittings", "exponentially many splittings; buffering of partial blocks",
  [f"{GH}: hash_block", f"{MD}: dstu_md_update"])
P("C20", "Finishing a digest does not disturb the context",
  "Asking for the digest leaves the message state unchanged: asking again gives the same value and continuing gives the digest of the longer message.",
  "all histories", "all states", [f"{GH}: finish_hash", f"{MD}: dstu_md_final"])
P("C21", "A copied digest context is independent of its source",
  "After copying a context, any interleaving of operations on the copy, the source and other contexts gives for each context the digest of exactly the bytes it was fed; cleaning up one context does not affect another.",
  "all histories of operations over any number of contexts", "the copy is a raw memory copy of a structure that contains a pointer into itself",
  [f"{MD}: dstu_md_copy", f"{MD}: dstu_md_cleanup", f"{MD}: dstu_md_init"])
P("C22", "The digest uses the key's S-box when the context has a key that carries one, else the default",
  "Initialising a digest selects the S-box of the associated key if it has one and the default S-box otherwise; the custom S-box control with a 64-byte value replaces it and any other control is refused without effect.",
  "all keys, S-boxes, control calls", "all S-boxes", [f"{MD}: dstu_md_init", f"{MD}: dstu_md_ctrl"])
P("C23", "The digest is defined for every message length",
  "Finishing a digest is defined (no signed overflow) for every total length that fits the length counter.",
  "all counter values", "needs 2^60 bytes of input", [f"{GH}: finish_hash"])
P("C24", "Random output is one deterministic stream per seed, split arbitrarily over calls",
  "Once seeded, the concatenation of the outputs of successive calls is a prefix of the DSTU 4145 generator stream determined by seed and time, independent of how the requests are split; bits fill each byte from the least significant.",
  "all seeds, times, sequences of request sizes", "all splittings of unbounded requests", [f"{RB}: dstu_rbg_bytes", f"{RB}: dstu_rbg_get_bit", f"{RB}: dstu_rbg_init"])
P("C25", "Concurrent random requests get disjoint consecutive pieces of the stream",
  "For any number of threads and any schedule, each completed request returns a contiguous piece of the stream, pieces of different requests do not overlap, and together they are a prefix of the stream, provided the lock was created and no cleanup ran.",
  "all thread counts, request sizes and schedules", "schedules", [f"{RB}: dstu_rbg_bytes", f"{RB}: dstu_lock", f"{RB}: dstu_unlock"])
P("C26", "An unseeded generator reports failure and reveals that in its result",
  "A request returns success only if the generator has been seeded successfully since start or the last cleanup; the seeding state never reverts except by cleanup.",
  "all histories of status/bytes/cleanup calls and all outcomes of the system generator", "histories with injected seeding failures", [f"{RB}: dstu_rbg_bytes", f"{RB}: dstu_rbg_status_nolock", f"{RB}: dstu_rbg_init"])
P("C27", "A failed random request does not hand out predictable bytes",
  "When a request reports failure the caller's buffer is not filled with a value that is the same for every process.",
  "all failing requests", "absence of information", [f"{RB}: dstu_rbg_bytes"])
P("C28", "The generator can be used again after cleanup",
  "Any sequence of status, bytes and cleanup calls is memory-safe.", "all histories", "histories; use after free shows only later",
  [f"{RB}: dstu_rbg_cleanup", f"{RB}: dstu_lock", f"{RB}: dstu_unlock"])
P("C29", "A request with a negative length writes nothing",
  "A request for n bytes writes exactly max(n,0) bytes.", "all ints n", "boundary of signed/unsigned conversion", [f"{RB}: dstu_rbg_bytes"])
P("C30", "Packed and unpacked S-box forms are inverse, and the S-box can be read back from a cipher context",
  "Unpacking 64 bytes and packing again is the identity; packing 4-bit tables and unpacking is the identity; the S-box read back from a context equals the S-box loaded.",
  "all 64-byte S-boxes / all 4-bit tables", "2^512 S-boxes", [f"{PA}: unpack_sbox", f"{PA}: pack_sbox", f"{PA}: dstu_get_sbox", f"{G89}: kboxinit"])
P("C31", "Byte reversal",
  "In-place reversal and copying reversal both produce the byte string backwards, for every length including odd, one and zero; reversing twice is the identity.",
  "all byte strings", "unbounded lengths", [f"{PA}: reverse_bytes", f"{PA}: reverse_bytes_copy"])
P("C32", "Fixed-width big-endian integer encoding",
  "Encoding a positive integer into a buffer of the given width succeeds exactly when it fits, fills the whole buffer, and decoding the buffer gives the integer back; too-small buffers are refused untouched.",
  "all integers and widths", "unbounded", [f"{PA}: bn_encode"])
P("C33", "Encoding succeeds for every integer that fits, including zero",
  "The encoder reports success for every value that fits in the buffer.", "all integers including 0", "corner value used by S-box, curve and point encoders", [f"{PA}: bn_encode"])
P("C34", "Each standard curve is a well-formed group and is recognised",
  "For each of the ten standard curve identifiers, constructing the group succeeds: the field polynomial is irreducible, the base point is on the curve, lies in the subgroup of points that point compression supports, and its stated order multiplied with it gives the point at infinity and is a prime number; asking for the identifier of the constructed group gives the identifier back; any other identifier is refused; the identifiers and degrees are pairwise different.",
  "all identifiers (ints) and the ten tables", "the algebraic facts (irreducibility, order) quantify over the whole field", [f"{PA}: dstu_curves", f"{PA}: group_from_named_curve", f"{PA}: group_from_nid", f"{PA}: curve_nid_from_group"])
P("C35", "A generated key pair is valid",
  "Key generation yields a private key d with 1 <= d <= n-1 and the public key -dG, for whatever the random source returns, and retries exactly on zero.",
  "all random sources, groups", "random source", [f"{PA}: dstu_generate_key", f"{PA}: dstu_add_public_key"])
P("C36", "Expanding a compressed point gives the point back",
  "On every standard curve, for every curve point with trace(x)=trace(a) (all points of the prime-order subgroup) for which compression succeeds, expansion of the compressed form returns the same point.",
  "all points of the curve, all ten fields", "fields have 2^163..2^431 elements", [f"{CO}: dstu_point_compress", f"{CO}: dstu_point_expand", f"{CO}: bn_trace"])
P("C37", "Compression succeeds for every point of the subgroup",
  "Every finite point with trace(x)=trace(a) has a compressed form.", "all points", "the failing points are a handful out of 2^163", [f"{CO}: dstu_point_compress", f"{PA}: bn_encode"])
P("C38", "Expansion returns only curve points and rejects malformed input",
  "Whenever expansion succeeds the result is on the curve; inputs shorter than the field size and inputs whose value does not fit the field are rejected.",
  "all byte strings, all binary curves", "all byte strings", [f"{CO}: dstu_point_expand"])
P("C39", "Every signature made is accepted",
  "For every key pair, message digest and random source, if signing returns a signature then verifying it with the public key over the same digest succeeds.",
  "all keys, digests, nonce sequences, all groups", "unbounded; depends on algebra", [f"{SG}: dstu_do_sign", f"{SG}: dstu_do_verify"])
P("C40", "Signatures have fixed size and both halves in range",
  "A returned signature is exactly twice the byte size of the group order, and both halves encode integers in [1, n-1].",
  "all keys, digests, nonces", "all nonces", [f"{SG}: dstu_do_sign"])
P("C41", "Verification accepts exactly the DSTU 4145 verification equation",
  "Verification succeeds iff both halves are in [1,n-1], sG+rQ is finite and the field product of the digest's field element and its x coordinate, truncated below the order's bit length, equals r, and the string has even length of at least twice the order's byte size; in particular zero and oversized halves and strings of odd or too small length are rejected.",
  "all byte strings as signatures", "all byte strings", [f"{SG}: dstu_do_verify", f"{SG}: hash_to_field", f"{SG}: field_to_bn"])
P("C42", "Signing terminates for every digest",
  "For every digest and every fair random source signing returns.", "all digests, infinite nonce sequences", "non-termination cannot be observed by a test", [f"{SG}: dstu_do_sign", f"{SG}: hash_to_field"])
P("C43", "A signature has only one accepted encoding",
  "If two byte strings are both accepted for the same key and digest and carry the same (s,r), they are equal.", "all pairs of byte strings", "all byte strings", [f"{PM}: dstu_pkey_verify", f"{SG}: dstu_do_verify"])
P("C44", "Message digests map to field elements as little-endian integers",
  "The field element is the little-endian value of the digest reduced modulo 2^m, except that the zero digest maps to 1.", "all digests, all m", "all digests", [f"{SG}: hash_to_field", f"{SG}: bn_truncate_bits"])
P("C45", "Sign and verify round trip through the public interface, with the two-call size protocol",
  "With a NULL buffer signing reports the needed size; with a smaller buffer it fails, reports the size and writes nothing; otherwise it writes a DER OCTET STRING of exactly the reported length, and verification of those bytes with the same key type succeeds, for little- and big-endian key types.",
  "all keys, digests, buffer sizes, both key types", "all sizes", [f"{PM}: dstu_pkey_sign", f"{PM}: dstu_pkey_verify", f"{AM}: dstu_asn1_pkey_size"])
P("C46", "A bare (unwrapped) signature is accepted like the wrapped one",
  "Verification of the bare signature bytes gives the same answer as verification of their OCTET STRING encoding.", "all signatures", "ambiguity appears for a 2^-16 fraction of signatures", [f"{PM}: dstu_pkey_verify"])
P("C47", "Key parameters survive encoding and decoding",
  "Encoding a key's parameters and decoding them yields an equal group and the same effective S-box, for standard and custom curves, little- and big-endian.",
  "all keys with supported curves", "all curves", [f"{KE}: asn1_from_key", f"{KE}: key_from_asn1", f"{KE}: group_from_asn1", f"{AM}: dstu_asn1_param_encode", f"{AM}: dstu_asn1_param_decode"])
P("C48", "Private keys survive encoding and decoding",
  "Encoding a key pair to PKCS#8 and decoding gives the same private key, the same public key and parameters, and key type.",
  "all keys with private key >= 1", "all keys incl. ones with leading/trailing zero bytes", [f"{AM}: dstu_asn1_priv_encode", f"{AM}: dstu_asn1_priv_decode"])
P("C49", "Public keys survive encoding and decoding",
  "Encoding a public key to SubjectPublicKeyInfo and decoding it gives the same point, parameters and key type.", "all public keys in the subgroup", "all points", [f"{AM}: dstu_asn1_pub_encode", f"{AM}: dstu_asn1_pub_decode"])
P("C50", "Parameter comparison agrees with parameter copy and with encode/decode",
  "After copying parameters from one key to another the two compare equal; a key compares equal to its own decoded encoding.", "all pairs of keys, with and without S-boxes", "histories of the destination key", [f"{AM}: dstu_asn1_param_copy", f"{AM}: dstu_asn1_param_cmp"])
P("C51", "Decoding custom curve parameters validates them",
  "Decoding succeeds only if a is 0 or 1, the field exponents are positive, the S-box (if any) has 64 bytes and the base point expands to a curve point.", "all parameter structures", "all values", [f"{KE}: group_from_asn1", f"{KE}: key_from_asn1"])
P("C52", "The textual S-box option accepts exactly 128 hex digits",
  "The option is accepted iff its value is a string of exactly 128 hexadecimal digits, and then sets those 64 bytes.", "all strings", "all strings", [f"{PM}: dstu_pkey_ctrl_str"])
P("C53", "Key generation honours curve and S-box options; copied contexts are independent",
  "A generated key has the curve and S-box last set on the context (default curve 6 and no S-box if none set); a copied context has equal options and later changes to one do not affect the other.", "all histories of options/copies", "histories", [f"{PM}: dstu_pkey_keygen", f"{PM}: dstu_pkey_ctrl", f"{PM}: dstu_pkey_copy", f"{KE}: DSTU_KEY_CTX_copy", f"{KE}: DSTU_KEY_CTX_set"])
P("C54", "A key store behaves like two lists",
  "Counts, lookups and appending behave as lists of keys and certificates: lookups outside the range give NULL; appending moves all entries in order to the end of the target and leaves the source with NULL entries.", "all histories", "histories", [f"{KS}: KeyStoreNew", f"{KS}: KeyStoreAppend", f"{KS}: KeyStoreGetKey", f"{KS}: KeyStoreSetKey"])
P("C55", "Every key and certificate is released exactly once",
  "For any history of creating, filling, appending and freeing stores where each object is put in one free slot, no object is freed twice, and after all stores are freed every object has been freed.", "all histories", "ownership over histories", [f"{KS}: KeyStoreFree", f"{KS}: KeyStoreAppend"])
P("C56", "Reading a PKCS#12 container never writes outside the store and fills every slot",
  "For every bag structure (nested to any depth), if parsing succeeds the store has exactly one non-NULL entry per key bag and certificate bag, in depth-first order; no write is out of bounds on success or failure.", "all bag trees, all decryption outcomes", "unbounded nesting", [f"{P12}: countKeysCerts", f"{P12}: fromSafes", f"{P12}: parsePKCS12"])
P("C57", "A failed container read leaves the caller's handle usable",
  "When a parse function returns failure, the out-parameter is not left pointing to freed memory.", "all failing inputs", "all failure points", [f"{P12}: parsePKCS12", f"{JK}: parseJKS"])
P("C58", "Reading a Java key store never reads outside the given buffer",
  "For every byte string and size the parser reads only bytes inside the buffer.", "all byte strings", "all byte strings", [f"{JK}: parseJKS", f"{JK}: parseKey", f"{JK}: parseCert"])
P("C59", "A well-formed Java key store of private-key entries is read back",
  "Parsing the serialisation of any list of private-key entries protected with the right passwords returns the keys and certificates in order.", "all entry lists", "unbounded", [f"{JK}: parseJKS", f"{JK}: parseKey", f"{JK}: parseCert", f"{JK}: decryptKey"])
P("C60", "A Java key store is accepted only if its integrity digest matches",
  "If parsing succeeds, the 20 bytes after the entries equal the keyed digest of everything before, and magic and version are right.", "all byte strings", "all byte strings", [f"{JK}: parseJKS", f"{JK}: whiteHash"])
P("C61", "Trusted-certificate entries of a Java key store are read",
  "Parsing a well-formed store with a trusted-certificate entry returns that certificate.", "all well-formed stores", "format corner", [f"{JK}: parseEntry", f"{JK}: parseCert"])
P("C62", "Recovering a protected key inverts protection, and wrong protection data fails cleanly",
  "Unprotecting what was protected with the same password gives the plaintext key data; any data whose check digest differs is refused.", "all plaintexts, passwords, salts", "all lengths", [f"{JK}: fromKeyProtector"])
P("C63", "Protected-key data that is too short or does not hold a key is refused cleanly",
  "For every protected blob the call returns success or failure without undefined behaviour.", "all blobs", "all lengths < 40 and all garbage plaintexts", [f"{JK}: fromKeyProtector"])
P("C64", "Key-6 containers: the decrypted data is what was encrypted",
  "For every password and every plaintext whose size is a multiple of 8, parsing the container built by encrypting it (with any split into data and pad) hands exactly that plaintext to the key decoder, followed only by unspecified slack bytes.", "all passwords, plaintexts, splits", "unbounded", [f"{K6}: decryptKey6", f"{K6}: pkdf", f"{K6}: hash"])
P("C65", "Key-6 containers: tampering is detected",
  "Changing the stored MAC makes the parse fail.", "all containers", "absence of a check", [f"{K6}: parseKey6"])
P("C66", "The private number in IIT attributes is the bit reversal of the stored string",
  "The number read is the integer whose binary digits are those of the stored octets in reverse order; the map is an involution on fixed-length strings.", "all octet strings", "unbounded", [f"{UT}: getPrivateKeyNum"])
P("C67", "Keys from PKCS#8 data",
  "Success yields one key, or two when both IIT attributes are present and usable; among repeated attributes the last one counts; failure leaves the out-parameter untouched.", "all attribute lists", "unbounded lists", [f"{UT}: keysFromPKCS8", f"{UT}: pkeyFromAttributes"])
P("C68", "Container contents do not depend on how the input stream delivers them",
  "Reading a container from a stream parses exactly the concatenation of the delivered chunks, whatever their sizes; an empty stream fails.", "all chunkings", "all chunk schedules", [f"{JK}: readJKS_bio", f"{K6}: readKey6_bio", f"{P12}: readPKCS12_bio"])
P("C69", "A read error is reported",
  "If the stream fails before its end the read function fails.", "all error points", "fault injection at every point", [f"{JK}: readJKS_bio", f"{K6}: readKey6_bio", f"{P12}: readPKCS12_bio"])
P("C70", "Field polynomials are read the same way from key parameters and from IIT attributes",
  "Both readers build the same field polynomial from the same structure, independent of the order in which exponents are stored.", "all exponents", "all values", [f"{UT}: makePoly", f"{KE}: group_from_asn1"])
P("C71", "Engine lookups return exactly the advertised algorithms",
  "Asking for an advertised identifier yields its method and 1; any other identifier yields failure; asking for the list yields the advertised list; repeated lookups return the same object.", "all identifiers and call histories before finish", "histories", [f"{EN}: dstu_digests", f"{EN}: dstu_ciphers", f"{EN}: dstu_pkey_meths", f"{EN}: dstu_asn1_meths"])
P("C72", "The engine can be finished and used again",
  "Any history of bind, lookups and finish is free of use-after-free and double free.", "all histories", "histories", [f"{EN}: dstu_engine_finish", f"{EN}: dstu_md_get", f"{EN}: dstu_cipher_get"])
P("C73", "Concurrent first lookups of a key method return one object",
  "For any schedule all threads that look up the same identifier get the same method object.", "all schedules", "schedules", [f"{EN}: dstu_pkey_meth_get", f"{EN}: dstu_asn1_meth_get"])
P("C74", "Error strings are loaded at most once at a time and one library code is used throughout",
  "For any history of load, unload and error reporting, strings are registered exactly when the last load/unload was a load, never registered twice without an unload, and all reports use the same non-zero library code.", "all histories", "histories", [f"{ER}: ERR_load_DSTU_strings", f"{ER}: ERR_unload_DSTU_strings", f"{ER}: ERR_DSTU_error"])

P("C75", "Converting a password to UTF-16 does not depend on the converter's output buffer",
  "For every sequence of characters the conversion ends, and its result is the big-endian UTF-16 form of the password whatever the buffer growth needed.", "all passwords", "all lengths around the buffer boundary", [f"{JK}: toUTF16BE"])
P("C76", "A Java key store whose keys cannot be recovered is refused",
  "If an entry's protected key cannot be recovered the read fails.", "all stores", "all algorithm identifiers", [f"{JK}: parseJKS", f"{JK}: fromKeyProtector"])

P("C77", "Comparing two keys is safe and exact",
  "EVP_PKEY_cmp of two keys of the engine returns without undefined behaviour, and returns 1 exactly if curve, S-box and public key are the same.", "all pairs of keys, including keys that hold only parameters", "all pairs of states", [f"{AM}: dstu_asn1_param_cmp", f"{AM}: dstu_asn1_pub_cmp"])
P("C78", "Decoded custom curve parameters describe a usable group",
  "If custom curve parameters are accepted, the curve is non-singular over a field and the stated order annihilates the base point.", "all parameter structures", "all values", [f"{KE}: group_from_asn1"])
P("C79", "Decoded public keys belong to the group",
  "A public key accepted from a SubjectPublicKeyInfo is a finite point on the curve and a multiple of the base point.", "all byte strings and curves", "all byte strings", [f"{AM}: dstu_asn1_pub_decode"])
P("C80", "Decoded private keys are in range",
  "A private key accepted from PKCS#8 data is at least 1 and below the order of the group.", "all byte strings and curves", "all byte strings", [f"{AM}: dstu_asn1_priv_decode"])
P("C81", "Keys and contexts: memory is used and released correctly",
  "For every history of creating, copying, configuring and freeing contexts and generating, reading, encoding, using and freeing keys, with any allocation failing, no freed or unwritten memory is used and nothing is freed twice; once every context and key has been freed, no memory is left.", "all histories, all allocation failures", "ownership over histories and fault points", [f"{KE}: DSTU_KEY_CTX_free", f"{KE}: DSTU_KEY_free", f"{KE}: DSTU_KEY_set", f"{PM}: dstu_pkey_keygen", f"{AM}: dstu_asn1_priv_encode", f"{AM}: dstu_asn1_pub_encode", f"{AM}: dstu_asn1_priv_decode"])
P("C82", "Parameters can be copied to an empty key",
  "EVP_PKEY_copy_parameters from a key with parameters to a fresh key succeeds.", "all source keys", "absence of a method", [f"{AM}: dstu_asn1_meth_new", f"{AM}: dstu_asn1_param_copy"])
P("C83", "Encoding a key never depends on uninitialised memory",
  "For every group OpenSSL can build, encoding the parameters of a key has defined behaviour.", "all groups", "all field polynomials", [f"{KE}: asn1_from_key"])
P("C84", "With too little memory calls on keys fail cleanly",
  "At whatever allocation memory runs out, a call on keys and contexts does not crash, and either answers as with enough memory or fails.", "all histories and all patterns of failing allocations", "fault injection at every allocation", [f"{KE}: asn1_from_key", f"{AM}: dstu_asn1_param_encode", f"{AM}: dstu_asn1_priv_encode"])
P("C85", "A control call with a missing argument is refused",
  "A control call on a key context whose pointer argument is NULL either takes no argument or is refused; it never crashes.", "all histories and control numbers", "all states and numbers", [f"{PM}: dstu_pkey_ctrl"])

P("C86", "The key made from IIT attributes is the one they describe",
  "The second key of a key file has the group described by the first curve structure in its curve attribute, the private number in its key attribute and the public key belonging to it; the group is the one the same structure gives in ordinary key parameters; without a number or a group no key is made.", "all attributes", "all structures", [f"{UT}: makePKey", f"{UT}: makeECGROUPFromSpec", f"{UT}: getPrivateKeyNum"])
P("C87", "Reading IIT attributes never crashes",
  "For every curve and key attribute, and with any allocation failing, the call returns.", "all attributes and all patterns of failing allocations", "all field descriptions", [f"{UT}: makePKey", f"{UT}: makePoly", f"{UT}: makeECGROUPFromSpec"])
P("C88", "Reading IIT attributes does not leak",
  "If no key is made from the attributes, all memory allocated on the way is released.", "all attributes and all patterns of failing allocations", "all ways to fail", [f"{UT}: makePKey"])
P("C89", "A key made from IIT attributes keeps the S-box stored with its curve",
  "The hash computed with the key uses the S-box given in the curve attribute.", "all attributes", "all S-boxes", [f"{UT}: makePKey", f"{UT}: makeECGROUP"])

P("C90", "Keys are written in the format of the standard",
  "Encoded parameters, private and public keys are the distinguished encoding of the structure the standard prescribes: named standard curves or field, coefficients, order and base point in the byte order of the key type, the S-box unless it is the default one, the private number with its least octet first, the compressed public key.", "all keys, curves and S-boxes", "all curves", [f"{AM}: dstu_asn1_param_encode", f"{AM}: dstu_asn1_priv_encode", f"{AM}: dstu_asn1_pub_encode", f"{KE}: asn1_from_key", f"{AS}: DSTU_AlgorithmParameters"])
P("C91", "Keys in the format of the standard are read as what they say",
  "Whatever encoder wrote it, data that describe a curve, an S-box and a private or public key in the format of the standard are read as exactly that key.", "all keys, curves and S-boxes", "other encoders", [f"{AM}: dstu_asn1_param_decode", f"{AM}: dstu_asn1_priv_decode", f"{AM}: dstu_asn1_pub_decode", f"{KE}: key_from_asn1"])

P("C92", "Different private keys have different public keys",
  "On a standard curve the public keys of two different private numbers below the order are different, and no private number from 1 to the order minus 1 has the point at infinity as its public key; exactly the multiples of the order annihilate the base point.", "all standard curves and private numbers", "the numbers are too many to try", [f"{PA}: dstu_curves", f"{PA}: dstu_add_public_key"])
P("C93", "A generated key can be stored, loaded and used",
  "A key generated on a standard curve can be written as a private and as a public key; both are read back; every signature made with the loaded private key is accepted with the loaded public key, with the loaded private key and with the original key. On the curves of degree 163 and 367 this needs a public key that has a compressed form.", "all standard curves, key types, S-boxes, random sources, messages", "all random values and messages", [f"{PA}: dstu_generate_key", f"{AM}: dstu_asn1_priv_encode", f"{AM}: dstu_asn1_pub_encode", f"{AM}: dstu_asn1_priv_decode", f"{AM}: dstu_asn1_pub_decode", f"{PM}: dstu_pkey_sign", f"{PM}: dstu_pkey_verify"])

P("C94", "Printing a key leaves it unchanged and releases what it used",
  "Printing the parameters, the private or the public part of a key gives what OpenSSL prints for the EC key in it and leaves all memory as before; whatever allocation fails, it does not crash and nothing is lost.", "all keys and all patterns of failing allocations", "fault injection at every allocation", [f"{AM}: dstu_asn1_param_print", f"{AM}: dstu_asn1_priv_print", f"{AM}: dstu_asn1_pub_print"])
P("C95", "Printed parameters show everything that is a parameter",
  "Two keys whose parameters differ, be it only in the S-box, are not printed alike.", "all pairs of keys", "all S-boxes", [f"{AM}: dstu_asn1_param_print"])
P("C96", "PKCS#7 and CMS signatures name the algorithms used",
  "When the control for PKCS#7 or CMS signing reports success, the digest algorithm of the signer is GOST 34.311 and the signature algorithm is the type of the key; the default digest of a key is GOST 34.311; other controls change nothing.", "all signers, controls and patterns of failing allocations", "fault injection", [f"{AM}: dstu_asn1_pkey_ctrl"])

P("C97", "Out of memory, expanding a point fails or gives the right point",
  "At whatever allocation memory runs out, expanding a compressed point either fails or gives the point the string stands for, and everything allocated is released.", "all strings, curves and patterns of failing allocations", "fault injection at every allocation", [f"{CO}: dstu_point_expand", f"{CO}: bn_trace"])
P("C98", "Out of memory, compressing a point fails or gives the right string",
  "At whatever allocation memory runs out, compressing a point or writing the parameters of a curve does not crash, and either fails or gives the string it gives with enough memory.", "all points, curves and patterns of failing allocations", "fault injection at every allocation", [f"{CO}: dstu_point_compress", f"{CO}: bn_trace", f"{KE}: asn1_from_key"])
P("C99", "Out of memory, no wrong signature is made or accepted and no wrong key reported",
  "At whatever allocation memory runs out, signing, verifying, generating a key and computing a public key do not crash and release what they allocated; a signature reported is one that would have been made with enough memory, a signature accepted would have been accepted, a key reported is the one that would have been made.", "all keys, messages, random sources and patterns of failing allocations", "fault injection at every allocation", [f"{SG}: dstu_do_sign", f"{SG}: dstu_do_verify", f"{PA}: dstu_generate_key", f"{PA}: dstu_add_public_key"])
P("C100", "Out of memory, signing still ends",
  "If signing ends with enough memory it ends at whatever allocation memory runs out.", "all keys, digests, random sources and patterns of failing allocations", "non-termination", [f"{SG}: dstu_do_sign", f"{SG}: hash_to_field"])
P("C101", "Out of memory, a standard curve is built right or not at all",
  "At whatever allocation memory runs out, a standard curve asked for by its identifier is built with exactly the standard's parameters or the call fails; a curve is recognised as the right standard curve or as none; nothing else stays allocated.", "all identifiers, curves and patterns of failing allocations", "fault injection at every allocation", [f"{PA}: group_from_named_curve", f"{PA}: group_from_nid", f"{PA}: curve_nid_from_group"])
P("C102", "Parameters written while memory runs out describe the same curve",
  "At whatever allocation memory runs out, if the parameters of a key are written, reading them gives the curve and the S-box of the key.", "all curves, S-boxes, byte orders and patterns of failing allocations", "fault injection at every allocation", [f"{KE}: asn1_from_key", f"{KE}: key_from_asn1"])
P("C103", "Out of memory, a curve given by parameters is built right or not at all",
  "At whatever allocation memory runs out, reading explicit curve parameters gives the curve they describe or fails, and nothing else stays allocated.", "all parameters and patterns of failing allocations", "fault injection at every allocation", [f"{KE}: group_from_asn1", f"{CO}: dstu_point_expand"])
P("C104", "The size reported for a key is the size of its signatures",
  "Every signature a key makes has exactly the number of octets EVP_PKEY_size reports for the key, and no buffer shorter than that is written to; for the standard curves EVP_PKEY_bits is the degree of the field.", "all keys, messages and random sources", "all values of r and s, also short ones", [f"{AM}: dstu_asn1_pkey_size", f"{AM}: dstu_asn1_pkey_bits", f"{PM}: dstu_pkey_sign"])

P("C105", "Reading a container leaves exactly the key store, freeing it leaves nothing",
  "With enough memory, reading a PKCS#12, Key-6 or Java container, from memory or from a stream in whatever chunks, leaves allocated exactly one store holding exactly its keys and certificates if it succeeds, and nothing if it fails; KeyStoreFree then gives everything back. Nothing is used after release or released twice.", "all containers, passwords, streams and memory contents", "leak checks cover only the containers tried", [f"{P12}: parsePKCS12", f"{K6}: parseKey6", f"{JK}: parseJKS", f"{UT}: keysFromPKCS8", f"{KS}: KeyStoreFree"])
P("C106", "Out of memory, reading a container does not crash",
  "At whatever allocation memory runs out, reading a container fails or succeeds but does not write through NULL, and a failed read leaves nothing allocated.", "all containers and patterns of failing allocations", "fault injection at every allocation", [f"{P12}: parsePKCS12", f"{K6}: decryptKey6", f"{JK}: parseJKS", f"{KS}: KeyStoreNew", f"{UT}: toUTF16BE"])
P("C107", "A store reported read is complete",
  "At whatever allocation memory runs out, a read that reports success gives a store with all the keys and certificates of the container.", "all containers and patterns of failing allocations", "fault injection at every allocation", [f"{UT}: keysFromPKCS8", f"{UT}: pkeyFromAttributes", f"{P12}: parsePKCS12"])
P("C108", "Out of memory, a password is not replaced by another",
  "At whatever allocation memory runs out, a Java key store is accepted only if it was sealed with the given password.", "all stores, passwords and patterns of failing allocations", "fault injection at every allocation", [f"{UT}: toUTF16BE", f"{JK}: parseJKS"])

P("C109", "Messages can be signed and verified in pieces, with stored keys",
  "Signing a message with EVP_DigestSign in any pieces gives what signing the digest of the whole message, taken with the S-box of the key, gives; verifying likewise. A signature made in pieces with a key that was generated on a standard curve, stored and loaded is accepted with the loaded public key, the loaded private key and the original, for the message in any other pieces, whatever memory the contexts get.", "all standard curves, key types, S-boxes, messages and ways to cut them, random sources, contents of fresh memory", "all messages and all ways to cut them", [f"{MD}: dstu_md_init", f"{MD}: dstu_md_update", f"{MD}: dstu_md_final", f"{MD}: dstu_md_copy", f"{PM}: dstu_pkey_sign", f"{PM}: dstu_pkey_verify", f"{AM}: dstu_asn1_priv_decode", f"{AM}: dstu_asn1_pub_decode"])

P("C110", "Passwords and private keys are not left in memory that was given back",
  "After a container or a PKCS#8 key was read, memory that was released (heap blocks and the locals of functions that returned) holds neither the password, nor a key derived from it, nor a private key.", "all containers, passwords and keys", "the contents of released memory are not observable through the API", [f"{JK}: parseJKS", f"{JK}: decryptKey", f"{JK}: fromKeyProtector", f"{K6}: decryptKey6", f"{AM}: dstu_asn1_priv_decode"])
P("C111", "Random bytes already delivered cannot be computed from the generator's memory",
  "Whoever reads the memory of the random bit generator after it delivered some bytes cannot compute from it the bytes delivered before.", "all seeds, times and histories of requests", "all states and histories", [f"{RB}: dstu_rbg_get_bit", f"{RB}: dstu_rbg_init", f"{RB}: dstu_rbg_bytes"])
P("C112", "The random generator does not lose its seed's entropy",
  "Different seeds never lead to the same generator state after the same requests, and the stream of a seed repeats only by returning to its start (which it does after at most 2^64 bytes), never by falling into a shorter cycle.", "all seeds, times and histories of requests", "needs all 2^64 states", [f"{RB}: dstu_rbg_get_bit", f"{RB}: dstu_rbg_init"])

P("C113", "A damaged ciphertext spoils only what it must",
  "The cipher works byte by byte: the first n bytes of output depend on the first n bytes of input only, in both directions, and there are as many bytes out as in. A ciphertext changed inside one 8-byte block decrypts to the message with the same bits changed in that block, a different next block (if that is whole) and nothing else changed; from the second block on decryption needs neither the IV nor what came before. Two messages encrypted with the same key and IV give away the xor of the first blocks in which they differ.",
  "all messages and changes of a ciphertext inside one block, all positions, keys, IVs, S-boxes, splittings and earlier contexts", "a relation between two runs on inputs of any length",
  [f"{CI}: dstu_cipher_do_cipher", f"{CI}: dstu_cipher_init"])
P("C114", "Different data have different MACs",
  "Two data strings with the same MAC are the same: a change of the data, of their length, or a string put together from others whose MACs are known, is noticed by comparing full 64-bit MACs, as far as 64 bits can tell.",
  "all keys, S-boxes, starting values, data strings, changes inside one block, appended zeros, combinations of two strings", "a relation between MACs of different strings under every key",
  [f"{G89}: gost_mac", f"{G89}: gost_mac_iv", f"{G89}: mac_block", f"{G89}: get_mac"])
P("C115", "A signature is for one digest",
  "A signature accepted under a public key for one digest is not accepted for another digest.",
  "all public keys, signatures and sets of digests, all standard curves", "ranges over all keys, signatures and pairs of digests",
  [f"{SG}: dstu_do_verify", f"{SG}: hash_to_field", f"{SG}: bn_truncate_bits"])
P("C116", "The key is safe only while every signature has a nonce of its own that nobody knows",
  "Two signatures of one key made with the same nonce and different second halves have the private key as the only solution of a linear equation in the four numbers; so has one signature whose nonce is known. The owner of a key can make a second accepted signature from a first one by s' = 2dr - s.",
  "all groups with a base point of prime order, keys, digests, nonces", "an algebraic relation for every key and nonce",
  [f"{SG}: dstu_do_sign", f"{SG}: dstu_do_verify"])
P("C117", "Only the private key makes signatures",
  "A signature accepted for some digest under a public key can only have been made with the private key. (The verification function takes any digest; a caller that passes data chosen by others instead of a hash relies on this.)",
  "all standard curves, key pairs and pairs of numbers (s, r)", "a statement about every public key and every pair of numbers",
  [f"{SG}: dstu_do_verify", f"{SG}: hash_to_field", f"{PM}: dstu_pkey_verify"])
P("C118", "A signature is for one public key",
  "A signature is accepted for a digest under one public key only: it names its signer.",
  "all groups with a base point of prime order, public keys of the group, digests and signatures", "a statement about every pair of public keys",
  [f"{SG}: dstu_do_verify"])
P("C119", "Concurrent calls of the random functions behave as if made one after the other",
  "For any number of threads calling status, bytes and cleanup in any interleaving, as long as nothing undefined happens, there is one order of the completed calls, keeping the order of each thread and the order in time, in which a single thread would get exactly the same results. If nobody cleans up and the lock can be created, every interleaving is defined and all calls can always complete.",
  "all numbers of threads, all call lists, all answers of the system generator and clock, all interleavings of the single memory accesses", "interleavings cannot be enumerated by tests; a race in the first call, which seeds, shows only under rare schedules",
  [f"{RB}: dstu_rbg_status", f"{RB}: dstu_rbg_bytes", f"{RB}: dstu_rbg_cleanup", f"{RB}: dstu_lock"])
P("C120", "Cleaning up the random generator is safe while other threads use it",
  "If one thread cleans up the generator while others make calls, every interleaving is defined.",
  "all programs with a cleanup and a call in another thread", "the failing schedule needs the other call to come after the free; tests pass when it comes before",
  [f"{RB}: dstu_rbg_cleanup", f"{RB}: dstu_lock", f"{RB}: dstu_rand_meth"])
P("C121", "What is encrypted cannot be read without the key, whichever S-box is accepted",
  "For every S-box that the cipher accepts, the ciphertext and the MAC depend on the key.",
  "all S-boxes with constant rows, keys, IVs, data and splits", "tests use standard S-boxes; that parameters arriving with the data can switch the cipher off shows only for S-boxes outside the tests",
  [f"{CI}: dstu_cipher_ctrl", f"{CI}: dstu_cipher_get_asn1_parameters", f"{G89}: gost_init", f"{G89}: gost_mac"])
P("C122", "A signature is for one message, whichever key was accepted",
  "For every key the engine accepts, including the S-box it carries, nobody (not even the owner of the key) can exhibit two different messages with the same signature without finding a collision of the standard digest.",
  "all keys with constant-row S-boxes, all beginnings of whole blocks, all ends, 2^16-1 differences", "collisions are never found by tests; the S-box of the key is used unchecked by the digest",
  [f"{MD}: dstu_md_init", f"{GH}: hash_step", f"{PM}: dstu_pkey_verify", f"{KE}: key_from_asn1"])
P("C123", "Encrypting a block twice does not give it back",
  "There is no key under which encryption is its own inverse.",
  "all keys with palindromic words, S-boxes, blocks", "2^128 of 2^256 keys; tests use other keys",
  [f"{G89}: gostcrypt", f"{G89}: gostdecrypt", f"{G89}: gost_key"])
P("C124", "Whatever is done with cipher contexts, every answer is that of byte-by-byte GOST 28147 cipher feedback",
  "For every history of calls on any number of contexts (initialise with or without key and IV, update, finish, select an S-box, ask for the PRF, import and export parameters, copy a context), every return value, output byte and exported value is that of a small reference that holds only direction, key, S-box, IV, feedback register, gamma and position, and works one byte at a time with the block cipher of the standard.",
  "all histories of calls on any number of contexts, all keys, IVs, S-boxes, data and piece lengths, all key masks", "unbounded interleaved histories; the code has separate paths for leftovers, whole blocks and tails, masks its keys and expands its S-boxes",
  [f"{CI}: dstu_cipher_init", f"{CI}: dstu_cipher_do_cipher", f"{CI}: dstu_cipher_ctrl", f"{CI}: dstu_cipher_set_asn1_parameters", f"{CI}: dstu_cipher_get_asn1_parameters"])
P("C125", "A cipher context without a key does not encrypt",
  "A context that was initialised with an IV but never with a key refuses to process data.",
  "all IVs, all data, both directions", "the output looks like ciphertext; only a statement about all IVs and messages shows which key is used",
  [f"{CI}: dstu_cipher_init", f"{CI}: dstu_cipher_do_cipher"])
P("C126", "Enveloped data comes back",
  "A message encrypted with key and IV and opened in the order used for enveloped data (select the cipher, import the exported parameters, give the key, update in pieces) comes back unchanged, however the ciphertext is cut in pieces.",
  "all keys, IVs, messages and ways to cut message and ciphertext in pieces", "depends on the length of the first piece, the key and the IV",
  [f"{CI}: dstu_cipher_init", f"{CI}: dstu_cipher_get_asn1_parameters", f"{CI}: dstu_cipher_set_asn1_parameters", f"{CI}: dstu_cipher_do_cipher"])
P("C127", "Data added to the generator influences later output",
  "Data a program gives to RAND_add or RAND_seed while the engine's generator is the default influences the bytes drawn afterwards; in particular a program that adds fresh entropy gets output that does not depend on the earlier seed alone.",
  "all system generators, all histories of add, seed, status, bytes and cleanup calls before and after, all data, sizes and clock values", "a test sees different bytes in two runs because the first seed differs; that added data never reaches an initialised generator is a statement about all pairs of histories",
  [f"{RB}: dstu_rbg_add", f"{RB}: dstu_rbg_seed", f"{RB}: dstu_rbg_init", f"{RB}: dstu_rbg_bytes"])
P("C128", "Forked processes draw different random bytes",
  "When a process forks after its generator was used, parent and child draw different bytes, so that signatures they make with one key have different nonces.",
  "all system generators (reseeded by fork or not), all histories before the fork and in both processes after it, all keys, digests and ways to take nonces from the bytes", "a unit test runs in one process; equality of the streams must be shown for all later histories of both processes",
  [f"{RB}: dstu_rbg_bytes", f"{RB}: dstu_rbg_status_nolock", f"{SG}: dstu_do_sign"])
P("C129", "A key kept in a container signs for its public key",
  "A key generated on a standard curve and kept in a Key-6, Java or PKCS#12 container can be read back with the password, and messages signed with what was read are accepted with the public key exported when it was generated, however the messages are split.",
  "all standard curves, both key types, all S-boxes, all generated keys, passwords, paddings, attributes and container contents beside the key, all messages and splittings", "goes through generation, encoding, encryption, parsing, decoding, signing and verification; tests use a few stored containers",
  [f"{K6}: parseKey6", f"{JK}: parseJKS", f"{P12}: parsePKCS12", f"{UT}: keysFromPKCS8", f"{AM}: dstu_asn1_priv_decode", f"{SG}: dstu_do_sign"])
P("C130", "The predefined S-boxes make the standard ciphers",
  "With the predefined TC26 S-box and a key set by magma_key, block encryption and decryption are those of Magma (GOST R 34.12-2015, RFC 8891) on blocks with their bytes reversed, for every key and block; every row of every predefined S-box is a permutation.",
  "all 32-byte keys, blocks and key masks; all predefined S-boxes", "2^256 keys and 2^64 blocks; a test covers the vectors of the RFC",
  [f"{G89}: magma_key", f"{G89}: Gost28147_TC26ParamSetZ", f"{G89}: gostcrypt", f"{G89}: gostdecrypt", f"{G89}: gost_init"])
P("C131", "With too little memory the engine's lookups fail cleanly",
  "If memory runs out while the engine is bound or a method is looked up, the call reports failure and nothing is damaged: every later call that gets memory, and every lookup of what was already made, is answered correctly.",
  "all histories of binds, inits and lookups, all allocators (any allocation may fail)", "every allocation of every history may be the one that fails; tests run with enough memory",
  [f"{EN}: dstu_digests", f"{EN}: dstu_ciphers", f"{EN}: dstu_pkey_meths", f"{EN}: dstu_asn1_meths", f"{EN}: dstu_engine_bind", f"{AM}: dstu_asn1_meth_new"])
P("C132", "Key parameters and octet strings are read from exactly their basic encodings",
  "Key parameters and octet strings are accepted exactly if the input begins with a BER encoding (X.690) of them, and are read as what is encoded, whatever follows: long and indefinite lengths and strings in parts included.  Keys written by others in such encodings are read as the keys they say.",
  "all inputs shorter than 2^31 bytes, all parameters, curves and keys", "infinitely many encodings of each value; the repository's tests use the distinguished ones",
  [f"{AS}: DSTU_AlgorithmParameters", f"{AS}: DSTU_CurveSpec", f"{AS}: DSTU_BinaryField", f"{AM}: dstu_asn1_param_decode", f"{AM}: dstu_asn1_priv_decode", f"{AM}: dstu_asn1_pub_decode", f"{PM}: dstu_pkey_verify"])
P("C133", "Copying the parameters of one key to another",
  "The parameter-copying method of the keys, given a source key with a curve, gives the target the source's curve and a copy of its S-box and keeps the target's own numbers; it leaves the source and all other memory as they were, leaks nothing, and when it fails the target is as it was.",
  "every content of the two keys, every heap around them and every choice of failing allocations", "the outcome depends on which allocation fails and on what the target owned before",
  [f"{AM}: dstu_asn1_param_copy", f"{KE}: copy_sbox", f"{KE}: DSTU_KEY_new"])
P("C134", "Key-6 files and curve attributes in any basic encoding",
  "A Key-6 file, or the curve attribute of a key, is read as what it encodes in whatever basic encoding (BER) it is written and whatever bytes follow it; a file that does not begin with an encoding of a container of the right type is refused and changes nothing; a file whose mac was changed is refused.",
  "every byte string given as a file or as an attribute value, every container, every basic encoding of it", "encodings of one container are unlimited in number (indefinite and long lengths, strings in parts), and every byte string is a possible input",
  [f"{IA}: IITStore", f"{IA}: IITHeader", f"{IA}: IITParams", f"{AT}: DSTU_AttrCurveSpec", f"{K6}: parseKey6", f"{UT}: makeECGROUP"])
P("C135", "Private and public keys as bytes, in any basic encoding",
  "Every basic encoding (BER: long or indefinite lengths, strings in parts, attributes in any number) of a PKCS#8 private key, of a SubjectPublicKeyInfo and of the encrypted key of a Java key store is read as exactly the algorithm, parameters, key string and attributes it encodes, whatever bytes follow; nothing is read from bytes that encode no such structure. The bytes of an exported key are such an encoding and are read back as exported. A key generated on a standard curve and carried as bytes, through export, a Key-6 file or a Java key store, makes signatures that its exported public key, also carried as bytes, accepts.",
  "all byte strings, all encodings of all structures shorter than 2^31 bytes, all attributes; all standard curves, random sources, passwords, paddings and containers", "Every structure has unboundedly many encodings; a test tries a few files made by one program.",
  [f"{AM}: dstu_asn1_pub_decode", f"{AM}: dstu_asn1_priv_decode", f"{AM}: dstu_asn1_priv_encode", f"{AM}: dstu_asn1_pub_encode", f"{UT}: keysFromPKCS8", f"{JK}: decryptKey", f"{K6}: parseKey6"])
P("C136", "Containers are read from open files to the end, and the files stay open",
  "Reading a PKCS#12 container, a Java key store or a Key-6 container from an open file takes the bytes from the file's position on, exactly those that can be read, and parses them; the file is not closed and its position is at the end of what was read; when nothing can be read the call fails and memory is as before. Whatever memory there is, a container that is not read leaves the memory as it was.",
  "All files, positions, points from which reading fails, sizes, allocators, memories, passwords and decoders of the contents.", "The number of chunks is unbounded and each may be the one that fails.",
  [f"{P12}: readPKCS12", f"{JK}: readJKS", f"{K6}: readKey6"])
P("C137", "Storing cipher parameters is all or nothing when memory runs out",
  "Storing the parameters of a cipher context in an ASN.1 holder returns 1, with the parameters in new blocks, the former value freed and all other memory as before, or returns -1, only when memory ran out, and the holder and the memory are as before; nothing else happens.",
  "All allocators, contexts, former values of the holder and memories.", "Every allocation may be the one that fails, for every former value.",
  [f"{CI}: dstu_cipher_set_asn1_parameters"])
P("C138", "Cipher parameters are accepted from bytes exactly in their distinguished encoding",
  "Of all byte strings given as encoded cipher parameters, those that begin with the DER encoding of an 8-byte IV and a 64-byte S-box are accepted, and that IV and S-box are selected; all others fail and leave the context as before. So any other basic (BER) encoding of the same parameters is refused.",
  "All byte strings, contexts, IVs, S-boxes and all basic encodings of them.", "The space of encodings, with long tags, long lengths, indefinite lengths and strings in parts, is infinite.",
  [f"{CI}: dstu_cipher_get_asn1_parameters"])
P("C139", "HMAC and PBKDF2 over the engine's digest are the standard ones",
  "With the digest the engine registers, OpenSSL's HMAC gives, for every key, every series of messages and every way of cutting each message in pieces, the HMAC of RFC 2104 over GOST 34.311; and the key derived from a password by PBKDF2 with this function is that of RFC 8018 for every password, salt, iteration count and key length. Other digest contexts that are in the middle of a message are not disturbed.",
  "All histories of digest calls before, keys, series of messages and their cuts, passwords, salts, iteration counts and key lengths.", "Copying of digest contexts with hidden state, restarted any number of times; no finite set of inputs covers the iteration counts and cuts.",
  [f"{EN}: bind_dstu", f"{MD}: dstu_md_copy", f"{MD}: dstu_md_cleanup", f"{MD}: dstu_md_init"])
P("C140", "Password-based encryption protects what it encrypts",
  "Data encrypted with a password under PBES2 with the engine's cipher and function is encrypted in CFB mode with the key derived from the password, whatever its length, with the S-box the parameters name, and is decrypted with the same password.",
  "All passwords, salts, iteration counts, IVs, S-boxes in the parameters, data, and histories of digest calls in the encrypting and the decrypting process.", "The result must depend on the password for every length of data and every S-box; a round-trip test passes on the broken cases.",
  [f"{EN}: bind_dstu", f"{CI}: dstu_cipher_ctrl", f"{CI}: dstu_cipher_init", f"{CI}: dstu_cipher_get_asn1_parameters", f"{CI}: dstu_cipher_set_asn1_parameters"])
P("C141", "A private key encrypted under a password with the engine's algorithms comes back and signs",
  "Take a key generated on a standard curve, export it, encode the private key in any basic encoding, encrypt it under a password by PBES2 with the engine's cipher and the engine's HMAC. Decrypting with the same password, in the same process or another, whatever digest contexts are in use, gives a key object whose signatures the exported public key accepts. A PKCS#12 container that holds this encrypted key, if it can be read, delivers that object.",
  "every standard curve, key type, S-box, random source, encoding of the key with any attributes, password, salt, iteration count, IV, masks, digest history before encryption and before decryption, and every readable container", "A test writes and reads one file in one process with one password and one encoding.",
  [f"{P12}: parsePKCS12", f"{P12}: fromBag", f"{CI}: dstu_cipher_init", f"{MD}: dstu_md_init", f"{EN}: bind_dstu"])
P("C142", "A container's MAC over the engine's digest is the standard one and protects its contents",
  "When a PKCS#12 container names the engine's digest, the key derived from the password is that of RFC 7292 over GOST 34.311, and the container is accepted exactly if the stored MAC is the HMAC of its contents under this key. Other digest contexts are not disturbed. With a wrong MAC nothing is delivered and nothing changes. Two different contents accepted with one password, salt, count and MAC give two messages with one digest.",
  "every digest history, password, salt, purpose, iteration count, key length, contents and stored MAC", "A test checks one password and one container; the derivation adds with carry over blocks, and the digest contexts are shared with other users.",
  [f"{P12}: parsePKCS12", f"{MD}: dstu_md_init", f"{MD}: dstu_md_final", f"{MD}: dstu_md_cleanup", f"{EN}: bind_dstu"])
P("C143", "The two key types are the same keys in the other byte order",
  "Let the same key, digest and random numbers be used with the big-endian and the little-endian key type. Signing succeeds or fails alike and reports the same length, and the two signatures encode a string and its reversal. A signature string is accepted by one exactly if its reversal is accepted by the other. Private and public keys are written or refused alike: the strings for the curve coefficient, the base point and the public point are reversed, everything else, the private number included, is the same. Reading encodings that correspond in this way is refused alike, or gives the same key apart from its type, provided none of these strings is empty.",
  "all keys (any group, with or without private and public part), digests, random sources, buffer sizes, signature strings, key parameters and key strings", "It relates two programs over all keys, digests, nonces and encodings; a test compares the two on a few keys, mostly with standard curves whose parameters contain no strings at all.",
  [f"{PM}: dstu_pkey_sign", f"{PM}: dstu_pkey_verify", f"{AM}: dstu_asn1_priv_encode", f"{AM}: dstu_asn1_priv_decode", f"{AM}: dstu_asn1_pub_encode", f"{AM}: dstu_asn1_pub_decode", f"{KE}: asn1_from_key", f"{KE}: group_from_asn1"])

with open(os.path.join(os.path.dirname(os.path.abspath(__file__)), "..", "properties.jsonl"), "w") as f:
    for o in OUT:
        f.write(json.dumps(o, ensure_ascii=False) + "\n")
print(len(OUT))

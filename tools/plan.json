{
 "C01": [
  "`gostcrypt`, `gostdecrypt` over a table context",
  "Feistel induction over the round-key list"
 ],
 "C02": [
  "same, with `kboxinit`, `gost_key` and an arbitrary mask",
  "refinement to a nibble-level GOST 28147-89 specification"
 ],
 "C03": [
  "`gost_key`, `gost_get_key`, `magma_*`",
  "word arithmetic mod 2^32"
 ],
 "C04": [
  "ECB loops over a byte memory with two pointers",
  "induction on the number of blocks"
 ],
 "C05": [
  "CFB loops, same memory",
  "induction, equality with the CFB equations"
 ],
 "C06": [
  "`mac_block`, `gost_mac`, `gost_mac_iv`, `get_mac`",
  "loop = fold over padded blocks"
 ],
 "C07": [
  "`get_mac`",
  "refuted for every length that is not whole bytes; actual behaviour stated"
 ],
 "C08": [
  "loop with a 32-bit index",
  "refuted: the loop reads past the data; the exact boundary"
 ],
 "C09": [
  "key meshing functions",
  "equations against the specification"
 ],
 "C10": [
  "EVP cipher context machine; memory-level update",
  "invariant linking (num, buffer, IV) to the position in the CFB stream"
 ],
 "C11": [
  "EVP cipher context machine; memory-level update",
  "invariant linking (num, buffer, IV) to the position in the CFB stream"
 ],
 "C12": [
  "EVP cipher context machine; memory-level update",
  "invariant linking (num, buffer, IV) to the position in the CFB stream"
 ],
 "C13": [
  "EVP cipher context machine; memory-level update",
  "invariant linking (num, buffer, IV) to the position in the CFB stream"
 ],
 "C14": [
  "parameter export and import on bytes",
  "DER specification and S-box round trip"
 ],
 "C17": [
  "parameter export and import on bytes",
  "DER specification and S-box round trip"
 ],
 "C15": [
  "cipher context machine",
  "refuted for all inputs of a shape; the positive part proved"
 ],
 "C16": [
  "cipher context machine",
  "refuted for all inputs of a shape; the positive part proved"
 ],
 "C18": [
  "`hash_step`, `hash_block`, `finish_hash`",
  "refinement to a 256-bit integer specification"
 ],
 "C19": [
  "buffering machine",
  "invariant: state = fold over whole blocks + remainder"
 ],
 "C20": [
  "buffering machine",
  "invariant: state = fold over whole blocks + remainder"
 ],
 "C21": [
  "heap of contexts with their self-pointers",
  "simulation with a map from contexts to (S-box, bytes)"
 ],
 "C22": [
  "heap of contexts with their self-pointers",
  "simulation with a map from contexts to (S-box, bytes)"
 ],
 "C23": [
  "signed 64-bit shift",
  "undefined exactly from 2^60 bytes on"
 ],
 "C24": [
  "generator machine",
  "stream invariant"
 ],
 "C25": [
  "threads as interleavings",
  "linearisation by the lock"
 ],
 "C26": [
  "generator machine with lock and free flags",
  "invariants over histories; refutations"
 ],
 "C27": [
  "generator machine with lock and free flags",
  "invariants over histories; refutations"
 ],
 "C28": [
  "generator machine with lock and free flags",
  "invariants over histories; refutations"
 ],
 "C29": [
  "generator machine with lock and free flags",
  "invariants over histories; refutations"
 ],
 "C30": [
  "S-box packing, byte reversal, `bn_encode`",
  "list and bit arithmetic; refutation for zero"
 ],
 "C31": [
  "S-box packing, byte reversal, `bn_encode`",
  "list and bit arithmetic; refutation for zero"
 ],
 "C32": [
  "S-box packing, byte reversal, `bn_encode`",
  "list and bit arithmetic; refutation for zero"
 ],
 "C33": [
  "S-box packing, byte reversal, `bn_encode`",
  "list and bit arithmetic; refutation for zero"
 ],
 "C34": [
  "curve tables",
  "Rabin irreducibility test, addition-chain and Pocklington certificates, each with a proved checker; the group law proved algebraically"
 ],
 "C35": [
  "key generation loop over a random source",
  "induction on retries"
 ],
 "C36": [
  "compression over GF(2)[X]/p",
  "trace and half-trace theory for irreducible p of odd degree"
 ],
 "C37": [
  "compression over GF(2)[X]/p",
  "trace and half-trace theory for irreducible p of odd degree"
 ],
 "C38": [
  "compression over GF(2)[X]/p",
  "trace and half-trace theory for irreducible p of odd degree"
 ],
 "C39": [
  "`dstu_do_sign`, `dstu_do_verify` over the proved group",
  "algebra mod n, induction over the nonce stream"
 ],
 "C40": [
  "`dstu_do_sign`, `dstu_do_verify` over the proved group",
  "algebra mod n, induction over the nonce stream"
 ],
 "C41": [
  "`dstu_do_sign`, `dstu_do_verify` over the proved group",
  "algebra mod n, induction over the nonce stream"
 ],
 "C42": [
  "`dstu_do_sign`, `dstu_do_verify` over the proved group",
  "algebra mod n, induction over the nonce stream"
 ],
 "C43": [
  "`dstu_do_sign`, `dstu_do_verify` over the proved group",
  "algebra mod n, induction over the nonce stream"
 ],
 "C44": [
  "`dstu_do_sign`, `dstu_do_verify` over the proved group",
  "algebra mod n, induction over the nonce stream"
 ],
 "C45": [
  "`dstu_pkey_sign`, `dstu_pkey_verify` with DER OCTET STRING",
  "round trip; refutation for the bare form"
 ],
 "C46": [
  "`dstu_pkey_sign`, `dstu_pkey_verify` with DER OCTET STRING",
  "round trip; refutation for the bare form"
 ],
 "C47": [
  "ASN.1 structures and keys as records",
  "round trips; refutations"
 ],
 "C48": [
  "ASN.1 structures and keys as records",
  "round trips; refutations"
 ],
 "C49": [
  "ASN.1 structures and keys as records",
  "round trips; refutations"
 ],
 "C50": [
  "ASN.1 structures and keys as records",
  "round trips; refutations"
 ],
 "C51": [
  "ASN.1 structures and keys as records",
  "round trips; refutations"
 ],
 "C52": [
  "text option parser",
  "exact set of accepted texts"
 ],
 "C53": [
  "heap of contexts and keys, all calls, any allocation failing",
  "simulation with a specification without memory, over all histories"
 ],
 "C54": [
  "key store heap with ownership",
  "invariant over histories"
 ],
 "C55": [
  "key store heap with ownership",
  "invariant over histories"
 ],
 "C56": [
  "bag trees, count and fill passes",
  "mutual induction on the tree"
 ],
 "C57": [
  "bag trees, count and fill passes",
  "mutual induction on the tree"
 ],
 "C58": [
  "byte-level JKS parser with an out-of-bounds outcome",
  "parser/serialiser round trip; refutations"
 ],
 "C59": [
  "byte-level JKS parser with an out-of-bounds outcome",
  "parser/serialiser round trip; refutations"
 ],
 "C60": [
  "byte-level JKS parser with an out-of-bounds outcome",
  "parser/serialiser round trip; refutations"
 ],
 "C61": [
  "byte-level JKS parser with an out-of-bounds outcome",
  "parser/serialiser round trip; refutations"
 ],
 "C62": [
  "byte-level JKS parser with an out-of-bounds outcome",
  "parser/serialiser round trip; refutations"
 ],
 "C63": [
  "byte-level JKS parser with an out-of-bounds outcome",
  "parser/serialiser round trip; refutations"
 ],
 "C64": [
  "Key-6 container",
  "ECB and CFB inverse; the MAC is not looked at"
 ],
 "C65": [
  "Key-6 container",
  "ECB and CFB inverse; the MAC is not looked at"
 ],
 "C66": [
  "attribute scan, bit reversal, polynomial readers",
  "induction over attributes and strings"
 ],
 "C67": [
  "attribute scan, bit reversal, polynomial readers",
  "induction over attributes and strings"
 ],
 "C70": [
  "attribute scan, bit reversal, polynomial readers",
  "induction over attributes and strings"
 ],
 "C68": [
  "chunked read loop",
  "induction over the chunks; refutation"
 ],
 "C69": [
  "chunked read loop",
  "induction over the chunks; refutation"
 ],
 "C71": [
  "engine objects",
  "invariant over histories; refutations"
 ],
 "C72": [
  "engine objects",
  "invariant over histories; refutations"
 ],
 "C73": [
  "two threads",
  "refuted by an interleaving; invariant after the first lookup"
 ],
 "C74": [
  "error-string flags",
  "invariant over histories"
 ],
 "C75": [
  "`toUTF16BE` over a piecewise converter",
  "induction over the conversion steps"
 ],
 "C76": [
  "JKS entry loop",
  "refuted for every unknown algorithm"
 ],
 "C77": [
  "`dstu_asn1_pub_cmp`, `dstu_asn1_param_cmp`",
  "exact condition for defined behaviour and equality"
 ],
 "C78": [
  "decoders of parameters and keys",
  "refuted for all data of a shape; the positive part proved"
 ],
 "C79": [
  "decoders of parameters and keys",
  "refuted for all data of a shape; the positive part proved"
 ],
 "C80": [
  "decoders of parameters and keys",
  "refuted for all data of a shape; the positive part proved"
 ],
 "C81": [
  "heap of contexts and keys, all calls, any allocation failing",
  "weakest preconditions with a frame rule; invariant over histories"
 ],
 "C84": [
  "heap of contexts and keys, all calls, any allocation failing",
  "weakest preconditions with a frame rule; invariant over histories"
 ],
 "C85": [
  "heap of contexts and keys, all calls, any allocation failing",
  "weakest preconditions with a frame rule; invariant over histories"
 ],
 "C82": [
  "EVP_PKEY_copy_parameters with the engine's methods",
  "refuted for every key"
 ],
 "C83": [
  "`asn1_from_key` with unwritten array cells",
  "undefined exactly for some trinomials"
 ],
 "C86": [
  "`makePKey` with every allocation",
  "weakest preconditions with a frame rule; refutations"
 ],
 "C87": [
  "`makePKey` with every allocation",
  "weakest preconditions with a frame rule; refutations"
 ],
 "C88": [
  "`makePKey` with every allocation",
  "weakest preconditions with a frame rule; refutations"
 ],
 "C89": [
  "`makePKey` with every allocation",
  "weakest preconditions with a frame rule; refutations"
 ],
 "C90": [
  "encoders and decoders of keys",
  "against a separate description of the wire format (Spec_Wire, DER rules)"
 ],
 "C91": [
  "encoders and decoders of keys",
  "against a separate description of the wire format (Spec_Wire, DER rules)"
 ],
 "C92": [
  "key completion on the standard groups",
  "prime order and the group law"
 ],
 "C93": [
  "generation, storage, loading, signing, verification composed",
  "composition of C35, C45, C48, C49, C92"
 ],
 "C94": [
  "`h_print` over the heap of contexts",
  "symbolic execution over any allocator"
 ],
 "C95": [
  "`h_print`",
  "the printed text depends on the EC key only"
 ],
 "C96": [
  "`asn1_ctrl` with each allocation of X509_ALGOR_set0",
  "case analysis"
 ],
 "C97": [
  "dstulib/compress.c, engine/sign.c, dstulib/params.c and dstulib/key.c again, each OpenSSL call that allocates a step that may fail (`Model_Oom`)",
  "weakest preconditions against the value model; evaluation on a curve over GF(2^5) for the failure, and for all curves the count of the allocations before it"
 ],
 "C98": [
  "dstulib/compress.c, engine/sign.c, dstulib/params.c and dstulib/key.c again, each OpenSSL call that allocates a step that may fail (`Model_Oom`)",
  "weakest preconditions against the value model; evaluation for the failure"
 ],
 "C99": [
  "dstulib/compress.c, engine/sign.c, dstulib/params.c and dstulib/key.c again, each OpenSSL call that allocates a step that may fail (`Model_Oom`)",
  "weakest preconditions against the value model, induction over the random values"
 ],
 "C100": [
  "dstulib/compress.c, engine/sign.c, dstulib/params.c and dstulib/key.c again, each OpenSSL call that allocates a step that may fail (`Model_Oom`)",
  "every attempt with the digest 0 gives r = 0; induction on the number of attempts"
 ],
 "C101": [
  "dstulib/compress.c, engine/sign.c, dstulib/params.c and dstulib/key.c again, each OpenSSL call that allocates a step that may fail (`Model_Oom`)",
  "weakest preconditions; no generator of the table is on the curve with a = 0"
 ],
 "C102": [
  "dstulib/compress.c, engine/sign.c, dstulib/params.c and dstulib/key.c again, each OpenSSL call that allocates a step that may fail (`Model_Oom`)",
  "weakest preconditions and the round trip of C47"
 ],
 "C103": [
  "dstulib/compress.c, engine/sign.c, dstulib/params.c and dstulib/key.c again, each OpenSSL call that allocates a step that may fail (`Model_Oom`)",
  "weakest preconditions; negation of the expanded point"
 ],
 "C104": [
  "`pkey_size`, `pkey_bits`, `pkey_sign`",
  "case analysis on C45; evaluation of the table"
 ],
 "C105": [
  "`Model_Kmem`: the readers over a heap of allocated objects with any allocator",
  "separation style triples over the heap up to permutation; simulation of the value models"
 ],
 "C106": [
  "`Model_Kmem` with one allocation failing",
  "symbolic execution for every container; triples for any allocator"
 ],
 "C107": [
  "`Model_Kmem` with one allocation failing",
  "symbolic execution for every container; triples for any allocator"
 ],
 "C108": [
  "`Model_Kmem` with one allocation failing",
  "symbolic execution of the conversion and of the rest of the read for every store"
 ],
 "C109": [
  "`Model_Evp`: EVP_DigestSign / EVP_DigestVerify over `md_run`, `pkey_sign` and `pkey_verify`",
  "refinement of C84 for the digest, then composition as in C93"
 ],
 "C110": [
  "`Model_Wipe`: what jks.c, key6.c and ameth.c release without clearing, computed along the parsers of `Model_Jks`, `Model_Key6` and `Model_Ameth`",
  "inversion of a successful parse (as C60), then induction over the entries"
 ],
 "C111": [
  "`Model_Rbg`; `Spec_RbgBack` runs the generator backwards with the decryption function and the contents of its memory",
  "invariant over histories as C24, with decryption inverting encryption (C01)"
 ],
 "C112": [
  "`Model_Rbg` as in C24",
  "injectivity of the step from C111; pigeonhole over the 2^64 states"
 ],
 "C113": [
  "`Model_Cipher` as in C10; `Spec_Locality` names the block before a position and strings that differ in one block",
  "from C10 by induction over blocks; injectivity of the block cipher for the change that shows"
 ],
 "C114": [
  "`Model_Gost89` (gost_mac, gost_mac_iv) as in C06",
  "from C06: the 16 rounds are one-to-one, so a difference in one block survives; rewriting of the padded blocks for the refutations"
 ],
 "C115": [
  "`Model_Sign`",
  "from C41 and C44: multiplication by x is one-to-one in the field, then counting; twins by adding 2^255"
 ],
 "C116": [
  "`Model_Sign`",
  "from C40, arithmetic modulo a prime; group law (C34) for the second signature"
 ],
 "C117": [
  "`Model_Sign`",
  "from C41: the digest is r / x in the field (inverse proved to exist in C36's field theory); group law for the point"
 ],
 "C118": [
  "`Model_Sign`",
  "from C41 and the group law (C34): s G + r Q' = -(s G + r Q); counting as for C115, two points per x coordinate"
 ],
 "C119": [
  "rbg.c as a transition system with one step per access to the statics, the lock created by the first call, and undefined behaviour as an outcome (Model_RbgMt.v).",
  "Invariant relating every reachable world to a sequential history (the holder of the lock will end as the sequential call would); progress by a measure on the holder's remaining steps."
 ],
 "C120": [
  "The same transition system.",
  "Schedule built for any such program: run the cleaning thread until the lock is freed, then the other."
 ],
 "C121": [
  "The cipher and MAC models of C10 and C06, constant-row S-boxes as a predicate on the 64 bytes (Spec_Flat.v).",
  "With constant rows the round function is constant, four rounds are the identity; then the specifications proved in C10 and C06."
 ],
 "C122": [
  "The digest, key and message models of C18, C93 and C109.",
  "Linearity of the step function over xor for constant-row S-boxes; the pattern's image is followed through two steps on the 16 words, one boolean per word, for all values of the word at once."
 ],
 "C123": [
  "The block cipher model of C01 and C02.",
  "The round key sequences of encryption and decryption coincide; then C02 and C01."
 ],
 "C124": [
  "cipher context machine over many contexts, copies included",
  "simulation between the code and the reference, one lemma per call, induction over the history"
 ],
 "C125": [
  "cipher context as EVP_CIPHER_CTX_new leaves it, initialised without a key",
  "refuted for all inputs: exact output"
 ],
 "C126": [
  "the two orders of calls on the cipher context machine",
  "exact output for short first pieces, round trip for the others"
 ],
 "C127": [
  "The generator with an arbitrary system generator as a state machine (Model_RbgSys)",
  "invariant: initialised or freed; the bytes of a history are a prefix of one stream"
 ],
 "C128": [
  "fork as a copy of the statics with any state of the system generator in the child",
  "both streams are prefixes of one; composed with the same-nonce theorem of C116"
 ],
 "C129": [
  "The container models with EVP_PKCS82PKEY tied to the model of the engine's private key decoding (Spec_Stored)",
  "composition of C64, C59, C56, C67, C93 and C109"
 ],
 "C130": [
  "`Model_Sboxes`: all predefined blocks",
  "refinement of the proved GOST 28147 specification to Magma; a proved permutation check"
 ],
 "C131": [
  "the engine's method objects with an allocator that may fail at any point (Model_Engine)",
  "comparison with the same history under an allocator that does not fail, invariant over the history; the crashes are undefined outcomes of the model"
 ],
 "C132": [
  "OpenSSL's decoder as it treats the templates of asn1.c: headers, lengths, indefinite forms, strings in parts, choices, the optional S-box (Model_Asn1)",
  "a grammar of BER (Spec_Ber); induction over the parts of strings, both directions; mutual induction on the grammar"
 ],
 "C133": [
  "h_param_copy on the heap of Model_Ctx (ameth.c:91-132), with EC_KEY_set_group freeing the old group first",
  "separation-style execution over both keys' cells; the outcomes are listed in Spec_Copy"
 ],
 "C134": [
  "the templates of iit_asn1.c and attrcurvespec_asn1.c as decoders over the BER decoder of Model_Asn1; identifiers by their numbers",
  "completeness and soundness of each template by those of its parts (Proof_Ber); base 128 numbers are read injectively; composed with C64, C65 and C86"
 ],
 "C135": [
  "Model_P8: OpenSSL's decoders and encoders of PKCS8_PRIV_KEY_INFO, X509_PUBKEY, X509_SIG, X509_ALGOR, X509_ATTRIBUTE and ANY on byte strings",
  "the encodings are relations (Spec_P8) that do not mention the decoders; completeness and soundness by induction over them; the chains join C129, C132, C134 with the byte level"
 ],
 "C136": [
  "`Model_File`: FILE with contents, position and a point from which reads fail; BIO_new_fp with BIO_NOCLOSE; the chunk loop of read*_bio over it.",
  "induction on what is left in the file, with the memory triples of `Proof_Kmem`."
 ],
 "C137": [
  "`Model_CipherMem`: ASN1_TYPE_set1 with its allocations.",
  "memory triples of `Proof_Kmem`."
 ],
 "C138": [
  "`Model_CipherMem`: the decoder of values of any type (`Model_P8`) followed by `get_asn1`.",
  "case analysis on identifier and length octets: 78 bytes with the checked bytes in place leave only one form."
 ],
 "C139": [
  "`Model_Pbe`: HMAC_Init_ex, HMAC_Update, HMAC_Final, HMAC_CTX_copy and PKCS5_PBKDF2_HMAC of OpenSSL calling the digest callbacks of `Model_Hash` on three contexts each.",
  "refinement to `Spec_Md` call by call, then induction on pieces, messages, rounds and blocks; RFC 2104 and RFC 8018 are stated in `Spec_Pbe`."
 ],
 "C140": [
  "`Model_Pbe`: PKCS5_pbe2_set_iv, PKCS5_v2_PBE_keyivgen, PKCS5_v2_PBKDF2_keyivgen and one EVP_CipherUpdate, calling the cipher callbacks of `Model_Cipher` in OpenSSL's order: parameters first, key afterwards.",
  "C139 for the key, the exact results of C15 for the order of the calls."
 ],
 "C141": [
  "Model_P12 shrouded over Model_Pbe, Model_P8, Model_Pkcs12",
  "composition of C140 (password-based encryption), C135 (encodings) and C93/C56"
 ],
 "C142": [
  "Model_P12 key_gen, gen_mac, verify_mac over the digest contexts of Model_Hash",
  "induction over blocks and iterations with the context invariant of C139; add-with-carry equals addition of numbers; a MAC match reduces to a digest collision"
 ],
 "C143": [
  "`pkey_sign`, `pkey_verify`, `priv_encode`, `priv_decode`, `pub_encode`, `pub_decode` with the two types",
  "the two runs step by step, over the specification of reversed parameters (`Spec_Mirror`)"
 ]
}
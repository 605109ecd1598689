# Formal model of dstu-engine: design

Everything lives in `rocq/theories` (logical name `Verif`), Coq 8.16.1, standard library
only. The code in `/repo` is read as text; it is never built or run here, so the tie between
model and code is the citation on every definition.

This file is written by `tools/gen_design.py` from `tools/design_head.md` (this text),
`tools/plan.json` (what is modelled and how it is proved) and the theorem statements.

## File layout and conventions

* `Model_*.v`  - the model: total computable Gallina functions, one per C function, each with
  a comment giving file and lines. No proofs.
* `Spec_*.v`   - small specifications that do not use the model's helpers: the standard's
  formulas, abstract lists, maps and streams, the DER rules. They mention model types (a key,
  a group) only to say what is being described.
* `Proof_*.v`  - lemmas. No theorem statement uses a definition from these files.
* `Prop_*.v`   - only the property theorems (closed by `exact`), `Print Assumptions` under
  each, and an `Example` showing a concrete case that meets the hypotheses.
* `Base.v`, `Lib.v` - bytes as `N`, list helpers.

Bytes and machine words are `N` with explicit bounds; C wrap-around is written as `mod 2^32`
(or `mod 2^64`); `int` values are `Z`. Loops are structural recursion or fuel; running out of
fuel is a separate outcome. Undefined behaviour (out-of-bounds access, use after free, NULL
dereference, read of an unwritten field, signed overflow) is a separate outcome, never a
default value. Calls into OpenSSL are section variables or explicit arguments; what is assumed
of them is a visible hypothesis of the theorem. No `Axiom`, `Parameter` or section-less
`Variable` is used; no functor or module type is defined.

If the code violates a property the theorem is called `..._refuted` and exhibits the violating
inputs, for all of them where that is possible; further theorems state what does hold.

Theorems are tested against wrong programs with `tools/mutate.py`: it edits one definition in
a scratch copy, rebuilds, admits the lemmas that break and reports which property theorems
depend on them. The edits are in `seeded/mutants_*.json`, the results in `seeded/LOG.jsonl`.

## Trusted base

* Coq's kernel, including `vm_compute`; `coqchk` (which has no `vm_compute`) rechecks every file.
* Axioms: none. `Print Assumptions` says "Closed under the global context" for every property
  theorem. (The modules of `Coq.ssr`, loaded with the standard library, declare seven constants of
  `Coq.ssr.ssrunder`; no theorem depends on them.)
* The reading of the C code: the model functions are hand-written from the cited lines. As a check the
  signature model was once extracted to OCaml and run on the test vector of `tests/dstu.cpp` for
  the curve of degree 163: it gave the expected signature and accepted it.
* The curve tables, S-boxes and constants in the models were copied from the source by a script.
* What OpenSSL computes, as stated in the models:
  * BIGNUM functions compute with mathematical integers; BN_GF2m functions with polynomials over
    GF(2) (`Model_Gf2m`); BN_GF2m_mod_solve_quad is any function that returns a solution of
    z^2+z=a if there is one (`good_solver`; an instance is given and proved).
  * EC_POINT functions for binary curves use the affine formulas of `Model_Ec`; that these form a
    group is proved, not assumed. EC_GROUP_new_curve_GF2m, EC_GROUP_set_generator and EC_GROUP_cmp
    check what `Model_Ec`, `Model_Curves` and `Model_Key` say.
  * BN_rand_range and RAND_bytes: any source of values; range hypotheses (`ranged`) are visible.
  * The ASN.1 template engine: the encoder writes DER and the decoder reads BER as `Model_Asn1`, `Model_KeyFile` and `Model_P8` say.
    Theorems that need less are stated for any decoder of distinguished encodings (`reads_params`,
    `reads_octets`); C132 shows that the modelled one is such a decoder.
  * EVP dispatch: which method is called with which context; EVP_CIPHER_CTX fields; digest contexts
    as blocks of memory (`Model_Cipher`, `Model_Hash`).
  * Memory: `malloc` is any function that never returns a live address and may fail at any call
    (`allocator`); where a model says "memory is sufficient" it never fails.
  * Locks give mutual exclusion; threads are interleavings of atomic steps (`Model_Rbg`,
    `Model_Engine`).
  * iconv converts piecewise into the buffer it is given (`Model_Utf16`); SHA-1 and PBES1
    decryption are functions (`Model_Jks`).

## What is modelled

| code | model | not modelled |
|------|-------|--------------|
| dstulib/gost/gost89.c | `Model_Gost89`, `Model_Sboxes`: everything | - |
| dstulib/gost/gosthash.c, engine/md.c | `Model_Hash`: everything, contexts as heap objects; `Model_Evp`: the digest and the key method as OpenSSL joins them; `Model_Pbe`: HMAC and PBKDF2 of OpenSSL over the digest, `Model_P12`: its PKCS#12 key derivation | - |
| engine/cipher.c | `Model_Cipher`: everything but the method object; `Model_CipherHist`: histories of calls on many contexts; `Model_CipherMem`: storing parameters when memory runs out, reading them from bytes; `Model_Pbe`: password-based encryption (PBES2) of OpenSSL with the cipher | - |
| engine/rbg.c | `Model_Rbg`: everything, with threads for bytes; `Model_RbgMt`: all functions with threads, the creation and the free of the lock; `Model_RbgSys`: add and seed with an arbitrary system generator, and fork | the C11 memory model: every access to the statics is a step of its own, in program order |
| engine/sign.c | `Model_Sign` (values), `Model_Oom` (failing allocations) | - |
| engine/pmeth.c | `Model_Pmeth` (values), `Model_Ctx` (memory) | - |
| engine/ameth.c | `Model_Key`, `Model_Ameth` (values), `Model_Ctx` (memory), `Model_Print` | - |
| engine/dstu.c, engine/err.c | `Model_Engine`, `Model_Err`: everything, with threads | registration inside OpenSSL |
| dstulib/params.c | `Model_Params`, `Model_Curves`, `Model_Sign` (values), `Model_Oom` (failing allocations) | - |
| dstulib/compress.c | `Model_Compress` (values), `Model_Oom` (failing allocations) | - |
| dstulib/key.c | `Model_Key` (values), `Model_Ctx` (memory; asn1_from_key after the first allocation, and group_from_asn1, are one step), `Model_Oom` (these step by step) | - |
| dstulib/asn1.c | `Model_Asn1` | - |
| keylib/keystore.c | `Model_KeyStore`: everything, `Model_Kmem` (memory) | - |
| keylib/pkcs12.c | `Model_Pkcs12`: everything, `Model_Kmem` (memory); `Model_P12`: OpenSSL's MAC check and its decryption of shrouded key bags, with the engine's algorithms | decoding of the PKCS#12 structure inside OpenSSL |
| keylib/jks.c | `Model_Jks`, `Model_Utf16`: everything, `Model_Kmem` (memory), `Model_Wipe` (what stays in released memory) | - |
| keylib/key6.c, iit_asn1.c | `Model_Key6`: everything, `Model_KeyFile` (the decoder), `Model_Kmem` (memory) | - |
| keylib/utils.c, attrcurvespec_asn1.c | `Model_Utils`, `Model_Iit`, `Model_KeyFile` (the decoder), `Model_P8` (OpenSSL's PKCS#8, public key and X509_SIG decoders on bytes), `Model_Kmem` (memory) | - |
| read*_bio and read* in keylib | `Model_ReadBio`, `Model_File` | - |
| tests, checks, build files | - | all |

## Properties


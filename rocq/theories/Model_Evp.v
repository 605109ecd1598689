(** EVP_DigestSign and EVP_DigestVerify with the digest of engine/md.c and the keys of
    engine/pmeth.c, as OpenSSL 1.1.1 (crypto/evp/m_sigver.c) puts them together: the digest is
    initialised in a context that has the key, fed, and finished in a copy of the context; the
    key method signs or verifies the digest. *)
From Coq Require Import ZArith.
From Verif Require Import Base Model_Gost89 Model_Hash Model_Sign Model_Pmeth.

(** What dstu_md_init sees of the key (md.c:29-32). *)
Definition md_key_of (pk : pkey) : md_key := Some (Some (option_map dk_sbox (pk_key pk))).
(** EVP_DigestSignInit / EVP_DigestVerifyInit (md.c:25-39), updates (md.c:41-44), and what both
    finals do: EVP_MD_CTX_copy_ex (md.c:51-61), final (md.c:46-49), cleanup of the copy
    (md.c:63-69).  The memory of the two contexts ([h], [c] and [h'], [c']) is whatever was there. *)
Definition evp_digest (h h' : hash_ctx) (c c' : gost_ctx) (pk : pkey) (ds : list (list N)) : option (list N) :=
  match md_run md_empty (MAlloc 0 h c :: MInit 0 (md_key_of pk) :: map (MUpdate 0) ds ++ [MAlloc 1 h' c'; MCopy 1 0; MFinal 1; MCleanup 1; MFree 1]) with
  | Some (_, [d]) => Some d
  | _ => None
  end.
(** EVP_DigestSignFinal with a buffer of [siglen] bytes (pmeth.c:228-314); None: undefined. *)
Definition digest_sign (h h' : hash_ctx) (c c' : gost_ctx) (fuel : nat) (pk : pkey) (ds : list (list N)) (siglen : N) (src : source) : option (outcome (bool * N * list N)) :=
  match evp_digest h h' c c' pk ds with None => None | Some d => Some (pkey_sign fuel (Some pk) true siglen d src) end.
(** EVP_DigestVerifyFinal (pmeth.c:316-395). *)
Definition digest_verify (h h' : hash_ctx) (c c' : gost_ctx) (d2o : list N -> option (list N)) (pk : pkey) (ds : list (list N)) (sig : list N) : option bool :=
  match evp_digest h h' c c' pk ds with None => None | Some d => Some (pkey_verify d2o (Some pk) sig d) end.

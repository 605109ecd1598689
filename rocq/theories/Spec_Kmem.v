(** What a key store is in memory, and what reading a container may leave there. *)
From Coq Require Import Permutation.
From Verif Require Import Base Model_Utils Model_Jks Model_Key6 Model_ReadBio Model_Kmem Spec_Keylib Spec_Key6 Spec_Jks.

(** An allocator gives addresses not in use. *)
Definition kallocator (malloc : nat -> kheap -> option nat) : Prop := forall n h p, malloc n h = Some p -> ~ In p (map fst h).
Definition kenough (malloc : nat -> kheap -> option nat) : Prop := forall n h, malloc n h <> None.
(** No address twice. *)
Definition kheap_ok (h : kheap) : Prop := NoDup (map fst h).
(** An allocator of which the allocations not in [ok] fail. *)
Definition kabove (h : kheap) : nat := fold_right (fun p m => Nat.max (S (fst p)) m) 0%nat h.
Definition kmalloc (ok : nat -> bool) : nat -> kheap -> option nat := fun n h => if ok n then Some (kabove h) else None.
Definition kfails_at (k : nat) : nat -> kheap -> option nat := kmalloc (fun n => negb (Nat.eqb n k)).

(** The slots of an array and the objects they point to; an empty slot is None. *)
Inductive slots (mk : nat -> kobj) : list kcell -> list (option nat) -> kheap -> Prop :=
| slots_nil : slots mk [] [] []
| slots_none : forall l vs c, slots mk l vs c -> slots mk (At None :: l) (None :: vs) c
| slots_some : forall p v l vs c, slots mk l vs c -> slots mk (At (Some p) :: l) (Some v :: vs) ((p, mk v) :: c).
(** An array with its objects; no array if there is nothing to hold. *)
Definition half (mk : nat -> kobj) (cell : kcell) (vs : list (option nat)) (c : kheap) : Prop :=
  vs = [] /\ cell = At None /\ c = [] \/
  exists a l objs, vs <> [] /\ cell = At (Some a) /\ slots mk l vs objs /\ c = (a, KArr l) :: objs.
(** The memory [c] is a store at [q] with these slots. *)
Definition stores (q : nat) (ks cs : list (option nat)) (c : kheap) : Prop :=
  exists ck cc hk hc, half KPkey ck ks hk /\ half KCert cc cs hc /\ c = (q, KStore (length ks) ck (length cs) cc) :: hk ++ hc.
(** From memory [h] to [h']: a store at [q] with these keys and certificates was added, nothing else. *)
Definition store_added (q : nat) (keys certs : list nat) (h h' : kheap) : Prop :=
  exists c, stores q (map Some keys) (map Some certs) c /\ Permutation (c ++ h) h'.
(** Everything is as before. *)
Definition unchanged (h h' : kheap) : Prop := Permutation h h'.

(** What was got and released again but for one buffer. *)
Definition one_buffer_left (h h' : kheap) : Prop := exists d, Permutation ((d, KTemp) :: h) h'.
Definition two_buffers_left (h h' : kheap) : Prop := exists d d', Permutation ((d, KTemp) :: (d', KTemp) :: h) h'.

(** A stream that gives these bytes and then ends or fails. *)
Definition delivers (evs : list rd_event) (data : list N) : Prop :=
  exists chunks last tl, evs = map (fun b => RdData b true) chunks ++ last :: tl /\ Forall (fun b => b <> []) chunks /\ data = concat chunks /\
    (last = RdEnd \/ last = RdError \/ exists w, last = RdData [] w).

(** The keys in a PKCS#8 structure: the key and, if the attributes hold one, a second. *)
Definition keys_in {spec grp} (ae : attr_env spec grp) (i : p8info) (l : list nat) : Prop :=
  exists k1 second, p8_pkey i = Some k1 /\ l = k1 :: second /\
    ((exists k2, second = [k2] /\ second_key ae (p8_attrs i) k2) \/ (second = [] /\ ~ exists k2, second_key ae (p8_attrs i) k2)).
(** What the key decoder sees of a Key-6 container: the whole blocks decrypted, then memory. *)
Definition key6_seen (r : k6_run) (data : list N) (pad : option (list N)) (password : list N) : list N :=
  let c := key6_cipher data pad in let whole := (8 * (length c / 8))%nat in
  key6_decrypt (key6_key password) (firstn whole c) ++ rd (k6_mem r) (k6_res r + N.of_nat whole) (length c + 8 - whole).

(** Entries of a Java key store that cannot be read: of unknown kind, protected with another
    password, or a certificate that cannot be decoded. *)
Inductive refused {spec grp} (e : jks_env spec grp) (keyPass : list N) : nat -> list N -> Prop :=
| refused_kind : forall k tag, tag < 2 ^ 32 -> tag <> 1 -> tag <> 2 -> refused e keyPass k (be_bytes 4 tag)
| refused_password : forall k alias stamp blob chain pwd16 salt enc check, entry_fits (KeyEntry alias stamp blob chain) -> password16 e keyPass pwd16 ->
    je_sig e blob = Some (sun_key_protector, salt ++ enc ++ check) -> length salt = 20%nat -> length check = 20%nat ->
    je_sha1 e (pwd16 ++ crypt (je_sha1 e) pwd16 salt enc) <> check -> refused e keyPass k (enc_entry (KeyEntry alias stamp blob chain))
| refused_cert : forall k c, cert_fits c -> je_x509 e k (c_der c) = None -> refused e keyPass k (enc_entry (BareCert c)).

(** Some of the elements, in order. *)
Inductive some_of {A} : list A -> list A -> Prop :=
| some_nil : some_of [] []
| some_keep : forall x l l', some_of l l' -> some_of (x :: l) (x :: l')
| some_drop : forall x l l', some_of l l' -> some_of l (x :: l').

(** Model of keylib/keystore.c. *)
From Verif Require Import Base.

(** A slot of the keys or certs array: not yet written (after OPENSSL_clear_realloc), NULL,
    or a pointer to object number n. *)
Inductive cell := Undef | Null | Ptr (n : nat).

(** keystore.c:8-14 struct KeyStore_st: count and array pointer (None = NULL). *)
Record half := HALF { h_num : nat; h_arr : option (list cell) }.
(** keystore.c:8-14 *)
Record store := KS { ks_keys : half; ks_certs : half }.

(** Memory: the stores that exist, by address, and the keys and certificates released so
    far.  A finite memory, so that an address not in use always exists. *)
Record heap := HEAP { hp_stores : list (nat * store); hp_fk : list nat; hp_fc : list nat }.
(** Look-up by address. *)
Fixpoint assoc (l : list (nat * store)) (i : nat) : option store :=
  match l with [] => None | (j, s) :: t => if Nat.eqb i j then Some s else assoc t i end.
(** The store at an address. *)
Definition hp_store (h : heap) (i : nat) : option store := assoc (hp_stores h) i.
(** A write of a whole store, None releases it. *)
Definition sset (l : list (nat * store)) (i : nat) (v : option store) : list (nat * store) :=
  let rest := filter (fun e => negb (Nat.eqb i (fst e))) l in
  match v with Some s => (i, s) :: rest | None => rest end.
(** The same in memory. *)
Definition put_store (h : heap) (i : nat) (v : option store) : heap := HEAP (sset (hp_stores h) i v) (hp_fk h) (hp_fc h).

(** keystore.c:20-31 / 32-43: one of the two arrays.  Simplification: allocations succeed
    (the code does not check them) and n * sizeof(void* ) does not wrap. *)
Definition new_half (n : nat) : half :=
  if (0 <? n)%nat then HALF n (Some (repeat Null n)) else HALF 0 None.
(** keystore.c:16-45 KeyStoreNew; [i] is the address malloc chose (a free one). *)
Definition ks_new (h : heap) (i : nat) (keyNum certNum : nat) : heap :=
  put_store h i (Some (KS (new_half keyNum) (new_half certNum))).

(** a[i] = v and a[i]; None outside the array or through NULL. *)
Fixpoint arr_set (a : list cell) (i : nat) (v : cell) : option (list cell) :=
  match a, i with
  | [], _ => None
  | _ :: t, O => Some (v :: t)
  | x :: t, S k => match arr_set t k v with Some t' => Some (x :: t') | None => None end
  end.
(** keystore.c:100-108: a write to one slot. *)
Definition half_set (x : half) (i : nat) (v : cell) : option half :=
  match h_arr x with
  | None => None
  | Some a => match arr_set a i v with Some a' => Some (HALF (h_num x) (Some a')) | None => None end
  end.
(** keystore.c:110-122: a read of one slot. *)
Definition half_get (x : half) (i : nat) : option cell :=
  match h_arr x with None => None | Some a => nth_error a i end.

(** Access to one half of a store. *)
Inductive side := Keys | Certs.
(** The keys or the certificates of a store. *)
Definition get_side (s : store) (d : side) : half := match d with Keys => ks_keys s | Certs => ks_certs s end.
(** The keys or the certificates replaced. *)
Definition put_side (s : store) (d : side) (x : half) : store :=
  match d with Keys => KS x (ks_certs s) | Certs => KS (ks_keys s) x end.
(** A change of one half of a store in memory. *)
Definition with_half (h : heap) (i : nat) (d : side) (f : half -> option half) : option heap :=
  match hp_store h i with
  | None => None
  | Some s => match f (get_side s d) with
              | None => None
              | Some x => Some (put_store h i (Some (put_side s d x)))
              end
  end.

(** keystore.c:100-103 KeyStoreSetKey, 105-108 KeyStoreSetCert (no check of pos). *)
Definition ks_set (h : heap) (d : side) (i pos : nat) (v : cell) : option heap :=
  with_half h i d (fun x => half_set x pos v).

(** keystore.c:52: OPENSSL_clear_realloc(to->keys, ...): the new tail is not written. *)
Definition half_grow (x : half) (n : nat) : half :=
  HALF (h_num x) (Some (match h_arr x with None => [] | Some a => a end ++ repeat Undef n)).
(** keystore.c:53-57: n iterations of the loop, from index i.  The two stores may be the
    same one. *)
Fixpoint move_loop (n : nat) (h : heap) (d : side) (to from : nat) (i : nat) : option heap :=
  match n with
  | O => Some h
  | S k =>
      match hp_store h from, hp_store h to with
      | Some f, Some t =>
          match half_get (get_side f d) i with
          | None => None
          | Some v =>
              match ks_set h d to (h_num (get_side t d) + i) v with
              | None => None
              | Some h1 => match ks_set h1 d from i Null with
                           | None => None
                           | Some h2 => move_loop k h2 d to from (S i)
                           end
              end
          end
      | _, _ => None
      end
  end.
(** keystore.c:50-59 (keys) and 60-69 (certs). *)
Definition append_side (h : heap) (d : side) (to from : nat) : option heap :=
  match hp_store h from with
  | None => None
  | Some f =>
      let n := h_num (get_side f d) in
      if (0 <? n)%nat then
        match with_half h to d (fun x => Some (half_grow x n)) with
        | None => None
        | Some h1 =>
            match move_loop n h1 d to from 0 with
            | None => None
            | Some h2 =>
                (* to->keyNum += from->keyNum *)
                match hp_store h2 from with
                | None => None
                | Some f2 => with_half h2 to d (fun x => Some (HALF (h_num x + h_num (get_side f2 d)) (h_arr x)))
                end
            end
        end
      else Some h
  end.
(** keystore.c:47-70 KeyStoreAppend. *)
Definition ks_append (h : heap) (to from : nat) : option heap :=
  match append_side h Keys to from with
  | None => None
  | Some h1 => append_side h1 Certs to from
  end.

(** EVP_PKEY_free / X509_free on a cell: NULL is allowed, an unwritten cell or an object
    already released is undefined. *)
Definition free_cell (freed : list nat) (c : cell) : option (list nat) :=
  match c with
  | Undef => None
  | Null => Some freed
  | Ptr n => if existsb (Nat.eqb n) freed then None else Some (freed ++ [n])
  end.
(** keystore.c:77-78: for i < keyNum: free(keys[i]). *)
Fixpoint free_loop (n i : nat) (a : list cell) (freed : list nat) : option (list nat) :=
  match n with
  | O => Some freed
  | S k => match nth_error a i with
           | None => None
           | Some c => match free_cell freed c with
                       | None => None
                       | Some f' => free_loop k (S i) a f'
                       end
           end
  end.
(** keystore.c:75-80 / 81-86: the loop, if there is an array. *)
Definition free_half (x : half) (freed : list nat) : option (list nat) :=
  match h_arr x with None => Some freed | Some a => free_loop (h_num x) 0 a freed end.
(** keystore.c:72-88 KeyStoreFree; the pointer may be NULL or dangling: undefined. *)
Definition ks_free (h : heap) (p : option nat) : option heap :=
  match p with
  | None => None
  | Some i =>
      match hp_store h i with
      | None => None
      | Some s =>
          match free_half (ks_keys s) (hp_fk h), free_half (ks_certs s) (hp_fc h) with
          | Some fk, Some fc => Some (HEAP (sset (hp_stores h) i None) fk fc)
          | _, _ => None
          end
      end
  end.

(** keystore.c:90-98 KeyStoreKeyNum/CertNum. *)
Definition ks_num (h : heap) (d : side) (i : nat) : option nat :=
  match hp_store h i with None => None | Some s => Some (h_num (get_side s d)) end.
(** keystore.c:110-122 KeyStoreGetKey/GetCert. *)
Definition ks_get (h : heap) (d : side) (i pos : nat) : option cell :=
  match hp_store h i with
  | None => None
  | Some s => let x := get_side s d in
              if (pos <? h_num x)%nat then half_get x pos else Some Null
  end.

(** Calls and histories. *)
Inductive kop :=
| KNew (i keyNum certNum : nat)
| KAppend (to from : nat)
| KFree (i : nat)
| KSet (d : side) (i pos obj : nat)
| KNum (d : side) (i : nat)
| KGet (d : side) (i pos : nat).
(** What a call returns. *)
Inductive kout := ONone | ONum (n : nat) | OCell (c : cell).
(** One call of keystore.c:16-122. *)
Definition kstep (h : heap) (o : kop) : option (heap * kout) :=
  let ret {A} (f : A -> kout) (x : option A) := match x with Some v => Some (h, f v) | None => None end in
  let upd (x : option heap) := match x with Some h' => Some (h', ONone) | None => None end in
  match o with
  | KNew i k c => Some (ks_new h i k c, ONone)
  | KAppend t f => upd (ks_append h t f)
  | KFree i => upd (ks_free h (Some i))
  | KSet d i pos obj => upd (ks_set h d i pos (Ptr obj))
  | KNum d i => ret ONum (ks_num h d i)
  | KGet d i pos => ret OCell (ks_get h d i pos)
  end.
(** A history of calls. *)
Fixpoint krun (h : heap) (os : list kop) : option (heap * list kout) :=
  match os with
  | [] => Some (h, [])
  | o :: t => match kstep h o with
              | None => None
              | Some (h1, r) => match krun h1 t with
                                | None => None
                                | Some (h2, rs) => Some (h2, r :: rs)
                                end
              end
  end.
(** No store. *)
Definition heap0 : heap := HEAP [] [] [].

(** OPENSSL_malloc as an address chooser: any function that returns an address not in use. *)
Definition malloc_ok (m : heap -> nat) : Prop := forall h, hp_store h (m h) = None.
(** A pointer variable of the caller (KeyStore* ): NULL or an address. *)
Definition ptr := option nat.

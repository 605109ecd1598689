(** Model of keylib/key6.c: IIT "Key-6.dat" containers. *)
From Coq Require Import ZArith.
From Verif Require Import Base Model_Gost89 Model_Hash Model_Params Model_KeyStore Model_Utils.

(** keylib/iit_asn1.h, iit_asn1.c: what d2i_IITStore returns.  None in place of a member is a
    NULL pointer; the mac and pad are octet strings. *)
Record iit_params := IITP { ip_mac : list N; ip_pad : option (list N) }.
(** iit_asn1.h: the header. *)
Record iit_header := IITH { ih_type : option oid; ih_params : option iit_params }.
(** iit_asn1.h: the store. *)
Record iit_store := IITS { is_header : option iit_header; is_data : option (list N) }.

(** key6.c:18 *)
Definition iitStoreOID : oid := [1;3;6;1;4;1;19398;1;1;1;2].

(** key6.c:20-32 hash.  The cipher context lives on the stack with contents [junk]; the hash
    context is zeroed by memset.  The 32 bytes go to [dest] after all of [data] was read, so
    dest = data (pkdf) needs no special case.  None: undefined behaviour. *)
Definition key6_hash (junk : gost_ctx) (data : list N) : option (list N) :=
  let cm := cset (fun _ => None) 0 (Some (gost_init junk (Some (unpack_sbox default_sbox)))) in
  let ctx := HC 0 (Some 0%nat) 0 (zeros 32) (zeros 32) (zeros 32) in
  match hash_block cm ctx data with
  | None => None
  | Some (cm1, ctx1) => match finish_hash cm1 ctx1 with None => None | Some (_, dest) => Some dest end
  end.

(** key6.c:34-40 pkdf: the loop runs 9999 times.  [junk i] is the stack content in round i. *)
Fixpoint pkdf_loop (n : nat) (junk : nat -> gost_ctx) (i : nat) (key : list N) : option (list N) :=
  match n with
  | O => Some key
  | S k => match key6_hash (junk i) (firstn 32 key) with None => None | Some key' => pkdf_loop k junk (S i) key' end
  end.
(** key6.c:34-40 pkdf *)
Definition pkdf (junk : nat -> gost_ctx) (password : list N) : option (list N) :=
  match key6_hash (junk 0%nat) password with None => None | Some key => pkdf_loop (N.to_nat 9999) junk 1 key end.

(** What the two calls of malloc and the stack give: where source and result are, the
    contents of memory before anything is written, the stack contents, and the random mask
    drawn by gost_key.  Simplification: both allocations succeed. *)
Record k6_run := K6RUN { k6_src : N; k6_res : N; k6_mem : mem; k6_junk : nat -> gost_ctx; k6_ctx : gost_ctx; k6_mask : list N }.

(** key6.c:42-63 decryptKey6 up to the call of keysFromPKCS8: the bytes handed to it. *)
Definition decrypt_bytes (r : k6_run) (data : list N) (pad : option (list N)) (password : list N) : option (list N) :=
  let size := length data in
  let padSize := match pad with None => 0%nat | Some p => length p end in
  let sourceSize := (size + padSize)%nat in
  let resSize := (sourceSize + 8)%nat in
  match pkdf (k6_junk r) password with
  | None => None
  | Some key =>
      let ctx := gost_key (k6_mask r) (gost_init (k6_ctx r) (Some (unpack_sbox default_sbox))) key in
      let m1 := wr (k6_mem r) (k6_src r) data in
      let m2 := match pad with
                | None => m1
                | Some p => if (0 <? padSize)%nat then wr m1 (k6_src r + N.of_nat size) p else m1
                end in
      let m3 := gost_dec ctx m2 (k6_src r) (k6_res r) (Z.of_nat (sourceSize / 8)) in
      Some (rd m3 (k6_res r) resSize)
  end.

Section Parse.
Context {spec grp : Type} (e : attr_env spec grp).
(** d2i_PKCS8_PRIV_KEY_INFO, EVP_PKCS82PKEY (OpenSSL). *)
Variable p8 : list N -> option p8info.
Variable malloc : heap -> nat.
(** key6.c:42-66 decryptKey6. *)
Definition decryptKey6 (r : k6_run) (data : list N) (pad : option (list N)) (password : list N) (h : heap) (ks : ptr) : option (heap * bool * ptr) :=
  match decrypt_bytes r data pad password with
  | None => None
  | Some res => keysFromPKCS8 e malloc h (p8 res) ks
  end.
(** key6.c:68-104 parseKey6; [d2i] is d2i_IITStore's answer. *)
Definition parseKey6 (r : k6_run) (d2i : option iit_store) (password : list N) (h : heap) (ks : ptr) : option (heap * bool * ptr) :=
  match d2i with
  | None => Some (h, false, ks)
  | Some store =>
      match is_header store, is_data store with
      | Some hd, Some data =>
          match ih_type hd, ih_params hd with
          | Some ty, Some pa =>
              if negb (oid_eqb ty iitStoreOID) then Some (h, false, ks)
              else match ip_pad pa with
                   | None => decryptKey6 r data None password h ks
                   | Some pad => decryptKey6 r data (Some pad) password h ks
                   end
          | _, _ => Some (h, false, ks)
          end
      | _, _ => Some (h, false, ks)
      end
  end.
End Parse.

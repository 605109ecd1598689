(** Properties of the smaller parts of keylib. *)
From Coq Require Import ZArith Lia.
From Verif Require Import Base Model_KeyStore Model_Utils Model_ReadBio Model_Utf16 Spec_Keylib Spec_Pkcs12 Proof_Keylib.

(** C66: the private number is the number whose digits are those of the first stored string
    in reverse order; digit by digit; the map is an involution on strings of one length. *)
Theorem C66_private_number : forall a s, hd_error (strings (at_vals a)) = Some s -> (forall t, In t (strings (at_vals a)) -> bytes t) ->
  getPrivateKeyNum a = Some (reversed_number s) /\
  (forall i, N.testbit (reversed_number s) i = nth (N.to_nat i) (flat_map octet_digits s) false).
Proof. exact private_num_bits. Qed.
Print Assumptions C66_private_number.
Theorem C66_none : forall a, strings (at_vals a) = [] -> getPrivateKeyNum a = None.
Proof. exact getPrivateKeyNum_none. Qed.
Print Assumptions C66_none.
Theorem C66_involution : forall s, bytes s -> reversed_number (be_bytes (length s) (reversed_number s)) = be_val s /\ reversed_number s < 256 ^ N.of_nat (length s).
Proof. exact private_involution. Qed.
Print Assumptions C66_involution.
Example C66_ex : getPrivateKeyNum (ATTR None [VOther [9]; VBit [0x35; 0x01]; VOctet [7]]) = Some 0x80AC /\
  reversed_number [0x35; 0x01] = 0x80AC /\ reversed_number [0x80; 0xAC] = 0x3501.
Proof. vm_compute. repeat split. Qed.

(** C67: keysFromPKCS8 on what was decoded from the PKCS#8 structure: if the ordinary key
    cannot be made nothing changes, otherwise the new store shows that key and, exactly when
    the attributes determine one, the second. *)
Theorem C67_keys_from_pkcs8 : forall spec grp (e : attr_env spec grp) m h i ks, malloc_ok m -> attrs_bytes (p8_attrs i) ->
  match p8_pkey i with
  | None => keysFromPKCS8 e m h (Some i) ks = Some (h, false, ks)
  | Some k1 =>
      exists h' a second, keysFromPKCS8 e m h (Some i) ks = Some (h', true, Some a) /\ hp_store h a = None /\
        shows h' a Keys (k1 :: second) /\ shows h' a Certs [] /\
        (forall k2, second = [k2] <-> second_key e (p8_attrs i) k2) /\ (second = [] <-> ~ exists k2, second_key e (p8_attrs i) k2) /\
        (forall j, hp_store h j <> None -> hp_store h' j = hp_store h j) /\ hp_fk h' = hp_fk h /\ hp_fc h' = hp_fc h
  end.
Proof. exact (fun spec grp => @keysFromPKCS8_api spec grp). Qed.
Print Assumptions C67_keys_from_pkcs8.
Theorem C67_undecodable : forall spec grp (e : attr_env spec grp) m h ks, keysFromPKCS8 e m h None ks = Some (h, false, ks).
Proof. exact (fun spec grp e m h ks => eq_refl). Qed.
Print Assumptions C67_undecodable.
(** Two curve attributes and two key attributes: the last of each decides. *)
Definition ex_env : attr_env N N :=
  AENV (fun v => match v with VOther (x :: _) => Some x | _ => None end) (fun s => if s =? 0 then None else Some s)
    (fun g d => Some (N.to_nat (g * 1000 + d))).
Definition ex_attrs : list (option attribute) :=
  [None; Some (ATTR (Some iit_curve_oid) [VOther [1]]); Some (ATTR (Some iit_key_oid) [VOctet [0x80]]);
   Some (ATTR (Some [1;2;3]) [VOctet [9]]); Some (ATTR (Some iit_key_oid) [VOther [5]; VBit [0xC0]]); Some (ATTR None []);
   Some (ATTR (Some iit_curve_oid) [VOctet [3]; VOther [2]])].
Example C67_ex : attrs_bytes ex_attrs /\ second_key ex_env ex_attrs 2003.
Proof.
  split.
  - intros a s H Hs. cbn in H. repeat (destruct H as [H|H]; [first [discriminate|injection H as <-; cbn in Hs; repeat (destruct Hs as [<-|Hs]; [repeat constructor|]); contradiction]|]). contradiction.
  - exists (ATTR (Some iit_curve_oid) [VOctet [3]; VOther [2]]), (ATTR (Some iit_key_oid) [VOther [5]; VBit [0xC0]]), 2, 2, [0xC0].
    repeat split.
Qed.

(** C68: whatever the chunks, the parser gets their concatenation; a chunk of size zero also
    ends the stream; the empty stream fails without parsing; a failed copy fails. *)
Theorem C68_chunks : forall A (parse : list N -> A) chunks rest, Forall (fun b => b <> []) chunks ->
  read_bio parse (map (fun b => RdData b true) chunks ++ RdEnd :: rest) =
  Some (match chunks with [] => None | _ => Some (parse (concat chunks)) end).
Proof. exact (fun A => @read_bio_end A). Qed.
Print Assumptions C68_chunks.
Theorem C68_zero_chunk : forall A (parse : list N -> A) chunks w rest, Forall (fun b => b <> []) chunks ->
  read_bio parse (map (fun b => RdData b true) chunks ++ RdData [] w :: rest) =
  Some (match chunks with [] => None | _ => Some (parse (concat chunks)) end).
Proof. exact (fun A => @read_bio_zero A). Qed.
Print Assumptions C68_zero_chunk.
Theorem C68_write_fails : forall A (parse : list N -> A) chunks b rest, Forall (fun b => b <> []) chunks -> b <> [] ->
  read_bio parse (map (fun b => RdData b true) chunks ++ RdData b false :: rest) = Some None.
Proof. exact (fun A => @read_bio_write_fails A). Qed.
Print Assumptions C68_write_fails.
Example C68_ex : Forall (fun b => b <> []) [[1;2]; [3]; [4;5;6]] /\
  read_bio (fun l => l) (map (fun b => RdData b true) [[1;2]; [3]; [4;5;6]] ++ [RdEnd]) = Some (Some [1;2;3;4;5;6]).
Proof. split; [repeat constructor; discriminate|reflexivity]. Qed.

(** C69: an error after some data is not reported: the data read so far are parsed as if the
    stream had ended there. *)
Theorem C69_error_is_end_refuted : forall A (parse : list N -> A) chunks rest, Forall (fun b => b <> []) chunks -> chunks <> [] ->
  read_bio parse (map (fun b => RdData b true) chunks ++ RdError :: rest) = Some (Some (parse (concat chunks))).
Proof. exact (fun A => @read_bio_error A). Qed.
Print Assumptions C69_error_is_end_refuted.
Example C69_ex : read_bio (fun l => l) [RdData [1;2] true; RdError] = Some (Some [1;2]) /\ read_bio (fun l => l) [RdError] = Some None.
Proof. split; reflexivity. Qed.

(** C70: for positive exponents both readers build the polynomial with exactly these
    exponents; whenever both build one, it is the same; the order does not matter. *)
Theorem C70_polynomial : forall f, good_field f -> exists p, makePoly f = Some p /\ poly_of_spec f = Some p /\ poly_with (exponents f) p.
Proof. exact poly_both. Qed.
Print Assumptions C70_polynomial.
Theorem C70_agree : forall f p q, makePoly f = Some p -> poly_of_spec f = Some q -> p = q.
Proof. exact poly_agree. Qed.
Print Assumptions C70_agree.
Theorem C70_order : forall m k j l k' j' l', good_field (BF m (Pentanomial k j l)) -> (forall x, In x [k;j;l] <-> In x [k';j';l']) ->
  makePoly (BF m (Pentanomial k' j' l')) = makePoly (BF m (Pentanomial k j l)) /\
  poly_of_spec (BF m (Pentanomial k' j' l')) = poly_of_spec (BF m (Pentanomial k j l)).
Proof. exact poly_order. Qed.
Print Assumptions C70_order.
Example C70_ex : good_field (BF 163 (Pentanomial 3 6 7)) /\ makePoly (BF 163 (Pentanomial 3 6 7)) = Some (2 ^ 163 + 0xC9) /\
  makePoly (BF 163 (Pentanomial 7 3 6)) = Some (2 ^ 163 + 0xC9) /\ makePoly (BF 167 (Trinomial 6)) = Some (2 ^ 167 + 0x41).
Proof. vm_compute. repeat split. Qed.
(** Which structures each reader refuses (numbers that fit an int; -1 would end the list). *)
Theorem C70_refused : forall f, int_field f ->
  (~ In (-1)%Z (exponents f) -> (makePoly f = None <-> Exists (fun x => x < 0)%Z (exponents f))) /\ (poly_of_spec f = None <-> ~ good_field f).
Proof. exact (fun f H => conj (makePoly_refuses f H) (spec_refuses f H)). Qed.
Print Assumptions C70_refused.
Example C70_ex_refused : int_field (BF 163 (Pentanomial 3 (-6) 7)) /\ ~ In (-1)%Z (exponents (BF 163 (Pentanomial 3 (-6) 7))) /\
  makePoly (BF 163 (Pentanomial 3 (-6) 7)) = None /\ poly_of_spec (BF 163 (Pentanomial 3 (-6) 7)) = None.
Proof.
  split; [|split; [|split; reflexivity]].
  - unfold int_field, exponents. cbn [bf_m bf_poly app]. repeat (apply Forall_cons; [lia|]). apply Forall_nil.
  - cbn. lia.
Qed.
(** The readers differ (refuted): the one for IIT attributes takes the exponent 0. *)
Theorem C70_zero_refuted : forall m, good_exponent m -> exists p, makePoly (BF m (Trinomial 0)) = Some p /\ poly_of_spec (BF m (Trinomial 0)) = None.
Proof. exact zero_differs. Qed.
Print Assumptions C70_zero_refuted.
Example C70_ex_zero : makePoly (BF 163 (Trinomial 0)) = Some (2 ^ 163 + 1) /\ poly_of_spec (BF 163 (Trinomial 0)) = None.
Proof. split; reflexivity. Qed.

(** C75: the conversion loop of the password ends, and its result is the converted password,
    however the characters fall in the growing buffer; an invalid or empty one is refused. *)
Theorem C75_password_conversion : forall cs ok size fuel, Forall char_ok cs -> (1 <= size \/ cs = [] /\ ok = true)%nat -> (length cs + 3 <= fuel)%nat ->
  toUTF16BE fuel (cs, ok) size = Some (if ok then match cs with [] => None | _ => Some (concat cs) end else None).
Proof. exact utf16_spec. Qed.
Print Assumptions C75_password_conversion.
Example C75_ex : let cs := [[0;0x61]; [0xD8;0x3D;0xDE;0]; [4;0x4B]] in Forall char_ok cs /\
  toUTF16BE 6 (cs, true) 1 = Some (Some [0;0x61;0xD8;0x3D;0xDE;0;4;0x4B]) /\ toUTF16BE 6 (cs, false) 1 = Some None /\ toUTF16BE 6 (cs, true) 7 = Some (Some [0;0x61;0xD8;0x3D;0xDE;0;4;0x4B]).
Proof. split; [repeat (apply Forall_cons; [unfold char_ok; cbn; auto|]); apply Forall_nil|]. repeat split. Qed.

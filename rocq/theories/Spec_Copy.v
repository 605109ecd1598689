(** What copying parameters from key to key does to memory. *)
From Verif Require Import Base Model_Sign Model_Ctx Spec_Ctx.

(** The EC_KEY with another group. *)
Definition with_group (e : nat * eckey) (g : option egroup) : nat * eckey := (fst e, ECKEY g (ek_priv (snd e)) (ek_pub (snd e))).
(** The outcomes of a copy to the key [tk] with EC_KEY [te] and S-box [ts], from EC_KEY [fe] and S-box
    [fs]: what is returned, the memory of the target afterwards, and memory that nobody owns
    any more.  [enough] says that no allocation fails. *)
Inductive copied (enough : Prop) (tk : nat) (te fe : nat * eckey) (ts fs : option (nat * list N)) : bool -> heap -> heap -> Prop :=
| no_group : ek_group (snd fe) = None -> copied enough tk te fe ts fs false (key_cells tk te ts) []
| group_lost g : ek_group (snd fe) = Some g -> ~ enough -> copied enough tk te fe ts fs false (key_cells tk (with_group te None) ts) []
| no_sbox g : ek_group (snd fe) = Some g -> fs = None -> copied enough tk te fe ts fs true (key_cells tk (with_group te (Some g)) ts) []
| sbox_lost g s : ek_group (snd fe) = Some g -> fs = Some s -> ~ enough -> copied enough tk te fe ts fs false (key_cells tk (with_group te (Some g)) None) (sbox_cells ts)
| both g s p : ek_group (snd fe) = Some g -> fs = Some s -> copied enough tk te fe ts fs true (key_cells tk (with_group te (Some g)) (Some (p, snd s))) (sbox_cells ts).
(** The outcomes of a copy to an EVP_PKEY without a key: a new key, of the source's type. *)
Inductive copied_new (enough : Prop) (tt ft : Z) (fe : nat * eckey) (fs : option (nat * list N)) : bool -> evp_key -> heap -> Prop :=
| new_no_group : ek_group (snd fe) = None -> copied_new enough tt ft fe fs false (tt, None) []
| new_none t : ~ enough -> copied_new enough tt ft fe fs false (t, None) []
| new_without k e : ~ enough -> copied_new enough tt ft fe fs false (ft, Some k) (key_cells k (e, ECKEY None None None) None)
| new_no_sbox k e g : ek_group (snd fe) = Some g -> fs = None -> copied_new enough tt ft fe fs true (ft, Some k) (key_cells k (e, ECKEY (Some g) None None) None)
| new_sbox_lost k e g s : ek_group (snd fe) = Some g -> fs = Some s -> ~ enough -> copied_new enough tt ft fe fs false (ft, Some k) (key_cells k (e, ECKEY (Some g) None None) None)
| new_both k e g s p : ek_group (snd fe) = Some g -> fs = Some s -> copied_new enough tt ft fe fs true (ft, Some k) (key_cells k (e, ECKEY (Some g) None None) (Some (p, snd s))).

(** Arithmetic when memory runs out: what the functions of Model_Oom return and leave behind. *)
From Coq Require Import ZArith List Lia.
Import ListNotations.
From Verif Require Import Base Model_Params Model_Gf2m Model_Compress Model_Ec Model_Utils Model_Curves Model_Sign Model_Asn1 Model_Pmeth Model_Key Model_Ameth Model_Ctx Model_Oom Spec_Ctx Proof_Sign2.
Open Scope N_scope.

Section Oom.
Variable malloc : nat -> heap -> option nat.
Hypothesis HA : allocator malloc.
(** Calls from the allocation [from] on; whether none of them fails. *)
Variable from : nat.
Definition full : Prop := forall n h, (from <= n)%nat -> malloc n h <> None.
Definition tri (U L : Prop) {A} (m : M A) (h : heap) (post : A -> heap -> Prop) : Prop :=
  forall n, (from <= n)%nat -> match m (h, n) with Undef => U | Loop => L | Ret (a, (h', n')) => (n <= n')%nat /\ post a h' end.

Section Rules.
Variables U L : Prop.
Lemma tri_ret A (a : A) h (post : A -> heap -> Prop) : post a h -> tri U L (ret a) h post.
Proof. intros H n Hn. cbn. auto. Qed.
Lemma tri_bind A B (m : M A) (f : A -> M B) h (post : B -> heap -> Prop) : tri U L m h (fun a h' => tri U L (f a) h' post) -> tri U L (bindM m f) h post.
Proof.
  intros H n Hn. specialize (H n Hn). unfold bindM. destruct (m (h, n)) as [| |[a [h' n']]]; [exact H..|]. destruct H as [L1 H].
  specialize (H n' ltac:(lia)). destruct (f a (h', n')) as [| |[b [h'' n'']]]; [exact H..|]. destruct H. split; [lia|assumption].
Qed.
Lemma tri_mono A (m : M A) h (p q : A -> heap -> Prop) : tri U L m h p -> (forall a h', p a h' -> q a h') -> tri U L m h q.
Proof. intros H I n Hn. specialize (H n Hn). destruct (m (h, n)) as [| |[a [h' n']]]; [exact H..|]. destruct H; auto. Qed.
Lemma tri_undef A h (post : A -> heap -> Prop) : U -> tri U L undef h post.
Proof. intros H n Hn. exact H. Qed.
Lemma tri_loop A h (post : A -> heap -> Prop) : L -> tri U L (fun _ => Loop) h post.
Proof. intros H n Hn. exact H. Qed.
Lemma tri_try h (post : bool -> heap -> Prop) : post true h -> (~ full -> post false h) -> tri U L (try malloc) h post.
Proof.
  intros H1 H2 n Hn. unfold try. destruct (malloc n h) eqn:E; (split; [lia|]); [exact H1|]. apply H2. intros F. exact (F _ _ Hn E).
Qed.
Lemma tri_call A (o : option A) h (post : option A -> heap -> Prop) : post o h -> (~ full -> post None h) -> tri U L (call malloc o) h post.
Proof. intros H1 H2. apply tri_bind, tri_try; [apply tri_ret, H1|]. intros F. apply tri_ret, H2, F. Qed.
Lemma tri_new o h (post : option nat -> heap -> Prop) : (forall p, live h p = None -> post (Some p) ((p, o) :: h)) -> (~ full -> post None h) -> tri U L (new malloc o) h post.
Proof.
  intros H1 H2 n Hn. unfold new. destruct (malloc n h) as [p|] eqn:E; (split; [lia|]); [exact (H1 p (HA _ _ _ E))|]. apply H2. intros F. exact (F _ _ Hn E).
Qed.
(** The cell may lie under others. *)
Lemma tri_free p h (post : unit -> heap -> Prop) : live h p <> None -> post tt (release h p) -> tri U L (free p) h post.
Proof. intros H1 H2 n Hn. unfold free. destruct (live h p); [split; [lia|exact H2]|contradiction]. Qed.
Lemma tri_put p o h (post : unit -> heap -> Prop) : live h p <> None -> post tt (store h p o) -> tri U L (put p o) h post.
Proof. intros H1 H2 n Hn. unfold put. destruct (live h p); [split; [lia|exact H2]|contradiction]. Qed.
Lemma tri_get p o h (post : obj -> heap -> Prop) : live h p = Some o -> post o h -> tri U L (get p) h post.
Proof. intros H1 H2 n Hn. unfold get. rewrite H1. split; [lia|exact H2]. Qed.
Lemma tri_gets k h (post : option unit -> heap -> Prop) : post (Some tt) h -> (~ full -> post None h) -> tri U L (gets malloc k) h post.
Proof.
  intros H1 H2. induction k as [|k IH]; cbn [gets]; [apply tri_ret, H1|]. apply tri_bind, tri_call; [exact IH|]. intros F. apply tri_ret, H2, F.
Qed.
Lemma tri_calls k h (post : option unit -> heap -> Prop) : post (Some tt) h -> (~ full -> post None h) -> tri U L (calls malloc k) h post.
Proof.
  intros H1 H2. induction k as [|k IH]; cbn [calls]; [apply tri_ret, H1|]. apply tri_bind, tri_call; [exact IH|]. intros F. apply tri_ret, H2, F.
Qed.
Lemma tri_cond A (b : bool) (u v : A) h (post : option A -> heap -> Prop) : post (Some (if b then u else v)) h -> (~ full -> post None h) -> tri U L (if b then call malloc (Some u) else ret (Some v)) h post.
Proof. intros H1 H2. destruct b; [apply tri_call; assumption|apply tri_ret, H1]. Qed.
End Rules.
Lemma release_head : forall p o h, release ((p, o) :: h) p = h.
Proof. intros. cbn. rewrite Nat.eqb_refl. reflexivity. Qed.
Lemma live_head : forall p o h, live ((p, o) :: h) p = Some o.
Proof. intros. cbn. rewrite Nat.eqb_refl. reflexivity. Qed.

(** Takes the next call; failing allocations give [~ full]. *)
Ltac t1 := lazymatch goal with
  | |- tri _ _ (bindM _ _) _ _ => apply tri_bind
  | |- tri _ _ (ret _) _ _ => apply tri_ret
  | |- tri _ _ (call _ _) _ _ => apply tri_call; [|intros ?]
  | |- tri _ _ (if _ then call _ _ else ret _) _ _ => apply tri_cond; [|intros ?]
  | |- tri _ _ (try _) _ _ => apply tri_try; [|intros ?]
  | |- tri _ _ (gets _ _) _ _ => apply tri_gets; [|intros ?]
  | |- tri _ _ (calls _ _) _ _ => apply tri_calls; [|intros ?]
  | |- tri _ _ (new _ _) _ _ => apply tri_new; [intros ? ?|intros ?]
  end; cbv beta iota.
Ltac head := rewrite ?release_head, ?live_head.

Section Trace.
Lemma loop_tri n bn p r h : tri (~ full) False (h_trace_loop malloc n bn p r) h (fun o h' => h' = h /\ (o = Some (trace_loop n bn p r) \/ ~ full /\ o = None)).
Proof.
  revert r. induction n as [|n IH]; intros r; cbn [h_trace_loop trace_loop]; [t1; auto|]. repeat t1; auto.
Qed.
Lemma trace_tri bn p h : tri (~ full) False (h_trace malloc bn p) h (fun o h' => h' = h /\ (o = bn_trace bn p \/ ~ full /\ o = None)).
Proof.
  unfold h_trace, bn_trace. t1. t1; cbn [negb]; [|apply tri_undef; assumption].
  t1. t1; [|t1; auto]. t1. eapply tri_mono; [apply loop_tri|]. cbv beta. intros o h' [-> [-> | [F ->]]]; t1; auto.
Qed.
End Trace.

(** A temporary object released after [body]. *)
Lemma tri_temp U L A B (body : M A) (f : A -> B) (Q : A -> Prop) (post : B -> heap -> Prop) p o h :
  (forall h, tri U L body h (fun r h' => h' = h /\ Q r)) -> (forall r, Q r -> post (f r) h) ->
  tri U L (r <- body ;; free p ;;; ret (f r)) ((p, o) :: h) post.
Proof.
  intros H I. t1. eapply tri_mono; [apply H|]. cbv beta. intros r h' [-> q]. t1. apply tri_free; head; [discriminate|]. t1. auto.
Qed.
Lemma tri_temp_id U L A (body : M A) (Q : A -> Prop) p o h : (forall h, tri U L body h (fun r h' => h' = h /\ Q r)) ->
  tri U L (r <- body ;; free p ;;; ret r) ((p, o) :: h) (fun r h' => h' = h /\ Q r).
Proof. intros H. eapply (tri_temp _ _ _ _ _ (fun r => r)); [exact H|]. auto. Qed.
Ltac leaf := solve [ t1; auto ].

Lemma compress_tri c P len h : tri (~ full) False (h_compress malloc c P len) h (fun r h' => h' = h /\ (r = compress c P len \/ ~ full /\ r = None)).
Proof.
  unfold h_compress, compress. destruct (len <? field_size c); [leaf|]. t1. t1; [|leaf].
  apply tri_temp_id. clear h H p. intros h.
  t1. t1; [|leaf]. t1. t1; [|leaf]. t1. t1; [|leaf]. destruct P as [[x y]|]; [|leaf]. destruct (x =? 0); [leaf|].
  t1. t1; [|leaf]. destruct (ginv (c_p c) x) as [xi|]; [|leaf]. t1. t1; [|leaf]. t1.
  eapply tri_mono; [apply trace_tri|]. cbv beta. intros o h' [-> [-> | [F ->]]]; [|leaf]. destruct (bn_trace _ _) as [[|]|]; [..|leaf]; t1; t1; try leaf. 
Qed.

(** The point that results if the last trace is computed as the wrong bit. *)
Definition flipped (solve : N -> N -> option N) (compressed : list N) (c : curve) : option point :=
  let p := c_p c in let a := c_a c in
  if N.of_nat (length compressed) <? field_size c then None
  else let x := be_val compressed in
  if x =? 0 then None
  else
    let k := N.testbit x 0 in
    let x := N.clearbit x 0 in
    match bn_trace x p with
    | None => None
    | Some trace =>
        let x := if (trace && (a =? 0)) || (negb trace && (a =? 1)) then N.setbit x 0 else x in
        let x2 := gsqr p x in
        let y := gmul p x2 x in
        let y := if a =? 1 then N.lxor y x2 else y in
        let y := N.lxor y (c_b c) in
        match ginv p x2 with
        | None => None
        | Some x2 =>
            match solve p (gmul p y x2) with
            | None => None
            | Some y =>
                let trace := match bn_trace y p with Some t => negb t | None => false end in
                let y := if xorb k trace then N.lxor y 1 else y in
                set_affine c x (gmul p y x)
            end
        end
    end.
Lemma expand_tri solve s c h : tri (~ full) False (h_expand malloc solve s c) h (fun r h' => h' = h /\ (r = expand solve s c \/ ~ full /\ (r = None \/ r = flipped solve s c))).
Proof.
  unfold h_expand, expand, flipped. destruct (_ <? field_size c); [leaf|]. t1. t1; [|leaf].
  apply tri_temp_id. clear h H p. intros h.
  t1. t1; [|leaf]. t1. t1; [|leaf]. t1. t1; [|leaf]. destruct (be_val s =? 0); [t1; t1; [|leaf]; t1; auto|]. cbv zeta. set (p := c_p c).
  t1. eapply tri_mono; [apply trace_tri|]. cbv beta. intros o h' [-> [-> | [F ->]]]; [|leaf]. destruct (bn_trace _ _) as [t|]; [|leaf].
  t1. t1; [|leaf]. set (x := if _ || _ then _ else _). clearbody x.
  t1. t1; [|leaf]. t1. t1; [|leaf]. t1. t1; [|leaf]. set (y0 := if c_a c =? 1 then _ else _). clearbody y0. t1. t1; [|leaf]. t1. t1; [|leaf]. destruct (ginv p _) as [xi|]; [|leaf].
  t1. t1; [|leaf]. t1. t1; [|leaf]. destruct (solve p _) as [y|]; [|leaf]. t1.
  eapply tri_mono; [apply trace_tri|]. cbv beta. intros o h' [-> T].
  set (k := N.testbit _ _). clearbody k. t1. t1; [|leaf]. t1. t1; [|leaf]. t1; [|auto]. split; [reflexivity|].
  destruct T as [-> | [F ->]]; [left; reflexivity|]. destruct (bn_trace y p) as [[|]|]; cbn; auto.
Qed.

Lemma truncate_zero z : (0 <= z)%Z -> bn_truncate_bits 0 z = Some 0.
Proof. intros H. unfold bn_truncate_bits. cbn. destruct z; [reflexivity..|lia]. Qed.
Lemma hash_tri U L s f h : tri U L (h_hash_to_field malloc s f) h (fun r h' => h' = h /\ (r = hash_to_field s f \/ ~ full /\ (r = None \/ s <> [] /\ be_val (rev s) = 0 /\ r = Some 0))).
Proof.
  unfold h_hash_to_field, hash_to_field. t1. destruct s as [|b s]; [t1; leaf|]. t1; [|leaf]. t1. t1; cbv beta iota; t1; (apply tri_free; head; [discriminate|]); [|t1; auto].
  destruct (N.eqb_spec (be_val (rev (b :: s))) 0) as [E|E]; [|t1; t1; t1; auto]. t1. t1. t1; t1; t1; [auto|]. split; [reflexivity|]. right. split; [assumption|]. right.
  rewrite E, truncate_zero by lia. repeat split. discriminate.
Qed.
Lemma order_case g : get_order (Binary g) = if g_order g =? 0 then None else Some (g_order g).
Proof. reflexivity. Qed.

Lemma attempt_tri U L g d x e h : tri U L (h_attempt malloc g d x e) h (fun r h' => h' = h /\ (r = attempt g d x e \/ ~ full /\ r = Failed)).
Proof.
  unfold h_attempt, attempt. t1.
  apply (tri_mono _ _ _ _ _ (fun r h' => h' = h /\ (match r with Some o => o | None => Failed end = attempt g d x e \/ ~ full /\ r = None))).
  2: { intros r h' [-> [H|[F ->]]]; t1; auto. }
  unfold attempt. t1. t1; [|leaf]. t1. t1; [|leaf]. destruct (pmul _ _ _) as [[Fe ?]|]; [|leaf]. destruct (Fe =? 0); [leaf|]. t1. t1; [|leaf].
  destruct (field_to_bn _ _) as [r|]; [|leaf]. destruct (r =? 0); [leaf|]. t1. t1; [|leaf]. t1. t1; [|leaf]. t1. destruct (_ =? 0); auto.
Qed.
Lemma sign_loop_tri U (L : Prop) fuel g d x src : forall i h, (sign_loop fuel g d x src i = Running -> L) ->
  tri U L (h_sign_loop malloc fuel g d x src i) h (fun r h' => h' = h /\ ((sign_loop fuel g d x src i <> Running /\ r = match sign_loop fuel g d x src i with Done a => Some a | _ => None end) \/ ~ full /\ r = None)).
Proof.
  induction fuel as [|fuel IH]; intros i h HL; cbn [h_sign_loop sign_loop] in *; [apply tri_loop; auto|]. destruct (src i) as [e|]; [|t1; split; [reflexivity|left; split; [discriminate|reflexivity]]].
  t1. eapply tri_mono; [apply attempt_tri|]. cbv beta. intros r h' [-> [-> | [F ->]]]; [|t1; auto]. destruct (attempt g d x e) as [| |a]; [apply IH, HL|t1..]; (split; [reflexivity|]); left; (split; [discriminate|reflexivity]).
Qed.
(** A digest of zero: every value of r is zero. *)
Lemma zero_loop g d src : g_order g <> 0 -> forall fuel i a, sign_loop fuel g d 0 src i <> Done a.
Proof.
  intros Hn. induction fuel as [|f IH]; intros i a; [discriminate|]. cbn [sign_loop]. destruct (src i) as [e|]; [|discriminate].
  destruct (pmul (g_curve g) e (g_gen g)) as [P|] eqn:E; [rewrite Proof_Sign2.attempt_zero by congruence; apply IH|]. unfold attempt. rewrite E. discriminate.
Qed.
Definition all_zero (s : list N) : Prop := s <> [] /\ be_val (rev s) = 0.
Ltac tfree := apply tri_bind, tri_free; head; [discriminate|]; cbv beta iota.
Definition enc (g : group) (sr : N * N) : option (list N) :=
  let '(s, r) := sr in
  match bn_encode s (num_bytes (g_order g)), bn_encode r (num_bytes (g_order g)) with
  | Some (bs, ns), Some (br, nr) => if (ns =? 0) || (nr =? 0) then None else Some (bs ++ br)
  | _, _ => None
  end.
Definition oval {A} (o : outcome A) : option A := match o with Done a => Some a | _ => None end.
Lemma do_sign_eq fuel d g Q tbs src : do_sign fuel (ECKEY (Some (Binary g)) (Some d) Q) tbs src =
  if g_order g =? 0 then Failed
  else match hash_to_field tbs (degree (c_p (g_curve g))) with
       | None => Failed
       | Some x => match sign_loop fuel g d x src 0 with Running => Running | Failed => Failed | Done sr => match enc g sr with Some l => Done l | None => Failed end end
       end.
Proof.
  unfold do_sign, enc. cbn [ek_priv ek_group]. destruct (_ =? 0); [reflexivity|]. destruct (hash_to_field _ _); [|reflexivity]. destruct (sign_loop _ _ _ _ _ _) as [| |[s r]]; [reflexivity..|].
  destruct (bn_encode s _) as [[? ?]|]; [|reflexivity]. destruct (bn_encode r _) as [[? ?]|]; [|reflexivity]. destruct (_ || _); reflexivity.
Qed.
Lemma sign_tri fuel key tbs src h : tri False (do_sign fuel key tbs src = Running \/ ~ full /\ all_zero tbs) (h_do_sign malloc fuel key tbs src) h
  (fun r h' => h' = h /\ ((do_sign fuel key tbs src <> Running /\ r = oval (do_sign fuel key tbs src)) \/ ~ full /\ r = None)).
Proof.
  assert (NR : forall o : outcome (list N), o = Failed -> o <> Running /\ None = oval o) by (intros o ->; split; [discriminate|reflexivity]).
  destruct key as [[[g|m]|] [d|] Q]; unfold h_do_sign; cbn [ek_priv ek_group]; try (t1; split; [reflexivity|left; apply NR; reflexivity]). cbv zeta.
  t1. t1; [|leaf]. t1. set (o := do_sign _ _ _ _). pose proof (do_sign_eq fuel d g Q tbs src : o = _) as Eo. clearbody o.
  apply (tri_mono _ _ _ _ _ (fun eG h' => match eG with None => h' = (p, OTemp) :: h /\ (g_order g = 0 \/ ~ full) | Some q => h' = (q, OTemp) :: (p, OTemp) :: h /\ g_order g <> 0 end)).
  { rewrite order_case. t1. t1; [|leaf]. t1. t1; [|leaf]. destruct (N.eqb_spec (g_order g) 0) as [E|E]; [leaf|]. t1. t1; [|leaf]. t1; auto. }
  intros [q|] h' [-> Z0].
  2: { t1. t1. cbn [free_opt]. t1. t1. tfree. t1. split; [reflexivity|]. destruct Z0 as [Z0|F]; [left; apply NR; rewrite Eo, Z0; reflexivity|auto]. }
  destruct (N.eqb_spec (g_order g) 0) as [|_]; [contradiction|].
  assert (FIN : forall r : option (list N), (o <> Running /\ r = oval o) \/ ~ full /\ r = None ->
    tri False (o = Running \/ ~ full /\ all_zero tbs) (free_opt free (Some q) ;;; free p ;;; ret r) ((q, OTemp) :: (p, OTemp) :: h) (fun r h' => h' = h /\ ((o <> Running /\ r = oval o) \/ ~ full /\ r = None))).
  { intros r Hr. cbn [free_opt]. tfree. tfree. t1. auto. }
  t1. t1. eapply tri_mono; [apply hash_tri|]. cbv beta. intros x h' [-> Hx].
  assert (LOOP : forall y, (sign_loop fuel g d y src 0 = Running -> o = Running \/ ~ full /\ all_zero tbs) -> 
    (forall r, sign_loop fuel g d y src 0 <> Running -> r = match oval (sign_loop fuel g d y src 0) with Some sr => enc g sr | None => None end -> (o <> Running /\ r = oval o) \/ ~ full /\ r = None) ->
    tri False (o = Running \/ ~ full /\ all_zero tbs) (r <- h_sign_loop malloc fuel g d y src 0 ;; match r with Some (s, r0) =>
         ret (match bn_encode s (num_bytes (g_order g)), bn_encode r0 (num_bytes (g_order g)) with Some (bs, ns), Some (br, nr) => if (ns =? 0) || (nr =? 0) then None else Some (bs ++ br) | _, _ => None end) | None => ret None end)
      ((q, OTemp) :: (p, OTemp) :: h) (fun r h' => tri False (o = Running \/ ~ full /\ all_zero tbs) (free_opt free (Some q) ;;; free p ;;; ret r) h' (fun r h' => h' = h /\ ((o <> Running /\ r = oval o) \/ ~ full /\ r = None)))).
  { intros y H1 H2. t1. eapply tri_mono; [apply sign_loop_tri; exact H1|]. cbv beta. intros z h' [-> [[Nr ->]|[F ->]]].
    - destruct (sign_loop fuel g d y src 0) as [| |[a b]]; [contradiction| |]; t1; apply FIN, H2; try exact Nr; reflexivity.
    - t1. apply FIN. auto. }
  destruct Hx as [-> | [F [-> | [H1 [H2 ->]]]]].
  - destruct (hash_to_field _ _) as [x|] eqn:EH; [|t1; apply FIN; left; apply NR, Eo]. apply LOOP.
    + intros R. rewrite R in Eo. auto.
    + intros r R ->. destruct (sign_loop _ _ _ _ _ _) as [| |sr]; [contradiction|left; apply NR, Eo|]. cbn [oval]. destruct (enc g sr); left; [rewrite Eo; split; [discriminate|reflexivity]|apply NR, Eo].
  - t1. apply FIN. auto.
  - apply LOOP.
    + intros _. right. split; [exact F|]. split; assumption.
    + intros r R ->. right. split; [exact F|]. destruct (sign_loop _ _ _ _ _ _) as [| |sr] eqn:E; [reflexivity..|]. apply (zero_loop g d src Z0) in E. destruct E.
Qed.

Lemma verify_tri key tbs sig h : tri False False (h_do_verify malloc key tbs sig) h (fun r h' => h' = h /\ (r = do_verify key tbs sig \/ ~ full /\ r = false)).
Proof.
  unfold h_do_verify, do_verify. destruct (ek_group key) as [[g|m]|]; [|leaf..]. destruct (ek_pub key) as [Q|]; [|leaf]. cbv zeta.
  set (hv := hash_to_field tbs (degree (c_p (g_curve g)))). set (half := (length sig / 2)%nat). set (s := be_val (firstn half sig)). set (r := be_val (firstn half (skipn half sig))).
  t1. t1; [|leaf].
  set (W := fun r1 : N => if g_order g =? 0 then None else if (s =? 0) || (r =? 0) then None else if (g_order g <=? s) || (g_order g <=? r) then None else Some (s, r, r1)).
  t1. apply (tri_mono _ _ _ _ _ (fun o h' => h' = (p, OTemp) :: h /\ (o = match hv with Some r1 => W r1 | None => None end \/ ~ full /\ (o = None \/ o = W 0)))).
  { t1. t1; [|leaf]. t1. eapply tri_mono; [apply hash_tri|]. fold hv. cbv beta. intros o h' [-> Ho].
    assert (B : forall r1, tri False False (r0 <- call malloc (get_order (Binary g)) ;; match r0 with Some _ => r2 <- call malloc (Some tt) ;; match r2 with Some _ => r3 <- call malloc (Some s) ;; match r3 with Some s => r4 <- call malloc (Some r) ;; match r4 with Some r =>
        ret (if (s =? 0) || (r =? 0) then None else if (g_order g <=? s) || (g_order g <=? r) then None else Some (s, r, r1)) | None => ret None end | None => ret None end | None => ret None end | None => ret None end) ((p, OTemp) :: h) (fun o h' => h' = (p, OTemp) :: h /\ (o = W r1 \/ ~ full /\ o = None))).
    { intros r1. rewrite order_case. unfold W. t1. t1; [|leaf]. destruct (g_order g =? 0); [leaf|]. t1. t1; [|leaf]. t1. t1; [|leaf]. t1. t1; [|leaf]. t1. auto. }
    destruct Ho as [-> | [F [-> | [_ [_ ->]]]]]; [|leaf|].
    - destruct hv as [r1|]; [|leaf]. eapply tri_mono; [apply B|]. cbv beta. intros o h' [-> [-> | [F ->]]]; auto.
    - eapply tri_mono; [apply B|]. cbv beta. intros o h' [-> [-> | [_ ->]]]; auto. }
  intros o h' [-> Ho]. cbv beta.
  assert (FIN : forall (b : option unit) v, (b = None /\ v = false) \/ (b = Some tt /\ v = true) -> v = match hv with
     | Some r1 => if g_order g =? 0 then false else if (s =? 0) || (r =? 0) then false else if (g_order g <=? s) || (g_order g <=? r) then false
                  else match padd (g_curve g) (pmul (g_curve g) s (g_gen g)) (pmul (g_curve g) r Q) with Some (Rx, _) => match field_to_bn (gmul (c_p (g_curve g)) r1 Rx) (g_order g) with Some r1 => r =? r1 | None => false end | None => false end
     | None => false end \/ ~ full /\ b = None ->
     tri False False (free p ;;; ret (match b with Some _ => true | None => false end)) ((p, OTemp) :: h) (fun r0 h' => h' = h /\ (r0 = match hv with
     | Some r1 => if g_order g =? 0 then false else if (s =? 0) || (r =? 0) then false else if (g_order g <=? s) || (g_order g <=? r) then false
                  else match padd (g_curve g) (pmul (g_curve g) s (g_gen g)) (pmul (g_curve g) r Q) with Some (Rx, _) => match field_to_bn (gmul (c_p (g_curve g)) r1 Rx) (g_order g) with Some r1 => r =? r1 | None => false end | None => false end
     | None => false end \/ ~ full /\ r0 = false))).
  { intros b v Hb Hv. tfree. t1. split; [reflexivity|]. destruct Hb as [[-> ->]|[-> ->]]; destruct Hv as [Hv|[F Hv]]; auto; discriminate. }
  t1. destruct o as [[[s' r'] r1']|].
  2: { t1. apply (FIN None false); [auto|]. destruct Ho as [Ho|[F _]]; [|auto]. left. unfold W in Ho. destruct hv as [r1|]; [|reflexivity]. destruct (g_order g =? 0); [reflexivity|]. destruct ((s =? 0) || (r =? 0)); [reflexivity|]. destruct ((g_order g <=? s) || (g_order g <=? r)); [reflexivity|discriminate]. }
  t1. t1; [|t1; apply (FIN None false); auto].
  set (RR := padd (g_curve g) (pmul (g_curve g) s' (g_gen g)) (pmul (g_curve g) r' Q)).
  t1. apply (tri_mono _ _ _ _ _ (fun o h' => h' = (p0, OTemp) :: (p, OTemp) :: h /\ (o = match RR with Some (Rx, _) => match field_to_bn (gmul (c_p (g_curve g)) r1' Rx) (g_order g) with Some r1 => if r' =? r1 then Some tt else None | None => None end | None => None end \/ ~ full /\ o = None))).
  { t1. t1; [|leaf]. fold RR. destruct RR as [[Rx Ry]|]; [|leaf]. t1. t1; [|leaf]. t1. t1; [|leaf]. leaf. }
  intros b h' [-> Hb]. tfree. t1. destruct Hb as [-> | [F ->]]; [|apply (FIN None false); auto].
  destruct Ho as [Ho|[F [Ho|Ho]]]; [|discriminate|].
  - destruct hv as [r1|]; [|discriminate]. unfold W in Ho. destruct (g_order g =? 0) eqn:E1; [discriminate|]. destruct ((s =? 0) || (r =? 0)) eqn:E2; [discriminate|]. destruct ((g_order g <=? s) || (g_order g <=? r)) eqn:E3; [discriminate|]. injection Ho as -> -> ->. fold RR.
    eapply FIN; [|left; reflexivity]. fold RR. destruct RR as [[Rx Ry]|]; [|auto]. destruct (field_to_bn _ _) as [n|]; [|auto]. destruct (r =? n); auto.
  - unfold W in Ho. destruct (N.eqb_spec (g_order g) 0) as [|Hn]; [discriminate|]. destruct (N.eqb_spec s 0); [discriminate|]. destruct (N.eqb_spec r 0) as [|R0]; [discriminate|]. cbn [orb] in Ho. destruct ((g_order g <=? s) || (g_order g <=? r)); [discriminate|]. injection Ho as -> -> ->.
    apply (FIN _ false); [|right; split; [exact F|]].
    + left. split; [|reflexivity]. destruct RR as [[Rx Ry]|]; [|reflexivity]. change (gmul (c_p (g_curve g)) 0 Rx) with 0. rewrite Proof_Sign.field_to_bn_ok by exact Hn. unfold Spec_Sign.int_of_field. rewrite N.mod_0_l by (apply N.pow_nonzero; lia).
      destruct (N.eqb_spec r 0); [contradiction|reflexivity].
    + destruct RR as [[Rx Ry]|]; [|reflexivity]. change (gmul (c_p (g_curve g)) 0 Rx) with 0. rewrite Proof_Sign.field_to_bn_ok by exact Hn. unfold Spec_Sign.int_of_field. rewrite N.mod_0_l by (apply N.pow_nonzero; lia).
      destruct (N.eqb_spec r 0); [contradiction|reflexivity].
Qed.

(** What a key is after a failed call. *)
Lemma add_tri U L key h : tri U L (h_do_add_public malloc key) h (fun r h' => h' = h /\
  (r = match add_public_key key with Some k => (true, k) | None => (false, key) end \/ ~ full /\ r = (false, key))).
Proof.
  unfold h_do_add_public, add_public_key. destruct key as [[[g|m]|] [d|] Q]; cbn [ek_group ek_priv]; try leaf. t1. t1; [|leaf].
  eapply (tri_temp _ _ _ _ _ _ (fun r => r = Some (pneg (pmul (g_curve g) d (g_gen g))) \/ ~ full /\ r = None)).
  - clear h H p. intros h. t1. t1; [|leaf]. t1. t1; [|leaf]. t1; auto.
  - intros r [-> | [F ->]]; auto.
Qed.
Lemma prk_tri U (L : Prop) fuel src : forall i h, (prk_loop fuel src i = Running -> L) ->
  tri U L (h_prk_loop fuel src i) h (fun r h' => h' = h /\ prk_loop fuel src i <> Running /\ r = oval (prk_loop fuel src i)).
Proof.
  induction fuel as [|fuel IH]; intros i h HL; cbn [h_prk_loop prk_loop] in *; [apply tri_loop; auto|]. destruct (src i) as [e|]; [|t1; repeat split; discriminate].
  destruct (e =? 0); [apply IH, HL|]. t1. repeat split. discriminate.
Qed.
Lemma generate_tri fuel key src h : tri False (generate_key fuel key src = Running) (h_do_generate malloc fuel key src) h (fun r h' => h' = h /\
  ((generate_key fuel key src <> Running /\ r = match generate_key fuel key src with Done k => (true, k) | _ => (false, key) end) \/
   ~ full /\ fst r = false /\ (snd r = key \/ exists prk, prk_loop fuel src 0 = Done prk /\ snd r = ECKEY (ek_group key) (Some prk) (ek_pub key)))).
Proof.
  unfold h_do_generate, generate_key. destruct key as [[[g|m]|] d Q]; cbn [ek_group ek_pub]; try (t1; split; [reflexivity|left; split; [discriminate|reflexivity]]).
  t1. t1; [|t1; split; [reflexivity|right; cbn; auto]]. t1. set (o := if _ =? 0 then _ else _).
  apply (tri_mono _ _ _ _ _ (fun r h' => h' = (p, OTemp) :: h /\ ((r = (if g_order g =? 0 then None else oval (prk_loop fuel src 0)) /\ o <> Running) \/ ~ full /\ r = None))).
  { rewrite order_case. t1. t1; [|leaf]. t1. t1; [|leaf]. destruct (g_order g =? 0) eqn:E0; [t1; split; [reflexivity|left; split; [reflexivity|discriminate]]|]. t1.
    eapply tri_mono; [apply prk_tri|].
    { intros R. unfold o. rewrite R. reflexivity. }
    cbv beta. intros r h' [-> [NR ->]]. unfold o. destruct (prk_loop fuel src 0) as [| |k] eqn:E; cbn [oval]; cbv iota; [contradiction|t1; split; [reflexivity|left; split; [reflexivity|discriminate]]|]. cbn [oval].
    t1; [|auto]. split; [reflexivity|]. left. split; [reflexivity|discriminate]. }
  intros r h' [-> Hr]. t1. destruct r as [prk|].
  2: { t1. tfree. t1. split; [reflexivity|]. destruct Hr as [[Hr NR]|[F _]]; [|right; cbn; auto]. left. split; [exact NR|]. unfold o in *. destruct (g_order g =? 0); [reflexivity|]. destruct (prk_loop fuel src 0); [contradiction|reflexivity|discriminate]. }
  destruct Hr as [[Hr NR]|[F Hr]]; [|discriminate]. destruct (g_order g =? 0); [discriminate|]. destruct (prk_loop fuel src 0) as [| |k] eqn:E; [discriminate..|]. injection Hr as ->.
  eapply tri_mono; [apply add_tri|]. cbv beta. intros r h' [-> Hr]. tfree. t1. split; [reflexivity|]. cbn [add_public_key ek_group ek_priv ek_pub] in Hr. destruct Hr as [-> | [F ->]].
  - left. split; [exact NR|]. reflexivity.
  - right. split; [exact F|]. split; [reflexivity|]. right. exists k. auto.
Qed.

(** Groups. *)
Lemma live_ne p q o h : live ((p, o) :: h) q = None -> q <> p /\ live h q = None.
Proof. cbn. destruct (Nat.eqb_spec q p); [discriminate|auto]. Qed.
Lemma live_under p q o h : q <> p -> live ((p, o) :: h) q = live h q.
Proof. intros N0. cbn. destruct (Nat.eqb_spec q p); [contradiction|reflexivity]. Qed.
Lemma release_under p q o h : q <> p -> release ((p, o) :: h) q = (p, o) :: release h q.
Proof. intros N0. cbn. destruct (Nat.eqb_spec q p); [contradiction|reflexivity]. Qed.
Lemma store_under p q o o' h : q <> p -> store ((p, o) :: h) q o' = (p, o) :: store h q o'.
Proof. intros N0. cbn. destruct (Nat.eqb_spec q p); [contradiction|reflexivity]. Qed.
Lemma store_head p o o' h : store ((p, o) :: h) p o' = (p, o') :: h.
Proof. cbn. rewrite Nat.eqb_refl. reflexivity. Qed.
Lemma tri_free_group U L q g h (post : unit -> heap -> Prop) : live h q = Some (OGroup g) -> post tt (release h q) -> tri U L (free_group q) h post.
Proof.
  intros H1 H2. unfold free_group, get_group. t1. t1. apply (tri_get _ _ _ (OGroup g)); [exact H1|]. t1. apply tri_free; [rewrite H1; discriminate|exact H2].
Qed.
(** The field values of the table. *)
Definition nsize (n : named_curve) : nat := Z.to_nat ((hd 0%Z (nc_poly n) + 7) / 8).
Definition nfield (n : named_curve) (k : nat) : N := be_val (firstn (nsize n) (skipn (1 + k * nsize n) (nc_data n))).
Definition off_curve (n : named_curve) : bool :=
  match arr2poly (nc_poly n) 0 with
  | Some p => match new_curve p 0 (nfield n 0) with Some c => match set_affine c (nfield n 2) (nfield n 3) with None => true | Some _ => false end | None => true end
  | None => true
  end.
Lemma std_off n : In n dstu_curves -> hd 0 (nc_data n) <> 0 -> off_curve n = true.
Proof.
  assert (B : forallb (fun n => (hd 0 (nc_data n) =? 0) || off_curve n) dstu_curves = true) by (vm_compute; reflexivity).
  intros I H. rewrite forallb_forall in B. specialize (B n I). apply orb_true_iff in B. destruct B as [B|B]; [apply N.eqb_eq in B; contradiction|exact B].
Qed.
Lemma named_tri U L i h : tri U L (h_named_curve malloc i) h (fun r h' =>
  (r = None /\ h' = h /\ (group_from_named_curve i = None \/ ~ full)) \/
  exists q g, r = Some q /\ h' = (q, OGroup (Binary g)) :: h /\ live h q = None /\ group_from_named_curve i = Some g).
Proof.
  unfold h_named_curve, group_from_named_curve. destruct (nth_error dstu_curves i) as [n|] eqn:EN; [|leaf]. apply nth_error_In in EN. pose proof (std_off n EN) as OFF. clear EN.
  unfold off_curve in OFF. cbv zeta. fold (nsize n).
  change (be_val (firstn (nsize n) (skipn (1 + 0 * nsize n) (nc_data n)))) with (nfield n 0). change (be_val (firstn (nsize n) (skipn (1 + 1 * nsize n) (nc_data n)))) with (nfield n 1).
  change (be_val (firstn (nsize n) (skipn (1 + 2 * nsize n) (nc_data n)))) with (nfield n 2). change (be_val (firstn (nsize n) (skipn (1 + 3 * nsize n) (nc_data n)))) with (nfield n 3).
  set (RES := match arr2poly (nc_poly n) 0 with Some p => _ | None => None end).
  t1. t1; [|leaf].
  set (av := if hd 0 (nc_data n) =? 0 then 0 else 1) in *.
  t1. apply (tri_mono _ _ _ _ _ (fun o h' => match o with
     | None => h' = (p, OTemp) :: h /\ (RES = None \/ ~ full)
     | Some (q, c) => h' = (q, OGroup (Binary (GROUP c None 0 0))) :: (p, OTemp) :: h /\ live ((p, OTemp) :: h) q = None /\
         exists P a, arr2poly (nc_poly n) 0 = Some P /\ new_curve P a (nfield n 0) = Some c /\ (a = av \/ ~ full /\ a = 0 /\ av = 1) end)).
  { t1. t1; [|leaf]. t1. t1; [|leaf]. unfold RES. destruct (arr2poly (nc_poly n) 0) as [P|]; [|leaf].
    t1. apply (tri_mono _ _ _ _ _ (fun a h' => h' = (p, OTemp) :: h /\ (a = av \/ ~ full /\ a = 0 /\ av = 1))).
    { unfold av. destruct (hd 0 (nc_data n) =? 0); [leaf|]. t1. t1; t1; auto. }
    intros a h' [-> Ha]. t1. t1; [|leaf].
    destruct (new_curve P a (nfield n 0)) as [c|] eqn:EC.
    - t1. t1; [|leaf]. t1. split; [reflexivity|]. split; [assumption|]. exists P, a. auto.
    - t1. split; [reflexivity|]. destruct Ha as [-> | [F _]]; [|auto]. left. rewrite EC. reflexivity. }
  intros [[q c]|] h' Hh.
  2: { destruct Hh as [-> Hr]. t1. t1. tfree. t1. left. auto. }
  destruct Hh as [-> [HL [P [a [EP [EC Ha]]]]]]. apply live_ne in HL as [NE HL].
  assert (BAD : forall b, tri U L (free_group q ;;; ret (None : option nat)) ((q, OGroup b) :: (p, OTemp) :: h) (fun r h' => r = None /\ h' = (p, OTemp) :: h)).
  { intros b. t1. apply (tri_free_group _ _ _ b); head; [reflexivity|]. t1. auto. }
  assert (END : forall r, RES = None \/ ~ full -> r = None -> tri U L (free p ;;; ret (r : option nat)) ((p, OTemp) :: h) (fun r h' => (r = None /\ h' = h /\ (RES = None \/ ~ full)) \/ exists q g, r = Some q /\ h' = (q, OGroup (Binary g)) :: h /\ live h q = None /\ RES = Some g)).
  { intros r Hr ->. tfree. t1. auto. }
  t1. t1. apply (tri_mono _ _ _ _ _ (fun o h' => match o with
     | None => h' = (q, OGroup (Binary (GROUP c None 0 0))) :: (p, OTemp) :: h /\ ~ full
     | Some (x, P0) => x = nfield n 1 /\ P0 <> q /\ h' = (P0, OTemp) :: (q, OGroup (Binary (GROUP c None 0 0))) :: (p, OTemp) :: h end)).
  { t1. t1; [|leaf]. t1. t1; [|leaf]. t1. repeat split. eapply live_ne. eassumption. }
  intros [[x P0]|] h' Hh.
  2: { destruct Hh as [-> F]. eapply tri_mono; [apply BAD|]. cbv beta. intros r h' [-> ->]. apply END; auto. }
  destruct Hh as [-> [NE2 ->]].
  t1. apply (tri_mono _ _ _ _ _ (fun o h' => h' = (P0, OTemp) :: (q, OGroup (Binary (GROUP c None 0 0))) :: (p, OTemp) :: h /\ match o with None => RES = None \/ ~ full | Some g => RES = Some g end)).
  { t1. t1; [|leaf]. t1. t1; [|leaf]. t1. t1; [|leaf].
    assert (RV : a = av -> RES = match set_affine c (nfield n 2) (nfield n 3) with Some G => set_generator c G (nfield n 1) 1 | None => None end).
    { intros ->. unfold RES. rewrite EP, EC. reflexivity. }
    destruct (set_affine c (nfield n 2) (nfield n 3)) as [G|] eqn:EG.
    - assert (a = av) as E0. { destruct Ha as [E0|[F [-> E1]]]; [exact E0|]. exfalso. rewrite EP, EC, EG in OFF. discriminate OFF. unfold av in E1. intros Z0. rewrite Z0 in E1. discriminate. }
      specialize (RV E0). t1; [|auto]. split; [reflexivity|]. destruct (set_generator _ _ _ _); auto.
    - t1. split; [reflexivity|]. destruct Ha as [E0|[F _]]; auto. }
  intros o h' [-> Ho]. destruct o as [g|].
  - t1. apply tri_put; [rewrite live_under, live_head by congruence; discriminate|]. rewrite store_under, store_head by congruence. tfree. t1. t1. apply tri_free; [rewrite live_under, live_head by congruence; discriminate|].
    rewrite release_under, release_head by congruence. t1. right. exists q, g. auto.
  - tfree. eapply tri_mono; [apply BAD|]. cbv beta. intros r h' [-> ->]. apply END; auto.
Qed.
Lemma nid_tri U L nid h : tri U L (h_group_from_nid malloc nid) h (fun r h' =>
  (r = None /\ h' = h /\ (group_from_nid nid = None \/ ~ full)) \/
  exists q g, r = Some q /\ h' = (q, OGroup (Binary g)) :: h /\ live h q = None /\ group_from_nid nid = Some g).
Proof. unfold h_group_from_nid, group_from_nid. destruct (find_curve _ _ _) as [i|]; [apply named_tri|leaf]. Qed.
Lemma curve_nid_tri U L g h : tri U L (h_curve_nid malloc g) h (fun r h' => h' = h /\ (r = curve_nid_from_group g \/ ~ full /\ r = 0%Z)).
Proof.
  unfold h_curve_nid, curve_nid_from_group. destruct (find_curve _ _ _) as [i|]; [|leaf]. t1. eapply tri_mono; [apply named_tri|]. cbv beta.
  intros r h' [[-> [-> Hr]]|[q [std [-> [-> [HL E]]]]]].
  - t1. split; [reflexivity|]. destruct Hr as [-> |F]; auto.
  - t1. unfold get_group. t1. apply (tri_get _ _ _ (OGroup (Binary std))); [apply live_head|]. t1. t1. rewrite E.
    t1; t1; (apply (tri_free_group _ _ _ (Binary std)); head; [reflexivity|]); t1; (split; [reflexivity|]); destruct (nth_error _ _); cbn [andb]; auto.
Qed.
Lemma exps_poly f : poly_of_spec f = match exps_of_spec f with Some l => arr2poly l 0 | None => None end.
Proof.
  unfold poly_of_spec, exps_of_spec. destruct (_ <=? 0)%Z; [reflexivity|]. destruct (bf_poly f) as [k|k j l]; cbv zeta; destruct (_ <=? 0)%Z; try reflexivity. destruct (_ <=? 0)%Z; [reflexivity|]. destruct (_ <=? 0)%Z; reflexivity.
Qed.
Lemma buffer_tri U L A le s (use : list N -> M (option A)) h (Q : option A -> Prop) :
  (forall s' h, in_order le s = Some s' -> tri U L (use s') h (fun r h' => h' = h /\ Q r)) -> (in_order le s = None \/ ~ full -> Q None) ->
  tri U L (in_buffer malloc le s use) h (fun r h' => h' = h /\ Q r).
Proof.
  intros H1 H2. unfold in_buffer, in_order in *. destruct le; [|apply H1; reflexivity]. destruct s as [|x s]; [t1; t1; t1; auto|].
  t1. t1; [|t1; auto]. apply tri_temp_id. intros h0. apply H1. reflexivity.
Qed.
(** The group with the base point computed with the wrong bit. *)
Definition turned (solve : N -> N -> option N) (spec : custom) (le : bool) (g : group) : Prop :=
  exists P b bp c G, poly_of_spec (cu_field spec) = Some P /\ (cu_a spec = 0 \/ cu_a spec = 1)%Z /\ in_order le (cu_b spec) = Some b /\ new_curve P (Z.to_N (cu_a spec)) (be_val b) = Some c /\
    in_order le (cu_bp spec) = Some bp /\ flipped solve bp c = Some G /\ (0 <= cu_n spec)%Z /\ set_generator c G (Z.to_N (cu_n spec)) 1 = Some g.
Lemma asn1_tri solve spec le h : tri (~ full) False (h_group_from_asn1 malloc solve spec le) h (fun r h' =>
  (r = None /\ h' = h /\ (group_from_asn1 solve spec le = None \/ ~ full)) \/
  exists q g, r = Some q /\ h' = (q, OGroup (Binary g)) :: h /\ live h q = None /\ (group_from_asn1 solve spec le = Some g \/ ~ full /\ turned solve spec le g)).
Proof.
  unfold h_group_from_asn1. set (RES := group_from_asn1 solve spec le). pose proof (eq_refl : RES = group_from_asn1 solve spec le) as ER. clearbody RES. unfold group_from_asn1 in ER. rewrite exps_poly in ER. pose proof (exps_poly (cu_field spec)) as EX.
  destruct (exps_of_spec (cu_field spec)) as [poly|]; [|t1; left; auto].
  t1. t1; [|leaf].
  t1. apply (tri_mono _ _ _ _ _ (fun o h' => match o with
     | None => h' = (p, OTemp) :: h /\ (RES = None \/ ~ full)
     | Some (q, c, n) => n = cu_n spec /\ h' = (q, OGroup (Binary (GROUP c None 0 0))) :: (p, OTemp) :: h /\ live ((p, OTemp) :: h) q = None /\
         exists P b, poly_of_spec (cu_field spec) = Some P /\ (cu_a spec = 0 \/ cu_a spec = 1)%Z /\ in_order le (cu_b spec) = Some b /\ new_curve P (Z.to_N (cu_a spec)) (be_val b) = Some c /\
         RES = match in_order le (cu_bp spec) with
              | None => None
              | Some bp =>
                  match expand solve bp c with
                  | None => None
                  | Some G => if (cu_n spec <? 0)%Z then None else set_generator c G (Z.to_N (cu_n spec)) 1
                  end
              end end)).
  { t1. t1; [|leaf]. t1. t1; [|leaf]. destruct (arr2poly poly 0) as [P|]; [|leaf]. t1. t1; [|leaf].
    assert (A01 : negb (cu_a spec =? 1)%Z && negb (cu_a spec =? 0)%Z = false -> (cu_a spec = 0 \/ cu_a spec = 1)%Z).
    { destruct (Z.eqb_spec (cu_a spec) 1), (Z.eqb_spec (cu_a spec) 0); auto; discriminate. }
    destruct (_ && _); [leaf|]. specialize (A01 eq_refl). t1.
    eapply tri_mono; [apply (buffer_tri _ _ _ le (cu_b spec) _ _ (fun o => o = option_map be_val (in_order le (cu_b spec)) \/ ~ full /\ o = None))|].
    { intros s' h0 ->. t1; auto. }
    { intros [-> | F]; auto. }
    cbv beta. intros o h' [-> [-> | [F ->]]]; [|leaf]. destruct (in_order le (cu_b spec)) as [b|] eqn:Eb; cbn [option_map]; [|leaf].
    t1. t1; [|leaf]. destruct (new_curve P _ _) as [c|] eqn:Ec; [|leaf]. t1. t1; [|leaf]. t1. split; [reflexivity|]. split; [reflexivity|]. split; [assumption|]. exists P, b. auto 10. }
  intros [[[q c] n]|] h' Hh.
  2: { destruct Hh as [-> Hr]. t1. t1. tfree. cbn [free_opt]. t1. t1. t1. t1. t1. left. auto. }
  destruct Hh as [-> [-> [HL [P [b [EP [EA [Eb [EC ER']]]]]]]]]. clear ER EX. apply live_ne in HL as [NE HL].
  assert (END : forall g0 : option nat, match g0 with Some g0 => g0 <> q /\ g0 <> p | None => True end -> RES = None \/ ~ full ->
     tri (~ full) False (free p ;;; free_opt free g0 ;;; free_opt free_group (Some q) ;;; ret (None : option nat))
       (match g0 with Some g0 => [(g0, OTemp)] | None => [] end ++ (q, OGroup (Binary (GROUP c None 0 0))) :: (p, OTemp) :: h)
       (fun r h' => (r = None /\ h' = h /\ (RES = None \/ ~ full)) \/ exists q g, r = Some q /\ h' = (q, OGroup (Binary g)) :: h /\ live h q = None /\ (RES = Some g \/ ~ full /\ turned solve spec le g))).
  { intros [g0|] N0 Hr; cbn [app].
    - destruct N0 as [N1 N2]. t1. apply tri_free; [rewrite !live_under, live_head by congruence; discriminate|]. rewrite !release_under, release_head by congruence. cbn [free_opt]. tfree.
      t1. apply (tri_free_group _ _ _ (Binary (GROUP c None 0 0))); head; [reflexivity|]. t1. auto.
    - t1. apply tri_free; [rewrite !live_under, live_head by congruence; discriminate|]. rewrite !release_under, release_head by congruence. cbn [free_opt]. t1. t1.
      t1. apply (tri_free_group _ _ _ (Binary (GROUP c None 0 0))); head; [reflexivity|]. t1. auto. }
  t1. t1. t1; [|t1; apply (END None); auto].
  rename p0 into g0. apply live_ne in H0 as [N1 H0]. apply live_ne in H0 as [N2 H0].
  t1. apply (tri_mono _ _ _ _ _ (fun o h' => h' = (g0, OTemp) :: (q, OGroup (Binary (GROUP c None 0 0))) :: (p, OTemp) :: h /\ match o with None => RES = None \/ ~ full | Some g => RES = Some g \/ ~ full /\ turned solve spec le g end)).
  { t1. eapply tri_mono; [apply (buffer_tri _ _ _ le (cu_bp spec) _ _ (fun o => o = match in_order le (cu_bp spec) with Some bp => expand solve bp c | None => None end \/ ~ full /\ (o = None \/ exists bp, in_order le (cu_bp spec) = Some bp /\ o = flipped solve bp c)))|].
    { intros s' h0 ->. eapply tri_mono; [apply expand_tri|]. cbv beta. intros o h' [-> [-> | [F [-> | ->]]]]; eauto 10. }
    { intros [-> | F]; auto. }
    cbv beta. intros o h' [-> Ho]. destruct o as [G|].
    2: { t1. split; [reflexivity|]. destruct Ho as [Ho|[F _]]; auto. left. rewrite ER'. destruct (in_order le (cu_bp spec)); [|reflexivity]. rewrite <- Ho. reflexivity. }
    t1; [|auto]. split; [reflexivity|]. destruct Ho as [Ho|[F [Ho|[bp [E1 E2]]]]]; [|discriminate|].
    - rewrite ER'. destruct (in_order le (cu_bp spec)); [|discriminate]. rewrite <- Ho. destruct (_ <? 0)%Z; [auto|]. destruct (set_generator _ _ _ _); auto.
    - destruct (Z.ltb_spec (cu_n spec) 0); [auto|]. destruct (set_generator c G _ _) as [g|] eqn:EG; [|auto]. right. split; [exact F|]. exists P, b, bp, c, G. auto 10. }
  intros o h' [-> Ho]. destruct o as [g|].
  - t1. apply tri_put; [rewrite live_under, live_head by congruence; discriminate|]. rewrite store_under, store_head by congruence. t1.
    t1. apply tri_free; [rewrite !live_under, live_head by congruence; discriminate|]. rewrite !release_under, release_head by congruence. cbn [free_opt]. tfree. t1. t1. t1. right. exists q, g. auto.
  - t1. apply (END (Some g0)); auto.
Qed.
Definition opt_result {A} (r : result A) : option A := match r with Ok a => Some a | _ => None end.
Lemma result_tri (U : Prop) L A (r : result A) h (post : option A -> heap -> Prop) : (r = Undefined -> U) -> (r <> Undefined -> post (opt_result r) h) -> tri U L (Model_Oom.of_result r) h post.
Proof. intros H1 H2. destruct r; cbn [Model_Oom.of_result]; [apply tri_undef; auto|t1; apply H2; discriminate|t1; apply H2; discriminate]. Qed.
Lemma custom_tri g le h : tri (custom_from_group g le = Undefined \/ ~ full) False (h_custom_from_group malloc g le) h
  (fun r h' => h' = h /\ (custom_from_group g le <> Undefined /\ r = opt_result (custom_from_group g le) \/ ~ full /\ r = None)).
Proof.
  unfold h_custom_from_group, custom_from_group. set (c := g_curve g). t1. t1; [|leaf]. t1. t1; [|t1; apply tri_undef; auto]. t1. unfold deref. t1. 
  set (RES := if g_order g =? 0 then _ else _). pose proof (eq_refl : RES = if g_order g =? 0 then _ else _) as ER. clearbody RES.
  set (poly := poly2arr (c_p c) 6) in *.
  t1. t1. apply (tri_mono _ _ _ _ _ (fun o h' => match o with
    | None => h' = (p, OTemp) :: h /\ (RES = Error \/ ~ full)
    | Some (m, mid, size, q) => h' = (q, OTemp) :: (p, OTemp) :: h /\ size = Z.to_N ((m + 7) / 8) /\
        RES = match bn_encode (c_b c) size with
              | None => Error
              | Some (b, r) => if r =? 0 then Error else match compress c (g_gen g) size with
                  | None => Error
                  | Some bp => Ok (CUSTOM (BF m mid) (Z.of_N (c_a c)) (if le then rev b else b) (Z.of_N (g_order g)) (if le then rev bp else bp))
                  end end end)).
  { t1. t1; [|leaf]. t1. t1; [|leaf]. rewrite order_case. t1. t1; [|leaf]. destruct (g_order g =? 0); [t1; rewrite ER; auto|]. destruct (c_p c =? 0); [t1; rewrite ER; auto|].
    t1. apply result_tri; [intros E; rewrite E in ER; auto|]. intros Nu. destruct (elt poly 0) as [| |m]; cbn [opt_result]; [contradiction|t1; rewrite ER; auto|].
    cbn [bind] in ER. t1. t1; [|leaf].
    t1. apply result_tri; [intros E; rewrite E in ER; auto|]. intros Nu2. destruct (middle_of poly) as [| |mid]; cbn [opt_result]; [contradiction|t1; rewrite ER; auto|].
    cbn [bind] in ER. cbv zeta in ER. set (size := Z.to_N ((m + 7) / 8)) in *. t1. t1; [|leaf]. t1. t1; [|leaf]. 
    destruct (N.eqb_spec size 0) as [E0|E0].
    - t1. t1. t1. split; [reflexivity|]. left. rewrite ER, E0. unfold bn_encode. destruct (N.ltb_spec 0 (num_bytes (c_b c))); [reflexivity|]. replace (num_bytes (c_b c)) with 0 by lia. reflexivity.
    - t1. t1; [|leaf]. t1. auto. }
  intros [[[[m mid] size] q]|] h' Hh.
  2: { destruct Hh as [-> Hr]. t1. t1. cbn [free_opt]. t1. tfree. t1. split; [reflexivity|]. destruct Hr as [-> |]; [left; split; [discriminate|reflexivity]|auto]. }
  destruct Hh as [-> [Es ER']]. clear ER.
  t1. apply (tri_mono _ _ _ _ _ (fun r h' => h' = (q, OTemp) :: (p, OTemp) :: h /\ (r = opt_result RES \/ ~ full /\ r = None))).
  { rewrite ER'. destruct (bn_encode (c_b c) size) as [[b r]|]; [|leaf]. destruct (r =? 0); [leaf|]. t1. t1; [|leaf]. t1.
    eapply tri_mono. { intros n Hn. pose proof (compress_tri c (g_gen g) size ((q, OTemp) :: (p, OTemp) :: h) n Hn) as C. destruct (h_compress _ _ _ _ _) as [| |[? [? ?]]]; [auto|exact C|exact C]. }
    cbv beta. intros o h' [-> [-> | [F ->]]]; [|leaf]. destruct (compress c (g_gen g) size) as [bp|]; [|leaf]. t1. t1; [|leaf]. t1. auto. }
  intros r h' [-> Hr]. t1. cbn [free_opt]. tfree. tfree. t1. split; [reflexivity|]. destruct Hr as [Hr|Hr]; [left; split; [|exact Hr]|auto].
  rewrite ER'. destruct (bn_encode _ _) as [[? ?]|]; [|discriminate]. destruct (_ =? 0); [discriminate|]. destruct (compress _ _ _); discriminate.
Qed.
(** Parameters of a key: those with enough memory, or for a standard curve the same as a custom
    curve. *)
Lemma from_key_tri g sb le d Q h : tri (asn1_from_key (DKEY (ECKEY (Some (Binary g)) d Q) sb) le = Undefined \/ ~ full) False (h_from_key malloc g sb le) h (fun r h' =>
  (r = None /\ h' = h /\ (asn1_from_key (DKEY (ECKEY (Some (Binary g)) d Q) sb) le = Error \/ ~ full)) \/
  exists q v, r = Some (q, v) /\ h' = (q, OTemp) :: h /\ live h q = None /\
    (asn1_from_key (DKEY (ECKEY (Some (Binary g)) d Q) sb) le = Ok v \/
     ~ full /\ exists c, custom_from_group g le = Ok c /\ v = PARAMS (Custom c) (match sb with Some s => if is_default_sbox s then None else Some s | None => None end))).
Proof.
  unfold h_from_key, asn1_from_key. cbn [dk_ec ek_group dk_sbox]. set (sbox := match sb with Some s => _ | None => None end). cbv zeta. set (RES := if (curve_nid_from_group g =? 0)%Z then _ else _).
  t1. t1; [|t1; apply tri_undef; auto]. t1. unfold deref. t1. t1.
  apply (tri_mono _ _ _ _ _ (fun r h' => h' = (p, OTemp) :: h /\ match r with None => RES = Error \/ ~ full | Some v => RES = Ok v \/ ~ full /\ exists c, custom_from_group g le = Ok c /\ v = PARAMS (Custom c) sbox end)).
  { t1. t1; [|leaf]. t1. eapply tri_mono; [apply curve_nid_tri|]. cbv beta. intros nid h' [-> Hn].
    assert (CU : (curve_nid_from_group g = 0%Z \/ ~ full) -> tri (RES = Undefined \/ ~ full) False (r0 <- h_custom_from_group malloc g le ;; match r0 with Some c => ret (Some (PARAMS (Custom c) sbox)) | None => ret None end) ((p, OTemp) :: h)
      (fun r h' => h' = (p, OTemp) :: h /\ match r with None => RES = Error \/ ~ full | Some v => RES = Ok v \/ ~ full /\ exists c, custom_from_group g le = Ok c /\ v = PARAMS (Custom c) sbox end)).
    { intros Z0. t1. eapply tri_mono. { intros n Hn'. pose proof (custom_tri g le ((p, OTemp) :: h) n Hn') as C. destruct (h_custom_from_group _ _ _ _) as [| |[r [h1 n1]]]; [|exact C|exact C].
        destruct C as [C|F]; [|auto]. destruct Z0 as [Z0|F]; [left; unfold RES; rewrite Z0, C; reflexivity|auto]. }
      cbv beta. intros r h' [-> Hr]. destruct Hr as [[NU ->]|[F ->]]; [|leaf]. destruct (custom_from_group g le) as [| |c] eqn:EC; cbn [opt_result]; [contradiction|..].
      - t1. split; [reflexivity|]. destruct Z0 as [Z0|F]; [|auto]. left. unfold RES. rewrite Z0. reflexivity.
      - t1. split; [reflexivity|]. destruct Z0 as [Z0|F]; [|eauto 10]. left. unfold RES. rewrite Z0. reflexivity. }
    destruct Hn as [-> | [F ->]].
    - destruct (curve_nid_from_group g =? 0)%Z eqn:E0; [apply CU; left; lia|]. t1. split; [reflexivity|]. unfold RES. destruct (curve_nid2obj _); auto.
    - apply CU. auto. }
  intros r h' [-> Hr]. destruct r as [v|].
  - t1. right. exists p, v. auto.
  - tfree. t1. left. auto.
Qed.
End Oom.

(** The wrong bit gives the opposite point. *)
Lemma on_curveb_flip c x y : on_curveb c x (N.lxor y x) = on_curveb c x y.
Proof.
  unfold on_curveb, gsqr, gmul. rewrite !Proof_Gf2.clmul_lxor_l, !Proof_Gf2.clmul_lxor_r, !Proof_Gf2.pmod_lxor, (Proof_Gf2.clmul_comm x y). f_equal.
  generalize (pmod (clmul (N.lxor (pmod (clmul x x) (c_p c)) (pmod (clmul (c_a c) x) (c_p c))) x) (c_p c)). intros A. apply N.bits_inj. intros i. rewrite !N.lxor_spec.
  destruct (N.testbit A i), (N.testbit (pmod (clmul y x) (c_p c)) i), (N.testbit (pmod (clmul x x) (c_p c)) i), (N.testbit (c_b c) i), (N.testbit (pmod (clmul y y) (c_p c)) i); reflexivity.
Qed.
Lemma flipped_neg solve s c Q : 1 < c_p c -> flipped solve s c = Some Q -> exists P, expand solve s c = Some P /\ Q = pneg P.
Proof.
  intros Hp. unfold flipped, expand. destruct (_ <? field_size c); [discriminate|]. destruct (be_val s =? 0); [discriminate|]. cbv zeta.
  destruct (bn_trace (N.clearbit (be_val s) 0) (c_p c)) as [t|] eqn:Et; [|discriminate]. apply (Proof_Compress.bn_trace_inv _ Hp) in Et. destruct Et as [He _].
  set (x := if _ || _ then N.setbit _ _ else _). assert (Hx : Spec_Gf2m.elem (c_p c) x).
  { unfold x. rewrite Proof_Compress.set_clear. destruct (_ || _); [apply (Proof_Compress.elem_lxor1 _ Hp)|]; exact He. }
  clearbody x. destruct (ginv _ _) as [i|]; [|discriminate]. destruct (solve _ _) as [z|]; [|discriminate].
  assert (E1 : gmul (c_p c) (N.lxor z 1) x = N.lxor (gmul (c_p c) z x) x).
  { unfold gmul. rewrite Proof_Gf2.clmul_lxor_l, Proof_Gf2.clmul_1_l, Proof_Gf2.pmod_lxor. f_equal. apply Proof_Gf2.pmod_small; [lia|]. unfold Spec_Gf2m.elem in Hx. rewrite Proof_Gf2.degree_log2 in Hx by lia. exact Hx. }
  set (k := N.testbit _ _). clearbody k.
  assert (A : forall u, set_affine c x (gmul (c_p c) z x) = Some u -> set_affine c x (gmul (c_p c) (N.lxor z 1) x) = Some (pneg u) /\ u = pneg (pneg u)).
  { intros u. unfold set_affine. rewrite E1, on_curveb_flip. destruct (on_curveb c x (gmul (c_p c) z x)); [|discriminate]. intros [= <-]. cbn [pneg]. rewrite (N.lxor_comm (gmul (c_p c) z x) x). split; [reflexivity|]. rewrite <- N.lxor_assoc, N.lxor_nilpotent, N.lxor_0_l. reflexivity. }
  assert (B : forall u, set_affine c x (gmul (c_p c) (N.lxor z 1) x) = Some u -> set_affine c x (gmul (c_p c) z x) = Some (pneg u)).
  { intros u. unfold set_affine. rewrite E1, on_curveb_flip. destruct (on_curveb c x (gmul (c_p c) z x)); [|discriminate]. intros [= <-]. cbn [pneg]. rewrite (N.lxor_comm (gmul (c_p c) z x) x), <- N.lxor_assoc, N.lxor_nilpotent, N.lxor_0_l. reflexivity. }
  assert (D : (match bn_trace z (c_p c) with Some t => negb t | None => false end) = negb (match bn_trace z (c_p c) with Some t => t | None => true end)) by (destruct (bn_trace z (c_p c)); reflexivity).
  rewrite D. clear D. set (t1 := match bn_trace z (c_p c) with Some t => t | None => true end). clearbody t1. assert (I : forall u, u = pneg (pneg u)). { intros [[a b]|]; [|reflexivity]. cbn [pneg]. rewrite <- N.lxor_assoc, N.lxor_nilpotent, N.lxor_0_l. reflexivity. }
  destruct k, t1; cbn [xorb negb]; intros H; exists (pneg Q); (split; [|apply I]); (apply B, H) || (apply A, H).
Qed.

Lemma turned_neg solve spec le g : turned solve spec le g -> exists g0, group_from_asn1 solve spec le = Some g0 /\ g = GROUP (g_curve g0) (pneg (g_gen g0)) (g_order g0) (g_cofactor g0).
Proof.
  intros [P [b [bp [c [G [EP [EA [Eb [EC [Ebp [EF [En EG]]]]]]]]]]]]. unfold group_from_asn1. rewrite EP, Eb, EC, Ebp.
  assert (Hp : 1 < c_p c).
  { revert EC. unfold new_curve. destruct (_ || _) eqn:W; [|discriminate]. intros [= <-]. cbn [c_p]. apply orb_true_iff in W. destruct P as [|[q|q|]]; cbn in W; lia || (destruct W; discriminate). }
  destruct (flipped_neg _ _ _ _ Hp EF) as [P0 [E1 ->]]. rewrite E1. destruct (Z.eqb_spec (cu_a spec) 1), (Z.eqb_spec (cu_a spec) 0); try lia; cbn [negb andb].
  all: destruct (Z.ltb_spec (cu_n spec) 0); [lia|]; revert EG; unfold set_generator; destruct (_ || _); [discriminate|]; intros [= <-]; eexists; split; [reflexivity|]; reflexivity.
Qed.

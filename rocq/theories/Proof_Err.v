(** Proofs about engine/err.c. *)
From Coq Require Import Lia ZArith.
From Verif Require Import Base Lib Model_Err Spec_Err.

Section Err.
Variable next_lib : nat -> N.
Hypothesis next_pos : forall n, next_lib n <> 0.

Record inv (ops : list err_op) (s : err_state) : Prop := {
  i_code : er_code s = 0 \/ er_code s = next_lib 0;
  i_zero : er_code s = 0 -> er_calls s = 0%nat /\ er_init s = true /\ er_log s = [];
  i_init : er_init s = negb (loaded_last ops);
  i_bal : forall t, balance t (er_log s) = (if loaded_last ops then 1 else 0)%Z;
  i_name : er_init s = false -> er_name s = next_lib 0;
  i_for : Forall (event_for (next_lib 0)) (er_log s);
  i_puts : puts (er_log s) = map (fun fr => (next_lib 0, fst fr, snd fr)) (reports ops) }.

Lemma balance_app t a b : balance t (a ++ b) = (balance t a + balance t b)%Z.
Proof.
  induction a as [|e a IH]; [reflexivity|]. cbn [app]. unfold balance in *. cbn [fold_right]. rewrite IH.
  destruct e; try destruct (table_eqb _ _); lia.
Qed.
Lemma puts_app a b : puts (a ++ b) = puts a ++ puts b.
Proof. unfold puts. now rewrite map_app, concat_app. Qed.
Lemma reports_app a b : reports (a ++ b) = reports a ++ reports b.
Proof. unfold reports. now rewrite map_app, concat_app. Qed.
Lemma loaded_last_app ops o : loaded_last (ops ++ [o]) = match o with OLoad => true | OUnload => false | OError _ _ => loaded_last ops end.
Proof. unfold loaded_last. rewrite fold_left_app. reflexivity. Qed.

Lemma code_set ops s : inv ops s -> er_code (err_code next_lib s) = next_lib 0 /\ er_init (err_code next_lib s) = er_init s /\
  er_log (err_code next_lib s) = er_log s /\ er_name (err_code next_lib s) = er_name s.
Proof.
  intros I. unfold err_code. destruct (N.eqb_spec (er_code s) 0) as [E|E].
  - destruct (i_zero _ _ I E) as (-> & _ & _). cbn. auto.
  - destruct (i_code _ _ I) as [H|H]; [contradiction|]. auto.
Qed.

Lemma step_inv ops s o : inv ops s -> inv (ops ++ [o]) (err_step next_lib s o).
Proof.
  intros I. destruct (code_set ops s I) as (C1 & C2 & C3 & C4). destruct o as [| |f r]; cbn [err_step].
  - unfold err_load. cbv zeta. rewrite C2. destruct (er_init s) eqn:Ei.
    + pose proof (i_init _ _ I) as Hi. rewrite Ei in Hi.
      assert (Hl : loaded_last ops = false) by (destruct (loaded_last ops); [discriminate|reflexivity]).
      constructor; cbn [er_code er_init er_name er_calls er_log]; rewrite ?loaded_last_app, ?C1, ?C3.
      * right. reflexivity.
      * intros H. exfalso. exact (next_pos 0 H).
      * reflexivity.
      * intros t. rewrite balance_app, (i_bal _ _ I t), Hl. destruct t; reflexivity.
      * reflexivity.
      * apply Forall_app. split; [apply (i_for _ _ I)|]. repeat (apply Forall_cons; [cbn; auto|]); apply Forall_nil.
      * rewrite puts_app, reports_app, (i_puts _ _ I), map_app. reflexivity.
    + pose proof (i_init _ _ I) as Hi. rewrite Ei in Hi.
      assert (Hl : loaded_last ops = true) by (destruct (loaded_last ops); [reflexivity|discriminate]).
      constructor; rewrite ?loaded_last_app, ?C1, ?C2, ?C3, ?C4.
      * right. reflexivity.
      * intros H. exfalso. exact (next_pos 0 H).
      * reflexivity.
      * intros t. rewrite (i_bal _ _ I t), Hl. reflexivity.
      * intros _. apply (i_name _ _ I Ei).
      * apply (i_for _ _ I).
      * rewrite reports_app, (i_puts _ _ I), map_app. cbn. rewrite app_nil_r. reflexivity.
  - unfold err_unload. destruct (er_init s) eqn:Ei; cbn [negb].
    + pose proof (i_init _ _ I) as Hi. rewrite Ei in Hi.
      assert (Hl : loaded_last ops = false) by (destruct (loaded_last ops); [discriminate|reflexivity]).
      constructor; rewrite ?loaded_last_app.
      * apply (i_code _ _ I).
      * apply (i_zero _ _ I).
      * exact Ei.
      * intros t. rewrite (i_bal _ _ I t), Hl. reflexivity.
      * intros H. congruence.
      * apply (i_for _ _ I).
      * rewrite reports_app, (i_puts _ _ I), map_app. cbn. rewrite app_nil_r. reflexivity.
    + pose proof (i_init _ _ I) as Hi. rewrite Ei in Hi.
      assert (Hl : loaded_last ops = true) by (destruct (loaded_last ops); [reflexivity|discriminate]).
      assert (Hc : er_code s = next_lib 0).
      { destruct (i_code _ _ I) as [H|H]; [|exact H]. destruct (i_zero _ _ I H) as (_ & H2 & _). congruence. }
      constructor; cbv zeta; cbn [er_code er_init er_name er_calls er_log]; rewrite ?loaded_last_app.
      * right. exact Hc.
      * intros H. exfalso. rewrite Hc in H. exact (next_pos 0 H).
      * reflexivity.
      * intros t. rewrite balance_app, (i_bal _ _ I t), Hl. destruct t; reflexivity.
      * discriminate.
      * apply Forall_app. split; [apply (i_for _ _ I)|]. pose proof (i_name _ _ I Ei). repeat (apply Forall_cons; [cbn; auto|]); apply Forall_nil.
      * rewrite puts_app, reports_app, (i_puts _ _ I), map_app. reflexivity.
  - unfold err_error. cbv zeta. constructor; cbn [er_code er_init er_name er_calls er_log]; rewrite ?loaded_last_app, ?C1, ?C2, ?C3, ?C4.
    * right. reflexivity.
    * intros H. exfalso. exact (next_pos 0 H).
    * apply (i_init _ _ I).
    * intros t. rewrite balance_app, (i_bal _ _ I t). cbn. lia.
    * apply (i_name _ _ I).
    * apply Forall_app. split; [apply (i_for _ _ I)|]. repeat (apply Forall_cons; [cbn; auto|]). apply Forall_nil.
    * rewrite puts_app, reports_app, (i_puts _ _ I), map_app. reflexivity.
Qed.
Lemma run_inv ops : inv ops (err_run next_lib ops).
Proof.
  unfold err_run. induction ops as [|o ops IH] using rev_ind.
  - constructor; cbn; auto. discriminate.
  - rewrite fold_left_app. cbn [fold_left]. apply step_inv, IH.
Qed.
Lemma err_api ops : let log := er_log (err_run next_lib ops) in
  (forall t, balance t log = if loaded_last ops then 1 else 0)%Z /\
  Forall (event_for (next_lib 0)) log /\
  puts log = map (fun fr => (next_lib 0%nat, fst fr, snd fr)) (reports ops).
Proof.
  cbv zeta. pose proof (run_inv ops) as I. split; [apply (i_bal _ _ I)|]. split; [apply (i_for _ _ I)|apply (i_puts _ _ I)].
Qed.
End Err.

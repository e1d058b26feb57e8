(** Property C38, for measurements of every kind: the mismatches are positions. *)
From Coq Require Import Floats.SpecFloat.
From Verif Require Import Base Str Dec MeasModel PathModel XmlModel ReadModel RegModel ArgFacts ArgProps RegSpec RegFacts RegStart RegMain RegProps ReuseProps CasesRead.

(** [agree e path b m f t]: the measurement [m], made at a moment with files [f] and tolerance [t], has the name and type of the baseline measurement [b], and the visitor says they are equal. *)
Definition agree (e : env) (path : list str) (b : meas) (mo : moment) : Prop :=
  mname b = mname (meas_of (e_io e) true (fst (fst mo))) /\ mtype b = mtype (meas_of (e_io e) true (fst (fst mo))) /\ verdict e path b mo = Ok true.
Lemma agree_bool e path b mo : kind_of_moment e b mo && same_value e path b mo = true <-> agree e path b mo.
Proof.
  unfold agree, kind_of_moment, same_kind, same_value. rewrite !andb_true_iff, !eqs_true. split; intros H.
  - destruct H as [[A B] C]. split; [exact A|]. split; [exact B|]. destruct (verdict e path b mo) as [[]|i| | |]; congruence.
  - destruct H as (A & B & ->). auto.
Qed.
(** The number of mismatches is the number of positions at which the test makes a measurement and the baseline has none, or one that does not agree with it. *)
Theorem C38_positions : forall e path bs ms, exists l, NoDup l /\ mismatches e path bs ms = Z.of_nat (length l) /\
  forall i, In i l <-> exists mo, nth_error ms i = Some mo /\ forall b, nth_error bs i = Some b -> ~ agree e path b mo.
Proof.
  intros e path bs ms. revert bs. induction ms as [|mo ms IH]; intros bs.
  - exists []. split; [constructor|]. split; [reflexivity|]. intros i. split; [intros []|]. intros (mo & H & _). destruct i; discriminate.
  - destruct (IH (tl bs)) as (l & D & E & P). cbn [mismatches]. rewrite E.
    assert (N : NoDup (map S l)) by (apply FinFun.Injective_map_NoDup; [intros x y X; congruence|exact D]).
    assert (T : forall i, nth_error (tl bs) i = nth_error bs (S i)) by (intros i; destruct bs; [destruct i|]; reflexivity).
    assert (Q : forall i, In (S i) (map S l) <-> exists mo', nth_error (mo :: ms) (S i) = Some mo' /\ forall b, nth_error bs (S i) = Some b -> ~ agree e path b mo').
    { intros i. rewrite in_map_iff, <- T. change (nth_error (mo :: ms) (S i)) with (nth_error ms i). rewrite <- P. split; [intros (j & X & I); injection X as ->; exact I|intros I; eauto]. }
    assert (Z0 : ~ In 0 (map S l)) by (rewrite in_map_iff; intros (j & X & _); discriminate).
    assert (G : (exists b, nth_error bs 0 = Some b /\ agree e path b mo) \/ (forall b, nth_error bs 0 = Some b -> ~ agree e path b mo)).
    { destruct bs as [|b bs']; [right; intros b X; discriminate|]. cbn [nth_error]. destruct (kind_of_moment e b mo && same_value e path b mo) eqn:K.
      - left. exists b. split; [reflexivity|]. apply agree_bool. exact K.
      - right. intros b' X A. injection X as <-. apply agree_bool in A. congruence. }
    destruct G as [(b & B & A)|G].
    + exists (map S l). split; [exact N|]. destruct bs as [|b' bs']; [discriminate|]. injection B as ->. apply agree_bool in A. rewrite A. rewrite map_length. split; [lia|].
      intros [|i]; [|apply Q]. split; [contradiction|]. intros (mo' & X & H). injection X as <-. exfalso. apply (H b eq_refl). apply agree_bool. exact A.
    + exists (0 :: map S l). split; [constructor; assumption|]. cbn [length]. rewrite map_length. split.
      * destruct bs as [|b bs']; [lia|]. destruct (kind_of_moment e b mo && same_value e path b mo) eqn:K; [|lia]. exfalso. apply (G b eq_refl). apply agree_bool. exact K.
      * intros [|i]; cbn [In]; [split; [intros _; exists mo; auto|intros _; left; reflexivity]|]. rewrite <- Q. split; [intros [X|X]; [discriminate|exact X]|intros X; right; exact X].
Qed.
Print Assumptions C38_positions.
(** for whole runs *)
Theorem C38_run_positions : forall e f test a0 opts rest inf s' z o f1 baseline, command_line e f opts rest -> input_of opts = Some inf ->
  Main e test (a0 :: flat opts ++ rest) (new_test f) = (s', Ok z) -> started e f (output_of e f opts) (dirs_of opts) inf = Some (o, f1, baseline) ->
  exists ms rs x out l, unfolds e o default_tol f1 (expected_of opts) (test (a0 :: rest)) ms rs x out /\ NoDup l /\ z = status out x (Z.of_nat (length l)) /\
    forall i, In i l <-> i < length rs /\ exists mo, nth_error ms i = Some mo /\ forall b, nth_error baseline i = Some b -> ~ agree e (dirs_of opts) b mo.
Proof.
  intros e f test a0 opts rest inf s' z o f1 baseline Hc Hi Hm Hs. pose proof (C37_compare_status e f test a0 opts rest inf s' z Hc Hi Hm) as H. rewrite Hs in H.
  destruct H as (ms & rs & x & out & U & _ & _ & ->). destruct (C38_positions e (dirs_of opts) baseline (firstn (length rs) ms)) as (l & D & E & P).
  exists ms, rs, x, out, l. split; [exact U|]. split; [exact D|]. split; [rewrite E; reflexivity|]. intros i. rewrite P.
  split; intros H.
  - destruct H as (mo & N & H). assert (i < length rs) by (pose proof (proj1 (nth_error_Some (firstn (length rs) ms) i)) as K; rewrite N in K; specialize (K ltac:(discriminate)); rewrite firstn_length in K; lia).
    split; [assumption|]. exists mo. split; [|exact H]. rewrite <- N. rewrite <- (firstn_skipn (length rs) ms) at 1. apply nth_error_app1. apply nth_error_Some. rewrite N. discriminate.
  - destruct H as (L & mo & N & H). exists mo. split; [|exact H]. assert (i < length ms) by (apply nth_error_Some; rewrite N; discriminate).
    rewrite <- N. symmetry. rewrite <- (firstn_skipn (length rs) ms) at 1. apply nth_error_app1. rewrite firstn_length. lia.
Qed.
Print Assumptions C38_run_positions.
Example C38_run_positions_met := C38_run_positions ex_env (base_of two_baselines) two_calls ($"prog") [($"-I", $"b.xml")] [] ($"b.xml") _ 1%Z None (base_of two_baselines) two_baselines (line_base _) eq_refl
  (pair_fst _ _ ltac:(vm_compute; reflexivity)) ltac:(vm_compute; reflexivity).

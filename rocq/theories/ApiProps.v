(** Property C59: tests that ask the driver or set its file names while they run. *)
From Coq Require Import Floats.SpecFloat.
From Verif Require Import Base Str Dec PathModel PathFacts MeasModel MeasFacts VisitModel XmlModel ReadModel ReadFacts ReadBack RegModel ArgFacts ArgProps RegSpec RegFacts RegStart RegMain RegProps ItkModel ItkSim ApiModel ApiSpec ApiFacts ApiRun.

(** C59.  Asking changes nothing: whatever such a test decides after looking at the mode, the expected value, the tolerance, the names, the search
    directories or the files, its run is, in every detail, the run of a test that does not ask. *)
Theorem C59_asking : forall e test argv s, (forall args, only_asks (test args)) ->
  exists test', api_Main e test argv s = Main e test' argv s.
Proof.
  intros e test argv s H.
  destruct (body_once e (fun _ (_ : prog) => True) (fun q _ => run e q) (fun args => arun e (test args)) argv) with (s := s) as [(q & args & _ & E)|E].
  - intros args s0. destruct (asks_as_if e (test args) (H args) s0) as [q Hq]. exists q. split; [symmetry; exact Hq|exact I].
  - exists (fun _ => q). rewrite Main_is_with. exact E.
  - exists (fun _ => Return 0%Z). rewrite Main_is_with. exact (E (Return 0%Z)).
Qed.
Print Assumptions C59_asking.
(** Setting the name of the output file comes too late: only the name itself is different afterwards. *)
Theorem C59_output_name : forall e test argv s s' r, (forall args, keeps_baseline_name (test args)) -> api_Main e test argv s = (s', r) ->
  exists test' s1, Main e test' argv s = (s1, r) /\ s' = set_out s1 (s_out s').
Proof.
  intros e test argv s s' r H E. unfold api_Main in E. rewrite Main_with_unfold in E.
  assert (G : exists q, outX (main_body_with e (fun args => arun e (test args)) argv (set_unmatched s (s_unmatched s + 1)))
                             (main_body_with e (fun _ => run e q) argv (set_unmatched s (s_unmatched s + 1)))).
  { unfold main_body_with, mbind. destruct (ParseAndRemoveArguments e _ argv _) as [s2 r2]. destruct r2 as [[argc l]|i| | |];
      try (exists (Return 0%Z); split; [apply out_refl|reflexivity]).
    destruct (BeginMeasurement e s2) as [s3 r3]. destruct r3 as [[]|i| | |]; try (exists (Return 0%Z); split; [apply out_refl|reflexivity]).
    apply out_as_if; [apply H|apply out_refl]. }
  destruct G as [q G]. apply (out_ends e) in G. rewrite E, <- Main_with_unfold in G.
  exists (fun _ => q), (fst (Main_with e (fun _ => run e q) argv s)). rewrite Main_is_with.
  destruct G as [[G1 G2] G3]. cbn [fst snd] in *. split.
  - destruct (Main_with e (fun _ => run e q) argv s) as [s1 r1]. cbn [fst snd] in *. congruence.
  - revert G1 G2. generalize (fst (Main_with e (fun _ => run e q) argv s)). clear. intros s1 G1 G2. nameds G1. clear G1. destruct s1, s'. cbn in *. subst. reflexivity.
Qed.
Print Assumptions C59_output_name.
(** A run against a baseline: as C37, the test being told that a comparison is made, and the names and values set last.  If it ends normally with the
    expected value, the mismatches count only if a baseline can be found under the name set at the end. *)
Theorem C59_comparison : forall e f test a0 opts rest inf s' z o f1 baseline,
  command_line e f opts rest -> input_of opts = Some inf ->
  api_Main e test (a0 :: flat opts ++ rest) (new_test f) = (s', Ok z) ->
  started e f (output_of e f opts) (dirs_of opts) inf = Some (o, f1, baseline) ->
  exists ms rs out,
    aunfolds e o (dirs_of opts) default_tol f1 (expected_of opts) inf (output_of e f opts) (test (a0 :: rest)) ms rs (s_expected s') (s_in s') (s_out s') out /\
    rs = results e (dirs_of opts) baseline (firstn (length rs) ms) /\
    (forall mo, nth_error ms (length rs) = Some mo -> exists b i, out = Throw i /\ nth_error baseline (length rs) = Some b /\
       kind_of_moment e b mo = true /\ verdict e (dirs_of opts) b mo = Throw i) /\
    z = astatus (names_baseline e (s_files s') (dirs_of opts) (s_in s')) out (s_expected s') (mismatches e (dirs_of opts) baseline (firstn (length rs) ms)).
Proof. exact api_compare. Qed.
Print Assumptions C59_comparison.
(** While recording, a test that does not set the name of a baseline is told, whenever it asks, that no comparison is made. *)
Theorem C59_mode_while_recording : forall e f test a0 opts rest,
  command_line e f opts rest -> input_of opts = None -> (forall args, keeps_baseline_name (test args)) ->
  api_Main e test (a0 :: flat opts ++ rest) (new_test f) = api_Main e (fun args => told false (test args)) (a0 :: flat opts ++ rest) (new_test f).
Proof.
  intros e f test a0 opts rest Hc Hi Hk. unfold api_Main. rewrite !Main_with_unfold. f_equal.
  change (s_unmatched (new_test f) + 1)%Z with 1%Z. rewrite !(main_with_launch e f _ a0 opts rest Hc). unfold mbind.
  assert (Hin : s_in (launched e f opts) = []) by (cbn; rewrite Hi; reflexivity).
  pose proof (begin_record e (launched e f opts) eq_refl eq_refl Hin) as B.
  destruct (BeginMeasurement e (launched e f opts)) as [s2 r2] eqn:E2. destruct r2 as [[]|i| | |]; try reflexivity.
  symmetry.
  destruct (opened e (s_files (launched e f opts)) (s_out (launched e f opts))) as [[o f1]|].
  - injection B as ->. set (s1 := put_text (header e) _).
    destruct (put_text_any (header e) (set_os (set_files (launched e f opts) f1) o)) as (F & _). fold s1 in F. destruct F as (F1 & F2 & F3 & F4 & F5).
    apply told_record; [apply Hk| |]; [rewrite F5|rewrite F1]; [reflexivity|exact Hin].
  - discriminate B.
Qed.
Print Assumptions C59_mode_while_recording.

(** A test that forgets the name of the baseline passes, whatever it measured. *)
Theorem C59_mismatches_count_refuted : exists e f test argv s', api_Main e test argv (new_test f) = (s', Ok 0%Z) /\ s_unmatched s' = 1%Z /\
  In ($"-I") argv /\ forall args, test args = ACall (TextString ($"text") ($"name")) (fun _ => ASetInFileName [] (AReturn 0)).
Proof.
  exists ex_env, ex_base, (fun _ => ACall (TextString ($"text") ($"name")) (fun _ => ASetInFileName [] (AReturn 0))), [$"prog"; $"-I"; $"b.xml"].
  eexists. split; [vm_compute; reflexivity|]. repeat split. cbn. auto.
Qed.
Print Assumptions C59_mismatches_count_refuted.
(** A test may turn a recording into a comparison with nothing: the document recorded so far is not finished, and every further measurement is a mismatch. *)
Theorem C59_mode_is_fixed_refuted : exists e f test argv s', api_Main e test argv (new_test f) = (s', Ok 1%Z) /\ ~ In ($"-I") argv /\
  (forall k, s_stdout s' <> k ++ footer) /\
  forall args, test args = ASetInFileName ($"b.xml") (ACall (TextString ($"text") ($"name")) (fun _ => AReturn 0)).
Proof.
  exists ex_env, ex_base, (fun _ => ASetInFileName ($"b.xml") (ACall (TextString ($"text") ($"name")) (fun _ => AReturn 0))), [$"prog"].
  eexists. split; [vm_compute; reflexivity|]. split; [cbn; intros [H|[]]; discriminate H|]. split; [|reflexivity].
  intros k H. apply (f_equal (@rev ascii)) in H. rewrite rev_app_distr in H. vm_compute in H.
  repeat (match type of H with (?a :: ?l = ?b :: ?r) => apply (f_equal (@tl ascii)) in H as H'; apply (f_equal (@hd_error ascii)) in H; first [discriminate H | clear H; rename H' into H; cbn [tl] in H] end).
Qed.
Print Assumptions C59_mode_is_fixed_refuted.

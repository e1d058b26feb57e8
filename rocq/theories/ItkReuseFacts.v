(** Lemmas for C72: what the ITK driver does does not depend on the count of failures and the output so far, and it keeps names and streams. *)
From Coq Require Import Floats.SpecFloat.
From Verif Require Import Base Str Dec PathModel MeasModel VisitModel RegModel ImgModel ItkModel ItkReuseModel ArgFacts ArgProps RegSpec RegFacts RegStart RegMain RegProps ReuseProps.
Local Open Scope Z_scope.

Section Later.
Variables (n : Z) (p : str).
Notation com := (commutes (later n p)).
Lemma later_say text : com (say text).
Proof. apply com_modify. intros s. unfold later, set_unmatched, set_stdout. cbn. rewrite app_assoc. reflexivity. Qed.
Lemma later_say_meas m : com (say_meas m).
Proof. unfold say_meas. apply com_bind; [apply com_lift|]. intros t. apply later_say. Qed.
Lemma later_report same a b : com (report same a b).
Proof. unfold report. destruct same; [apply com_ret|]. apply com_bind; [apply later_say_meas|]. intros _. apply later_say_meas. Qed.
Lemma later_itk_compare ie tol c b m : com (itk_Compare ie tol c b m).
Proof.
  assert (G : com (out <- gets (fun s => Compare (e_sc (i_env ie)) (sources (i_env ie) (s_files s)) (e_io (i_env ie)) c b m) ;;
                   let '(baseline, m0, v) := out in same <- mlift v ;; mret (baseline, m0, same))).
  { apply com_bind; [apply com_gets; reflexivity|]. intros [[b' m'] v]. apply com_bind; [apply com_lift|]. intros same. apply com_ret. }
  unfold itk_Compare. destruct b as [b|b], m as [m|m]; try exact G. destruct (eqs _ _); [|exact G].
  apply com_bind; [apply later_say|]. intros _. apply com_bind; [apply com_gets; reflexivity|]. intros v. apply com_bind; [apply com_lift|]. intros r. apply com_ret.
Qed.
Lemma later_thing ie im file name : com (ImageThing ie im file name).
Proof.
  unfold ImageThing. apply com_bind; [apply later_say|]. intros _. apply com_bind; [destruct (i_png ie im); [apply com_modify; reflexivity|apply com_ret]|]. intros _. apply later_say_meas.
Qed.
Lemma later_test_image ie tol b m : com (DifferenceTestImage ie tol b m).
Proof.
  unfold DifferenceTestImage. apply com_bind; [apply com_gets; reflexivity|]. intros t. apply com_bind; [apply com_gets; reflexivity|]. intros bb.
  destruct t as [t|]; [|apply com_lift]. destruct bb as [bb|]; [|apply com_lift]. destruct (negb _); [apply later_report|].
  do 5 (apply com_bind; [apply later_report|]; intros _).
  apply com_bind; [apply com_gets; reflexivity|]. intros ti. apply com_bind; [apply com_gets; reflexivity|]. intros bi.
  destruct ti as [ti|]; [|apply com_lift]. destruct bi as [bi|]; [|apply com_lift].
  apply com_bind; [apply later_say_meas|]. intros _.
  apply com_bind; [apply com_lift|]. intros p1. apply com_bind; [apply later_thing|]. intros _.
  apply com_bind; [apply com_lift|]. intros p2. apply com_bind; [apply later_thing|]. intros _.
  apply com_bind; [apply com_lift|]. intros p3. apply later_thing.
Qed.
Lemma later_difference e m b : com (DifferenceMeasurement e m b).
Proof. unfold DifferenceMeasurement. apply com_bind; [apply later_one|]. intros _. apply com_bind; [apply com_lift|]. intros text. apply later_put. Qed.
Lemma later_itk_difference ie tol m b : com (itk_Difference ie tol m b).
Proof.
  unfold itk_Difference. destruct b as [b|b], m as [m|m]; try apply later_difference. destruct (eqs _ _); [|apply later_difference].
  apply com_bind; [apply later_one|]. intros _. apply later_test_image.
Qed.
Lemma later_itk_compare_measurement ie tol m t : com (itk_CompareMeasurement ie tol m t).
Proof.
  assert (U : com (_ <- UnmatchedMeasurement m ;; mret 1)).
  { apply com_bind; [|intros _; apply com_ret]. unfold UnmatchedMeasurement. apply com_bind; [apply later_one|]. intros _. apply later_put_meas. }
  unfold itk_CompareMeasurement. apply com_bind; [intros s; reflexivity|]. intros [|b bs]; [exact U|].
  apply com_bind; [intros s; reflexivity|]. intros _. destruct (_ && _); [|exact U].
  apply com_bind; [intros s; reflexivity|]. intros b'. apply com_bind; [intros s; reflexivity|]. intros c.
  apply com_bind; [apply later_itk_compare|]. intros [[b2 m2] [|]]; [apply com_ret|]. apply com_bind; [|intros _; apply com_ret]. apply later_itk_difference.
Qed.
Lemma later_itk_measure ie tol c : com (itk_Measure ie tol c).
Proof.
  unfold itk_Measure. apply com_bind; [apply later_mode|]. intros [|]; [apply later_itk_compare_measurement|]. apply com_bind; [apply later_put_meas|]. intros _. apply com_ret.
Qed.
Lemma later_image ie tol f nm : com (MeasurementInsightFileImage ie tol f nm).
Proof.
  unfold MeasurementInsightFileImage. apply com_bind; [apply later_mode|]. intros [|]; [apply later_itk_compare_measurement|]. apply com_bind; [apply later_put_meas|]. intros _. apply com_ret.
Qed.
Lemma later_irun ie args q : forall tol count, com (irun ie args q tol count).
Proof.
  induction q as [z|x|c k IH|f nm k IH|t k IH|ext root k IH|t k IH|t k IH|z k IH|path b k IH]; intros tol count; cbn [irun]; try apply com_ret; try apply com_lift.
  - apply com_bind; [apply later_itk_measure|]. intros r. apply IH.
  - apply com_bind; [apply later_image|]. intros r. apply IH.
  - apply IH.
  - apply com_bind; [apply com_lift|]. intros m. apply IH.
  - apply com_bind; [apply later_say|]. intros _. apply IH.
  - apply com_bind; [intros s; reflexivity|]. intros _. apply IH.
  - apply com_bind; [intros s; reflexivity|]. intros _. apply IH.
  - apply com_bind; [intros s; reflexivity|]. intros _. apply IH.
Qed.
Lemma later_leaves ie args q : forall tol count s, leaves ie args q tol count (later n p s) = leaves ie args q tol count s.
Proof.
  induction q as [z|x|c k IH|f nm k IH|t k IH|ext root k IH|t k IH|t k IH|z k IH|path b k IH]; intros tol count s; cbn [leaves]; try reflexivity.
  - rewrite (later_itk_measure ie tol c s). destruct (itk_Measure ie tol c s) as [s1 [r| | | |]]; cbn [fst snd]; try reflexivity. apply IH.
  - rewrite (later_image ie tol f nm s). destruct (MeasurementInsightFileImage ie tol f nm s) as [s1 [r| | | |]]; cbn [fst snd]; try reflexivity. apply IH.
  - apply IH.
  - destruct (GenerateFileName _ _ _ _ _) as [m| | | |]; try reflexivity. rewrite IH. reflexivity.
  - rewrite <- (IH tol count (set_stdout s (s_stdout s ++ t))). f_equal. unfold later, set_unmatched, set_stdout. cbn. rewrite app_assoc. reflexivity.
  - rewrite <- (IH tol count (set_tol s t)). reflexivity.
  - rewrite <- (IH tol count (set_expected s z)). reflexivity.
  - rewrite <- (IH tol count (set_files s _)). reflexivity.
Qed.
Lemma later_begun e argv : com (begun e argv).
Proof.
  unfold begun. apply com_bind; [apply com_arguments; reflexivity|]. intros [argc l]. apply com_bind; [apply later_begin|]. intros _. apply com_ret.
Qed.
End Later.

(** names and streams *)
Lemma iok_say text : iok (say text).
Proof. intros s. repeat split; auto. Qed.
Lemma iok_say_meas m : iok (say_meas m).
Proof. unfold say_meas. apply iok_bind; [apply iok_here; reflexivity|]. intros t. apply iok_say. Qed.
Lemma iok_report same a b : iok (report same a b).
Proof. unfold report. destruct same; [apply iok_here; reflexivity|]. apply iok_bind; [apply iok_say_meas|]. intros _. apply iok_say_meas. Qed.
Lemma iok_itk_compare ie tol c b m : iok (itk_Compare ie tol c b m).
Proof.
  assert (G : iok (out <- gets (fun s => Compare (e_sc (i_env ie)) (sources (i_env ie) (s_files s)) (e_io (i_env ie)) c b m) ;;
                   let '(baseline, m0, v) := out in same <- mlift v ;; mret (baseline, m0, same))).
  { apply iok_bind; [apply iok_here; reflexivity|]. intros [[b' m'] v]. apply iok_bind; [apply iok_here; reflexivity|]. intros same. apply iok_here; reflexivity. }
  unfold itk_Compare. destruct b as [b|b], m as [m|m]; try exact G. destruct (eqs _ _); [|exact G].
  apply iok_bind; [apply iok_say|]. intros _. apply iok_bind; [apply iok_here; reflexivity|]. intros v. apply iok_bind; [apply iok_here; reflexivity|]. intros r. apply iok_here; reflexivity.
Qed.
Lemma iok_thing ie im file name : iok (ImageThing ie im file name).
Proof.
  unfold ImageThing. apply iok_bind; [apply iok_say|]. intros _. apply iok_bind; [destruct (i_png ie im); [intros s; repeat split; auto|apply iok_here; reflexivity]|]. intros _. apply iok_say_meas.
Qed.
Lemma iok_test_image ie tol b m : iok (DifferenceTestImage ie tol b m).
Proof.
  assert (H : forall A (r : res A), iok (mlift r)) by (intros; apply iok_here; reflexivity). assert (G : forall A (h : rst -> A), iok (gets h)) by (intros; apply iok_here; reflexivity).
  unfold DifferenceTestImage. apply iok_bind; [apply G|]. intros t. apply iok_bind; [apply G|]. intros bb.
  destruct t as [t|]; [|apply H]. destruct bb as [bb|]; [|apply H]. destruct (negb _); [apply iok_report|].
  do 5 (apply iok_bind; [apply iok_report|]; intros _).
  apply iok_bind; [apply G|]. intros ti. apply iok_bind; [apply G|]. intros bi.
  destruct ti as [ti|]; [|apply H]. destruct bi as [bi|]; [|apply H].
  apply iok_bind; [apply iok_say_meas|]. intros _.
  apply iok_bind; [apply H|]. intros p1. apply iok_bind; [apply iok_thing|]. intros _.
  apply iok_bind; [apply H|]. intros p2. apply iok_bind; [apply iok_thing|]. intros _.
  apply iok_bind; [apply H|]. intros p3. apply iok_thing.
Qed.
Lemma iok_difference e m b : iok (DifferenceMeasurement e m b).
Proof. unfold DifferenceMeasurement. apply iok_bind; [apply iok_one|]. intros _. apply iok_bind; [apply iok_here; reflexivity|]. intros text. apply iok_put. Qed.
Lemma iok_itk_difference ie tol m b : iok (itk_Difference ie tol m b).
Proof.
  unfold itk_Difference. destruct b as [b|b], m as [m|m]; try apply iok_difference. destruct (eqs _ _); [|apply iok_difference].
  apply iok_bind; [apply iok_one|]. intros _. apply iok_test_image.
Qed.
Lemma iok_itk_compare_measurement ie tol m t : iok (itk_CompareMeasurement ie tol m t).
Proof.
  assert (U : iok (_ <- UnmatchedMeasurement m ;; mret 1)).
  { apply iok_bind; [|intros _; apply iok_here; reflexivity]. apply iok_bind; [apply iok_one|]. intros _. apply iok_put_meas. }
  intros s. unfold itk_CompareMeasurement. unfold mbind at 1, gets at 1. cbv iota. destruct (s_input s) as [|b bs] eqn:E; [apply U|].
  assert (K : forall m' : M Z, iok m' -> io_kept s (fst ((_ <- modify (fun s => set_input s bs) ;; m') s))).
  { intros m' Hm. unfold mbind, modify. cbv iota. eapply io_trans; [|apply Hm]. repeat split. rewrite E. discriminate. }
  apply K. destruct (_ && _); [|exact U].
  apply iok_bind; [apply iok_here; reflexivity|]. intros b'. apply iok_bind; [apply iok_here; reflexivity|]. intros c.
  apply iok_bind; [apply iok_itk_compare|]. intros [[b2 m2] [|]]; [apply iok_here; reflexivity|]. apply iok_bind; [|intros _; apply iok_here; reflexivity]. apply iok_itk_difference.
Qed.
Lemma iok_irun ie args q : forall tol count, iok (irun ie args q tol count).
Proof.
  induction q as [z|x|c k IH|f nm k IH|t k IH|ext root k IH|t k IH|t k IH|z k IH|path b k IH]; intros tol count; cbn [irun]; try (apply iok_here; reflexivity).
  - apply iok_bind; [|intros r; apply IH]. unfold itk_Measure. apply iok_bind; [apply iok_here; reflexivity|]. intros [|]; [apply iok_itk_compare_measurement|].
    apply iok_bind; [apply iok_put_meas|]. intros _. apply iok_here; reflexivity.
  - apply iok_bind; [|intros r; apply IH]. unfold MeasurementInsightFileImage. apply iok_bind; [apply iok_here; reflexivity|]. intros [|]; [apply iok_itk_compare_measurement|].
    apply iok_bind; [apply iok_put_meas|]. intros _. apply iok_here; reflexivity.
  - apply IH.
  - apply iok_bind; [apply iok_here; reflexivity|]. intros m. apply IH.
  - apply iok_bind; [apply iok_say|]. intros _. apply IH.
  - apply iok_bind; [intros s; repeat split; auto|]. intros _. apply IH.
  - apply iok_bind; [intros s; repeat split; auto|]. intros _. apply IH.
  - apply iok_bind; [intros s; repeat split; auto|]. intros _. apply IH.
Qed.

(** * The whole call, for any test that does so *)
Lemma begun_tidy e argv s : ~ In [] argv -> tidy s -> tidy (fst (begun e argv s)).
Proof.
  intros N T. unfold begun. unfold mbind at 1. pose proof (arguments_tidy e (S (length argv)) argv s N T) as T1.
  destruct (ParseAndRemoveArguments e (S (length argv)) argv s) as [s1 [[argc l]| | | |]]; cbn [fst] in T1; try exact T1.
  unfold mbind at 1. pose proof (begin_tidy e s1 T1) as T2. destruct (BeginMeasurement e s1) as [s2 [[]| | | |]]; cbn [fst] in T2; exact T2.
Qed.
Lemma begun_alike e argv s : ~ In [] argv -> tidy s -> alike (begun e argv s) (begun e argv (clean s)).
Proof.
  intros N T. unfold begun. unfold mbind at 1. unfold mbind at 2.
  rewrite (com_arguments clean ltac:(reflexivity) ltac:(reflexivity) ltac:(reflexivity) ltac:(reflexivity) ltac:(reflexivity) e (S (length argv)) argv s).
  pose proof (arguments_tidy e (S (length argv)) argv s N T) as T1.
  destruct (ParseAndRemoveArguments e (S (length argv)) argv s) as [s1 [[argc l]| | | |]]; cbn [fst snd] in *; try (right; split; [reflexivity|]; split; [exact Logic.I|reflexivity]).
  unfold mbind at 1. unfold mbind at 1. destruct (begin_alike e s1 T1) as [E|(E1 & E2 & E3)].
  - rewrite E. left. reflexivity.
  - destruct (BeginMeasurement e s1) as [s2 r2]. destruct (BeginMeasurement e (clean s1)) as [s3 r3]. cbn [fst snd] in *. subst r3.
    destruct r2 as [[]| | | |]; [contradiction|..]; (right; split; [reflexivity|]; split; [exact Logic.I|exact E3]).
Qed.
Lemma body_begun e body argv s : main_body_with e body argv s = mbind (begun e argv) body s.
Proof.
  unfold main_body_with, begun, mbind. destruct (ParseAndRemoveArguments e (S (length argv)) argv s) as [s1 [[argc l]| | | |]]; try reflexivity.
  destruct (BeginMeasurement e s1) as [s2 [[]| | | |]]; reflexivity.
Qed.
Lemma Main_with_cases e body argv s : Main_with e body argv s =
  match mbind (begun e argv) body (bump 1 s) with
  | (s1, Ok ret) => match EndMeasurement e s1 with
                    | (s2, Ok _) => (bump (-1) s2, returned e (bump (-1) s2) ret)
                    | (s2, Throw _) => (s2, returned e s2 ret)
                    | (s2, UB) => (s2, UB) | (s2, Abort) => (s2, Abort) | (s2, Hang) => (s2, Hang)
                    end
  | (s1, Throw _) => (s1, returned e s1 (-1))
  | (s1, UB) => (s1, UB) | (s1, Abort) => (s1, Abort) | (s1, Hang) => (s1, Hang)
  end.
Proof.
  assert (F : forall ret s, (if negb (ret =? s_expected s) then (s, Ok ret) else (s, cm <-- compare_mode e s ;; Ok (if (cm : bool) then s_unmatched s else 0))) = (s, returned e s ret)).
  { intros ret s0. unfold returned. destruct (ret =? s_expected s0); reflexivity. }
  rewrite <- body_begun. unfold Main_with. cbv zeta. change (set_unmatched s (s_unmatched s + 1)) with (bump 1 s). destruct (main_body_with e body argv (bump 1 s)) as [s1 [ret| | | |]]; try reflexivity; [|apply F].
  destruct (EndMeasurement e s1) as [s2 [[]| | | |]]; try reflexivity; apply F.
Qed.
Section Whole.
Variables (e : env) (body : list str -> M Z).
Hypothesis body_later : forall n p a, commutes (later n p) (body a).
Hypothesis body_iok : forall a, iok (body a).
Lemma with_tidy argv s : ~ In [] argv -> tidy s -> tidy (fst (Main_with e body argv s)).
Proof.
  intros N T. rewrite Main_with_cases. assert (B : tidy (fst (mbind (begun e argv) body (bump 1 s)))).
  { unfold mbind. pose proof (begun_tidy e argv (bump 1 s) N T) as T1. destruct (begun e argv (bump 1 s)) as [s1 [a| | | |]]; cbn [fst] in T1; try exact T1. eapply tidy_io; [apply body_iok|exact T1]. }
  destruct (mbind (begun e argv) body (bump 1 s)) as [s1 [ret| | | |]]; try exact B.
  cbn [fst] in B. pose proof (end_tidy e s1 B) as E. destruct (EndMeasurement e s1) as [s2 [[]| | | |]]; exact E.
Qed.
Lemma with_alike argv s : ~ In [] argv -> tidy s -> alike (mbind (begun e argv) body s) (mbind (begun e argv) body (clean s)).
Proof.
  intros N T. unfold mbind. destruct (begun_alike e argv s N T) as [E|(E1 & E2 & E3)]; [rewrite E; left; reflexivity|].
  destruct (begun e argv s) as [s2 r2]. destruct (begun e argv (clean s)) as [s3 r3]. cbn [fst snd] in *. subst r3.
  destruct r2 as [a| | | |]; [contradiction|..]; (right; split; [reflexivity|]; split; [exact Logic.I|exact E3]).
Qed.
Lemma follows_main_with argv s : ~ In [] argv -> tidy s ->
  let n := s_unmatched s in let p := s_stdout s in
  let alone := Main_with e body argv (with_settings_of s) in let next := Main_with e body argv s in
  follows e n p alone next /\
  (snd next = snd alone /\ not_ok (snd alone) \/
   exists ret, snd alone = returned e (fst alone) ret /\
     (snd next = returned e (later n p (fst alone)) ret \/ ret = -1 /\ snd next = returned e (fst next) ret)).
Proof.
  intros N T n p alone next.
  assert (E0 : clean (bump 1 s) = later n p (bump 1 (with_settings_of s))).
  { unfold clean, later, bump, with_settings_of, n, p, set_input, set_is, set_os, set_unmatched, set_stdout. cbn [s_files s_stdout s_input s_in s_out s_path s_os s_is s_tol s_unmatched s_expected]. rewrite app_nil_r. f_equal. lia. }
  pose proof (with_alike argv (bump 1 s) N T) as A.
  rewrite E0, (com_bind (later n p) (begun e argv) body (later_begun n p e argv) (body_later n p)) in A.
  unfold alone, next. rewrite !Main_with_cases. clear alone next.
  destruct (mbind (begun e argv) body (bump 1 (with_settings_of s))) as [s1 r1]. cbn [fst snd] in A.
  destruct A as [A|(A1 & A2 & A3)].
  - rewrite A. destruct r1 as [ret| | | |].
    + rewrite (later_end n p e s1). destruct (EndMeasurement e s1) as [s2 [[]| | | |]]; cbn [fst snd].
      * assert (B : bump (-1) (later n p s2) = later n p (bump (-1) s2)) by (unfold bump, later, set_unmatched, set_stdout; cbn [s_files s_stdout s_input s_in s_out s_path s_os s_is s_tol s_unmatched s_expected]; f_equal; lia).
        rewrite B. split; [apply follows_later|]. right. exists ret. split; [reflexivity|]. left. reflexivity.
      * split; [apply follows_later|]. right. exists ret. split; [reflexivity|]. left. reflexivity.
      * split; [apply follows_later|]. left. split; [reflexivity|exact Logic.I].
      * split; [apply follows_later|]. left. split; [reflexivity|exact Logic.I].
      * split; [apply follows_later|]. left. split; [reflexivity|exact Logic.I].
    + split; [apply follows_later|]. right. exists (-1). split; [reflexivity|]. left. reflexivity.
    + split; [apply follows_later|]. left. split; [reflexivity|exact Logic.I].
    + split; [apply follows_later|]. left. split; [reflexivity|exact Logic.I].
    + split; [apply follows_later|]. left. split; [reflexivity|exact Logic.I].
  - destruct (mbind (begun e argv) body (bump 1 s)) as [s2 r2]. cbn [fst snd] in *. subst r2. destruct r1 as [ret| | | |]; [contradiction|..].
    + split; [apply follows_clean; exact A3|]. right. exists (-1). split; [reflexivity|]. right. split; reflexivity.
    + split; [apply follows_clean; exact A3|]. left. split; [reflexivity|exact Logic.I].
    + split; [apply follows_clean; exact A3|]. left. split; [reflexivity|exact Logic.I].
    + split; [apply follows_clean; exact A3|]. left. split; [reflexivity|exact Logic.I].
Qed.
End Whole.
(** where the test starts *)
Lemma begun_later e argv s : ~ In [] argv -> tidy s ->
  match begun e argv (bump 1 s), begun e argv (bump 1 (with_settings_of s)) with
  | (s1, Ok a), (s2, Ok a') => a = a' /\ s1 = later (s_unmatched s) (s_stdout s) s2
  | (_, Ok _), _ | _, (_, Ok _) => False
  | _, _ => True
  end.
Proof.
  intros N T. set (n := s_unmatched s). set (p := s_stdout s).
  assert (E0 : clean (bump 1 s) = later n p (bump 1 (with_settings_of s))).
  { unfold clean, later, bump, with_settings_of, n, p, set_input, set_is, set_os, set_unmatched, set_stdout. cbn [s_files s_stdout s_input s_in s_out s_path s_os s_is s_tol s_unmatched s_expected]. rewrite app_nil_r. f_equal. lia. }
  pose proof (begun_alike e argv (bump 1 s) N T) as A. rewrite E0, (later_begun n p e argv) in A.
  destruct (begun e argv (bump 1 s)) as [s1 r1]. destruct (begun e argv (bump 1 (with_settings_of s))) as [s2 r2]. cbn [fst snd] in A.
  destruct A as [A|(A1 & A2 & _)].
  - injection A as -> ->. destruct r2; auto.
  - cbn [snd fst] in *. subst r2. destruct r1; [contradiction|..]; exact Logic.I.
Qed.

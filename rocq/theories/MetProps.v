(** Concrete runs that meet all the hypotheses of theorems about several runs: each example applies the theorem itself to given programs, files and arguments
    and states what it says about them. *)
From Coq Require Import Floats.SpecFloat.
From Verif Require Import Base Str Dec PathModel PathFacts MeasModel MeasFacts MeasFacts2 MeasProps XmlText XmlModel ReadModel ReadFacts ReadBack ReadProps RegModel ArgFacts ArgProps RegSpec RegFacts RegStart RegMain RegProps RegProps2 RegRound ChangeProps CutProps LimitModel LimitProps EolProps ProcModel ProcFacts ProcProps.

Definition none : store := fun _ => None.
Definition O_line : list (str * str) := [($"-O", $"b.xml")].
Definition I_line : list (str * str) := [($"-I", $"b.xml")].
Definition O_args : list str := $"prog" :: flat O_line ++ [].
Definition I_args : list str := $"prog" :: flat I_line ++ [].
Definition made (t : list str -> prog) : rst := fst (Main ex_env t O_args (new_test none)).
(** the state after the first run: one file, with what was recorded *)
Definition left_by (t : list str -> prog) : store := s_files (made t).
Lemma met_O e : command_line e none O_line [].
Proof. split; [|exact I]. constructor; [|constructor]. split; [cbn; auto|]. split; intros E; discriminate E. Qed.
Lemma met_I e f : readable_file e f ($"b.xml") = true -> command_line e f I_line [].
Proof. intros H. apply andb_true_iff in H as [H1 H2]. split; [|exact I]. constructor; [|constructor]. split; [cbn; auto|]. split; intros E; [split; assumption|discriminate E]. Qed.
Lemma safe_host : comment_safe (e_host ex_env).
Proof. split; [reflexivity|]. intros a b E. apply (f_equal (fun l => existsb (fun c => eqc c "-") l)) in E. rewrite !existsb_app in E. cbn in E. rewrite orb_true_r in E. discriminate. Qed.
Lemma safe_time : comment_safe (e_time ex_env).
Proof. split; [reflexivity|]. intros a b E. apply (f_equal (fun l => existsb (fun c => eqc c "-") l)) in E. rewrite !existsb_app in E. cbn in E. rewrite orb_true_r in E. discriminate. Qed.

(** * C64: the same measurements, but the last one is no longer made: passes *)
Definition shorter : list str -> prog := fun _ => Call (TextString ($"a") ($"one")) (fun _ => Call (NumericInteger 5 ($"two") false) (fun _ => Return 0)).
Example C64_met : exists more, map (what (e_io ex_env)) (recorded (old_version [$"prog"])) = map (what (e_io ex_env)) (recorded (shorter [$"prog"])) ++ more.
Proof.
  assert (M : Main ex_env shorter I_args (new_test (left_by old_version)) = (fst (Main ex_env shorter I_args (new_test (left_by old_version))), Ok 0%Z)).
  { rewrite (surjective_pairing (Main _ _ _ _)) at 1. apply (f_equal2 pair); [reflexivity|vm_compute; reflexivity]. }
  assert (N : Main ex_env old_version O_args (new_test none) = (made old_version, Ok 0%Z)).
  { unfold made. rewrite (surjective_pairing (Main _ _ _ _)) at 1. apply (f_equal2 pair); [reflexivity|vm_compute; reflexivity]. }
  refine (proj1 (C64_passes_iff ex_env none old_version ($"prog") [] O_line (Some ($"b.xml")) (upd none ($"b.xml") (Some (FFile true true []))) (made old_version) 0%Z
    ex_env (left_by old_version) shorter ($"prog") [] I_line ($"b.xml") None (left_by old_version) 0%Z _ 0%Z
    (met_O _) eq_refl eq_refl _ _ _ safe_host safe_time _ N (met_I _ _ _) eq_refl eq_refl _ _ _ eq_refl M eq_refl) eq_refl).
  - cbn [old_version leaves_alone]. intros _ _ _. exact I.
  - exists 0%Z. reflexivity.
  - repeat constructor.
  - repeat constructor.
  - vm_compute. reflexivity.
  - vm_compute. reflexivity.
  - cbn [shorter steady]. auto.
  - repeat constructor.
Qed.

(** * C70: a test that ends with an exception while it records *)
Definition interrupted : list str -> prog := fun _ => Call (TextString ($"a") ($"one")) (fun _ => Call (TextPlain ($"two lines") ($"two")) (fun _ => Raise ExnRuntime)).
Example C70_exception_met : exists s2, Main (c70_env false) ex_recording I_args (new_test (left_by interrupted)) = (s2, Ok (-1)%Z) /\ s_files s2 = left_by interrupted.
Proof.
  assert (N : Main ex_env interrupted O_args (new_test none) = (made interrupted, Ok (-1)%Z)).
  { unfold made. rewrite (surjective_pairing (Main _ _ _ _)) at 1. apply (f_equal2 pair); [reflexivity|vm_compute; reflexivity]. }
  destruct (C70_exception_noticed ex_env none interrupted ($"prog") [] O_line (Some ($"b.xml")) (upd none ($"b.xml") (Some (FFile true true []))) (made interrupted) (-1)%Z ExnRuntime
    (c70_env false) (left_by interrupted) ex_recording ($"prog") [] I_line ($"b.xml") None (left_by interrupted)
    (met_O _) eq_refl eq_refl ltac:(cbn [interrupted leaves_alone]; intros _ _; exact I) eq_refl ltac:(repeat constructor) safe_host safe_time N (met_I (c70_env false) (left_by interrupted) ltac:(vm_compute; reflexivity)) eq_refl eq_refl ltac:(vm_compute; reflexivity)
    ltac:(intros p q _ _ _; reflexivity)) as (s2 & H).
  exists s2. destruct H as [H1 H2]. split; [exact H1|apply H2].
Qed.

(** * C73: a disk that was full after 160 bytes, noticed when comparing *)
Local Notation full_run := (limited_Main ex_env ex_recording O_args (new_test none, 160)).
Example C73_noticed_met : exists s2,
  (Main (c70_env false) ex_recording I_args (new_test (s_files (fst (fst full_run)))) = (s2, Ok (-1)%Z) /\ s_files s2 = s_files (fst (fst full_run))).
Proof.
  assert (N : Main ex_env ex_recording O_args (new_test none) = (made ex_recording, Ok 0%Z)).
  { unfold made. rewrite (surjective_pairing (Main _ _ _ _)) at 1. apply (f_equal2 pair); [reflexivity|vm_compute; reflexivity]. }
  assert (F : full_run = ((fst (fst full_run), snd (fst full_run)), Ok 0%Z)).
  { transitivity (fst full_run, snd full_run); [apply surjective_pairing|]. apply (f_equal2 pair); [apply surjective_pairing|vm_compute; reflexivity]. }
  destruct (C73_noticed_later ex_env none ex_recording ($"prog") [] O_line (Some ($"b.xml")) (upd none ($"b.xml") (Some (FFile true true []))) (made ex_recording) 0%Z
    160 (fst (fst full_run)) (snd (fst full_run)) 0%Z (c70_env false) (s_files (fst (fst full_run))) ex_recording ($"prog") [] I_line ($"b.xml") None (s_files (fst (fst full_run)))
    (met_O _) eq_refl eq_refl ltac:(cbn [ex_recording leaves_alone]; intros _ _; exact I) (ex_intro _ 0%Z eq_refl) ltac:(repeat constructor) safe_host safe_time N ltac:(vm_compute; lia) F
    (met_I (c70_env false) (s_files (fst (fst full_run))) ltac:(vm_compute; reflexivity)) eq_refl eq_refl ltac:(vm_compute; reflexivity) ltac:(intros p q _ _ _; reflexivity)) as (_ & s2 & H).
  exists s2. destruct H as [(H1 & H2 & _)|(H & _)]; [split; assumption|discriminate H].
Qed.

(** * C74: a recorded file with all its line ends changed to carriage return and line feed, compared: the same return value, nothing reported *)
Definition converted (t : list str -> prog) : store := upd none ($"b.xml") (Some (FFile true true (dos (written (Some ($"b.xml")) (made t))))).
Example C74_met : exists s2, Main (c70_env false) ex_recording I_args (new_test (converted ex_recording)) = (s2, Ok 0%Z) /\ s_stdout s2 = [] /\ s_files s2 = converted ex_recording.
Proof.
  assert (N : Main ex_env ex_recording O_args (new_test none) = (made ex_recording, Ok 0%Z)).
  { unfold made. rewrite (surjective_pairing (Main _ _ _ _)) at 1. apply (f_equal2 pair); [reflexivity|vm_compute; reflexivity]. }
  destruct (C74_record_convert_compare ex_env none ex_recording ($"prog") [] O_line (Some ($"b.xml")) (upd none ($"b.xml") (Some (FFile true true []))) (made ex_recording) 0%Z 0%Z
    (dos (written (Some ($"b.xml")) (made ex_recording))) (c70_env false) (converted ex_recording) I_line ($"b.xml") None (converted ex_recording)
    (met_O _) eq_refl eq_refl ltac:(cbn [ex_recording leaves_alone]; intros _ _; exact I) eq_refl ltac:(repeat constructor) safe_host safe_time N ltac:(vm_compute; reflexivity)
    (met_I (c70_env false) (converted ex_recording) ltac:(vm_compute; reflexivity)) eq_refl eq_refl eq_refl eq_refl ltac:(vm_compute; reflexivity)) as (s2 & H1 & H2 & H3).
  - cbn [repeatable ex_recording reproducible]. repeat split; auto.
  - exists s2. split; [exact H1|split; assumption].
Qed.

(** * C75: two recordings and a comparison started at the same time: whatever the schedule, when all have ended each has returned 0 *)
Example C75_met : forall n f' ps, steps n (c75_files, map start c75_jobs) (f', ps) -> (forall y, ~ step1 (f', ps) y) -> map (result ps) [0; 1; 2] = [Some (Ok 0%Z); Some (Ok 0%Z); Some (Ok 0%Z)].
Proof.
  intros n f' ps H T. destruct (C75_same_as_serial c75_files c75_jobs n f' ps (proj1 C75_case) H T) as (_ & L & K). change (length c75_jobs) with 3 in L.
  assert (V : map snd (snd (serial c75_files c75_jobs)) = [Ok 0%Z; Ok 0%Z; Ok 0%Z]) by (vm_compute; reflexivity).
  assert (R : forall i, i < 3 -> result ps i = Some (Ok 0%Z)).
  { intros i Hi. destruct (nth_error ps i) as [p|] eqn:E; [|apply nth_error_None in E; lia].
    destruct (K i p E) as (s & r & s' & -> & N & _). unfold result. rewrite E. f_equal.
    apply (map_nth_error snd) in N. rewrite V in N. cbn [snd] in N. destruct i as [|[|[|i]]]; [..|lia]; cbn [nth_error] in N; congruence. }
  cbn [map]. rewrite !R by lia. reflexivity.
Qed.

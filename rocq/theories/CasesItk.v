(** Concrete cases for the theorems of the Itk files that have hypotheses: each theorem is applied to a case that meets them.
    [C57_record_then_compare]: [C57_example] applies [C57_images_recorded], which is proved by applying it. *)
From Coq Require Import Floats.SpecFloat.
From Verif Require Import Base Str Dec PathModel PathFacts MeasModel MeasFacts MeasFacts2 MeasProps VisitModel XmlText XmlModel ReadModel ReadFacts ReadBack ReadProps RegModel ArgFacts ArgProps RegSpec RegFacts RegStart RegMain RegProps RegProps2 RegRound RegProps3 ImgModel ImgSpec ImgMore ImgProps ItkModel ItkSpec ItkSim ItkRun ItkMain ItkNames ItkProps ItkArgProps ItkPipeProps ItkRunProps ItkSizeProps ItkRound ItkRoundProps ReuseProps CasesBase CasesRead.

(** * Generated names *)
Example C50_kth_name_met := C50_kth_name true ($"/bin/prog") [$"-x"; $"a b"] 3 ($"mha") ($"out") ltac:(lia).
Example C50_distinct_met := C50_distinct true ($"prog") [$"-x"] 1 2 ($"mha") ($"png") ($"out") _ _ ltac:(lia) ltac:(lia) ltac:(discriminate) eq_refl eq_refl.
Example C50_distinct_tails_met := C50_distinct_tails true ($"prog") [$"-x"] 1 2 ($"mha") ($"png") ($"out") ($"other") _ _ ltac:(lia) ltac:(lia) ltac:(discriminate) ltac:(apply free_lit; reflexivity) ltac:(apply free_lit; reflexivity) eq_refl eq_refl.
Example C50_absolute_program_met := C50_absolute_program true ($"/bin/prog") [$"-x"] 1 ($"mha") ($"out") eq_refl.
Example C50_boundaries_ignored_met := C50_boundaries_ignored true ($"prog") [$"-x"; $"yz"] [$"-xy"; $"z"] 1 ($"mha") ($"out") eq_refl.
Example C50_one_character_met := C50_one_character true ($"prog") [$"ab"; $"c"] [$"ax"; $"c"] ($"a") "b"%char "x"%char ($"c") 1 1 ($"mha") ($"mha") ($"out") _ _ eq_refl eq_refl ltac:(discriminate) ltac:(lia) ltac:(lia) eq_refl eq_refl.
Definition two_names : iprog := IGenerate ($"mha") ($"out") (fun _ => ISay ($"text") (IGenerate ($"png") [] (fun _ => IReturn 0))).
Example C50_names_of_a_run_met : forall i name, nth_error [$"out/prog_1171_1.mha"; $"prog_1171_2.png"] i = Some name -> exists ext root, GenerateFileName true [$"prog"; $"ab"] (0 + Z.of_nat i) ext root = Ok name.
Proof.
  apply (C50_names_of_a_run ex_itk [$"prog"; $"ab"] None default_tol no_tolerance 0 ex_image_files 0 two_names [] [] _ 0%Z (Ok 0%Z)).
  eapply iu_generate; [vm_compute; reflexivity|]. eapply iu_say. eapply iu_generate; [vm_compute; reflexivity|]. apply iu_return.
Qed.

(** * itktfImageCompare *)
Definition items : list item := [ItkArgProps.ImageFile ($"same/x.mha"); Radius ($"1"); ItkArgProps.ImageFile ($"two/x.mha")].
Lemma items_readable : Forall (readable_item ex_itk) items.
Proof. repeat apply Forall_cons; try apply Forall_nil; cbn; try discriminate; reflexivity. Qed.
Definition file_xml : str :=
  $"<output><DartMeasurementFile name=" ++ quote ++ $"ImageFile0" ++ quote ++ $" type=" ++ quote ++ $"image/itk" ++ quote ++ $">x.mha</DartMeasurementFile>" ++
  $"<DartMeasurementFile name=" ++ quote ++ $"ImageFile1" ++ quote ++ $" type=" ++ quote ++ $"image/itk" ++ quote ++ $">x.mha</DartMeasurementFile></output>".
Definition files_ic : store := fun k => if eqs k ($"b.xml") then Some (FFile true true file_xml) else if eqs k ($"base/b.xml") then Some (FFile true true file_xml) else ex_image_files k.
Lemma line_ic : command_line ex_env files_ic [($"-I", $"b.xml")] (flat_map words items ++ []).
Proof. line. Qed.
Example C51_plan_unique_met : forall q, planned ex_itk items q -> q = [(no_tolerance, $"same/x.mha"); (Tolerances (S754_zero false) 0 1, $"two/x.mha")].
Proof.
  destruct (C51_images_in_order ex_itk ($"prog") items [] items_readable (or_introl eq_refl)) as (plan & P & E).
  assert (F : plan = [(no_tolerance, $"same/x.mha"); (Tolerances (S754_zero false) 0 1, $"two/x.mha")]).
  { destruct P as [L P]. destruct plan as [|a [|b [|? ?]]]; try discriminate L. 
    pose proof (P [] ($"same/x.mha") _ eq_refl) as A. pose proof (P [ItkArgProps.ImageFile ($"same/x.mha"); Radius ($"1")] ($"two/x.mha") [] eq_refl) as B.
    cbn [nth_error length images_in flat_map app] in A, B. injection A as ->. injection B as ->. reflexivity. }
  intros q Q. rewrite <- F. exact (C51_plan_unique ex_itk items q plan Q P).
Qed.
Example C51_comparison_met := C51_comparison ex_itk files_ic ($"prog") [($"-I", $"b.xml")] items [] ($"b.xml") None files_ic _ _ 1%Z items_readable (or_introl eq_refl) line_ic eq_refl eq_refl
  (pair_fst _ _ ltac:(vm_compute; reflexivity)).
Example C51_passes_iff_met := C51_passes_iff ex_itk files_ic ($"prog") [($"-I", $"b.xml")] items [] ($"b.xml") None files_ic _ _ 1%Z items_readable (or_introl eq_refl) line_ic eq_refl eq_refl eq_refl
  (pair_fst _ _ ltac:(vm_compute; reflexivity)).
Example C51_counts_met : scan_uint (print_int 17) = Some 17%Z /\ scan_uint (print_int 4294967296) = None.
Proof. split; rewrite C51_counts by lia; reflexivity. Qed.

(** * itktfPipeTest *)
Definition whole : list str -> child := fun _ => Child [(true, $"a<b")] (Exited 3).
Definition pieces : list str -> child := fun _ => Child [(false, $"a"); (true, []); (true, $"<b")] (Exited 3).
Definition pipe_opts : list (str * str) := [($"-O", $"b.xml"); ($"-R", $"3")].
Lemma line_pipe : command_line ex_env (fun _ => None) pipe_opts [$"child"].
Proof. line. Qed.
Example C52_is_a_text_measurement_met := C52_is_a_text_measurement ex_ienv whole (fun _ => None) ($"pipe") pipe_opts [$"child"] line_pipe.
Example C52_pieces_do_not_matter_met := C52_pieces_do_not_matter ex_ienv whole pieces (fun _ => None) ($"pipe") pipe_opts [$"child"] line_pipe eq_refl eq_refl.
Example C52_recorded_met := C52_recorded ex_ienv whole (fun _ => None) ($"pipe") pipe_opts [$"child"] (Some ($"b.xml")) _ line_pipe eq_refl eq_refl.
Definition pipe_base : dm := SetContent (SetAttributeName (new_dm CPlain) ($"stdout")) ($"a<b").
Definition pipe_compare : list (str * str) := [($"-I", $"b.xml"); ($"-R", $"3")].
Lemma line_pipe_compare : command_line ex_env (base_of [MD pipe_base]) pipe_compare [$"child"].
Proof. line. Qed.
Example C52_comparison_met : 0%Z = if (exit_value (pieces [$"child"]) =? expected_of pipe_compare)%Z then (if eqs ($"a<b") (printed (pieces [$"child"])) then 0%Z else 1%Z) else exit_value (pieces [$"child"]).
Proof.
  exact (C52_comparison ex_ienv pieces (base_of [MD pipe_base]) ($"pipe") pipe_compare [$"child"] ($"b.xml") None (base_of [MD pipe_base]) pipe_base [] _ 0%Z line_pipe_compare eq_refl
    ltac:(vm_compute; reflexivity) eq_refl eq_refl eq_refl ltac:(discriminate) (pair_fst _ _ ltac:(vm_compute; reflexivity))).
Qed.
Definition pipe_files : store := fun k => s_files (fst (pipe_Main ex_ienv whole [$"pipe"; $"-O"; $"b.xml"; $"-R"; $"3"; $"child"] (new_test (fun _ => None)))) k.
Lemma line_pipe_again : command_line ex_env pipe_files pipe_compare [$"child"].
Proof. line. Qed.
Example C52_record_then_compare_met : exists s2, pipe_Main ex_ienv pieces [$"pipe"; $"-I"; $"b.xml"; $"-R"; $"3"; $"child"] (new_test pipe_files) = (s2, Ok 0%Z) /\ s_files s2 = pipe_files.
Proof.
  destruct C39_case as (_ & _ & Ch & Ct & _).
  exact (C52_record_then_compare ex_ienv whole (fun _ => None) ($"pipe") [$"child"] pipe_opts ($"b.xml") _ _ 0%Z ex_ienv pieces pipe_files pipe_compare ($"b.xml") None pipe_files
    line_pipe eq_refl eq_refl eq_refl Ch Ct (pair_fst _ _ ltac:(vm_compute; reflexivity)) line_pipe_again eq_refl eq_refl eq_refl eq_refl ltac:(vm_compute; reflexivity) eq_refl eq_refl).
Qed.

(** * Runs with images *)
Lemma line_image : command_line ex_env ex_image_files [($"-I", $"b.xml")] [].
Proof. line. Qed.
Example C55_compare_status_met := C55_compare_status ex_itk ex_image_files (two_images ($"same/x.mha") ($"two/x.mha")) ($"prog") [($"-I", $"b.xml")] [] ($"b.xml") _ 1%Z line_image eq_refl (pair_fst _ _ ltac:(vm_compute; reflexivity)).
Example C55_recorded_document_met := C55_recorded_document ex_itk ex_image_files (two_images ($"same/x.mha") ($"two/x.mha")) ($"prog") [($"-O", $"new.xml")] [] (Some ($"new.xml")) _
  ltac:(line) eq_refl eq_refl I.
Definition talk : list str -> iprog := fun _ => ISay ($"hello") (IGenerate ($"txt") ($"out") (fun _ => ICall (TextString ($"text") ($"name")) (fun r => IReturn r))).
Definition no_talk : list str -> prog := fun _ => Call (TextString ($"text") ($"name")) (fun r => Return r).
Lemma talk_plain args : plain true [$"prog"; $"-O"; $"new.xml"] 0 (talk args) (no_talk args).
Proof. apply p_say. eapply p_generate; [vm_compute; reflexivity|]. apply p_call. intros r. apply p_return. Qed.
Example C55_plain_tests_met := C55_plain_tests ex_itk ex_image_files talk no_talk [$"prog"; $"-O"; $"new.xml"] talk_plain.
Definition at_one : rst := set_input (set_is (new_itk_test ex_itk ex_image_files) (Some ($"b.xml"))) [MF (Mf ($"one") true itk_type ($"x.mha"))].
Example C55_report_of_pixels_met : exists g s0, snd (MeasurementInsightFileImage ex_itk no_tolerance ($"one/x.mha") ($"one") at_one) = Ok 0%Z /\ ItkRunProps.differs ex_itk no_tolerance ($"one/x.mha") ($"one") at_one g s0.
Proof.
  destruct C55_example_differs as (g & s0 & D & E). exists g, s0. split; [|exact D].
  rewrite (C55_report_of_pixels ex_itk no_tolerance ($"one/x.mha") ($"one") at_one g s0 (Info [1; 1]%Z [of_int64 1; of_int64 1] [of_int64 0; of_int64 0] ($"scalar") ($"double") 1%Z) (Info [1; 1]%Z [of_int64 1; of_int64 1] [of_int64 0; of_int64 0] ($"scalar") ($"double") 1%Z)
    (ImgModel.ImageFile (ex_image ($"c")) [of_int64 1; of_int64 1] [of_int64 0; of_int64 0]) (ImgModel.ImageFile (ex_image ($"a")) [of_int64 1; of_int64 1] [of_int64 0; of_int64 0])
    ($"out/x.mha.diff.png") ($"out/x.mha.base.png") ($"out/x.mha.test.png") D).
  - reflexivity.
  - reflexivity.
  - rewrite E. reflexivity.
  - reflexivity.
  - reflexivity.
  - rewrite E. reflexivity.
  - reflexivity.
  - reflexivity.
  - reflexivity.
Qed.
(** files whose first byte is the width *)
Definition wide_itk : ienv := IEnv ex_env (fun _ b => match b with [] => None | c :: _ => Some (Info [Z.of_nat (code c); 1]%Z [of_int64 1; of_int64 1] [of_int64 0; of_int64 0] ($"scalar") ($"double") 1%Z) end)
  (i_decode ex_itk) (i_diff ex_itk) (i_diff_image ex_itk) (fun _ => $"size") (fun _ => []) (fun _ => []) (fun _ => None) (fun _ => None) ($"out") ($"base").
Example C55_report_of_sizes_met : exists g s0 t, MeasurementInsightFileImage wide_itk no_tolerance ($"one/x.mha") ($"one") at_one = (set_stdout s0 t, Ok 0%Z) /\ ItkRunProps.differs wide_itk no_tolerance ($"one/x.mha") ($"one") at_one g s0.
Proof.
  assert (D : exists g s0, ItkRunProps.differs wide_itk no_tolerance ($"one/x.mha") ($"one") at_one g s0 /\ ffile g = $"base/x.mha").
  { do 2 eexists. split; [do 3 eexists; repeat split; vm_compute; reflexivity|vm_compute; reflexivity]. }
  destruct D as (g & s0 & D & E). exists g, s0. eexists. split; [|exact D].
  apply (C55_report_of_sizes wide_itk no_tolerance ($"one/x.mha") ($"one") at_one g s0 (Info [99; 1]%Z [of_int64 1; of_int64 1] [of_int64 0; of_int64 0] ($"scalar") ($"double") 1%Z) (Info [97; 1]%Z [of_int64 1; of_int64 1] [of_int64 0; of_int64 0] ($"scalar") ($"double") 1%Z) D).
  - reflexivity.
  - rewrite E. reflexivity.
  - discriminate.
Qed.
Example C55_unreadable_image_met : exists g s0, MeasurementInsightFileImage ex_itk no_tolerance ($"none/x.mha") ($"one") at_one = (set_stdout s0 (s_stdout at_one ++ comparing_line (ffile g) ($"none/x.mha")), Throw ExnRuntime).
Proof.
  assert (D : exists g s0, ItkRunProps.differs ex_itk no_tolerance ($"none/x.mha") ($"one") at_one g s0).
  { do 2 eexists. do 3 eexists; repeat split; vm_compute; reflexivity. }
  destruct D as (g & s0 & D). exists g, s0. apply C55_unreadable_image; [exact D|left; reflexivity].
Qed.
Definition no_copy : store := fun k => if eqs k ($"base/b.xml") then None else ex_image_files k.
Lemma line_no_copy : command_line ex_env no_copy [($"-I", $"b.xml")] [].
Proof. line. Qed.
Example C55_baseline_must_be_in_directory_met := C55_baseline_must_be_in_directory ex_itk no_copy (two_images ($"same/x.mha") ($"same/x.mha")) ($"prog") [($"-I", $"b.xml")] [] ($"b.xml") None no_copy _ (-1)%Z line_no_copy eq_refl eq_refl
  ltac:(intros d r [<-|[]] E; vm_compute in E; injection E as <-; vm_compute; reflexivity) (pair_fst _ _ ltac:(vm_compute; reflexivity)).

(** * Sizes *)
Definition size_list (l : list Z) (t : bool) : list call := map (fun p => NumericInteger (snd p) (at1 ($"s") (fst p)) t) (combine (seq 0 (length l)) l).
Example C56_size_run_met : exists cs, size_calls [256; 129; 7]%Z ($"s") false cs /\ started ex_env (ex_size_store [256; 129; 7]%Z) [] [$"base"] ($"b.xml") = Some (None, ex_size_store [256; 129; 7]%Z, read_back ex_itk cs) /\ 2%Z = Z.of_nat (different [256; 128; -3]%Z [256; 129; 7]%Z).
Proof.
  destruct (C56_recorded true [$"prog"] 0 ($"s") false (fun _ => IReturn 0%Z)) as [A _]. destruct (A [256; 129; 7]%Z) as (cs & B & _).
  assert (C : cs = size_list [256; 129; 7]%Z false).
  { destruct B as [L B]. destruct cs as [|a [|b [|c [|? ?]]]]; try discriminate L. pose proof (B 0 _ eq_refl) as B0. pose proof (B 1 _ eq_refl) as B1. pose proof (B 2 _ eq_refl) as B2.
    cbn [nth_error] in B0, B1, B2. injection B0 as ->. injection B1 as ->. injection B2 as ->. reflexivity. }
  exists cs. split; [exact B|]. assert (S : started ex_env (ex_size_store [256; 129; 7]%Z) [] [$"base"] ($"b.xml") = Some (None, ex_size_store [256; 129; 7]%Z, read_back ex_itk cs)) by (rewrite C; vm_compute; reflexivity).
  split; [exact S|].
  apply (C56_size_run ex_itk (ex_size_store [256; 129; 7]%Z) ($"prog") [($"-I", $"b.xml")] [] ($"b.xml") (fst (itk_Main ex_itk (fun _ => InsightSize [256; 128; -3]%Z ($"s") false (fun _ => IReturn 0%Z)) [$"prog"; $"-I"; $"b.xml"] (new_itk_test ex_itk (ex_size_store [256; 129; 7]%Z)))) 2%Z None
    (ex_size_store [256; 129; 7]%Z) cs [256; 128; -3]%Z [256; 129; 7]%Z ($"s") []).
  - line.
  - reflexivity.
  - reflexivity.
  - reflexivity.
  - exact B.
  - rewrite app_nil_r. exact S.
  - apply pair_fst. vm_compute. reflexivity.
Qed.
Example C56_small_sizes_met := C56_small_sizes [256; 128]%Z [256; 129]%Z ltac:(repeat constructor; vm_compute; discriminate) ltac:(repeat constructor; vm_compute; discriminate) eq_refl.
Lemma size_list_ok l : size_calls l ($"s") false (map (fun p => NumericInteger (snd p) (at1 ($"s") (fst p)) false) (combine (seq 0 (length l)) l)).
Proof.
  split; [rewrite map_length, combine_length, seq_length; lia|]. intros i x H.
  assert (L : i < length l) by (apply nth_error_Some; rewrite H; discriminate).
  assert (C : forall A B (a : list A) (b : list B) i x y, nth_error a i = Some x -> nth_error b i = Some y -> nth_error (combine a b) i = Some (x, y)).
  { intros A B a. induction a as [|u a IH]; intros [|w b] [|j] x0 y; cbn; try discriminate; [intros [= <-] [= <-]; reflexivity|apply IH]. }
  erewrite map_nth_error; [|apply C; [|exact H]; rewrite nth_error_nth' with (d := 0) by (rewrite seq_length; exact L); rewrite seq_nth by exact L; reflexivity]. reflexivity.
Qed.
Definition three_moments : list imoment := map (fun c => IMoment (BaseCall c) default_tol no_tolerance ex_image_files) (size_list [256; 128; -3]%Z false).
Example C56_size_mismatches_met := C56_size_mismatches ex_itk [$"base"] [256; 128; -3]%Z [256; 129; 7]%Z ($"s") three_moments (size_list [256; 129; 7]%Z false) three
  eq_refl (ex_intro _ _ (conj (size_list_ok [256; 128; -3]%Z) eq_refl)) (size_list_ok [256; 129; 7]%Z).
Definition linked_env : env := Env true true None (e_io ex_env) (e_ext ex_env) (fun p => if eqs p ($"base/x.mha") then $"out/x.mha" else p) (fun _ => true) ($"host") ($"now").
Definition linked_itk : ienv := IEnv linked_env (i_header rt_itk) (i_decode rt_itk) some_diff (i_diff_image rt_itk) (i_show_size rt_itk) (i_show_vector rt_itk) (i_show_slice rt_itk) (i_png rt_itk) (i_double rt_itk) ($"out") ($"base").
Definition linked_files : store := fun k => if eqs k ($"out/x.mha") then Some (FFile true true ($"a")) else None.
(** the measured file is a link to the baseline: the baseline is overwritten *)
Example C57_overwritten_baseline_agrees_met : images_agree linked_itk (write_file linked_env linked_files ($"out/x.mha") ($"z")) no_tolerance ($"base/x.mha") ($"out/x.mha").
Proof.
  apply (C57_overwritten_baseline_agrees linked_itk linked_files no_tolerance ($"base/x.mha") ($"out/x.mha") ($"out/x.mha") ($"z") (ImgModel.ImageFile (ex_image ($"z")) [of_int64 1; of_int64 1] [of_int64 0; of_int64 0])).
  - exact rt_library.
  - split; cbn; lia.
  - reflexivity.
  - reflexivity.
  - reflexivity.
  - eexists. reflexivity.
  - reflexivity.
  - reflexivity.
  - split; [intros j _; reflexivity|]. split; cbn; intuition discriminate.
Qed.

(** Concrete cases for the theorems of ReadProps, ArgProps, TextProps, ApiProps and RegProps to RegProps3 that have hypotheses: each theorem is applied to a case that meets them. *)
From Coq Require Import Floats.SpecFloat Permutation.
From Verif Require Import Base Str Dec XmlText PathModel PathFacts MeasModel MeasFacts VisitModel XmlModel ReadModel ReadFacts ReadBack ReadProps RegModel ArgFacts ArgProps TextProps RegSpec RegFacts RegStart RegMain RegProps ItkModel ItkSim ApiModel ApiSpec ApiFacts ApiRun ApiProps RegProps2 RegRound RegProps3 ReuseProps CasesBase.

Ltac stores := repeat apply Forall_cons; try apply Forall_nil; repeat split; reflexivity.
Ltac accept := repeat apply Forall_cons; try apply Forall_nil; (split; [cbn; auto 6|split; intros H; vm_compute in H |- *; try discriminate H; auto]).
Ltac line := split; [accept|first [exact I | intros H; vm_compute in H; intuition discriminate]].

(** three measurements: markup characters in the text, an encoded one, a file *)
Definition m_text : meas := MD (SetContent (SetAttributeName (new_dm CPlain) ($"n > 1")) ($"a<b && ]]>c" ++ [nl] ++ $"x")).
Definition m_coded : meas := MD (SetContent (SetAttributeEncoding (SetAttributeName (new_dm CString) ($"coded")) ($"base64")) ($"bGln")).
Definition m_file : meas := MF (Mf ($"log") true ($"text/plain") ($"out/log.txt")).
Definition three : list meas := [m_text; m_coded; m_file].
Lemma three_storable : Forall storable three.
Proof. stores. Qed.
Definition no_ext : str -> list event * bool := fun _ => ([], false).

(** * Reading documents *)
Lemma three_print : Forall2 (fun m p => Print m = Ok p) three (map print_of three).
Proof. repeat constructor. Qed.
Example C17_printed_measurements_read_back_met := C17_printed_measurements_read_back true no_ext three (map print_of three) three_storable three_print.
Example C17_control_character_breaks_file_met := C17_control_character_breaks_file true no_ext three (SetContent (new_dm CPlain) ($"a" ++ [chr 7] ++ $"b")) ($"a") (chr 7) ($"b") [nl]
  three_storable eq_refl eq_refl eq_refl eq_refl eq_refl eq_refl eq_refl ltac:(discriminate) eq_refl.
Example C40_text_splitting_irrelevant_met : forall asserts p, on_events asserts p [EStart ($"a") []; EData ($"x"); EData []; EData ($"yz"); EEnd ($"a")] = on_events asserts p [EStart ($"a") []; EData ($"xy"); EData ($"z"); EEnd ($"a")].
Proof. intros. apply C40_text_splitting_irrelevant. reflexivity. Qed.
Example C41_result_met : ReadXMLInput true no_ext ($"<output></output>") = Ok [] /\ ReadXMLInput true no_ext ($"<output></outpu>") = Throw ExnRuntime.
Proof. split; rewrite (C41_result true no_ext _ _ _ (surjective_pairing _)); vm_compute; reflexivity. Qed.
Example C42_nested_element_met := C42_nested_element false no_ext three m_text ($"b") ($"more") three three_storable (Forall_inv three_storable) three_storable ltac:(split; reflexivity) eq_refl.
Example C42_type_missing_met := C42_type_missing true no_ext three ($"name") ($"a & b") three three_storable eq_refl eq_refl three_storable.
Example C42_truncated_met := C42_truncated true no_ext three m_text three_storable (Forall_inv three_storable).
Example C42_unknown_element_skipped_met := C42_unknown_element_skipped true no_ext three ($"note") ($"a & b") three three_storable ltac:(split; reflexivity) ltac:(discriminate) ltac:(discriminate) eq_refl three_storable.

(** * Options *)
Definition some_opts : list (str * str) := [($"-P", $"dir"); ($"-I", $"base.xml"); ($"-R", $"7"); ($"-O", $"out.xml"); ($"-O", $"ro.xml")].
Example C36_arguments_removed_met := C36_arguments_removed ex_env (new_test ex_files) ($"prog") some_opts [$"x"; $"-I"; $"y"] 9 C36_case_accepted
  ltac:(intros H; vm_compute in H; intuition discriminate) ltac:(vm_compute; lia).
Example C36_lone_option_hangs_met := C36_lone_option_hangs ex_env (new_test ex_files) ($"prog") some_opts ($"-O") 9 C36_case_accepted ltac:(cbn; auto).
Example C36_rejected_met := C36_rejected ex_env (new_test ex_files) ($"prog") some_opts ($"-I") ($"none.xml") [$"x"] 9 C36_case_accepted ltac:(vm_compute; lia) (or_introl (conj eq_refl eq_refl)).
Example C36_rejected_directory_met := C36_rejected ex_env (new_test ex_files) ($"prog") some_opts ($"-P") ($"base.xml") [$"x"] 9 C36_case_accepted ltac:(vm_compute; lia) (or_intror (conj eq_refl eq_refl)).
Example C36_only_leading_options_met := C36_only_leading_options ex_env (new_test ex_files) ($"prog") ($"x") [$"-I"; $"base.xml"] 4 ltac:(intros H; vm_compute in H; intuition discriminate).
Example C36_expected_value_met : wrap32 (strtol10 (print_int (-40))) = (-40)%Z.
Proof. apply C36_expected_value. unfold in_int. vm_compute; split; discriminate. Qed.
Example C36_expected_text_met := C36_expected_text ex_env (new_test ex_files) ($"prog") [" "%char; "009"%char] ($"-") ($"40") ($"x") [$"arg"] 9
  ltac:(repeat apply Forall_cons; try apply Forall_nil; cbn; auto) ltac:(cbn; auto) eq_refl eq_refl ltac:(intros H; vm_compute in H; intuition discriminate) ltac:(lia) ltac:(discriminate).

(** * Tests that ask the driver *)
Definition curious : list str -> aprog := fun _ => ALook (fun v => if v_compare v then AReturn 3 else ACall (TextString ($"text") ($"name")) (fun _ => ASetOutFileName ($"other") (ALook (fun v => AReturn (Z.of_nat (length (v_out v))))))).
Lemma curious_keeps args : keeps_baseline_name (curious args).
Proof. cbn. intros v. destruct (v_compare v); cbn; auto. Qed.
Definition asker : list str -> aprog := fun _ => ALook (fun v => if v_compare v then AReturn 3 else ACall (TextString ($"text") ($"name")) (fun _ => ALook (fun v => AReturn (Z.of_nat (length (v_out v)))))).
Lemma asker_asks args : only_asks (asker args).
Proof. cbn. intros v. destruct (v_compare v); cbn; auto. Qed.
Lemma line_O f : command_line ex_env f [($"-O", $"b.xml")] [].
Proof. line. Qed.
Lemma line_I : command_line ex_env ex_base [($"-I", $"b.xml")] [].
Proof. line. Qed.
Example C59_asking_met := C59_asking ex_env asker [$"prog"; $"-O"; $"b.xml"] (new_test ex_base) asker_asks.
Example C59_output_name_met := C59_output_name ex_env curious [$"prog"; $"-O"; $"b.xml"] (new_test (fun _ => None)) _ _ curious_keeps (surjective_pairing _).
Example C59_output_name_result : snd (api_Main ex_env curious [$"prog"; $"-O"; $"b.xml"] (new_test (fun _ => None))) = Ok 5%Z.
Proof. vm_compute. reflexivity. Qed.
Example C59_comparison_met := C59_comparison ex_env ex_base curious ($"prog") [($"-I", $"b.xml")] [] ($"b.xml") _ 3%Z None ex_base []
  line_I eq_refl (pair_fst _ _ ltac:(vm_compute; reflexivity)) eq_refl.
Example C59_mode_while_recording_met := C59_mode_while_recording ex_env (fun _ => None) curious ($"prog") [($"-O", $"b.xml")] [] (line_O _) eq_refl curious_keeps.

(** * Runs of the driver *)
Example C37_compare_status_met := C37_compare_status ex_env ex_base (fun _ => many 3) ($"prog") [($"-I", $"b.xml")] [] ($"b.xml") _ 3%Z line_I eq_refl (pair_fst _ _ ltac:(vm_compute; reflexivity)).
Example C37_record_status_met := C37_record_status ex_env (fun _ => None) ex_test ($"prog") [($"-O", $"b.xml")] [] (line_O _) eq_refl.
Definition two_moments : list moment := [((TextString ($"text") ($"name"), default_tol), ex_base); ((NumericInteger 7 ($"n") false, default_tol), ex_base)].
Definition two_baselines : list meas := [MD (SetContent (SetAttributeName (new_dm CString) ($"name")) ($"text")); MD (SetContent (SetAttributeName (new_dm CInt) ($"n")) ($"8"))].
Lemma two_plain : Forall (fun b => plain_baseline b /\ is_data b = true) two_baselines.
Proof. repeat constructor; discriminate. Qed.
Example C38_mismatches_of_exact_measurements_met := C38_mismatches_of_exact_measurements ex_env [] two_baselines two_moments ltac:(repeat constructor) two_plain.
Example C38_mismatches_result : mismatches ex_env [] two_baselines two_moments = 1%Z.
Proof. reflexivity. Qed.
Definition base_of (ms : list meas) : store := fun k => if eqs k ($"b.xml") then Some (FFile true true (document (lines_of ms))) else None.
Lemma line_base ms : command_line ex_env (base_of ms) [($"-I", $"b.xml")] [].
Proof. line. Qed.
Definition two_calls : list str -> prog := fun _ => Call (TextString ($"text") ($"name")) (fun _ => Call (NumericInteger 7 ($"n") false) (fun _ => Return 0)).
Example C38_run_met := C38_run ex_env (base_of two_baselines) two_calls ($"prog") [($"-I", $"b.xml")] [] ($"b.xml") _ 1%Z None (base_of two_baselines) two_baselines (line_base _) eq_refl
  (pair_fst _ _ ltac:(vm_compute; reflexivity)) ltac:(vm_compute; reflexivity) ltac:(repeat split) two_plain.
Example C38_leftover_not_counted_met : mismatches ex_env [] (two_baselines ++ three) two_moments = 1%Z.
Proof. rewrite C38_leftover_not_counted; [reflexivity|cbn; lia]. Qed.
Definition dir_and_base : store := fun k => if eqs k ($"b.xml") then Some (FFile true true ($"<output></output>")) else if eqs k ($"dir") then Some (FDir true true true) else None.
Example C43_baseline_only_in_current_directory_met := C43_baseline_only_in_current_directory ex_env dir_and_base ex_test ($"prog") [($"-P", $"dir"); ($"-I", $"b.xml")] [] ($"b.xml") None dir_and_base
  ltac:(line) eq_refl ltac:(discriminate) eq_refl ltac:(intros d r [<-|[]] E; vm_compute in E; injection E as <-; reflexivity).
Lemma ex_leaves args : leaves_alone ex_env (Some ($"b.xml")) (ex_test args).
Proof. cbn [ex_test leaves_alone]. intros _ _. split; [right; discriminate|]. intros _. exact I. Qed.
Definition recorded_files : store := upd (fun _ => None) ($"b.xml") (Some (FFile true true [])).
Example C44_recorded_document_met := C44_recorded_document ex_env (fun _ => None) ex_test ($"prog") [($"-O", $"b.xml")] [] (Some ($"b.xml")) _ (line_O _) eq_refl eq_refl (ex_leaves _).
Example C44_other_files_untouched_met := C44_other_files_untouched ex_env ex_files ex_test ($"prog") [($"-O", $"b.xml")] [] _ _ ($"ro.xml") (line_O _) (surjective_pairing _) ltac:(discriminate)
  ltac:(cbn [ex_test leaves_alone]; intros _ _; split; [right; discriminate|]; intros _; exact I).
Example C54_return_value_met := C54_return_value ex_env (TextString ($"text") ($"name")) ex_state _ 1%Z (pair_fst _ _ ltac:(vm_compute; reflexivity)).
Definition again : store := fun k => if eqs k ($"b.xml") then s_files (fst (Main ex_env ex_test [$"prog"; $"-O"; $"b.xml"] (new_test (fun _ => None)))) k else None.
Lemma line_again : command_line ex_env again [($"-I", $"b.xml")] [].
Proof. split; [|exact I]. constructor; [|constructor]. split; [cbn; auto|]. split; [intros _; split; vm_compute; reflexivity|discriminate]. Qed.
Example C39_record_then_compare_met : exists s2, Main ex_env ex_test [$"prog"; $"-I"; $"b.xml"] (new_test again) = (s2, Ok 0%Z) /\ s_stdout s2 = [] /\ s_files s2 = leaves ex_env again (ex_test [$"prog"]).
Proof.
  destruct C39_case as (_ & St & Ch & Ct & _ & Rp).
  apply (C39_record_then_compare ex_env (fun _ => None) ex_test ($"prog") [] [($"-O", $"b.xml")] (Some ($"b.xml")) recorded_files _ 0%Z 0%Z ex_env again [($"-I", $"b.xml")] ($"b.xml") None again
    (line_O _) eq_refl eq_refl (ex_leaves _) eq_refl St Ch Ct (pair_fst _ _ ltac:(vm_compute; reflexivity)) line_again eq_refl eq_refl eq_refl eq_refl ltac:(vm_compute; reflexivity) (Rp again ltac:(vm_compute; reflexivity))).
Qed.
Example C39_same_output_destroys_baseline_met := C39_same_output_destroys_baseline ex_env ex_base ex_test ($"prog") [($"-I", $"b.xml"); ($"-O", $"b.xml")] [] ($"b.xml") ($"b.xml") true _
  ltac:(line) eq_refl eq_refl eq_refl eq_refl eq_refl ltac:(discriminate).

(** Concrete cases for the theorems of NumProps, NumProps2, ConfProps, ElemProps, FileProps, WatchProps and ChangeProps that have hypotheses: each theorem is applied to a case that meets them.
    From C64 on, the Example beside the theorems lists their hypotheses for one case. *)
From Coq Require Import Reals Psatz Floats.SpecFloat.
From Flocq Require Import Core.
From Verif Require Import Base Str Dec PathModel PathFacts MeasModel MeasFacts MeasFacts2 FloatFacts TolFacts MeasProps VisitModel XmlText XmlModel ReadModel ReadFacts ReadBack ReadProps RegModel ArgFacts ArgProps RegSpec RegFacts RegStart RegMain RegProps RegProps2 RegRound RegProps3 NumModel NumSpec NumFacts NumReal NumProps NumRun NumProps2 ItkModel ItkSim ApiModel ConfProps ElemProps FileProps ChangeProps WatchModel WatchProps ReuseProps CasesBase CasesRead.

(** * Numbers *)
Definition a_double : spec_float := S754_finite false 6755399441055744 (-52). (* 1.5 *)
Definition b_double : spec_float := S754_finite false 6755399441059840 (-52).
Lemma a_number : double_number a_double.
Proof. split; reflexivity. Qed.
Lemma b_number : double_number b_double.
Proof. split; reflexivity. Qed.
Example C60_text_error_met := proj1 (C60_text_error a_double) a_number.
Lemma a_b_apart : (ten (-15) * Rmax (Rabs (rv a_double)) (Rabs (rv b_double)) < Rabs (rv a_double - rv b_double))%R.
Proof.
  unfold a_double, b_double. rewrite !rv_dbl, (pow2_num (-52) 52 4503599627370496), (pow10_num (-15) 15 1000000000000000) by (lia || reflexivity).
  rewrite (Rabs_pos_eq (6755399441055744 * _)), (Rabs_pos_eq (6755399441059840 * _)) by lra. rewrite Rmax_right by lra. rewrite <- Rabs_Ropp, Rabs_pos_eq by lra. lra.
Qed.
Example C60_text_resolution_met : print64 std_io a_double <> print64 std_io b_double.
Proof. exact (proj1 (C60_text_resolution a_double b_double) a_number b_number a_b_apart). Qed.
Example C60_value_kept_met := proj1 (C60_value_kept (new_dm CDouble) a_double) a_number.
Definition five_eighths : spec_float := S754_finite false 5629499534213120 (-53).
Example C60_short_numbers_kept_met : double_GetValue std_io (double_SetValue std_io (new_dm CDouble) five_eighths) = Ok five_eighths.
Proof. destruct C60_short_case as (_ & A & B). exact (proj1 (C60_short_numbers_kept (new_dm CDouble) five_eighths 625 (-3) B) A ltac:(reflexivity)). Qed.
Example C60_not_numbers_met := C60_not_numbers (new_dm CDouble) (S754_infinity true) eq_refl.
Example C61_exact_met : double_verdict std_env [] (fun _ => None) ($"n") a_double b_double default_tol false = Ok false.
Proof. exact (proj1 (proj2 (proj2 (C61_exact std_env [] (fun _ => None) ($"n") a_double b_double default_tol false eq_refl (or_introl eq_refl)))) a_number b_number a_b_apart). Qed.
Example C61_double_tolerance_met : double_verdict std_env [] (fun _ => None) ($"n") thousand thousand_1 default_tol true = Ok true.
Proof.
  destruct C61_tolerance_case as (A & B & _ & C & D & _). destruct C61_distance_case as (E & F & G). rewrite F, G in *.
  refine (proj1 (C61_double_tolerance std_env [] (fun _ => None) ($"n") _ _ default_tol eq_refl A B C D _) _).
  - rewrite !rv_dbl. apply Rmax_lub; rewrite Rabs_pos_eq.
    + apply Rle_trans with (bpow radix2 53 * bpow radix2 (-43))%R; [apply Rmult_le_compat_r; [apply bpow_ge_0|apply IZR_le; vm_compute; discriminate]|rewrite <- bpow_plus; apply bpow_le; lia].
    + apply Rmult_le_pos; [apply IZR_le; lia|apply bpow_ge_0].
    + apply Rle_trans with (bpow radix2 53 * bpow radix2 (-43))%R; [apply Rmult_le_compat_r; [apply bpow_ge_0|apply IZR_le; vm_compute; discriminate]|rewrite <- bpow_plus; apply bpow_le; lia].
    + apply Rmult_le_pos; [apply IZR_le; lia|apply bpow_ge_0].
  - exact E.
Qed.
Lemma std_line f : command_line std_env f [($"-O", $"b.xml")] [].
Proof. line. Qed.
Example C61_not_numbers_met := C61_not_numbers_count_as_zero std_env [] (fun _ => None) ($"n") S754_nan a_double default_tol eq_refl eq_refl eq_refl.
Local Notation mixed_run := (Main std_env mixed_test ($"prog" :: flat [($"-O", $"b.xml")] ++ []) (new_test (fun _ => None))).
Lemma mixed_ok : snd mixed_run = Ok 0%Z.
Proof. vm_compute. reflexivity. Qed.
Definition mixed_files : store := s_files (fst mixed_run).
Lemma std_line_again : command_line std_env mixed_files [($"-I", $"b.xml")] [].
Proof. split; [|exact I]. constructor; [|constructor]. split; [cbn; auto|]. split; [intros _; split; vm_compute; reflexivity|discriminate]. Qed.
Lemma std_comment : comment_safe (e_host std_env) /\ comment_safe (e_time std_env).
Proof. split; (split; [reflexivity|]); intros a b E; apply (f_equal (fun l => existsb (fun c => eqc c "-") l)) in E; rewrite !existsb_app in E; cbn in E; rewrite orb_true_r in E; discriminate. Qed.
Example C61_repeated_run_met : exists s2, Main std_env mixed_test [$"prog"; $"-I"; $"b.xml"] (new_test mixed_files) = (s2, Ok 0%Z) /\ s_stdout s2 = [].
Proof.
  apply (C61_repeated_run std_env (fun _ => None) mixed_test ($"prog") [] [($"-O", $"b.xml")] (Some ($"b.xml")) (upd (fun _ => None) ($"b.xml") (Some (FFile true true []))) (fst mixed_run) 0%Z 0%Z std_env mixed_files [($"-I", $"b.xml")] ($"b.xml") None mixed_files).
  - apply std_line.
  - reflexivity.
  - reflexivity.
  - cbn [mixed_test leaves_alone]. repeat split.
  - reflexivity.
  - apply std_comment.
  - apply std_comment.
  - exact (pair_fst mixed_run _ mixed_ok).
  - exact std_line_again.
  - reflexivity.
  - reflexivity.
  - reflexivity.
  - vm_compute. reflexivity.
  - reflexivity.
  - reflexivity.
  - exact (proj1 C61_repeated_case).
Qed.

(** * A test configured by its constructor *)
Example C62_constructor_is_options_met := let H := C62_hypotheses in
  C62_constructor_is_options_Main ex_env conf_files conf_test ($"t") [($"-R", $"3")] [$"one"] ($"d/b.xml") ($"o.xml") [$"d"] 3 (proj1 H) (proj1 (proj2 H)) (proj1 (proj2 (proj2 H))) (proj2 (proj2 (proj2 H))).
Example C62_refused_output_met := C62_refused_output ex_env conf_files conf_test ($"t") [$"one"] ($"locked.xml") true ($"old") eq_refl ltac:(intros H; vm_compute in H; intuition discriminate).

(** * Elements of a baseline written by hand *)
Definition three_attributes : list (str * str) := [($"units", $"mm"); ($"type", $"measure/length"); ($"name", $"n")].
Lemma three_attributes_ok : attributes three_attributes.
Proof. exact (proj1 (C65_case true no_ext)). Qed.
Definition two_attributes : list (str * str) := [($"units", $"mm"); ($"name", $"n")].
Lemma two_attributes_ok : attributes two_attributes.
Proof. split; [repeat apply Forall_cons; try apply Forall_nil; repeat split; reflexivity|]. repeat constructor; cbn; intuition discriminate. Qed.
Example C65_data_element_met := C65_data_element true no_ext three three three_attributes ($"3<4") ($"measure/length") three_attributes_ok eq_refl three_storable three_storable eq_refl.
Example C65_data_element_without_type_met : ReadXMLInput true no_ext (document (lines_of three ++ (elem_text ($"DartMeasurement") two_attributes ($"3<4") ++ [nl]) ++ lines_of three)) = UB.
Proof.
  apply (C65_data_element_without_type true no_ext three three two_attributes ($"3<4") two_attributes_ok eq_refl three_storable three_storable eq_refl).
  exists ($"name"). split; [left; reflexivity|discriminate].
Qed.
Example C65_file_element_met := C65_file_element true no_ext three three three_attributes ($"a/b") three_attributes_ok eq_refl three_storable three_storable.
Example C65_attribute_order_met := C65_attribute_order true no_ext three three ($"DartMeasurement") three_attributes [($"type", $"measure/length"); ($"units", $"mm"); ($"name", $"n")] ($"3<4") (or_introl eq_refl) three_attributes_ok
  (Permutation.perm_swap _ _ _) eq_refl three_storable three_storable.

(** * Measured files *)
Definition fm_files : store := fun k => if eqs k ($"b.xml") then Some (FFile true true []) else if eqs k ($"data/t.txt") then Some (FFile true true ($"one"))
  else if eqs k ($"out/t.txt") then Some (FFile true true ($"two")) else if eqs k ($"data/secret") then Some (FFile false true ($"one")) else if eqs k ($"data") || eqs k ($"data/") then Some (FDir true true true) else None.
Definition fm_state (ty name : str) (dirs : list str) : rst := Rst fm_files [] [MF (Mf ($"n") true ty name)] [] [] dirs None (Some ($"b.xml")) default_tol 0%Z 0%Z.
Ltac not_there := intros x y [<-|H] E; [vm_compute in E; injection E as <-; vm_compute; reflexivity|destruct H].
Example C43_measured_file_found_met := C43_measured_file_found ex_env (fm_state ($"text/plain") ($"t.txt") [$"none"; $"data"]) ($"out/t.txt") (Mf ($"n") true ($"text/plain") ($"t.txt")) [] [$"none"] ($"data") [] ($"data/t.txt") ($"one") ($"two")
  eq_refl eq_refl eq_refl eq_refl eq_refl eq_refl ltac:(not_there) eq_refl eq_refl.
Example C43_measured_file_not_found_met := C43_measured_file_not_found ex_env (fm_state ($"text/plain") ($"u.txt") [$"data"]) (FileTextPlain ($"out/t.txt") ($"n")) ($"out/t.txt") (Mf ($"n") true ($"text/plain") ($"u.txt")) []
  eq_refl eq_refl (fc_text _ _) ltac:(discriminate) ltac:(discriminate) ltac:(discriminate) ltac:(not_there).
Example C43_no_directories_met := C43_no_directories ex_env (fm_state ($"text/plain") ($"data/t.txt") []) ($"out/t.txt") (Mf ($"n") true ($"text/plain") ($"data/t.txt")) [] ($"one") ($"two") eq_refl eq_refl eq_refl eq_refl eq_refl eq_refl.
Example C43_image_files_never_match_met := C43_image_files_never_match ex_env (fm_state ($"image/png") ($"t.txt") [$"data"]) (FileImagePNG ($"data/t.txt") ($"n")) ($"data/t.txt") (Mf ($"n") true ($"image/png") ($"t.txt")) []
  eq_refl eq_refl (fc_png _ _) ltac:(discriminate) eq_refl ltac:(not_there).
Example C43_directory_raises_met := C43_directory_raises ex_env (fm_state ($"text/plain") [] [$"data"]) (FileTextPlain ($"out/t.txt") ($"n")) ($"out/t.txt") (Mf ($"n") true ($"text/plain") []) [] ($"data/") true true
  eq_refl eq_refl (fc_text _ _) (or_intror (ex_intro _ ($"data") (conj eq_refl eq_refl))) eq_refl.
Example C43_no_permission_met := C43_no_permission ex_env (fm_state ($"text/plain") ($"data/secret") []) (FileTextPlain ($"out/t.txt") ($"n")) ($"out/t.txt") (Mf ($"n") true ($"text/plain") ($"data/secret")) [] ($"data/secret") false true ($"one")
  eq_refl eq_refl (fc_text _ _) ltac:(discriminate) (or_introl (conj eq_refl eq_refl)) eq_refl (or_introl eq_refl).
Example C43_recorded_without_name_met := C43_recorded_without_name (e_io ex_env) (FileTextPlain ($"out/") ($"n")) ($"out") ($"n") ($"text/plain") (fc_text _ _).

(** * Filter events *)
Definition events1 : list happening := [Started; Progressed; Iterated; Iterated; Ended; Destroyed].
Definition events2 : list happening := [Started; Iterated; Progressed; Iterated; Ended].
Lemma events1_proper : proper events1.
Proof. exact (proj1 C63_case). Qed.
Lemma events2_proper : proper events2.
Proof.
  split.
  - intros a b E. unfold events2 in E.
    destruct a as [|x0 a]; [discriminate E|]. destruct a as [|x1 a]; [injection E as <- <-; exists 0%Z; split; reflexivity|].
    destruct a as [|x2 a]; [discriminate E|]. destruct a as [|x3 a]; [injection E as <- <- <- <-; exists 1%Z; split; reflexivity|].
    destruct a as [|x4 a]; [discriminate E|]. destruct a; discriminate E.
  - intros a h b E. unfold events2 in E.
    do 5 (destruct a as [|? a]; [discriminate E|]). destruct a; discriminate E.
Qed.
Example C63_text_determines_events_met := C63_text_determines_events ($"F") ($"c") events1 events2 events1_proper events2_proper.

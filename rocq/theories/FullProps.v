(** Property C71: tests that use the whole protected interface. *)
From Coq Require Import Floats.SpecFloat.
From Verif Require Import Base Str Dec PathModel PathFacts MeasModel MeasFacts DiffModel VisitModel XmlModel ReadModel ReadFacts ReadBack RegModel ArgFacts ArgProps RegSpec RegFacts RegStart RegMain RegProps RegProps2 LineSpec LineProps ReportSpec ItkModel ItkSim ApiModel ApiSpec ApiFacts ApiRun FullModel FullSpec FullFacts.

(** C71.  Against a baseline, Main returns, and leaves the files and the screen, exactly as the course of the test says.
    [o]: the output file; [f1]: the files when it has been opened; [baseline]: the elements read. *)
Theorem C71_comparison : forall e f test a0 opts rest inf o f1 baseline,
  command_line e f opts rest -> input_of opts = Some inf -> started e f (output_of e f opts) (dirs_of opts) inf = Some (o, f1, baseline) ->
  forall z files screen,
  (exists s', full_Main e test (a0 :: flat opts ++ rest) (new_test f) = (s', Ok z) /\ s_files s' = files /\ s_stdout s' = screen) <->
  exists n text a out,
    performs e o true (At default_tol f1 (dirs_of opts) (expected_of opts) inf (output_of e f opts)) (test (a0 :: rest)) baseline n text a out /\
    files = at_files a /\ screen = to_screen o text /\
    z = outcome_status out (at_expected a) n (names_baseline e files (at_dirs a) (at_in a)) true.
Proof.
  intros e f test a0 opts rest inf o f1 baseline Hc Hi Hs z files screen. unfold full_Main. rewrite Main_with_unfold.
  change (s_unmatched (new_test f) + 1)%Z with 1%Z. rewrite (main_with_launch e f _ a0 opts rest Hc).
  destruct (begin_started e f opts rest inf o f1 baseline Hc Hi Hs) as [k B]. unfold mbind. rewrite B.
  set (s1 := Rst _ _ _ _ _ _ _ _ _ _ _). rewrite (run_at e (test (a0 :: rest)) s1 eq_refl z files screen). unfold s1. cbn [s_os is_open at_of s_is s_tol s_files s_path s_expected s_in s_out s_input s_stdout comparing orb app].
  assert (C : forall out, closing out true = []) by (intros [v|x| | |]; reflexivity).
  split; intros (n & text & a & out & P & F & X & Z); exists n, text, a, out; cbv zeta in *; (split; [exact P|]); rewrite C in *; rewrite ?app_nil_r in *; auto.
Qed.
Print Assumptions C71_comparison.
(** Without a baseline the text of the test stands between the first lines and the last line; the latter is missing after an exception, or if a baseline
    can be found at the end under the name the test has set. *)
Theorem C71_recording : forall e f test a0 opts rest o f1,
  command_line e f opts rest -> input_of opts = None -> opened e f (output_of e f opts) = Some (o, f1) ->
  let top := first_lines (e_host e) (e_time e) in
  forall z files screen,
  (exists s', full_Main e test (a0 :: flat opts ++ rest) (new_test f) = (s', Ok z) /\ s_files s' = files /\ s_stdout s' = screen) <->
  exists n text a out,
    performs e o false (At default_tol (appended o top f1) (dirs_of opts) (expected_of opts) [] (output_of e f opts)) (test (a0 :: rest)) [] n text a out /\
    let comparing_now := names_baseline e (at_files a) (at_dirs a) (at_in a) in
    let bottom := closing out comparing_now in
    files = appended o bottom (at_files a) /\ screen = to_screen o (top ++ text ++ bottom) /\
    z = outcome_status out (at_expected a) n (names_baseline e files (at_dirs a) (at_in a)) comparing_now.
Proof.
  intros e f test a0 opts rest o f1 Hc Hi Ho top z files screen. unfold full_Main. rewrite Main_with_unfold.
  change (s_unmatched (new_test f) + 1)%Z with 1%Z. rewrite (main_with_launch e f _ a0 opts rest Hc).
  assert (Hin : s_in (launched e f opts) = []) by (cbn; rewrite Hi; reflexivity).
  pose proof (begin_record e (launched e f opts) eq_refl eq_refl Hin) as B.
  change (s_files (launched e f opts)) with f in B. change (s_out (launched e f opts)) with (output_of e f opts) in B. rewrite Ho in B.
  unfold mbind. rewrite B. set (s0 := set_os (set_files (launched e f opts) f1) o). change (header e) with top.
  destruct (print_text_spec top s0) as (A & I & U & O & R & X). change (print_text top s0) with (put_text top s0) in *. set (s1 := put_text top s0) in *.
  assert (U1 : s_unmatched s1 = 1%Z) by (rewrite U; reflexivity). rewrite (run_at e (test (a0 :: rest)) s1 U1 z files screen).
  assert (Hopen : is_open s1 = false) by (unfold is_open; rewrite R; reflexivity).
  rewrite A, I, O, X, Hopen. change (s_os s0) with o. change (s_input s0) with (@nil meas). change (s_stdout s0) with (@nil ascii).
  assert (W : wrote o top (at_of s0) = At default_tol (appended o top f1) (dirs_of opts) (expected_of opts) [] (output_of e f opts)).
  { unfold wrote, at_of. cbn [s0 launched set_os set_files s_tol s_files s_path s_expected s_in s_out at_tol at_files at_dirs at_expected at_in at_out]. rewrite Hi. reflexivity. }
  rewrite W. cbn [app].
  split; intros (n & text & a & out & P & F & S & Z); exists n, text, a, out; cbv zeta in *; (split; [exact P|]); cbn [comparing orb] in *; split; auto; split; auto; rewrite S;
    change (match o with Some _ => [] | None => top end) with (to_screen o top); rewrite !to_screen_app; reflexivity.
Qed.
Print Assumptions C71_recording.
(** The course of a test is determined. *)
Theorem C71_determined : forall e o reading a p bs n text a' out n2 text2 a2 out2,
  performs e o reading a p bs n text a' out -> performs e o reading a p bs n2 text2 a2 out2 -> n2 = n /\ text2 = text /\ a2 = a' /\ out2 = out.
Proof.
  intros. eapply performs_det; eassumption.
Qed.
Print Assumptions C71_determined.

(** The tests of RegModel and ApiModel are such tests: exceptions are not caught. *)
Fixpoint as_full (p : aprog) : fprog :=
  match p with
  | AReturn z => FReturn z
  | ARaise x => FRaise x
  | ACall c k => FMeasure c (fun r => match r with inl z => as_full (k z) | inr x => FRaise x end)
  | ASetRelativeTolerance t k => FSetRelativeTolerance t (as_full k)
  | ASetExpectedReturn z k => FSetExpectedReturn z (as_full k)
  | AWriteFile path b k => FWriteFile path b (as_full k)
  | ALook k => FLook (fun v => as_full (k v))
  | ASetInFileName n k => FSetInFileName n (as_full k)
  | ASetOutFileName n k => FSetOutFileName n (as_full k)
  end.
Theorem C71_generalises : forall e test argv s, full_Main e (fun args => as_full (test args)) argv s = api_Main e test argv s.
Proof.
  intros e test argv s.
  assert (G : forall p s, frun e (as_full p) s = arun e p s).
  { clear. induction p as [z|x|c k IH|t k IH|z k IH|path b k IH|k IH|n k IH|n k IH]; intros s; cbn [as_full frun arun]; unfold mbind, modify; cbv iota; auto.
    - unfold caught. destruct (Measure e c s) as [s1 [z|x| | |]]; cbv iota; auto.
    - destruct (look_at e s) as [s1 [v|x| | |]]; auto. }
  unfold full_Main, api_Main. rewrite !Main_with_unfold. f_equal. unfold main_body_with, mbind.
  destruct (ParseAndRemoveArguments e _ argv _) as [s2 [[argc l]|i| | |]]; auto.
  destruct (BeginMeasurement e s2) as [s3 [[]|i| | |]]; auto.
Qed.
Print Assumptions C71_generalises.
(** A measurement is what a derived class can write with GetCompareMode, CompareMeasurement and GetOutStream. *)
Theorem C71_by_hand : forall e c t k s, line (e_io e) c t ->
  frun e (FLook (fun v => if v_compare v then FCompare (meas_of (e_io e) true c) (tolerant_of c) (fun r _ => k r) else FPrint (t ++ [nl]) (k (inl 0%Z)))) s =
  frun e (FMeasure c k) s.
Proof.
  intros e c t k s L. rewrite (C44_line_determined _ _ _ _ L (line_print (e_io e) c)).
  cbn [frun]. unfold mbind at 1. unfold look_at. rewrite mode_at. cbn [bind v_compare].
  transitivity ((r <- caught (Measure e c) ;; frun e (k r)) s); [|reflexivity].
  unfold mbind at 1. unfold caught. rewrite measure_at.
  destruct (comparing e (is_open s) (at_of s)); [reflexivity|]. cbn [frun]. unfold mbind. rewrite print_out_eq. reflexivity.
Qed.
Print Assumptions C71_by_hand.

(** For the cases below: a baseline with these elements, and a test that compares a string of its own. *)
Definition base_with (elements : str) : store :=
  fun k => if eqs k ($"b.xml") then Some (FFile true true ($"<output>" ++ elements ++ $"</output>")) else None.
Definition own_string (text name : str) (k : Z + exn -> fprog) : fprog :=
  FCompare (meas_of (e_io ex_env) true (TextString text name)) false (fun r _ => k r).
Definition string_element (name text : str) : str := element DATA name ($"text/string") text.
Local Notation against elements p := (full_Main ex_env (fun _ => p) ($"prog" :: flat [($"-I", $"b.xml")] ++ []) (new_test (base_with elements))).

(** CompareMeasurement does not return 0 if the measurements are the same and something else otherwise, as its comment says
    (tfRegressionTest.h 202-205): a test that returns the value for an equal, for a different and for a missing element. *)
Theorem C71_compare_value_refuted :
  let baseline := string_element ($"name") ($"a") in
  let answer_for text name := own_string text name (fun r => match r with inl z => FReturn (10 + z) | inr _ => FReturn 0%Z end) in
  snd (against baseline (answer_for ($"a") ($"name"))) = Ok 11%Z /\ snd (against baseline (answer_for ($"b") ($"name"))) = Ok 10%Z /\
  snd (against baseline (answer_for ($"a") ($"other"))) = Ok 11%Z.
Proof. repeat split; vm_compute; reflexivity. Qed.
Print Assumptions C71_compare_value_refuted.
(** A comparison that fails with an exception is not counted: if the test catches it, the test passes, whatever it measured. *)
Theorem C71_caught_exception_refuted : exists elements, forall text,
  snd (against elements (FMeasure (TextString text ($"name")) (fun r => match r with inl _ => FReturn 1%Z | inr _ => FReturn 0%Z end))) = Ok 0%Z.
Proof.
  exists ($"<DartMeasurement name=""name"" type=""text/string"" encoding=""base64"">YQ==</DartMeasurement>"). intros text. vm_compute. reflexivity.
Qed.
Print Assumptions C71_caught_exception_refuted.
(** Comparing an object while recording writes an element that the same test never matches. *)
Theorem C71_record_then_compare_refuted :
  let test := own_string ($"a") ($"name") (fun _ => FReturn 0%Z) in
  exists s1, full_Main ex_env (fun _ => test) ($"prog" :: flat [($"-O", $"b.xml")] ++ []) (new_test (fun _ => None)) = (s1, Ok 0%Z) /\
    snd (full_Main ex_env (fun _ => test) ($"prog" :: flat [($"-I", $"b.xml")] ++ []) (new_test (s_files s1))) = Ok 1%Z /\
    written (Some ($"b.xml")) s1 = first_lines (e_host ex_env) (e_time ex_env) ++ string_element ($"Unmatched name") ($"a") ++ [nl] ++ last_line.
Proof. cbv zeta. eexists. split; [vm_compute; reflexivity|]. split; vm_compute; reflexivity. Qed.
Print Assumptions C71_record_then_compare_refuted.
(** A test that adds a directory to search, in which the baseline is not, passes, whatever it measured before or measures later. *)
Theorem C71_search_directory_refuted :
  let test := FMeasure (TextString ($"b") ($"name")) (fun _ => FPrependInFileSearchPath ($"data") (FMeasure (TextString [] ($"missing")) (fun _ => FReturn 0%Z))) in
  exists s', against (string_element ($"name") ($"a")) test = (s', Ok 0%Z) /\ s_unmatched s' = 2%Z.
Proof. cbv zeta. eexists. split; [vm_compute; reflexivity|reflexivity]. Qed.
Print Assumptions C71_search_directory_refuted.

(** A run with everything: text, search directories, an own object with the name it is left with, an answer that decides, a caught exception. *)
Definition full_example : fprog :=
  FPrint ($"<!-- begin -->" ++ [nl])
  (FPrependInFileSearchPath ($"dir")
  (FCompare (meas_of (e_io ex_env) true (NumericInteger 4 ($"i") false)) false (fun r m =>
   FMeasure (TextString ($"x") ($"s")) (fun r2 =>
   FMeasure (TextString ($"y") ($"p")) (fun r3 =>
   FLook (fun v => FPrint (mname m ++ $" " ++ concat (v_path v) ++ [nl])
   (FSetInFileSearchPath [] (FReturn (match r, r2, r3 with inl 0%Z, inl 1%Z, inr _ => 0%Z | _, _, _ => 99%Z end))))))))).
Local Notation full_elements := (element DATA ($"i") ($"numeric/integer") ($"3") ++ string_element ($"s") ($"x") ++
  $"<DartMeasurement name=""p"" type=""text/string"" encoding=""base64"">YQ==</DartMeasurement>").
Example C71_case :
  snd (against full_elements full_example) = Ok 1%Z /\
  s_stdout (fst (against full_elements full_example)) =
    $"<!-- begin -->" ++ [nl] ++ element DATA ($"Test i") ($"numeric/integer") ($"4") ++ [nl] ++
    element DATA ($"Baseline i") ($"numeric/integer") ($"3") ++ [nl] ++ $"Test i dir" ++ [nl].
Proof. split; vm_compute; reflexivity. Qed.
(** the hypotheses of C71_comparison and of C71_recording, and a text line for C71_by_hand *)
Example C71_hyps :
  (command_line ex_env (base_with full_elements) [($"-I", $"b.xml")] [] /\ input_of [($"-I", $"b.xml")] = Some ($"b.xml") /\
   exists baseline, started ex_env (base_with full_elements) (output_of ex_env (base_with full_elements) [($"-I", $"b.xml")]) (dirs_of [($"-I", $"b.xml")]) ($"b.xml") =
     Some (None, base_with full_elements, baseline) /\ length baseline = 3) /\
  (command_line ex_env (fun _ => None) [($"-O", $"b.xml")] [] /\ input_of [($"-O", $"b.xml")] = None /\
   exists f1, opened ex_env (fun _ => None) (output_of ex_env (fun _ => None) [($"-O", $"b.xml")]) = Some (Some ($"b.xml"), f1)) /\
  line (e_io ex_env) (TextString ($"x") ($"s")) (string_element ($"s") ($"x")).
Proof.
  split; [split; [|split]|split; [split; [|split]|]].
  - split; [|exact I]. constructor; [|constructor]. split; [right; left; reflexivity|]. split; [|discriminate]. intros _. vm_compute. auto.
  - reflexivity.
  - eexists. split; [vm_compute; reflexivity|reflexivity].
  - split; [|exact I]. constructor; [|constructor]. split; [cbn; auto|]. split; intros E; discriminate E.
  - reflexivity.
  - eexists. vm_compute. reflexivity.
  - constructor.
Qed.

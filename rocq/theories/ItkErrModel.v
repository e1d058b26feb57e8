(** Model of what the ITK driver and itktfImageCompare write to the standard error: /repo/itktf/itktfCompareVisitor.cxx 65-103, /repo/itktf/itktfDifferenceVisitor.cxx 74-153, 157-347,
    /repo/itktf/itktfImageCompare.cxx 11-113.  The functions of ItkModel again, with the messages, in the monad of ErrModel; [quiet]: this part says nothing.
    Simplifications: those of ErrModel and ItkModel; whether rescaling fails, and the texts of the exceptions of ITK, are given from outside ([itkerr]). *)
From Coq Require Import Floats.SpecFloat.
From Verif Require Import Base Str Dec PathModel MeasModel VisitModel RegModel ImgModel ItkModel ErrModel.

Record itkerr := ItkErr {
  r_dir : bool;                               (* as [dir] in ErrModel *)
  r_read : store -> str -> str;               (* why the file cannot be read *)
  r_rescale : image -> option (option str);   (* an exception while rescaling; with the text of a std::exception *)
  r_write : store -> image -> str -> option str   (* the text of the exception while writing, if it is a std::exception *) }.

(** itktfCompareVisitor.cxx 84-88: no end of line *)
Definition baseline_unreadable (r : itkerr) (f : store) (file : str) : msg := Written ($"Exception detected while reading " ++ cstr file ++ $" : " ++ r_read r f file).
(** 97-101 *)
Definition test_unreadable (r : itkerr) (f : store) (file : str) : msg := Written ($"Exception detected while reading " ++ cstr file ++ $" : " ++ r_read r f file ++ [nl]).
(** 76-101 *)
Definition image_says (r : itkerr) (ie : ienv) (f : store) (baseline m : mf) : list msg :=
  match read_image ie f (ffile baseline) with
  | None => [baseline_unreadable r f (ffile baseline)]
  | Some _ => match read_image ie f (ffile m) with None => [test_unreadable r f (ffile m)] | Some _ => [] end
  end.
(** itktfCompareVisitor.cxx 35-63, with tfMeasurementVisitor.cpp 157-175 *)
Definition x_itk_Compare (r : itkerr) (ie : ienv) (tol : tolerances) (c : cmp) (baseline m : meas) : X (meas * meas * bool) :=
  let base :=
    _ <! say (fun s => compare_says (r_dir r) (e_sc (i_env ie)) (sources (i_env ie) (s_files s)) c baseline m) ;;
    out <! quiet (gets (fun s => Compare (e_sc (i_env ie)) (sources (i_env ie) (s_files s)) (e_io (i_env ie)) c baseline m)) ;;
    let '(baseline, m, v) := out in same <! quiet (mlift v) ;; xret (baseline, m, same) in
  match baseline, m with
  | MF b, MF t =>
      if eqs (ftype t) itk_type then
        _ <! quiet (ItkModel.say ($"Comparing test image: " ++ quote ++ cstr (ffile t) ++ quote ++ $" to baseline image: " ++ quote ++ cstr (ffile b) ++ quote ++ [nl])) ;;
        _ <! say (fun s => image_says r ie (s_files s) b t) ;;
        out <! quiet (gets (fun s => image_verdict (i_diff ie) (read_image ie (s_files s)) tol b t)) ;;
        v <! quiet (mlift out) ;; xret (baseline, m, v)
      else base
  | _, _ => base
  end.

(** [text], the text of an exception, if there is one, on a line of its own *)
Definition with_text (what : str) (file : str) (text : option str) : msg := Written (what ++ file ++ [nl] ++ match text with Some t => t ++ [nl] | None => [] end).
(** itktfDifferenceVisitor.cxx 119-132 *)
Definition rescale_says (r : itkerr) (im : image) (file : str) : list msg :=
  match r_rescale r im with None => [] | Some text => [with_text ($"Error during rescale of ") file text] end.
(** the file can be opened for writing *)
Definition can_write (e : env) (f : store) (path : str) : bool :=
  match slot e path with
  | None => false
  | Some k => match f k with Some (FFile _ w _) => w | Some _ => false | None => e_cancreate e (cstr path) end
  end.
(** 134-151 *)
Definition write_says (r : itkerr) (ie : ienv) (f : store) (im : image) (file : str) : list msg :=
  match i_png ie im with
  | Some _ => if can_write (i_env ie) f file then [] else [with_text ($"Error during exctraction and writing of ") file (r_write r f im file)]
  | None => [with_text ($"Error during exctraction and writing of ") file (r_write r f im file)]
  end.
(** 74-153 *)
Definition x_ImageThing (r : itkerr) (ie : ienv) (im : image) (file name : str) : X unit :=
  _ <! quiet (ItkModel.say (i_show_slice ie im)) ;;
  _ <! say (fun _ => rescale_says r im file) ;;
  _ <! say (fun s => write_says r ie (s_files s) im file) ;;
  _ <! quiet (match i_png ie im with Some b => modify (fun s => set_files s (write_file (i_env ie) (s_files s) file b)) | None => mret tt end) ;;
  quiet (say_meas (MF (Mf ($"Difference " ++ name) true ($"image/png") file))).
(** 157-347 *)
Definition x_DifferenceTestImage (r : itkerr) (ie : ienv) (tol : tolerances) (baseline m : mf) : X unit :=
  t <! quiet (gets (fun s => read_info ie (s_files s) (ffile m))) ;;
  b <! quiet (gets (fun s => read_info ie (s_files s) (ffile baseline))) ;;
  match t, b with
  | Some t, Some b =>
      let n := fname m in
      if negb (eqzs (h_size b) (h_size t)) then
        quiet (ItkModel.report false (status_text ($"Baseline Size " ++ n) (i_show_size ie (h_size b)))
                                     (status_text ($"Test ImageSize " ++ n) (i_show_size ie (h_size t))))
      else
        _ <! quiet (ItkModel.report (eqfs (h_spacing b) (h_spacing t)) (status_text ($"Baseline Spacing " ++ n) (i_show_vector ie (h_spacing b)))
                                                       (status_text ($"Test Spacing " ++ n) (i_show_vector ie (h_spacing t)))) ;;
        _ <! quiet (ItkModel.report (eqfs (h_origin b) (h_origin t)) (status_text ($"Baseline Origin " ++ n) (i_show_vector ie (h_origin b)))
                                                     (status_text ($"Test Origin " ++ n) (i_show_vector ie (h_origin t)))) ;;
        _ <! quiet (ItkModel.report (eqs (h_pixel b) (h_pixel t)) (status_text ($"Baseline PixelType " ++ n) (h_pixel b))
                                                  (status_text ($"Test PixelType " ++ n) (h_pixel t))) ;;
        _ <! quiet (ItkModel.report (eqs (h_component b) (h_component t)) (status_text ($"Baseline ComponentType " ++ n) (h_component b))
                                                          (status_text ($"Test ComponentType " ++ n) (h_component t))) ;;
        _ <! quiet (ItkModel.report (h_components b =? h_components t)%Z (status_int ($"Baseline Number Of Components " ++ n) (h_components b))
                                                         (status_int ($"Test Number Of Components " ++ n) (h_components t))) ;;
        ti <! quiet (gets (fun s => read_image ie (s_files s) (ffile m))) ;;
        bi <! quiet (gets (fun s => read_image ie (s_files s) (ffile baseline))) ;;
        match ti, bi with
        | Some ti, Some bi =>
            let f := Filter (t_radius tol) (t_intensity tol) false in
            let e := i_env ie in
            _ <! quiet (say_meas (MD (double_SetValue (e_io e) (SetAttributeName (new_dm CDouble) ($"ImageError " ++ n))
                                 (of_int64 (i_diff ie f (g_image bi) (g_image ti)))))) ;;
            let png ext := Append (i_output ie) (Tail (ffile m) ++ ext) in
            p1 <! quiet (mlift (png ($".diff.png"))) ;;
            _ <! x_ImageThing r ie (i_diff_image ie f (g_image bi) (g_image ti)) p1 n ;;
            p2 <! quiet (mlift (png ($".base.png"))) ;;
            _ <! x_ImageThing r ie (g_image bi) p2 n ;;
            p3 <! quiet (mlift (png ($".test.png"))) ;;
            x_ImageThing r ie (g_image ti) p3 n
        | _, _ => quiet (mlift (Throw ExnRuntime))
        end
  | _, _ => quiet (mlift (Throw ExnRuntime))
  end.
(** 54-71 in tfRegressionTest.cpp 357-365 *)
Definition x_itk_Difference (r : itkerr) (ie : ienv) (tol : tolerances) (m baseline : meas) : X unit :=
  match baseline, m with
  | MF b, MF t =>
      if eqs (ftype t) itk_type then
        _ <! quiet (modify (fun s => set_unmatched s (s_unmatched s + 1))) ;; x_DifferenceTestImage r ie tol b t
      else quiet (DifferenceMeasurement (i_env ie) m baseline)
  | _, _ => quiet (DifferenceMeasurement (i_env ie) m baseline)
  end.
(** tfRegressionTest.cpp 372-434 with the visitors made by itktfRegression.cxx 111-122 *)
Definition x_itk_CompareMeasurement (r : itkerr) (ie : ienv) (tol : tolerances) (m : meas) (tolerant : bool) : X Z :=
  inp <! quiet (gets s_input) ;;
  match inp with
  | [] => _ <! quiet (UnmatchedMeasurement m) ;; xret 1%Z
  | baseline :: rest =>
      _ <! quiet (modify (fun s => set_input s rest)) ;;
      if eqs (mname baseline) (mname m) && eqs (mtype baseline) (mtype m) then
        baseline <! quiet (fun s => (s, locate (i_env ie) s baseline m)) ;;
        c <! quiet (gets (fun s => visitor s tolerant)) ;;
        out <! x_itk_Compare r ie tol c baseline m ;;
        let '(baseline, m, same) := out in
        if (same : bool) then xret 1%Z
        else _ <! x_itk_Difference r ie tol m baseline ;; xret 0%Z
      else _ <! quiet (UnmatchedMeasurement m) ;; xret 1%Z
  end.
(** tfRegressionTest.cpp 441-584 *)
Definition x_itk_Measure (r : itkerr) (ie : ienv) (tol : tolerances) (c : call) : X Z :=
  cm <! quiet (GetCompareMode (i_env ie)) ;;
  if (cm : bool) then x_itk_CompareMeasurement r ie tol (meas_of (e_io (i_env ie)) true c) (tolerant_of c)
  else _ <! quiet (put_meas (meas_of (e_io (i_env ie)) false c)) ;; xret 0%Z.
(** itktfRegression.cxx 91-108 *)
Definition x_MeasurementInsightFileImage (r : itkerr) (ie : ienv) (tol : tolerances) (file name : str) : X Z :=
  cm <! quiet (GetCompareMode (i_env ie)) ;;
  if (cm : bool) then x_itk_CompareMeasurement r ie tol (file_meas true itk_type file name) false
  else _ <! quiet (put_meas (file_meas false itk_type file name)) ;; xret 0%Z.
(** a test that itself says nothing *)
Fixpoint x_irun (r : itkerr) (ie : ienv) (args : list str) (p : iprog) (tol : tolerances) (count : Z) : X Z :=
  match p with
  | IReturn z => xret z
  | IRaise x => quiet (mlift (Throw x))
  | ICall c k => z <! x_itk_Measure r ie tol c ;; x_irun r ie args (k z) tol count
  | IImage f n k => z <! x_MeasurementInsightFileImage r ie tol f n ;; x_irun r ie args (k z) tol count
  | ITolerance t k => x_irun r ie args k t count
  | IGenerate ext root k => n <! quiet (mlift (GenerateFileName (e_sc (i_env ie)) args count ext root)) ;; x_irun r ie args (k n) tol (count + 1)%Z
  | ISay t k => _ <! quiet (ItkModel.say t) ;; x_irun r ie args k tol count
  | IRelativeTolerance t k => _ <! quiet (modify (fun s => set_tol s t)) ;; x_irun r ie args k tol count
  | IExpectedReturn z k => _ <! quiet (modify (fun s => set_expected s z)) ;; x_irun r ie args k tol count
  | IWriteFile path b k => _ <! quiet (modify (fun s => set_files s (write_file (i_env ie) (s_files s) path b))) ;; x_irun r ie args k tol count
  end.

(** * itktfImageCompare.cxx *)
(** 11-18 *)
Definition usage (argv0 : str) : msg := Written
  ($"Usage: " ++ [nl] ++ [chr 9] ++ argv0 ++ $" ( filename | --intensityTolerance real | --numberOfPixelTolerance uint | --radiusTolerance uint )*" ++ [nl] ++ [nl] ++
   $"The primary argument is list of image files to compare to an input XML file via the " ++ quote ++ $"-I filename.xml" ++ quote ++
   $" argument from the regression framework. Additainlly, the " ++ quote ++ $"--" ++ quote ++ $" arguments can applied during the processing, to affect the subsequent image files." ++ [nl]).
(** 40, 58, 76; 49, 67, 85; 91 *)
Definition expected (kind option : str) : msg := Written ($"Expected " ++ kind ++ $" to follow " ++ option ++ [nl]).
Definition expected_not (kind option value : str) : msg := Written ($"Expected " ++ kind ++ $" to follow " ++ option ++ $" but got " ++ quote ++ value ++ quote ++ [nl]).
Definition unknown (a : str) : msg := Written ($"Unknown argument: " ++ quote ++ a ++ quote ++ [nl]).
(** 27-110 *)
Fixpoint x_image_loop (r : itkerr) (ie : ienv) (args : list str) (tol : tolerances) (n : Z) : X Z :=
  let fails m := _ <! say (fun _ => [m]) ;; xret 1%Z in
  match args with
  | [] => xret 0%Z
  | a :: rest =>
      match a with
      | "-"%char :: _ =>
          if eqs a ($"--intensityTolerance") then
            match rest with
            | [] => fails (expected ($"double") a)
            | v :: rest' => match i_double ie v with
                            | None => fails (expected_not ($"double") a v)
                            | Some d => x_image_loop r ie rest' (Tolerances d (t_pixels tol) (t_radius tol)) n
                            end
            end
          else if eqs a ($"--numberOfPixelTolerance") then
            match rest with
            | [] => fails (expected ($"unsigned int") a)
            | v :: rest' => match scan_uint v with
                            | None => fails (expected_not ($"unsigned int") a v)
                            | Some d => x_image_loop r ie rest' (Tolerances (t_intensity tol) d (t_radius tol)) n
                            end
            end
          else if eqs a ($"--radiusTolerance") then
            match rest with
            | [] => fails (expected ($"unsigned int") a)
            | v :: rest' => match scan_uint v with
                            | None => fails (expected_not ($"unsigned int") a v)
                            | Some d => x_image_loop r ie rest' (Tolerances (t_intensity tol) (t_pixels tol) d) n
                            end
            end
          else fails (unknown a)
      | _ => _ <! x_MeasurementInsightFileImage r ie tol a ($"ImageFile" ++ print_int n) ;; x_image_loop r ie rest tol (n + 1)%Z
      end
  end.
(** 11-113; [argv[0]] of an empty list is not modelled *)
Definition x_itktfImageCompare (r : itkerr) (ie : ienv) (args : list str) : X Z :=
  _ <! say (fun _ => match args with [a0] => [usage a0] | _ => [] end) ;;
  x_image_loop r ie (tl args) no_tolerance 0%Z.

(** * tfRegressionTest.cpp 292-345, as ErrModel.x_Main, with any test *)
Definition x_body_with (e : env) (body : list str -> X Z) (argv : list str) : X Z :=
  q <! x_Parse e (S (length argv)) argv ;;
  let '(argc, argv) := q in
  _ <! x_Begin e ;;
  body (firstn argc argv).
Definition x_Main_with (e : env) (body : list str -> X Z) (argv : list str) : X Z := fun x =>
  let x := Xst (set_unmatched (x_s x) (s_unmatched (x_s x) + 1)) (x_err x) None in
  let finish (ret : Z) (x : xst) : xst * res Z :=
    if negb (ret =? s_expected (x_s x))%Z then (x, Ok ret)
    else (x, cm <-- compare_mode e (x_s x) ;; Ok (if (cm : bool) then s_unmatched (x_s x) else 0%Z)) in
  match x_body_with e body argv x with
  | (x, Ok ret) =>
      match quiet (EndMeasurement e) x with
      | (x, Ok _) => finish ret (Xst (set_unmatched (x_s x) (s_unmatched (x_s x) - 1)) (x_err x) (x_what x))
      | (x, Throw ex) => finish ret (ErrModel.report ex x)
      | (x, UB) => (x, UB) | (x, Abort) => (x, Abort) | (x, Hang) => (x, Hang)
      end
  | (x, Throw ex) => finish (-1)%Z (ErrModel.report ex x)
  | (x, UB) => (x, UB) | (x, Abort) => (x, Abort) | (x, Hang) => (x, Hang)
  end.
(** itktfRegression.cxx 80-89 *)
Definition x_itk_Main (r : itkerr) (ie : ienv) (test : list str -> iprog) (argv : list str) : X Z :=
  x_Main_with (i_env ie) (fun args => x_irun r ie argv (test args) no_tolerance 0%Z) argv.
Definition x_tool_Main (r : itkerr) (ie : ienv) (argv : list str) : X Z := x_Main_with (i_env ie) (x_itktfImageCompare r ie) argv.
(** all that a new test object says *)
Definition itk_says (r : itkerr) (ie : ienv) (f : store) (test : list str -> iprog) (argv : list str) : list msg :=
  x_err (fst (x_itk_Main r ie test argv (Xst (new_itk_test ie f) [] None))).
Definition tool_says (r : itkerr) (ie : ienv) (f : store) (argv : list str) : list msg :=
  x_err (fst (x_tool_Main r ie argv (Xst (new_itk_test ie f) [] None))).

(** Model of the ITK test driver (/repo/itktf/itktfRegression.{h,cxx}, itktfCompareVisitor.cxx, itktfDifferenceVisitor.cxx) on an output stream that fails after a number of bytes.
    As LimitModel for the plain driver: the definitions are those of ItkModel with writing replaced, what does not write is used as it is ([lift]).  The stream is [GetOutStream()]: the
    output file or, without one, [std::cout]; then also what the test and the visitors print on [std::cout] counts.  With an output file [std::cout] takes everything.
    Simplification: files other than the output (images written by the test, pictures) are written whole. *)
From Coq Require Import Floats.SpecFloat.
From Verif Require Import Base Str Dec PathModel MeasModel VisitModel RegModel ImgModel ItkModel LimitModel.

(** std::cout << text *)
Definition lsay (text : str) : LM unit := fun p => match s_os (fst p) with None => lput text p | Some _ => lift (say text) p end.
Definition lsay_meas (m : meas) : LM unit := t <~ lift (mlift (Print m)) ;; lsay (t ++ [nl]).
(** itktfCompareVisitor.cxx 35-63 *)
Definition il_Compare (ie : ienv) (tol : tolerances) (c : cmp) (baseline m : meas) : LM (meas * meas * bool) :=
  match baseline, m with
  | MF b, MF t =>
      if eqs (ftype t) itk_type then
        _ <~ lsay ($"Comparing test image: " ++ quote ++ cstr (ffile t) ++ quote ++ $" to baseline image: " ++ quote ++ cstr (ffile b) ++ quote ++ [nl]) ;;
        out <~ lift (gets (fun s => image_verdict (i_diff ie) (read_image ie (s_files s)) tol b t)) ;;
        v <~ lift (mlift out) ;; lret (baseline, m, v)
      else lift (itk_Compare ie tol c baseline m)
  | _, _ => lift (itk_Compare ie tol c baseline m)
  end.
(** itktfDifferenceVisitor.cxx 74-153 *)
Definition lreport (same : bool) (a b : meas) : LM unit := if same then lret tt else _ <~ lsay_meas a ;; lsay_meas b.
Definition il_ImageThing (ie : ienv) (im : image) (file name : str) : LM unit :=
  _ <~ lsay (i_show_slice ie im) ;;
  _ <~ (match i_png ie im with Some b => lift (modify (fun s => set_files s (write_file (i_env ie) (s_files s) file b))) | None => lret tt end) ;;
  lsay_meas (MF (Mf ($"Difference " ++ name) true ($"image/png") file)).
(** 157-347 *)
Definition il_DifferenceTestImage (ie : ienv) (tol : tolerances) (baseline m : mf) : LM unit :=
  t <~ lift (gets (fun s => read_info ie (s_files s) (ffile m))) ;;
  b <~ lift (gets (fun s => read_info ie (s_files s) (ffile baseline))) ;;
  match t, b with
  | Some t, Some b =>
      let n := fname m in
      if negb (eqzs (h_size b) (h_size t)) then
        lreport false (status_text ($"Baseline Size " ++ n) (i_show_size ie (h_size b)))
                      (status_text ($"Test ImageSize " ++ n) (i_show_size ie (h_size t)))
      else
        _ <~ lreport (eqfs (h_spacing b) (h_spacing t)) (status_text ($"Baseline Spacing " ++ n) (i_show_vector ie (h_spacing b)))
                                                        (status_text ($"Test Spacing " ++ n) (i_show_vector ie (h_spacing t))) ;;
        _ <~ lreport (eqfs (h_origin b) (h_origin t)) (status_text ($"Baseline Origin " ++ n) (i_show_vector ie (h_origin b)))
                                                      (status_text ($"Test Origin " ++ n) (i_show_vector ie (h_origin t))) ;;
        _ <~ lreport (eqs (h_pixel b) (h_pixel t)) (status_text ($"Baseline PixelType " ++ n) (h_pixel b))
                                                   (status_text ($"Test PixelType " ++ n) (h_pixel t)) ;;
        _ <~ lreport (eqs (h_component b) (h_component t)) (status_text ($"Baseline ComponentType " ++ n) (h_component b))
                                                           (status_text ($"Test ComponentType " ++ n) (h_component t)) ;;
        _ <~ lreport (h_components b =? h_components t)%Z (status_int ($"Baseline Number Of Components " ++ n) (h_components b))
                                                          (status_int ($"Test Number Of Components " ++ n) (h_components t)) ;;
        ti <~ lift (gets (fun s => read_image ie (s_files s) (ffile m))) ;;
        bi <~ lift (gets (fun s => read_image ie (s_files s) (ffile baseline))) ;;
        match ti, bi with
        | Some ti, Some bi =>
            let f := Filter (t_radius tol) (t_intensity tol) false in
            let e := i_env ie in
            _ <~ lsay_meas (MD (double_SetValue (e_io e) (SetAttributeName (new_dm CDouble) ($"ImageError " ++ n))
                                  (of_int64 (i_diff ie f (g_image bi) (g_image ti))))) ;;
            let png ext := Append (i_output ie) (Tail (ffile m) ++ ext) in
            p1 <~ lift (mlift (png ($".diff.png"))) ;;
            _ <~ il_ImageThing ie (i_diff_image ie f (g_image bi) (g_image ti)) p1 n ;;
            p2 <~ lift (mlift (png ($".base.png"))) ;;
            _ <~ il_ImageThing ie (g_image bi) p2 n ;;
            p3 <~ lift (mlift (png ($".test.png"))) ;;
            il_ImageThing ie (g_image ti) p3 n
        | _, _ => lift (mlift (Throw ExnRuntime))
        end
  | _, _ => lift (mlift (Throw ExnRuntime))
  end.
(** 54-71 in tfRegressionTest.cpp 357-365 *)
Definition il_Difference (ie : ienv) (tol : tolerances) (m baseline : meas) : LM unit :=
  match baseline, m with
  | MF b, MF t =>
      if eqs (ftype t) itk_type then
        _ <~ lift (modify (fun s => set_unmatched s (s_unmatched s + 1))) ;; il_DifferenceTestImage ie tol b t
      else lDifference (i_env ie) m baseline
  | _, _ => lDifference (i_env ie) m baseline
  end.
(** tfRegressionTest.cpp 372-434 *)
Definition il_CompareMeasurement (ie : ienv) (tol : tolerances) (m : meas) (tolerant : bool) : LM Z :=
  inp <~ lift (gets s_input) ;;
  match inp with
  | [] => _ <~ lUnmatched m ;; lret 1%Z
  | baseline :: rest =>
      _ <~ lift (modify (fun s => set_input s rest)) ;;
      if eqs (mname baseline) (mname m) && eqs (mtype baseline) (mtype m) then
        baseline <~ lift (fun s => (s, locate (i_env ie) s baseline m)) ;;
        c <~ lift (gets (fun s => visitor s tolerant)) ;;
        out <~ il_Compare ie tol c baseline m ;;
        let '(baseline, m, same) := out in
        if (same : bool) then lret 1%Z
        else _ <~ il_Difference ie tol m baseline ;; lret 0%Z
      else _ <~ lUnmatched m ;; lret 1%Z
  end.
Definition il_Measure (ie : ienv) (tol : tolerances) (c : call) : LM Z :=
  cm <~ lift (GetCompareMode (i_env ie)) ;;
  if (cm : bool) then il_CompareMeasurement ie tol (meas_of (e_io (i_env ie)) true c) (tolerant_of c)
  else _ <~ lput_meas (meas_of (e_io (i_env ie)) false c) ;; lret 0%Z.
(** itktfRegression.cxx 91-108 *)
Definition il_FileImage (ie : ienv) (tol : tolerances) (file name : str) : LM Z :=
  cm <~ lift (GetCompareMode (i_env ie)) ;;
  if (cm : bool) then il_CompareMeasurement ie tol (file_meas true itk_type file name) false
  else _ <~ lput_meas (file_meas false itk_type file name) ;; lret 0%Z.
Fixpoint ilrun (ie : ienv) (args : list str) (p : iprog) (tol : tolerances) (count : Z) : LM Z :=
  match p with
  | IReturn z => lret z
  | IRaise x => lift (mlift (Throw x))
  | ICall c k => r <~ il_Measure ie tol c ;; ilrun ie args (k r) tol count
  | IImage f n k => r <~ il_FileImage ie tol f n ;; ilrun ie args (k r) tol count
  | ITolerance t k => ilrun ie args k t count
  | IGenerate ext root k => n <~ lift (mlift (GenerateFileName (e_sc (i_env ie)) args count ext root)) ;; ilrun ie args (k n) tol (count + 1)%Z
  | ISay t k => _ <~ lsay t ;; ilrun ie args k tol count
  | IRelativeTolerance t k => _ <~ lift (modify (fun s => set_tol s t)) ;; ilrun ie args k tol count
  | IExpectedReturn z k => _ <~ lift (modify (fun s => set_expected s z)) ;; ilrun ie args k tol count
  | IWriteFile path b k => _ <~ lift (modify (fun s => set_files s (write_file (i_env ie) (s_files s) path b))) ;; ilrun ie args k tol count
  end.
(** tfRegressionTest.cpp 292-345, itktfRegression.cxx 80-89 *)
Definition il_main_body (ie : ienv) (test : list str -> iprog) (argv : list str) : LM Z :=
  r <~ lift (ParseAndRemoveArguments (i_env ie) (S (length argv)) argv) ;;
  let '(argc, argv') := r in
  _ <~ lBegin (i_env ie) ;;
  ilrun ie argv (test (firstn argc argv')) no_tolerance 0%Z.
Definition limited_itk_Main (ie : ienv) (test : list str -> iprog) (argv : list str) : LM Z := fun p =>
  match il_main_body ie test argv (set_unmatched (fst p) (s_unmatched (fst p) + 1), snd p) with
  | (p, Ok ret) =>
      match lEnd (i_env ie) p with
      | (p, Ok _) => lfinish (i_env ie) ret (set_unmatched (fst p) (s_unmatched (fst p) - 1), snd p)
      | (p, Throw _) => lfinish (i_env ie) ret p
      | (p, UB) => (p, UB) | (p, Abort) => (p, Abort) | (p, Hang) => (p, Hang)
      end
  | (p, Throw _) => lfinish (i_env ie) (-1)%Z p
  | (p, UB) => (p, UB) | (p, Abort) => (p, Abort) | (p, Hang) => (p, Hang)
  end.

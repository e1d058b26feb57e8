(** Model of the ITK test driver, /repo/itktf/itktfRegression.{h,cxx}, of the visitors /repo/itktf/itktfCompareVisitor.cxx and
    /repo/itktf/itktfDifferenceVisitor.cxx, and of the programs /repo/itktf/itktfImageCompare.cxx and
    /repo/TestingFramework/tfPipeToXML.cxx.

    A test is a program over the driver of RegModel with more actions: writing to standard output, image file measurements, image
    tolerances and generated file names.  [itk::Regression] keeps the tolerances, the number of names generated and the arguments;
    they are parameters of [irun].
    Environment ([ienv]): reading of image files by ITK ([i_header]: [UpdateOutputInformation], [i_decode]: the pixels too; both by
    file name and contents), the filter ([i_diff], [i_diff_image], see ImgModel), texts and PNG files made by ITK, number parsing,
    the configured directories.
    Simplifications: standard error is modelled separately (ItkErrModel); names of image files contain no NUL ([c_str()] in itktfCompareVisitor.cxx 41-42); one object makes one run (more: ItkReuseModel); [unsigned int] counters are not assumed to be bounded
    except in generated names. *)
From Coq Require Import Floats.SpecFloat.
From Verif Require Import Base Str Dec PathModel MeasModel VisitModel RegModel ImgModel.

(** what ITK tells about an image file before reading the pixels *)
Record info := Info { h_size : list Z; h_spacing : list spec_float; h_origin : list spec_float;
                      h_pixel : str; h_component : str; h_components : Z }.
Record ienv := IEnv {
  i_env : env;
  i_header : str -> str -> option info; i_decode : str -> str -> option imagefile;
  i_diff : filter -> image -> image -> Z; i_diff_image : filter -> image -> image -> image;
  i_show_size : list Z -> str; i_show_vector : list spec_float -> str; i_show_slice : image -> str;
  i_png : image -> option str;                                  (* None: an exception, caught in 115-144 *)
  i_double : str -> option spec_float;                          (* [iss >> d], None: [iss.fail()] *)
  i_output : str; i_baselines : str }.

(** std::cout << text *)
Definition say (text : str) : M unit := modify (fun s => set_stdout s (s_stdout s ++ text)).
Definition say_meas (m : meas) : M unit := p <- mlift (Print m) ;; say (p ++ [nl]).
Definition read_image (ie : ienv) (f : store) (name : str) : option imagefile :=
  match contents (i_env ie) f name with Some b => i_decode ie name b | None => None end.
Definition read_info (ie : ienv) (f : store) (name : str) : option info :=
  match contents (i_env ie) f name with Some b => i_header ie name b | None => None end.

Definition itk_type : str := $"image/itk".
(** itktfCompareVisitor.cxx 35-63 *)
Definition quote : str := [chr 34].
Definition itk_Compare (ie : ienv) (tol : tolerances) (c : cmp) (baseline m : meas) : M (meas * meas * bool) :=
  match baseline, m with
  | MF b, MF t =>
      if eqs (ftype t) itk_type then
        _ <- say ($"Comparing test image: " ++ quote ++ cstr (ffile t) ++ quote ++ $" to baseline image: " ++ quote ++ cstr (ffile b) ++ quote ++ [nl]) ;;
        out <- gets (fun s => image_verdict (i_diff ie) (read_image ie (s_files s)) tol b t) ;;
        v <- mlift out ;; mret (baseline, m, v)
      else
        out <- gets (fun s => Compare (e_sc (i_env ie)) (sources (i_env ie) (s_files s)) (e_io (i_env ie)) c baseline m) ;;
        let '(baseline, m, v) := out in same <- mlift v ;; mret (baseline, m, same)
  | _, _ =>
      out <- gets (fun s => Compare (e_sc (i_env ie)) (sources (i_env ie) (s_files s)) (e_io (i_env ie)) c baseline m) ;;
      let '(baseline, m, v) := out in same <- mlift v ;; mret (baseline, m, same)
  end.

(** * itktfDifferenceVisitor.cxx *)
Definition status_text (name text : str) : meas := MD (SetContent (SetAttributeName (new_dm CString) name) text).
Definition status_int (name : str) (v : Z) : meas := MD (int_SetValue (SetAttributeName (new_dm CInt) name) v).
(** two measurements, if they differ *)
Definition report (same : bool) (a b : meas) : M unit := if same then mret tt else _ <- say_meas a ;; say_meas b.
(** 74-153: extract the middle slice, rescale, write and report it *)
Definition ImageThing (ie : ienv) (im : image) (file name : str) : M unit :=
  _ <- say (i_show_slice ie im) ;;
  _ <- (match i_png ie im with Some b => modify (fun s => set_files s (write_file (i_env ie) (s_files s) file b)) | None => mret tt end) ;;
  say_meas (MF (Mf ($"Difference " ++ name) true ($"image/png") file)).
(** 157-347 *)
Definition DifferenceTestImage (ie : ienv) (tol : tolerances) (baseline m : mf) : M unit :=
  t <- gets (fun s => read_info ie (s_files s) (ffile m)) ;;
  b <- gets (fun s => read_info ie (s_files s) (ffile baseline)) ;;
  match t, b with
  | Some t, Some b =>
      let n := fname m in
      if negb (eqzs (h_size b) (h_size t)) then
        report false (status_text ($"Baseline Size " ++ n) (i_show_size ie (h_size b)))
                     (status_text ($"Test ImageSize " ++ n) (i_show_size ie (h_size t)))
      else
        _ <- report (eqfs (h_spacing b) (h_spacing t)) (status_text ($"Baseline Spacing " ++ n) (i_show_vector ie (h_spacing b)))
                                                       (status_text ($"Test Spacing " ++ n) (i_show_vector ie (h_spacing t))) ;;
        _ <- report (eqfs (h_origin b) (h_origin t)) (status_text ($"Baseline Origin " ++ n) (i_show_vector ie (h_origin b)))
                                                     (status_text ($"Test Origin " ++ n) (i_show_vector ie (h_origin t))) ;;
        _ <- report (eqs (h_pixel b) (h_pixel t)) (status_text ($"Baseline PixelType " ++ n) (h_pixel b))
                                                  (status_text ($"Test PixelType " ++ n) (h_pixel t)) ;;
        _ <- report (eqs (h_component b) (h_component t)) (status_text ($"Baseline ComponentType " ++ n) (h_component b))
                                                          (status_text ($"Test ComponentType " ++ n) (h_component t)) ;;
        _ <- report (h_components b =? h_components t)%Z (status_int ($"Baseline Number Of Components " ++ n) (h_components b))
                                                         (status_int ($"Test Number Of Components " ++ n) (h_components t)) ;;
        ti <- gets (fun s => read_image ie (s_files s) (ffile m)) ;;
        bi <- gets (fun s => read_image ie (s_files s) (ffile baseline)) ;;
        match ti, bi with
        | Some ti, Some bi =>
            let f := Filter (t_radius tol) (t_intensity tol) false in
            let e := i_env ie in
            _ <- say_meas (MD (double_SetValue (e_io e) (SetAttributeName (new_dm CDouble) ($"ImageError " ++ n))
                                 (of_int64 (i_diff ie f (g_image bi) (g_image ti))))) ;;
            let png ext := Append (i_output ie) (Tail (ffile m) ++ ext) in
            p1 <- mlift (png ($".diff.png")) ;;
            _ <- ImageThing ie (i_diff_image ie f (g_image bi) (g_image ti)) p1 n ;;
            p2 <- mlift (png ($".base.png")) ;;
            _ <- ImageThing ie (g_image bi) p2 n ;;
            p3 <- mlift (png ($".test.png")) ;;
            ImageThing ie (g_image ti) p3 n
        | _, _ => mlift (Throw ExnRuntime)
        end
  | _, _ => mlift (Throw ExnRuntime)
  end.
(** 54-71 in tfRegressionTest.cpp 357-365 *)
Definition itk_Difference (ie : ienv) (tol : tolerances) (m baseline : meas) : M unit :=
  match baseline, m with
  | MF b, MF t =>
      if eqs (ftype t) itk_type then
        _ <- modify (fun s => set_unmatched s (s_unmatched s + 1)) ;; DifferenceTestImage ie tol b t
      else DifferenceMeasurement (i_env ie) m baseline
  | _, _ => DifferenceMeasurement (i_env ie) m baseline
  end.
(** tfRegressionTest.cpp 372-434 with the visitors made by itktfRegression.cxx 111-122 *)
Definition itk_CompareMeasurement (ie : ienv) (tol : tolerances) (m : meas) (tolerant : bool) : M Z :=
  inp <- gets s_input ;;
  match inp with
  | [] => _ <- UnmatchedMeasurement m ;; mret 1%Z
  | baseline :: rest =>
      _ <- modify (fun s => set_input s rest) ;;
      if eqs (mname baseline) (mname m) && eqs (mtype baseline) (mtype m) then
        baseline <- (fun s => (s, locate (i_env ie) s baseline m)) ;;
        c <- gets (fun s => visitor s tolerant) ;;
        out <- itk_Compare ie tol c baseline m ;;
        let '(baseline, m, same) := out in
        if (same : bool) then mret 1%Z
        else _ <- itk_Difference ie tol m baseline ;; mret 0%Z
      else _ <- UnmatchedMeasurement m ;; mret 1%Z
  end.
(** the [Measurement*] functions of the base class, called on an [itk::Regression] *)
Definition itk_Measure (ie : ienv) (tol : tolerances) (c : call) : M Z :=
  cm <- GetCompareMode (i_env ie) ;;
  if (cm : bool) then itk_CompareMeasurement ie tol (meas_of (e_io (i_env ie)) true c) (tolerant_of c)
  else _ <- put_meas (meas_of (e_io (i_env ie)) false c) ;; mret 0%Z.
(** itktfRegression.cxx 91-108 *)
Definition MeasurementInsightFileImage (ie : ienv) (tol : tolerances) (file name : str) : M Z :=
  cm <- GetCompareMode (i_env ie) ;;
  if (cm : bool) then itk_CompareMeasurement ie tol (file_meas true itk_type file name) false
  else _ <- put_meas (file_meas false itk_type file name) ;; mret 0%Z.

(** * Generated file names, itktfRegression.cxx 48-78 *)
Definition char_value (sc : bool) (c : ascii) : Z := if sc && (128 <=? code c) then (Z.of_nat (code c) - 256)%Z else Z.of_nat (code c).
(** [hash = ((hash<<7) | (hash >> (16-7))) ^ cmdline[i]], truncated to 16 bits *)
Definition hash_step (sc : bool) (hash : Z) (c : ascii) : Z :=
  (Z.lxor (Z.lor (Z.shiftl hash 7) (Z.shiftr hash 9)) (char_value sc c) mod 65536)%Z.
Definition hash_of (sc : bool) (args : list str) : Z := fold_left (hash_step sc) (concat args) 64371%Z.   (* 0xfb73 *)
Definition hex_digit (d : Z) : ascii := if (d <? 10)%Z then chr (48 + Z.to_nat d) else chr (87 + Z.to_nat d).
Fixpoint hex_digits (fuel : nat) (n : Z) (acc : str) : str :=
  match fuel with
  | 0 => acc
  | S f => if (n <? 16)%Z then hex_digit n :: acc else hex_digits f (n / 16)%Z (hex_digit (n mod 16)%Z :: acc)
  end.
(** [os << std::hex << n] *)
Definition print_hex (n : Z) : str := hex_digits (S (Z.to_nat (Z.log2 n))) n [].
(** [count]: m_FileNameCount before the call; [front()] of an empty list is undefined *)
Definition GenerateFileName (sc : bool) (args : list str) (count : Z) (ext root : str) : res str :=
  match args with
  | [] => UB
  | argv0 :: _ =>
      let name := argv0 ++ $"_" ++ print_hex (hash_of sc args) ++ $"_" ++ print_hex ((count + 1) mod 4294967296)%Z ++ $"." ++ ext in
      match root with [] => Ok name | _ => Append root name end
  end.

(** * Tests *)
Inductive iprog :=
| IReturn (z : Z)
| IRaise (x : exn)
| ICall (c : call) (k : Z -> iprog)
| IImage (file name : str) (k : Z -> iprog)
| ITolerance (tol : tolerances) (k : iprog)
| IGenerate (ext root : str) (k : str -> iprog)
| ISay (text : str) (k : iprog)
| IRelativeTolerance (t : spec_float) (k : iprog)
| IExpectedReturn (z : Z) (k : iprog)
| IWriteFile (path bytes : str) (k : iprog).
Fixpoint irun (ie : ienv) (args : list str) (p : iprog) (tol : tolerances) (count : Z) : M Z :=
  match p with
  | IReturn z => mret z
  | IRaise x => mlift (Throw x)
  | ICall c k => r <- itk_Measure ie tol c ;; irun ie args (k r) tol count
  | IImage f n k => r <- MeasurementInsightFileImage ie tol f n ;; irun ie args (k r) tol count
  | ITolerance t k => irun ie args k t count
  | IGenerate ext root k => n <- mlift (GenerateFileName (e_sc (i_env ie)) args count ext root) ;; irun ie args (k n) tol (count + 1)%Z
  | ISay t k => _ <- say t ;; irun ie args k tol count
  | IRelativeTolerance t k => _ <- modify (fun s => set_tol s t) ;; irun ie args k tol count
  | IExpectedReturn z k => _ <- modify (fun s => set_expected s z) ;; irun ie args k tol count
  | IWriteFile path b k => _ <- modify (fun s => set_files s (write_file (i_env ie) (s_files s) path b)) ;; irun ie args k tol count
  end.

(** itktfRegression.cxx 18-27: the constructor *)
Definition no_tolerance : tolerances := Tolerances (S754_zero false) 0%Z 0%Z.
Definition new_itk_test (ie : ienv) (files : store) : rst := set_path (new_test files) [i_baselines ie].
(** tfRegressionTest.cpp 301-315 with the test replaced *)
Definition main_body_with (e : env) (body : list str -> M Z) (argv : list str) : M Z :=
  r <- ParseAndRemoveArguments e (S (length argv)) argv ;;
  let '(argc, argv) := r in
  _ <- BeginMeasurement e ;;
  body (firstn argc argv).
(** tfRegressionTest.cpp 292-345, as RegModel.Main *)
Definition Main_with (e : env) (body : list str -> M Z) (argv : list str) : M Z := fun s =>
  let s := set_unmatched s (s_unmatched s + 1) in
  let finish (ret : Z) (s : rst) : rst * res Z :=
    if negb (ret =? s_expected s)%Z then (s, Ok ret)
    else (s, cm <-- compare_mode e s ;; Ok (if (cm : bool) then s_unmatched s else 0%Z)) in
  match main_body_with e body argv s with
  | (s, Ok ret) =>
      match EndMeasurement e s with
      | (s, Ok _) => finish ret (set_unmatched s (s_unmatched s - 1))
      | (s, Throw _) => finish ret s
      | (s, UB) => (s, UB) | (s, Abort) => (s, Abort) | (s, Hang) => (s, Hang)
      end
  | (s, Throw _) => finish (-1)%Z s
  | (s, UB) => (s, UB) | (s, Abort) => (s, Abort) | (s, Hang) => (s, Hang)
  end.
(** itktfRegression.cxx 80-89: all the arguments are kept for the names *)
Definition itk_Main (ie : ienv) (test : list str -> iprog) (argv : list str) : M Z :=
  Main_with (i_env ie) (fun args => irun ie argv (test args) no_tolerance 0%Z) argv.

(** * itktfRegression.h 98-192: one measurement per component *)
(** [ret += ...] for each call; [k] gets the sum *)
Fixpoint sum_calls (cs : list call) (ret : Z) (k : Z -> iprog) : iprog :=
  match cs with [] => k ret | c :: cs' => ICall c (fun r => sum_calls cs' (ret + r)%Z k) end.
Definition name_i (name : str) (i : nat) : str := name ++ $"_" ++ print_int (Z.of_nat i).
Fixpoint numbered_ints (l : list Z) (i : nat) (name : str) (tolerant : bool) : list call :=
  match l with [] => [] | x :: l' => NumericInteger x (name_i name i) tolerant :: numbered_ints l' (S i) name tolerant end.
Fixpoint numbered_doubles (l : list spec_float) (i : nat) (name : str) (tolerant : bool) : list call :=
  match l with [] => [] | x :: l' => NumericDouble x (name_i name i) tolerant :: numbered_doubles l' (S i) name tolerant end.
(** 98-121 (also Index), 123-130, 132-170 (Point, Vector, FixedArray), 172-186 *)
Definition InsightSize (l : list Z) (name : str) (tolerant : bool) (k : Z -> iprog) : iprog := sum_calls (numbered_ints l 0 name tolerant) 0%Z k.
Definition InsightRegion (index size : list Z) (name : str) (tolerant : bool) (k : Z -> iprog) : iprog :=
  InsightSize index (name ++ $" Index") tolerant (fun a => InsightSize size (name ++ $" Size") tolerant (fun b => k (0 + a + b)%Z)).
Definition InsightPoint (l : list spec_float) (name : str) (tolerant : bool) (k : Z -> iprog) : iprog := sum_calls (numbered_doubles l 0 name tolerant) 0%Z k.
Fixpoint matrix_calls (rows : list (list spec_float)) (i : nat) (name : str) (tolerant : bool) : list call :=
  match rows with [] => [] | r :: rows' => numbered_doubles r 0 (name_i name i) tolerant ++ matrix_calls rows' (S i) name tolerant end.
Definition InsightMatrix (rows : list (list spec_float)) (name : str) (tolerant : bool) (k : Z -> iprog) : iprog :=
  sum_calls (matrix_calls rows 0 name tolerant) 0%Z k.
(** itktfRegression.h 81-96: write the image under a generated name, then measure the file.  This is the case where the writer succeeds; if it
    throws, the test is [IGenerate ($"mha") [] (fun _ => IRaise ExnRuntime)], so theorems about all tests cover both. *)
Definition InsightImage (bytes : str) (name : str) (k : Z -> iprog) : iprog :=
  IGenerate ($"mha") [] (fun file => IWriteFile file bytes (IImage file name k)).

(** * itktfImageCompare.cxx 11-113 *)
(** [iss >> u] for [unsigned int] (libstdc++): a minus sign wraps around, out of range fails *)
Definition scan_uint (s : str) : option Z :=
  match skip_ws s with
  | [] => None
  | c :: r =>
      let '(neg, r') := if eqc c "-" then (true, r) else if eqc c "+" then (false, r) else (false, c :: r) in
      match digit_prefix r' with
      | [] => None
      | ds => let v := digits_value 0 ds in
              if (4294967295 <? v)%Z then None else Some ((if neg then - v else v) mod 4294967296)%Z
      end
  end.
(** the loop over the arguments; [n]: imageNumber *)
Fixpoint image_loop (ie : ienv) (args : list str) (tol : tolerances) (n : Z) : iprog :=
  match args with
  | [] => IReturn 0%Z
  | a :: rest =>
      match a with
      | "-"%char :: _ =>
          if eqs a ($"--intensityTolerance") then
            match rest with
            | [] => IReturn 1%Z
            | v :: rest' => match i_double ie v with
                            | None => IReturn 1%Z
                            | Some d => image_loop ie rest' (Tolerances d (t_pixels tol) (t_radius tol)) n
                            end
            end
          else if eqs a ($"--numberOfPixelTolerance") then
            match rest with
            | [] => IReturn 1%Z
            | v :: rest' => match scan_uint v with
                            | None => IReturn 1%Z
                            | Some d => image_loop ie rest' (Tolerances (t_intensity tol) d (t_radius tol)) n
                            end
            end
          else if eqs a ($"--radiusTolerance") then
            match rest with
            | [] => IReturn 1%Z
            | v :: rest' => match scan_uint v with
                            | None => IReturn 1%Z
                            | Some d => image_loop ie rest' (Tolerances (t_intensity tol) (t_pixels tol) d) n
                            end
            end
          else IReturn 1%Z
      | _ => ITolerance tol (IImage a ($"ImageFile" ++ print_int n) (fun _ => image_loop ie rest tol (n + 1)%Z))
      end
  end.
Definition itktfImageCompare (ie : ienv) (args : list str) : iprog := image_loop ie (tl args) no_tolerance 0%Z.

(** * tfPipeToXML.cxx 17-89, for [argc >= 1] (with [argc = 0] the store to [cmd[argc - 1]] is out of bounds)
    The child as the process library shows it: the chunks of data in the order of arrival, each from one of its two streams
    (the library reports both, the code does not ask which), and how it ended. *)
Inductive ending := Exited (value : Z) | Otherwise.
Record child := Child { ch_chunks : list (bool * str); ch_end : ending }.
Fixpoint spaced (l : list str) : str :=
  match l with [] => [] | a :: [] => a | a :: l' => a ++ $" " ++ spaced l' end.
(** 49-52 *)
Fixpoint drain (chunks : list (bool * str)) (outputString : str) : str :=
  match chunks with [] => outputString | (_, data) :: l => drain l (outputString ++ data) end.
Definition tfPipeToXML (launch : list str -> child) (args : list str) : iprog :=
  ISay ($"Redirecting output from: " ++ quote ++ spaced (tl args) ++ quote ++ [nl])
    (let c := launch (tl args) in
     ICall (TextPlain (drain (ch_chunks c) []) ($"stdout"))
       (fun _ => IReturn (match ch_end c with Exited v => v | Otherwise => -1 end)%Z)).
(** tfPipeToXML.cxx 95-101: it derives from the base class, so there is no search directory at first; [ie]: only its [i_env] matters *)
Definition pipe_Main (ie : ienv) (launch : list str -> child) (argv : list str) : M Z :=
  Main_with (i_env ie) (fun args => irun ie argv (tfPipeToXML launch args) no_tolerance 0%Z) argv.

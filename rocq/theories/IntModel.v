(** The drivers with the 32 bits of their [int] counters: [inputUnmatched] (tfRegressionTest.h 274) and [depth] of the reader (tfRegressionTest.cpp 614).  Going over the
    largest [int] is undefined.  Everything else is RegModel and ItkModel, where the counters are unbounded; the other [int]s (argc, the loops over the arguments, buffer lengths,
    return values) stay within what they are compared with. *)
From Coq Require Import Floats.SpecFloat.
From Verif Require Import Base Str Dec PathModel MeasModel VisitModel XmlModel ReadModel RegModel ImgModel ItkModel.

Definition INT_MAX : Z := 2147483647.
(** [this->inputUnmatched++] *)
Definition count_one : M unit := fun s => if (s_unmatched s <? INT_MAX)%Z then (set_unmatched s (s_unmatched s + 1), Ok tt) else (s, UB).

(** * Reading (tfRegressionTest.cpp 621-784) *)
(** 694: [++pd.depth] *)
Definition i_on_start (asserts : bool) (p : pdata) (el : str) (al : list (str * str)) : res pdata :=
  p' <-- on_start asserts p el al ;; if (Z.of_nat (pdepth p) <? INT_MAX)%Z then Ok p' else UB.
Definition i_on_event (asserts : bool) (p : pdata) (v : event) : res pdata :=
  match v with EStart n al => i_on_start asserts p n al | EEnd _ => Ok (on_end p) | EData s => Ok (on_data p s) end.
Fixpoint i_on_events (asserts : bool) (p : pdata) (evs : list event) : res pdata :=
  match evs with [] => Ok p | v :: evs' => p' <-- i_on_event asserts p v ;; i_on_events asserts p' evs' end.
Definition i_ReadXMLInput (asserts : bool) (ext : str -> list event * bool) (file : str) : res (list meas) :=
  bufs <-- buffers (S (length file)) (length file) file ;;
  let '(evs, ok) := expat ext (concat (map fst bufs)) in
  p <-- i_on_events asserts pd0 evs ;;
  if asserts && negb (match pm p with None => true | _ => false end) then Abort
  else if ok then Ok (plist p) else Throw ExnRuntime.
Definition i_read_input (e : env) : M unit := fun s =>
  match s_is s with
  | Some k =>
      match s_files s k with
      | Some (FFile _ _ b) =>
          match i_ReadXMLInput (e_asserts e) (e_ext e) b with
          | Ok l => (set_input s l, Ok tt)
          | Throw x => (s, Throw x) | UB => (s, UB) | Abort => (s, Abort) | Hang => (s, Hang)
          end
      | _ => (s, Throw ExnRuntime)
      end
  | None => (s, UB)
  end.
(** 139-175 *)
Definition i_BeginMeasurement (e : env) : M unit :=
  _ <- open_output e ;;
  _ <- open_input e ;;
  cm <- GetCompareMode e ;;
  if (cm : bool) then i_read_input e else put (header e).

(** * Comparing *)
(** 347-351 *)
Definition i_UnmatchedMeasurement (m : meas) : M unit := _ <- count_one ;; put_meas (mset_name m ($"Unmatched " ++ mname m)).
(** 357-365 *)
Definition i_DifferenceMeasurement (e : env) (m baseline : meas) : M unit :=
  _ <- count_one ;;
  text <- mlift (snd (Difference (e_sc e) (e_asserts e) (e_oob e) baseline m)) ;;
  put text.
(** 372-439 *)
Definition i_CompareMeasurement (e : env) (m : meas) (tolerant : bool) : M Z :=
  inp <- gets s_input ;;
  match inp with
  | [] => _ <- i_UnmatchedMeasurement m ;; mret 1%Z
  | baseline :: rest =>
      _ <- modify (fun s => set_input s rest) ;;
      if eqs (mname baseline) (mname m) && eqs (mtype baseline) (mtype m) then
        baseline <- (fun s => (s, locate e s baseline m)) ;;
        out <- gets (fun s => Compare (e_sc e) (sources e (s_files s)) (e_io e) (visitor s tolerant) baseline m) ;;
        let '(baseline, m, v) := out in
        same <- mlift v ;;
        if (same : bool) then mret 1%Z
        else _ <- i_DifferenceMeasurement e m baseline ;; mret 0%Z
      else _ <- i_UnmatchedMeasurement m ;; mret 1%Z
  end.
(** 441-584 *)
Definition i_Measure (e : env) (c : call) : M Z :=
  cm <- GetCompareMode e ;;
  if (cm : bool) then i_CompareMeasurement e (meas_of (e_io e) true c) (tolerant_of c)
  else _ <- put_meas (meas_of (e_io e) false c) ;; mret 0%Z.
Fixpoint i_run (e : env) (p : prog) : M Z :=
  match p with
  | Return z => mret z
  | Raise x => mlift (Throw x)
  | Call c k => r <- i_Measure e c ;; i_run e (k r)
  | SetRelativeTolerance t k => _ <- modify (fun s => set_tol s t) ;; i_run e k
  | SetExpectedReturn z k => _ <- modify (fun s => set_expected s z) ;; i_run e k
  | WriteFile path b k => _ <- modify (fun s => set_files s (write_file e (s_files s) path b)) ;; i_run e k
  end.

(** * The ITK driver (itktfDifferenceVisitor.cxx, itktfRegression.cxx) *)
Definition i_itk_Difference (ie : ienv) (tol : tolerances) (m baseline : meas) : M unit :=
  match baseline, m with
  | MF b, MF t =>
      if eqs (ftype t) itk_type then _ <- count_one ;; DifferenceTestImage ie tol b t
      else i_DifferenceMeasurement (i_env ie) m baseline
  | _, _ => i_DifferenceMeasurement (i_env ie) m baseline
  end.
Definition i_itk_CompareMeasurement (ie : ienv) (tol : tolerances) (m : meas) (tolerant : bool) : M Z :=
  inp <- gets s_input ;;
  match inp with
  | [] => _ <- i_UnmatchedMeasurement m ;; mret 1%Z
  | baseline :: rest =>
      _ <- modify (fun s => set_input s rest) ;;
      if eqs (mname baseline) (mname m) && eqs (mtype baseline) (mtype m) then
        baseline <- (fun s => (s, locate (i_env ie) s baseline m)) ;;
        c <- gets (fun s => visitor s tolerant) ;;
        out <- itk_Compare ie tol c baseline m ;;
        let '(baseline, m, same) := out in
        if (same : bool) then mret 1%Z
        else _ <- i_itk_Difference ie tol m baseline ;; mret 0%Z
      else _ <- i_UnmatchedMeasurement m ;; mret 1%Z
  end.
Definition i_itk_Measure (ie : ienv) (tol : tolerances) (c : call) : M Z :=
  cm <- GetCompareMode (i_env ie) ;;
  if (cm : bool) then i_itk_CompareMeasurement ie tol (meas_of (e_io (i_env ie)) true c) (tolerant_of c)
  else _ <- put_meas (meas_of (e_io (i_env ie)) false c) ;; mret 0%Z.
Definition i_FileImage (ie : ienv) (tol : tolerances) (file name : str) : M Z :=
  cm <- GetCompareMode (i_env ie) ;;
  if (cm : bool) then i_itk_CompareMeasurement ie tol (file_meas true itk_type file name) false
  else _ <- put_meas (file_meas false itk_type file name) ;; mret 0%Z.
Fixpoint i_irun (ie : ienv) (args : list str) (p : iprog) (tol : tolerances) (count : Z) : M Z :=
  match p with
  | IReturn z => mret z
  | IRaise x => mlift (Throw x)
  | ICall c k => r <- i_itk_Measure ie tol c ;; i_irun ie args (k r) tol count
  | IImage f n k => r <- i_FileImage ie tol f n ;; i_irun ie args (k r) tol count
  | ITolerance t k => i_irun ie args k t count
  | IGenerate ext root k => n <- mlift (GenerateFileName (e_sc (i_env ie)) args count ext root) ;; i_irun ie args (k n) tol (count + 1)%Z
  | ISay t k => _ <- say t ;; i_irun ie args k tol count
  | IRelativeTolerance t k => _ <- modify (fun s => set_tol s t) ;; i_irun ie args k tol count
  | IExpectedReturn z k => _ <- modify (fun s => set_expected s z) ;; i_irun ie args k tol count
  | IWriteFile path b k => _ <- modify (fun s => set_files s (write_file (i_env ie) (s_files s) path b)) ;; i_irun ie args k tol count
  end.

(** * Main (tfRegressionTest.cpp 292-345) *)
Definition i_body_with (e : env) (body : list str -> M Z) (argv : list str) : M Z :=
  r <- ParseAndRemoveArguments e (S (length argv)) argv ;;
  let '(argc, argv) := r in
  _ <- i_BeginMeasurement e ;;
  body (firstn argc argv).
Definition i_Main_with (e : env) (body : list str -> M Z) (argv : list str) : M Z := fun s =>
  let finish (ret : Z) (s : rst) : rst * res Z :=
    if negb (ret =? s_expected s)%Z then (s, Ok ret)
    else (s, cm <-- compare_mode e s ;; Ok (if (cm : bool) then s_unmatched s else 0%Z)) in
  match count_one s with
  | (s, Ok _) =>
      match i_body_with e body argv s with
      | (s, Ok ret) =>
          match EndMeasurement e s with
          | (s, Ok _) => finish ret (set_unmatched s (s_unmatched s - 1))
          | (s, Throw _) => finish ret s
          | (s, UB) => (s, UB) | (s, Abort) => (s, Abort) | (s, Hang) => (s, Hang)
          end
      | (s, Throw _) => finish (-1)%Z s
      | (s, UB) => (s, UB) | (s, Abort) => (s, Abort) | (s, Hang) => (s, Hang)
      end
  | (s, _) => (s, UB)
  end.
Definition i_Main (e : env) (test : list str -> prog) (argv : list str) : M Z := i_Main_with e (fun args => i_run e (test args)) argv.
Definition i_itk_Main (ie : ienv) (test : list str -> iprog) (argv : list str) : M Z := i_Main_with (i_env ie) (fun args => i_irun ie argv (test args) no_tolerance 0%Z) argv.

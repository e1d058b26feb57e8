(** Model of tests derived from itk::Regression that read from GetInStream: /repo/TestingFramework/tfRegressionTest.h 200-204, tfRegressionTest.cpp 121-123, which
    /repo/itktf/itktfRegression.h 32-75 inherits.  Streams as in InModel; tests as in FullItkModel, and [YLine], [YRead]: std::getline(GetInStream(), s), GetInStream().read(buffer, n), with
    the bits eof and fail afterwards.  The ITK classes take nothing from std::cin.
    Not modelled: clear(), seekg() and exceptions() of the stream by the test. *)
From Coq Require Import Floats.SpecFloat.
From Verif Require Import Base Str Dec PathModel MeasModel VisitModel RegModel ImgModel ItkModel ApiModel FullModel FullItkModel InModel.
Import RegModel ItkModel FullItkModel InModel.

Inductive yprog :=
| YReturn (z : Z)
| YRaise (x : exn)
| YMeasure (c : call) (k : Z + exn -> yprog)
| YImage (file name : str) (k : Z + exn -> yprog)
| YCompare (m : meas) (tolerant : bool) (k : Z + exn -> meas -> yprog)
| YPrint (text : str) (k : yprog)
| YSay (text : str) (k : yprog)
| YImageTolerance (tol : tolerances) (k : yprog)
| YGenerate (ext root : str) (k : str -> yprog)
| YSetRelativeTolerance (t : spec_float) (k : yprog)
| YSetExpectedReturn (z : Z) (k : yprog)
| YSetInFileName (name : str) (k : yprog)
| YSetOutFileName (name : str) (k : yprog)
| YSetInFileSearchPath (dirs : list str) (k : yprog)
| YPrependInFileSearchPath (dir : str) (k : yprog)
| YWriteFile (path bytes : str) (k : yprog)
| YLook (k : view -> yprog)
| YLine (k : option str -> bool -> bool -> yprog)
| YRead (n : nat) (k : str -> bool -> bool -> yprog).
(** [cin], [base]: std::cin and the stream [*is]; else as FullItkModel.xrun *)
Fixpoint yrun (ie : ienv) (args : list str) (p : yprog) (tol : tolerances) (count : Z) (cin base : instream) : M Z :=
  let e := i_env ie in
  match p with
  | YReturn z => mret z
  | YRaise x => mlift (Throw x)
  | YMeasure c k => r <- caught (itk_Measure ie tol c) ;; yrun ie args (k r) tol count cin base
  | YImage f n k => r <- caught (MeasurementInsightFileImage ie tol f n) ;; yrun ie args (k r) tol count cin base
  | YCompare m tolerant k =>
      m' <- gets (fun s => itk_object_after e s m tolerant) ;;
      r <- caught (itk_CompareMeasurement ie tol m tolerant) ;; yrun ie args (k r m') tol count cin base
  | YPrint text k => _ <- print_out text ;; yrun ie args k tol count cin base
  | YSay text k => _ <- say text ;; yrun ie args k tol count cin base
  | YImageTolerance t k => yrun ie args k t count cin base
  | YGenerate ext root k => n <- mlift (GenerateFileName (e_sc e) args count ext root) ;; yrun ie args (k n) tol (count + 1)%Z cin base
  | YSetRelativeTolerance t k => _ <- modify (fun s => set_tol s t) ;; yrun ie args k tol count cin base
  | YSetExpectedReturn z k => _ <- modify (fun s => set_expected s z) ;; yrun ie args k tol count cin base
  | YSetInFileName n k => _ <- modify (fun s => set_in s n) ;; yrun ie args k tol count cin base
  | YSetOutFileName n k => _ <- modify (fun s => set_out s n) ;; yrun ie args k tol count cin base
  | YSetInFileSearchPath l k => _ <- modify (fun s => set_path s l) ;; yrun ie args k tol count cin base
  | YPrependInFileSearchPath d k => _ <- modify (fun s => set_path s (d :: s_path s)) ;; yrun ie args k tol count cin base
  | YWriteFile path b k => _ <- modify (fun s => set_files s (write_file e (s_files s) path b)) ;; yrun ie args k tol count cin base
  | YLook k => v <- look_at e ;; yrun ie args (k v) tol count cin base
  | YLine k =>
      is <- gets s_is ;;                                                                           (* tfRegressionTest.cpp 122 *)
      match is with
      | Some _ => let '(l, base') := getline base in yrun ie args (k l (eof base') (fail base')) tol count cin base'
      | None => let '(l, cin') := getline cin in yrun ie args (k l (eof cin') (fail cin')) tol count cin' base
      end
  | YRead n k =>
      is <- gets s_is ;;
      match is with
      | Some _ => let '(l, base') := read_chars n base in yrun ie args (k l (eof base') (fail base')) tol count cin base'
      | None => let '(l, cin') := read_chars n cin in yrun ie args (k l (eof cin') (fail cin')) tol count cin' base
      end
  end.
(** itktfRegression.cxx 80-89, tfRegressionTest.cpp 292-345 *)
Definition in_itk_Main (ie : ienv) (stdin : str) (test : list str -> yprog) (argv : list str) : M Z :=
  Main_with (i_env ie) (fun args => yrun ie argv (test args) no_tolerance 0%Z (standard_input stdin) read_to_the_end) argv.

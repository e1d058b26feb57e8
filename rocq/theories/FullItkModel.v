(** Model of tests derived from itk::Regression (/repo/itktf/itktfRegression.h 32-75 on top of /repo/TestingFramework/tfRegressionTest.h 75-205) that use
    everything they can use while they run: as FullModel, on the ITK driver.
    Not modelled: GetInStream (InItkModel), calling Main from within Test. *)
From Coq Require Import Floats.SpecFloat.
From Verif Require Import Base Str Dec PathModel MeasModel VisitModel RegModel ImgModel ItkModel ApiModel FullModel.

(** a measurement whose type is that of image files (itktfCompareVisitor.cxx 37, itktfDifferenceVisitor.cxx 57) *)
Definition image_object (m : meas) : bool := match m with MF t => eqs (ftype t) itk_type | MD _ => false end.
(** tfRegressionTest.cpp 372-434 with the visitors of itktfRegression.cxx 111-122: what is left in the measurement, which is passed by reference.  The ITK visitors do not
    change an image measurement *)
Definition itk_object_after (e : env) (s : rst) (m : meas) (tolerant : bool) : meas :=
  match s_input s with
  | baseline :: _ => if eqs (mname baseline) (mname m) && eqs (mtype baseline) (mtype m) && image_object m then m else object_after e s m tolerant
  | [] => object_after e s m tolerant
  end.

(** A test.  [XMeasure], [XCompare], [XPrint]: as in FullModel.  [XImage]: MeasurementInsightFileImage, its value or the exception caught.  [XImageTolerance]:
    SetImageInsightTolerance(Off).  [XGenerate]: GenerateFileName.  [XSay]: std::cout << text. *)
Inductive xprog :=
| XReturn (z : Z)
| XRaise (x : exn)
| XMeasure (c : call) (k : Z + exn -> xprog)
| XImage (file name : str) (k : Z + exn -> xprog)
| XCompare (m : meas) (tolerant : bool) (k : Z + exn -> meas -> xprog)
| XPrint (text : str) (k : xprog)
| XSay (text : str) (k : xprog)
| XImageTolerance (tol : tolerances) (k : xprog)
| XGenerate (ext root : str) (k : str -> xprog)
| XSetRelativeTolerance (t : spec_float) (k : xprog)
| XSetExpectedReturn (z : Z) (k : xprog)
| XSetInFileName (name : str) (k : xprog)
| XSetOutFileName (name : str) (k : xprog)
| XSetInFileSearchPath (dirs : list str) (k : xprog)
| XPrependInFileSearchPath (dir : str) (k : xprog)
| XWriteFile (path bytes : str) (k : xprog)
| XLook (k : view -> xprog).
Fixpoint xrun (ie : ienv) (args : list str) (p : xprog) (tol : tolerances) (count : Z) : M Z :=
  let e := i_env ie in
  match p with
  | XReturn z => mret z
  | XRaise x => mlift (Throw x)
  | XMeasure c k => r <- caught (itk_Measure ie tol c) ;; xrun ie args (k r) tol count
  | XImage f n k => r <- caught (MeasurementInsightFileImage ie tol f n) ;; xrun ie args (k r) tol count       (* itktfRegression.cxx 91-108 *)
  | XCompare m tolerant k =>
      m' <- gets (fun s => itk_object_after e s m tolerant) ;;
      r <- caught (itk_CompareMeasurement ie tol m tolerant) ;; xrun ie args (k r m') tol count
  | XPrint text k => _ <- print_out text ;; xrun ie args k tol count
  | XSay text k => _ <- say text ;; xrun ie args k tol count
  | XImageTolerance t k => xrun ie args k t count                                                             (* itktfRegression.cxx 33-46 *)
  | XGenerate ext root k => n <- mlift (GenerateFileName (e_sc e) args count ext root) ;; xrun ie args (k n) tol (count + 1)%Z    (* 48-78 *)
  | XSetRelativeTolerance t k => _ <- modify (fun s => set_tol s t) ;; xrun ie args k tol count
  | XSetExpectedReturn z k => _ <- modify (fun s => set_expected s z) ;; xrun ie args k tol count
  | XSetInFileName n k => _ <- modify (fun s => set_in s n) ;; xrun ie args k tol count
  | XSetOutFileName n k => _ <- modify (fun s => set_out s n) ;; xrun ie args k tol count
  | XSetInFileSearchPath l k => _ <- modify (fun s => set_path s l) ;; xrun ie args k tol count
  | XPrependInFileSearchPath d k => _ <- modify (fun s => set_path s (d :: s_path s)) ;; xrun ie args k tol count
  | XWriteFile path b k => _ <- modify (fun s => set_files s (write_file e (s_files s) path b)) ;; xrun ie args k tol count
  | XLook k => v <- look_at e ;; xrun ie args (k v) tol count
  end.
(** itktfRegression.cxx 80-89, tfRegressionTest.cpp 292-345 *)
Definition full_itk_Main (ie : ienv) (test : list str -> xprog) (argv : list str) : M Z :=
  Main_with (i_env ie) (fun args => xrun ie argv (test args) no_tolerance 0%Z) argv.

(** Model of tests that use the rest of the interface of /repo/TestingFramework/tfRegressionTest.h 75-141 (tfRegressionTest.cpp 71-136) while they
    run: the functions that tell the state of the driver, and those that set the file names.  Everything else is as in RegModel. *)
From Coq Require Import Floats.SpecFloat.
From Verif Require Import Base Str Dec PathModel MeasModel VisitModel RegModel ItkModel.

(** what a test can ask: GetCompareMode, GetExpectedReturn, GetRelativeTolerance, GetInFileName, GetOutFileName,
    GetInFileSearchPath, and the files *)
Record view := View {
  v_compare : bool; v_expected : Z; v_tol : spec_float; v_in : str; v_out : str; v_path : list str; v_file : str -> option fnode }.
Definition look_at (e : env) : M view := fun s =>
  (s, cm <-- compare_mode e s ;; Ok (View cm (s_expected s) (s_tol s) (s_in s) (s_out s) (s_path s) (node_at e (s_files s)))).

(** a test as in RegModel, which may also ask and set the file names *)
Inductive aprog :=
| AReturn (z : Z)
| ARaise (x : exn)
| ACall (c : call) (k : Z -> aprog)
| ASetRelativeTolerance (t : spec_float) (k : aprog)
| ASetExpectedReturn (z : Z) (k : aprog)
| AWriteFile (path bytes : str) (k : aprog)
| ALook (k : view -> aprog)
| ASetInFileName (name : str) (k : aprog)
| ASetOutFileName (name : str) (k : aprog).
Fixpoint arun (e : env) (p : aprog) : M Z :=
  match p with
  | AReturn z => mret z
  | ARaise x => mlift (Throw x)
  | ACall c k => r <- Measure e c ;; arun e (k r)
  | ASetRelativeTolerance t k => _ <- modify (fun s => set_tol s t) ;; arun e k
  | ASetExpectedReturn z k => _ <- modify (fun s => set_expected s z) ;; arun e k
  | AWriteFile path b k => _ <- modify (fun s => set_files s (write_file e (s_files s) path b)) ;; arun e k
  | ALook k => v <- look_at e ;; arun e (k v)
  | ASetInFileName n k => _ <- modify (fun s => set_in s n) ;; arun e k                   (* tfRegressionTest.cpp 84-86 *)
  | ASetOutFileName n k => _ <- modify (fun s => set_out s n) ;; arun e k                 (* 93-95 *)
  end.
(** tfRegressionTest.cpp 292-345 *)
Definition api_Main (e : env) (test : list str -> aprog) (argv : list str) : M Z :=
  Main_with e (fun args => arun e (test args)) argv.

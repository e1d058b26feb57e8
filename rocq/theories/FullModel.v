(** Model of tests that use everything a class derived from RegressionTest can use, /repo/TestingFramework/tfRegressionTest.h 75-205, while they run.
    More than in ApiModel: the search directories may be changed, text may be written to the output stream, a measurement object of the test's own may
    be compared (CompareMeasurement is protected), and exceptions of the measurement functions may be caught by the test.
    Not modelled: GetInStream (see InModel), calling Main from within Test. *)
From Coq Require Import Floats.SpecFloat.
From Verif Require Import Base Str Dec PathModel MeasModel VisitModel RegModel ItkModel ApiModel.

(** tfRegressionTest.cpp 372-434 (with 347-365): what is left in the measurement, which is passed by reference; [s]: the driver before the call *)
Definition object_after (e : env) (s : rst) (m : meas) (tolerant : bool) : meas :=
  let renamed := mset_name m ($"Unmatched " ++ mname m) in
  match s_input s with
  | [] => renamed
  | baseline :: rest =>
      if eqs (mname baseline) (mname m) && eqs (mtype baseline) (mtype m) then
        match locate e s baseline m with
        | Ok baseline =>
            let '(baseline, m, v) := Compare (e_sc e) (sources e (s_files s)) (e_io e) (visitor s tolerant) baseline m in
            match v with
            | Ok false => let '(_, m, _) := Difference (e_sc e) (e_asserts e) (e_oob e) baseline m in m
            | _ => m
            end
        | _ => m
        end
      else renamed
  end.
(** a [try] block around one call *)
Definition caught {A} (m : M A) : M (A + exn) := fun s =>
  match m s with
  | (s', Ok a) => (s', Ok (inl a))
  | (s', Throw x) => (s', Ok (inr x))
  | (s', UB) => (s', UB) | (s', Abort) => (s', Abort) | (s', Hang) => (s', Hang)
  end.

(** A test.  [FMeasure]: one of the Measurement functions, [FCompare]: CompareMeasurement on an object of the test; both tell the value
    returned or the exception caught, the latter also the object afterwards.  [FPrint]: GetOutStream() << text << std::flush. *)
Inductive fprog :=
| FReturn (z : Z)
| FRaise (x : exn)
| FMeasure (c : call) (k : Z + exn -> fprog)
| FCompare (m : meas) (tolerant : bool) (k : Z + exn -> meas -> fprog)
| FPrint (text : str) (k : fprog)
| FSetRelativeTolerance (t : spec_float) (k : fprog)
| FSetExpectedReturn (z : Z) (k : fprog)
| FSetInFileName (name : str) (k : fprog)
| FSetOutFileName (name : str) (k : fprog)
| FSetInFileSearchPath (dirs : list str) (k : fprog)
| FPrependInFileSearchPath (dir : str) (k : fprog)
| FWriteFile (path bytes : str) (k : fprog)
| FLook (k : view -> fprog).
(** writing no characters changes nothing *)
Definition print_out (text : str) : M unit := match text with [] => mret tt | _ => put text end.
Fixpoint frun (e : env) (p : fprog) : M Z :=
  match p with
  | FReturn z => mret z
  | FRaise x => mlift (Throw x)
  | FMeasure c k => r <- caught (Measure e c) ;; frun e (k r)
  | FCompare m tolerant k =>
      m' <- gets (fun s => object_after e s m tolerant) ;;
      r <- caught (CompareMeasurement e m tolerant) ;; frun e (k r m')
  | FPrint text k => _ <- print_out text ;; frun e k
  | FSetRelativeTolerance t k => _ <- modify (fun s => set_tol s t) ;; frun e k                  (* tfRegressionTest.cpp 109-111 *)
  | FSetExpectedReturn z k => _ <- modify (fun s => set_expected s z) ;; frun e k                (* 105-107 *)
  | FSetInFileName n k => _ <- modify (fun s => set_in s n) ;; frun e k                          (* 84-86 *)
  | FSetOutFileName n k => _ <- modify (fun s => set_out s n) ;; frun e k                        (* 93-95 *)
  | FSetInFileSearchPath l k => _ <- modify (fun s => set_path s l) ;; frun e k                  (* 71-73 *)
  | FPrependInFileSearchPath d k => _ <- modify (fun s => set_path s (d :: s_path s)) ;; frun e k   (* 76-78 *)
  | FWriteFile path b k => _ <- modify (fun s => set_files s (write_file e (s_files s) path b)) ;; frun e k
  | FLook k => v <- look_at e ;; frun e (k v)
  end.
(** tfRegressionTest.cpp 292-345 *)
Definition full_Main (e : env) (test : list str -> fprog) (argv : list str) : M Z :=
  Main_with e (fun args => frun e (test args)) argv.

(** Model of an [itk::Regression] object that is used more than once, /repo/itktf/itktfRegression.{h,cxx}: the object keeps the image tolerances,
    the number of the names generated and the arguments of the latest call of [Main]. *)
From Coq Require Import Floats.SpecFloat.
From Verif Require Import Base Str Dec PathModel MeasModel VisitModel RegModel ImgModel ItkModel.

(** [o_base]: the base class; [o_tol]: m_IntensityTolerance, m_NumberOfPixelsTolerance, m_RadiusTolerance; [o_count]: m_FileNameCount; [o_args]: m_ArgumentList *)
Record iobject := IObject { o_base : rst; o_tol : tolerances; o_count : Z; o_args : list str }.
(** itktfRegression.cxx 18-27 *)
Definition new_itk_object (ie : ienv) (files : store) : iobject := IObject (new_itk_test ie files) no_tolerance 0%Z [].

(** a name generated, with the extension and the root path asked for *)
Definition gen : Type := str * str * str.
(** What a test ([ItkModel.irun], run from [s]) leaves: the tolerances, the number of names generated, and the names, in order.  A name is
    counted before the root path is appended (itktfRegression.cxx 70). *)
Fixpoint leaves (ie : ienv) (args : list str) (p : iprog) (tol : tolerances) (count : Z) (s : rst) : tolerances * Z * list gen :=
  match p with
  | IReturn _ | IRaise _ => (tol, count, [])
  | ICall c k => match itk_Measure ie tol c s with (s', Ok r) => leaves ie args (k r) tol count s' | _ => (tol, count, []) end
  | IImage f n k => match MeasurementInsightFileImage ie tol f n s with (s', Ok r) => leaves ie args (k r) tol count s' | _ => (tol, count, []) end
  | ITolerance t k => leaves ie args k t count s
  | IGenerate ext root k =>
      match GenerateFileName (e_sc (i_env ie)) args count ext root with
      | Ok n => let '(t, c, ns) := leaves ie args (k n) tol (count + 1)%Z s in (t, c, (ext, root, n) :: ns)
      | _ => (tol, (count + 1)%Z, [])
      end
  | ISay t k => leaves ie args k tol count (set_stdout s (s_stdout s ++ t))
  | IRelativeTolerance t k => leaves ie args k tol count (set_tol s t)
  | IExpectedReturn z k => leaves ie args k tol count (set_expected s z)
  | IWriteFile path b k => leaves ie args k tol count (set_files s (write_file (i_env ie) (s_files s) path b))
  end.
(** tfRegressionTest.cpp 293-304: up to the call of the test *)
Definition begun (e : env) (argv : list str) : M (list str) :=
  r <- ParseAndRemoveArguments e (S (length argv)) argv ;;
  let '(argc, argv) := r in
  _ <- BeginMeasurement e ;; mret (firstn argc argv).
(** itktfRegression.cxx 80-89 and tfRegressionTest.cpp 292-345; the names generated are listed too *)
Definition object_Main (ie : ienv) (test : list str -> iprog) (argv : list str) (o : iobject) : iobject * res Z * list gen :=
  let e := i_env ie in
  let '(s', r) := Main_with e (fun args => irun ie argv (test args) (o_tol o) (o_count o)) argv (o_base o) in
  let '(t, c, ns) := match begun e argv (set_unmatched (o_base o) (s_unmatched (o_base o) + 1)) with
                     | (s1, Ok args) => leaves ie argv (test args) (o_tol o) (o_count o) s1
                     | _ => (o_tol o, o_count o, [])
                     end in
  (IObject s' t c argv, r, ns).
(** tfRegressionTest.cpp 71-136: the setters of the base class, called between the runs *)
Definition object_Set (o : iobject) (inf outf : str) (dirs : list str) (t : spec_float) (x : Z) : iobject :=
  IObject (set_expected (set_tol (set_path (set_out (set_in (o_base o) inf) outf) dirs) t) x) (o_tol o) (o_count o) (o_args o).
(** itktfRegression.cxx 38-46 and 49-78, called from outside *)
Definition object_SetTolerance (o : iobject) (t : tolerances) : iobject := IObject (o_base o) t (o_count o) (o_args o).
Definition object_GenerateFileName (sc : bool) (o : iobject) (ext root : str) : iobject * res str :=
  (IObject (o_base o) (o_tol o) (o_count o + 1)%Z (o_args o), GenerateFileName sc (o_args o) (o_count o) ext root).

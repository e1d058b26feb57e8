(** Model of the test driver as a process among others: the file system is shared, and between two accesses of one process any other may make its own.  The functions are
    those of RegModel, /repo/TestingFramework/tfRegressionTest.cpp, and ItkModel, /repo/itktf, with every access to the file system ([stat], [access], opening, reading, writing) made a step of its own.
    A process is what it does next: it has ended, or it accesses one file and goes on with what it saw.
    Simplifications: reading a whole file and writing one text are one step each (a text is written at once; std::ofstream may write it later, at the latest when it is closed); two streams writing to the same file are not described (each has its own position; theorems
    exclude it); a measured file and its baseline are both read before they are compared, also when the comparison does not need the second. *)
From Coq Require Import Floats.SpecFloat.
From Verif Require Import Base Str Dec PathModel MeasModel DiffModel VisitModel XmlModel ReadModel RegModel ImgModel ItkModel.

Inductive proc (A : Type) : Type :=
| Done (a : A)
| Access (k : str) (change : option fnode -> option (option fnode)) (next : option fnode -> proc A).
Arguments Done {A}. Arguments Access {A}.
(** the store after an access *)
Definition accessed (f : store) (k : str) (change : option fnode -> option (option fnode)) : store :=
  match change (f k) with None => f | Some v => upd f k v end.

(** several processes: one of them makes its next access *)
Inductive step1 {A} : store * list (proc A) -> store * list (proc A) -> Prop :=
| Step1 f ps1 k change next ps2 :
    step1 (f, ps1 ++ Access k change next :: ps2) (accessed f k change, ps1 ++ next (f k) :: ps2).
Inductive steps {A} : nat -> store * list (proc A) -> store * list (proc A) -> Prop :=
| Steps0 x : steps 0 x x
| StepsS n x y z : steps n x y -> step1 y z -> steps (S n) x z.

(** one process alone: how it ends, what it accesses (and whether it changes it) *)
Fixpoint alone {A} (p : proc A) (f : store) : store * A :=
  match p with Done a => (f, a) | Access k change next => alone (next (f k)) (accessed f k change) end.
Fixpoint touches {A} (p : proc A) (f : store) : list (str * bool) :=
  match p with
  | Done _ => []
  | Access k change next => (k, match change (f k) with None => false | Some _ => true end) :: touches (next (f k)) (accessed f k change)
  end.

(** * The driver.  [s_files] of the object is not used: the files are outside. *)
Definition P (A : Type) : Type := rst -> proc (rst * res A).
Definition pret {A} (a : A) : P A := fun s => Done (s, Ok a).
Definition plift {A} (r : res A) : P A := fun s => Done (s, r).
Fixpoint pthen {A B} (p : proc A) (k : A -> proc B) : proc B :=
  match p with Done a => k a | Access q c next => Access q c (fun o => pthen (next o) k) end.
Definition pbind {A B} (m : P A) (k : A -> P B) : P B := fun s =>
  pthen (m s) (fun x => let '(s', r) := x in
    match r with Ok a => k a s' | Throw e => Done (s', Throw e) | UB => Done (s', UB) | Abort => Done (s', Abort) | Hang => Done (s', Hang) end).
Notation "x <+ m ;; k" := (pbind m (fun x => k)) (at level 61, m at next level, right associativity).
(** no access to files *)
Definition pure {A} (m : M A) : P A := fun s => let '(s', r) := m s in Done (s', r).
(** looking at the object a path denotes *)
Definition look (e : env) (path : str) : P (option fnode) := fun s =>
  match slot e path with None => Done (s, Ok None) | Some k => Access k (fun _ => None) (fun o => Done (s, Ok o)) end.
(** PathName.cpp 233-282 *)
Definition p_is_file (e : env) (path : str) : P bool :=
  o <+ look e path ;; pret (match o with Some (FFile _ _ _) => true | _ => false end).
Definition p_is_directory (e : env) (path : str) : P bool :=
  o <+ look e path ;; pret (match o with Some (FDir _ _ _) => true | _ => false end).
Definition p_is_readable (e : env) (path : str) : P bool :=
  o <+ look e path ;; pret (match o with Some (FFile r _ _) => r | Some (FDir r _ x) => r && x | None => false end).
Definition p_is_writable (e : env) (path : str) : P bool :=
  o <+ look e path ;; pret (match o with Some (FFile _ w _) => w | Some (FDir _ w x) => w && x | None => false end).
Definition p_can_open (e : env) (path : str) : P bool :=
  o <+ look e path ;; pret (match o with Some (FFile r _ _) | Some (FDir r _ _) => r | None => false end).
Definition p_source (e : env) (path : str) : P source :=
  o <+ look e path ;; pret (match o with Some (FFile true _ b) => Bytes b | Some (FDir true _ _) => Unreadable | _ => Missing end).
(** PathName.cpp 289-303, cf. PathModel.search_loop *)
Fixpoint p_search_loop (e : env) (l : list str) (name full : str) : P str :=
  match l with
  | [] => pret full
  | d :: l' =>
      full <+ plift (Append d name) ;;
      found <+ p_is_file e full ;;
      if (found : bool) then pret full else p_search_loop e l' name full
  end.
Definition p_search (e : env) (name : str) : P str :=
  l <+ pure (gets s_path) ;; p_search_loop e l name [].

(** 117-119 *)
Definition p_put (text : str) : P unit := fun s =>
  match s_os s with
  | None => Done (set_stdout s (s_stdout s ++ text), Ok tt)
  | Some k => Access k (fun o => match o with Some (FFile r w b) => Some (Some (FFile r w (b ++ text))) | _ => None end) (fun _ => Done (s, Ok tt))
  end.
Definition p_put_meas (m : meas) : P unit := t <+ plift (Print m) ;; p_put (t ++ [nl]).
(** 125-135 *)
Definition p_compare_mode (e : env) : P bool := fun s =>
  match s_is s with
  | Some _ => Done (s, Ok true)
  | None =>
      match s_in s with
      | [] => Done (s, Ok false)
      | name => (p <+ p_search e name ;;
                 let q := match p with [] => name | _ => p end in
                 a <+ p_is_file e q ;;
                 if (a : bool) then p_is_readable e q else pret false) s
      end
  end.
(** 143-153 *)
Definition p_open_output (e : env) : P unit := fun s =>
  match s_out s with
  | [] => Done (s, Ok tt)
  | name =>
      match slot e name with
      | None => Done (set_os s None, Throw ExnRuntime)
      | Some k =>
          Access k (fun o => match o with
                             | Some (FFile r true _) => Some (Some (FFile r true []))
                             | Some _ => None
                             | None => if e_cancreate e (cstr name) then Some (Some (FFile true true [])) else None
                             end)
                   (fun o => match o with
                             | Some (FFile r true _) => Done (set_os s (Some k), Ok tt)
                             | Some _ => Done (set_os s None, Throw ExnRuntime)
                             | None => if e_cancreate e (cstr name) then Done (set_os s (Some k), Ok tt) else Done (set_os s None, Throw ExnRuntime)
                             end)
      end
  end.
(** 155-168 *)
Definition p_open_input (e : env) : P unit := fun s =>
  match s_in s with
  | [] => Done (s, Ok tt)
  | name =>
      (p <+ p_search e name ;;
       let q := match p with [] => name | _ => p end in
       ok <+ p_can_open e q ;;
       if (ok : bool) then pure (modify (fun s => set_is s (slot e q)))
       else _ <+ pure (modify (fun s => set_is s None)) ;; plift (Throw ExnRuntime)) s
  end.
(** 725-784 *)
Definition p_read_input (e : env) : P unit := fun s =>
  match s_is s with
  | Some k =>
      Access k (fun _ => None)
        (fun o => match o with
                  | Some (FFile _ _ b) =>
                      match ReadXMLInput (e_asserts e) (e_ext e) b with
                      | Ok l => Done (set_input s l, Ok tt)
                      | Throw x => Done (s, Throw x) | UB => Done (s, UB) | Abort => Done (s, Abort) | Hang => Done (s, Hang)
                      end
                  | _ => Done (s, Throw ExnRuntime)
                  end)
  | None => Done (s, Throw ExnRuntime)
  end.
(** 139-175 *)
Definition p_Begin (e : env) : P unit :=
  _ <+ p_open_output e ;;
  _ <+ p_open_input e ;;
  cm <+ p_compare_mode e ;;
  if (cm : bool) then p_read_input e else p_put (header e).
(** 177-196, 787-792 *)
Definition p_End (e : env) : P unit :=
  cm <+ p_compare_mode e ;;
  _ <+ (if (cm : bool) then pure (modify (fun s => set_input s [])) else p_put footer) ;;
  pure (modify (fun s => set_is (set_os s None) None)).
(** 347-351 *)
Definition p_Unmatched (m : meas) : P unit :=
  _ <+ pure (modify (fun s => set_unmatched s (s_unmatched s + 1))) ;;
  p_put_meas (mset_name m ($"Unmatched " ++ mname m)).
(** 357-365 *)
Definition p_Difference (e : env) (m baseline : meas) : P unit :=
  _ <+ pure (modify (fun s => set_unmatched s (s_unmatched s + 1))) ;;
  text <+ plift (snd (Difference (e_sc e) (e_asserts e) (e_oob e) baseline m)) ;;
  p_put text.
(** 386-399 *)
Definition p_locate (e : env) (baseline m : meas) : P meas :=
  match baseline, m with
  | MF inf, MF _ =>
      p <+ p_search e (Tail (ffile inf)) ;;
      pret (match p with [] => baseline | _ => MF (Mf (fname inf) (fesc inf) (ftype inf) p) end)
  | _, _ => pret baseline
  end.
(** the files of the two measurements *)
Definition p_load (e : env) (m : meas) : P source :=
  match m with MF g => p_source e (cstr (ffile g)) | MD _ => pret Missing end.
Definition of_two (baseline m : meas) (sb st : source) : str -> source := fun path =>
  match baseline with
  | MF b => if eqs path (cstr (ffile b)) then sb else match m with MF t => if eqs path (cstr (ffile t)) then st else Missing | MD _ => Missing end
  | MD _ => match m with MF t => if eqs path (cstr (ffile t)) then st else Missing | MD _ => Missing end
  end.
(** 372-434 *)
Definition p_Compare (e : env) (m : meas) (tolerant : bool) : P Z :=
  inp <+ pure (gets s_input) ;;
  match inp with
  | [] => _ <+ p_Unmatched m ;; pret 1%Z
  | baseline :: rest =>
      _ <+ pure (modify (fun s => set_input s rest)) ;;
      if eqs (mname baseline) (mname m) && eqs (mtype baseline) (mtype m) then
        baseline <+ p_locate e baseline m ;;
        sb <+ p_load e baseline ;;
        st <+ p_load e m ;;
        out <+ pure (gets (fun s => Compare (e_sc e) (of_two baseline m sb st) (e_io e) (visitor s tolerant) baseline m)) ;;
        let '(baseline, m, v) := out in
        same <+ plift v ;;
        if (same : bool) then pret 1%Z
        else _ <+ p_Difference e m baseline ;; pret 0%Z
      else _ <+ p_Unmatched m ;; pret 1%Z
  end.
(** 441-584 *)
Definition p_Measure (e : env) (c : call) : P Z :=
  cm <+ p_compare_mode e ;;
  if (cm : bool) then p_Compare e (meas_of (e_io e) true c) (tolerant_of c)
  else _ <+ p_put_meas (meas_of (e_io e) false c) ;; pret 0%Z.
(** a file of the test *)
Definition p_write_file (e : env) (path bytes : str) : P unit := fun s =>
  match slot e path with
  | None => Done (s, Ok tt)
  | Some k =>
      Access k (fun o => match o with
                         | Some (FFile r true _) => Some (Some (FFile r true bytes))
                         | Some _ => None
                         | None => if e_cancreate e (cstr path) then Some (Some (FFile true true bytes)) else None
                         end)
               (fun _ => Done (s, Ok tt))
  end.
Fixpoint p_run (e : env) (p : prog) : P Z :=
  match p with
  | Return z => pret z
  | Raise x => plift (Throw x)
  | Call c k => r <+ p_Measure e c ;; p_run e (k r)
  | SetRelativeTolerance t k => _ <+ pure (modify (fun s => set_tol s t)) ;; p_run e k
  | SetExpectedReturn z k => _ <+ pure (modify (fun s => set_expected s z)) ;; p_run e k
  | WriteFile path b k => _ <+ p_write_file e path b ;; p_run e k
  end.
(** 205-284 *)
Fixpoint p_parse_loop (e : env) (fuel : nat) (argc : nat) (argv : list str) (inf outf : option str)
  : P (nat * list str * option str * option str) := fun s =>
  match fuel with
  | 0 => Done (s, Hang)
  | S fuel' =>
      if argc <=? 1 then Done (s, Ok (argc, argv, inf, outf)) else
      (a <+ plift (rd 1 argv) ;;
       let remove (k : nat -> list str -> P (nat * list str * option str * option str)) :=
         argv' <+ plift (swap_loop (argc - 3) 1 argv) ;; k (argc - 2) argv' in
       if eqs a ($"-O") then
         if 2 <? argc then
           v <+ plift (rd 2 argv) ;;
           there <+ p_is_file e v ;;
           ok <+ (if (there : bool) then p_is_writable e v else pret true) ;;
           remove (fun argc argv => p_parse_loop e fuel' argc argv inf (if (ok : bool) then Some v else None))
         else p_parse_loop e fuel' argc argv inf outf
       else if eqs a ($"-I") then
         if 2 <? argc then
           v <+ plift (rd 2 argv) ;;
           there <+ p_is_file e v ;;
           ok <+ (if (there : bool) then p_is_readable e v else pret false) ;;
           if (ok : bool) then remove (fun argc argv => p_parse_loop e fuel' argc argv (Some v) outf)
           else plift (Throw ExnRuntime)
         else p_parse_loop e fuel' argc argv inf outf
       else if eqs a ($"-R") then
         if 2 <? argc then
           v <+ plift (rd 2 argv) ;;
           _ <+ pure (modify (fun s => set_expected s (wrap32 (strtol10 v)))) ;;
           remove (fun argc argv => p_parse_loop e fuel' argc argv inf outf)
         else p_parse_loop e fuel' argc argv inf outf
       else if eqs a ($"-P") then
         if 2 <? argc then
           v <+ plift (rd 2 argv) ;;
           there <+ p_is_directory e v ;;
           ok <+ (if (there : bool) then p_is_readable e v else pret false) ;;
           if (ok : bool) then
             remove (fun argc argv => _ <+ pure (modify (fun s => set_path s (v :: s_path s))) ;; p_parse_loop e fuel' argc argv inf outf)
           else plift (Throw ExnRuntime)
         else p_parse_loop e fuel' argc argv inf outf
       else pret (argc, argv, inf, outf)) s
  end.
(** 199-290 *)
Definition p_Parse (e : env) (fuel : nat) (argv : list str) : P (nat * list str) :=
  r <+ p_parse_loop e fuel (length argv) argv None None ;;
  let '(argc, argv, inf, outf) := r in
  _ <+ pure (modify (fun s => match inf with Some v => set_in s v | None => s end)) ;;
  _ <+ pure (modify (fun s => match outf with Some v => set_out s v | None => s end)) ;;
  pret (argc, argv).
Definition p_main_body (e : env) (body : list str -> P Z) (argv : list str) : P Z :=
  r <+ p_Parse e (S (length argv)) argv ;;
  let '(argc, argv) := r in
  _ <+ p_Begin e ;;
  body (firstn argc argv).
(** 292-345 *)
Definition p_finish (e : env) (ret : Z) : P Z := fun s =>
  if negb (ret =? s_expected s)%Z then Done (s, Ok ret)
  else (cm <+ p_compare_mode e ;; pure (gets (fun s => if (cm : bool) then s_unmatched s else 0%Z))) s.
Definition process_with (e : env) (body : list str -> P Z) (argv : list str) : P Z := fun s =>
  pthen (p_main_body e body argv (set_unmatched s (s_unmatched s + 1))) (fun x =>
    match x with
    | (s, Ok ret) =>
        pthen (p_End e s) (fun y =>
          match y with
          | (s, Ok _) => p_finish e ret (set_unmatched s (s_unmatched s - 1))
          | (s, Throw _) => p_finish e ret s
          | (s, UB) => Done (s, UB) | (s, Abort) => Done (s, Abort) | (s, Hang) => Done (s, Hang)
          end)
    | (s, Throw _) => p_finish e (-1)%Z s
    | (s, UB) => Done (s, UB) | (s, Abort) => Done (s, Abort) | (s, Hang) => Done (s, Hang)
    end).
Definition process (e : env) (test : list str -> prog) (argv : list str) : P Z := process_with e (fun args => p_run e (test args)) argv.

(** * The ITK driver, cf. ItkModel *)
Definition p_say (text : str) : P unit := pure (say text).
Definition p_say_meas (m : meas) : P unit := pure (say_meas m).
Definition readable (o : option fnode) : option str := match o with Some (FFile true _ b) => Some b | _ => None end.
Definition p_read_image (ie : ienv) (name : str) : P (option imagefile) :=
  o <+ look (i_env ie) name ;; pret (match readable o with Some b => i_decode ie name b | None => None end).
Definition p_read_info (ie : ienv) (name : str) : P (option info) :=
  o <+ look (i_env ie) name ;; pret (match readable o with Some b => i_header ie name b | None => None end).
(** itktfCompareVisitor.cxx 65-140: the baseline is read first; [itk_verdict]: the verdict from the two images *)
Definition itk_verdict (ie : ienv) (tol : tolerances) (ib it : option imagefile) : res bool :=
  image_verdict (i_diff ie) (fun n => match n with [] => ib | _ => it end) tol (Mf [] true itk_type []) (Mf [] true itk_type ($"t")).
Definition p_itk_text (ie : ienv) (c : cmp) (baseline m : meas) : P (meas * meas * bool) :=
  sb <+ p_load (i_env ie) baseline ;;
  st <+ p_load (i_env ie) m ;;
  let '(baseline, m, v) := Compare (e_sc (i_env ie)) (of_two baseline m sb st) (e_io (i_env ie)) c baseline m in
  same <+ plift v ;; pret (baseline, m, same).
Definition p_itk_Compare (ie : ienv) (tol : tolerances) (c : cmp) (baseline m : meas) : P (meas * meas * bool) :=
  match baseline, m with
  | MF b, MF t =>
      if eqs (ftype t) itk_type then
        _ <+ p_say ($"Comparing test image: " ++ quote ++ cstr (ffile t) ++ quote ++ $" to baseline image: " ++ quote ++ cstr (ffile b) ++ quote ++ [nl]) ;;
        ib <+ p_read_image ie (ffile b) ;;
        it <+ (match ib with Some _ => p_read_image ie (ffile t) | None => pret None end) ;;
        v <+ plift (itk_verdict ie tol ib it) ;; pret (baseline, m, v)
      else p_itk_text ie c baseline m
  | _, _ => p_itk_text ie c baseline m
  end.
(** itktfDifferenceVisitor.cxx 74-153 *)
Definition p_ImageThing (ie : ienv) (im : image) (file name : str) : P unit :=
  _ <+ p_say (i_show_slice ie im) ;;
  _ <+ (match i_png ie im with Some b => p_write_file (i_env ie) file b | None => pret tt end) ;;
  p_say_meas (MF (Mf ($"Difference " ++ name) true ($"image/png") file)).
(** 157-347 *)
Definition p_DifferenceTestImage (ie : ienv) (tol : tolerances) (baseline m : mf) : P unit :=
  t <+ p_read_info ie (ffile m) ;;
  b <+ p_read_info ie (ffile baseline) ;;
  match t, b with
  | Some t, Some b =>
      let n := fname m in
      if negb (eqzs (h_size b) (h_size t)) then
        pure (report false (status_text ($"Baseline Size " ++ n) (i_show_size ie (h_size b)))
                     (status_text ($"Test ImageSize " ++ n) (i_show_size ie (h_size t))))
      else
        _ <+ pure (report (eqfs (h_spacing b) (h_spacing t)) (status_text ($"Baseline Spacing " ++ n) (i_show_vector ie (h_spacing b)))
                                                       (status_text ($"Test Spacing " ++ n) (i_show_vector ie (h_spacing t)))) ;;
        _ <+ pure (report (eqfs (h_origin b) (h_origin t)) (status_text ($"Baseline Origin " ++ n) (i_show_vector ie (h_origin b)))
                                                     (status_text ($"Test Origin " ++ n) (i_show_vector ie (h_origin t)))) ;;
        _ <+ pure (report (eqs (h_pixel b) (h_pixel t)) (status_text ($"Baseline PixelType " ++ n) (h_pixel b))
                                                  (status_text ($"Test PixelType " ++ n) (h_pixel t))) ;;
        _ <+ pure (report (eqs (h_component b) (h_component t)) (status_text ($"Baseline ComponentType " ++ n) (h_component b))
                                                          (status_text ($"Test ComponentType " ++ n) (h_component t))) ;;
        _ <+ pure (report (h_components b =? h_components t)%Z (status_int ($"Baseline Number Of Components " ++ n) (h_components b))
                                                         (status_int ($"Test Number Of Components " ++ n) (h_components t))) ;;
        ti <+ p_read_image ie (ffile m) ;;
        bi <+ p_read_image ie (ffile baseline) ;;
        match ti, bi with
        | Some ti, Some bi =>
            let f := Filter (t_radius tol) (t_intensity tol) false in
            let e := i_env ie in
            _ <+ p_say_meas (MD (double_SetValue (e_io e) (SetAttributeName (new_dm CDouble) ($"ImageError " ++ n))
                                 (of_int64 (i_diff ie f (g_image bi) (g_image ti))))) ;;
            let png ext := Append (i_output ie) (Tail (ffile m) ++ ext) in
            p1 <+ plift (png ($".diff.png")) ;;
            _ <+ p_ImageThing ie (i_diff_image ie f (g_image bi) (g_image ti)) p1 n ;;
            p2 <+ plift (png ($".base.png")) ;;
            _ <+ p_ImageThing ie (g_image bi) p2 n ;;
            p3 <+ plift (png ($".test.png")) ;;
            p_ImageThing ie (g_image ti) p3 n
        | _, _ => plift (Throw ExnRuntime)
        end
  | _, _ => plift (Throw ExnRuntime)
  end.
Definition p_itk_Difference (ie : ienv) (tol : tolerances) (m baseline : meas) : P unit :=
  match baseline, m with
  | MF b, MF t =>
      if eqs (ftype t) itk_type then
        _ <+ pure (modify (fun s => set_unmatched s (s_unmatched s + 1))) ;; p_DifferenceTestImage ie tol b t
      else p_Difference (i_env ie) m baseline
  | _, _ => p_Difference (i_env ie) m baseline
  end.
(** tfRegressionTest.cpp 372-434 *)
Definition p_itk_CompareMeasurement (ie : ienv) (tol : tolerances) (m : meas) (tolerant : bool) : P Z :=
  inp <+ pure (gets s_input) ;;
  match inp with
  | [] => _ <+ p_Unmatched m ;; pret 1%Z
  | baseline :: rest =>
      _ <+ pure (modify (fun s => set_input s rest)) ;;
      if eqs (mname baseline) (mname m) && eqs (mtype baseline) (mtype m) then
        baseline <+ p_locate (i_env ie) baseline m ;;
        c <+ pure (gets (fun s => visitor s tolerant)) ;;
        out <+ p_itk_Compare ie tol c baseline m ;;
        let '(baseline, m, same) := out in
        if (same : bool) then pret 1%Z
        else _ <+ p_itk_Difference ie tol m baseline ;; pret 0%Z
      else _ <+ p_Unmatched m ;; pret 1%Z
  end.
Definition p_itk_Measure (ie : ienv) (tol : tolerances) (c : call) : P Z :=
  cm <+ p_compare_mode (i_env ie) ;;
  if (cm : bool) then p_itk_CompareMeasurement ie tol (meas_of (e_io (i_env ie)) true c) (tolerant_of c)
  else _ <+ p_put_meas (meas_of (e_io (i_env ie)) false c) ;; pret 0%Z.
(** itktfRegression.cxx 91-108 *)
Definition p_InsightFileImage (ie : ienv) (tol : tolerances) (file name : str) : P Z :=
  cm <+ p_compare_mode (i_env ie) ;;
  if (cm : bool) then p_itk_CompareMeasurement ie tol (file_meas true itk_type file name) false
  else _ <+ p_put_meas (file_meas false itk_type file name) ;; pret 0%Z.
Fixpoint p_irun (ie : ienv) (args : list str) (p : iprog) (tol : tolerances) (count : Z) : P Z :=
  match p with
  | IReturn z => pret z
  | IRaise x => plift (Throw x)
  | ICall c k => r <+ p_itk_Measure ie tol c ;; p_irun ie args (k r) tol count
  | IImage f n k => r <+ p_InsightFileImage ie tol f n ;; p_irun ie args (k r) tol count
  | ITolerance t k => p_irun ie args k t count
  | IGenerate ext root k => n <+ plift (GenerateFileName (e_sc (i_env ie)) args count ext root) ;; p_irun ie args (k n) tol (count + 1)%Z
  | ISay t k => _ <+ p_say t ;; p_irun ie args k tol count
  | IRelativeTolerance t k => _ <+ pure (modify (fun s => set_tol s t)) ;; p_irun ie args k tol count
  | IExpectedReturn z k => _ <+ pure (modify (fun s => set_expected s z)) ;; p_irun ie args k tol count
  | IWriteFile path b k => _ <+ p_write_file (i_env ie) path b ;; p_irun ie args k tol count
  end.
(** itktfRegression.cxx 80-89 *)
Definition itk_process (ie : ienv) (test : list str -> iprog) (argv : list str) : P Z :=
  process_with (i_env ie) (fun args => p_irun ie argv (test args) no_tolerance 0%Z) argv.

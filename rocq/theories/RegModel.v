(** Model of the test driver, /repo/TestingFramework/tfRegressionTest.{h,cpp}.

    The object is the record [rst]; it also holds the parts of the world it acts on (the file contents and standard output).
    Environment ([env]): how the machine and the libraries behave.
    - [e_sc], [e_asserts], [e_oob], [e_io], [e_ext]: see B64Model, DiffModel, MeasModel, XmlModel;
    - [e_canon]: the identity of the file system object a (non-empty) path denotes; the store maps identities to objects.
      Creating a file does not change what other paths denote;
    - [e_cancreate]: whether a file that does not exist can be created under this name; new files are readable and writable;
    - [e_host], [e_time]: results of [gethostname] and [ctime].
    Simplifications: standard error is in ErrModel; allocation does not fail; write errors (full disk) do not happen (they do in LimitModel);
    [int] counters do not overflow; every write is flushed (the code ends each output with [std::endl]). *)
From Coq Require Import Floats.SpecFloat.
From Verif Require Import Base Str Dec PathModel MeasModel DiffModel VisitModel XmlModel ReadModel.

Inductive fnode := FFile (r w : bool) (bytes : str) | FDir (r w x : bool).
Definition store := str -> option fnode.

Record env := Env {
  e_sc : bool; e_asserts : bool; e_oob : option (bool -> Z -> Z); e_io : numio; e_ext : str -> list event * bool;
  e_canon : str -> str; e_cancreate : str -> bool; e_host : str; e_time : str }.

(** members of [RegressionTest] (tfRegressionTest.h) and the world *)
Record rst := Rst {
  s_files : store; s_stdout : str;
  s_input : list meas; s_in : str; s_out : str; s_path : list str;
  s_os : option str; s_is : option str;          (* identity of the open file *)
  s_tol : spec_float; s_unmatched : Z; s_expected : Z }.

Definition set_files (s : rst) v := Rst v (s_stdout s) (s_input s) (s_in s) (s_out s) (s_path s) (s_os s) (s_is s) (s_tol s) (s_unmatched s) (s_expected s).
Definition set_stdout (s : rst) v := Rst (s_files s) v (s_input s) (s_in s) (s_out s) (s_path s) (s_os s) (s_is s) (s_tol s) (s_unmatched s) (s_expected s).
Definition set_input (s : rst) v := Rst (s_files s) (s_stdout s) v (s_in s) (s_out s) (s_path s) (s_os s) (s_is s) (s_tol s) (s_unmatched s) (s_expected s).
Definition set_in (s : rst) v := Rst (s_files s) (s_stdout s) (s_input s) v (s_out s) (s_path s) (s_os s) (s_is s) (s_tol s) (s_unmatched s) (s_expected s).
Definition set_out (s : rst) v := Rst (s_files s) (s_stdout s) (s_input s) (s_in s) v (s_path s) (s_os s) (s_is s) (s_tol s) (s_unmatched s) (s_expected s).
Definition set_path (s : rst) v := Rst (s_files s) (s_stdout s) (s_input s) (s_in s) (s_out s) v (s_os s) (s_is s) (s_tol s) (s_unmatched s) (s_expected s).
Definition set_os (s : rst) v := Rst (s_files s) (s_stdout s) (s_input s) (s_in s) (s_out s) (s_path s) v (s_is s) (s_tol s) (s_unmatched s) (s_expected s).
Definition set_is (s : rst) v := Rst (s_files s) (s_stdout s) (s_input s) (s_in s) (s_out s) (s_path s) (s_os s) v (s_tol s) (s_unmatched s) (s_expected s).
Definition set_tol (s : rst) v := Rst (s_files s) (s_stdout s) (s_input s) (s_in s) (s_out s) (s_path s) (s_os s) (s_is s) v (s_unmatched s) (s_expected s).
Definition set_unmatched (s : rst) v := Rst (s_files s) (s_stdout s) (s_input s) (s_in s) (s_out s) (s_path s) (s_os s) (s_is s) (s_tol s) v (s_expected s).
Definition set_expected (s : rst) v := Rst (s_files s) (s_stdout s) (s_input s) (s_in s) (s_out s) (s_path s) (s_os s) (s_is s) (s_tol s) (s_unmatched s) v.

(** 58-64: the constructor; FLT_EPSILON * 64 = 2^-17 *)
Definition default_tol : spec_float := binary_normalize p64 x64 1 (-17) false.
Definition new_test (files : store) : rst := Rst files [] [] [] [] [] None None default_tol 0%Z 0%Z.

(** * Files *)
Definition upd (f : store) (k : str) (v : option fnode) : store := fun k' => if eqs k' k then v else f k'.
(** the identity of the object named by a path; the empty path names nothing *)
Definition slot (e : env) (path : str) : option str :=
  match cstr path with [] => None | p => Some (e_canon e p) end.
Definition node_at (e : env) (f : store) (path : str) : option fnode :=
  match slot e path with Some k => f k | None => None end.
(** PathName.cpp 233-282, cf. PathModel *)
Definition is_file (e : env) (f : store) (path : str) : bool :=
  match node_at e f path with Some (FFile _ _ _) => true | _ => false end.
Definition is_directory (e : env) (f : store) (path : str) : bool :=
  match node_at e f path with Some (FDir _ _ _) => true | _ => false end.
Definition is_readable (e : env) (f : store) (path : str) : bool :=
  match node_at e f path with Some (FFile r _ _) => r | Some (FDir r _ x) => r && x | None => false end.
Definition is_writable (e : env) (f : store) (path : str) : bool :=
  match node_at e f path with Some (FFile _ w _) => w | Some (FDir _ w x) => w && x | None => false end.
(** a stream opens for reading: a directory needs only the read permission *)
Definition can_open (e : env) (f : store) (path : str) : bool :=
  match node_at e f path with Some (FFile r _ _) | Some (FDir r _ _) => r | None => false end.
(** what a measurement sees of the files, cf. MeasModel *)
Definition sources (e : env) (f : store) (path : str) : source :=
  match node_at e f path with Some (FFile true _ b) => Bytes b | Some (FDir true _ _) => Unreadable | _ => Missing end.
(** the bytes of a readable file *)
Definition contents (e : env) (f : store) (path : str) : option str :=
  match node_at e f path with Some (FFile true _ b) => Some b | _ => None end.

(** * Computations: they change the object and end with a result *)
Definition M (A : Type) : Type := rst -> rst * res A.
Definition mret {A} (a : A) : M A := fun s => (s, Ok a).
Definition mlift {A} (r : res A) : M A := fun s => (s, r).
Definition mbind {A B} (m : M A) (k : A -> M B) : M B := fun s =>
  let '(s', r) := m s in
  match r with Ok a => k a s' | Throw e => (s', Throw e) | UB => (s', UB) | Abort => (s', Abort) | Hang => (s', Hang) end.
Notation "x <- m ;; k" := (mbind m (fun x => k)) (at level 61, m at next level, right associativity).
Definition modify (f : rst -> rst) : M unit := fun s => (f s, Ok tt).
Definition gets {A} (f : rst -> A) : M A := fun s => (s, Ok (f s)).

(** 117-119: [GetOutStream() << text] *)
Definition put_text (text : str) (s : rst) : rst :=
  match s_os s with
  | None => set_stdout s (s_stdout s ++ text)
  | Some k => match s_files s k with
              | Some (FFile r w b) => set_files s (upd (s_files s) k (Some (FFile r w (b ++ text))))
              | _ => s
              end
  end.
Definition put (text : str) : M unit := modify (put_text text).
(** [GetOutStream() << m << std::endl] *)
Definition put_meas (m : meas) : M unit := p <- mlift (Print m) ;; put (p ++ [nl]).

(** [SearchPathList(GetInFileSearchPath())] *)
Definition search (e : env) (s : rst) (name : str) : res str :=
  SearchPathList (is_file e (s_files s)) name (s_path s).

(** 125-135 *)
Definition compare_mode (e : env) (s : rst) : res bool :=
  match s_is s with
  | Some _ => Ok true
  | None =>
      match s_in s with
      | [] => Ok false
      | name => p <-- search e s name ;;
                let q := match p with [] => name | _ => p end in
                Ok (is_file e (s_files s) q && is_readable e (s_files s) q)
      end
  end.
Definition GetCompareMode (e : env) : M bool := fun s => (s, compare_mode e s).

(** 589-601 *)
Definition header (e : env) : str :=
  xml_decl ++ [nl] ++ $"<!-- created on " ++ e_host e ++ $" at " ++ e_time e ++ $" -->" ++ [nl] ++ $"<output>" ++ [nl].
(** 604-606 *)
Definition footer : str := $"</output>" ++ [nl].

(** 143-153: opening the output file truncates or creates it *)
Definition open_output (e : env) : M unit := fun s =>
  match s_out s with
  | [] => (s, Ok tt)
  | name =>
      match slot e name with
      | None => (set_os s None, Throw ExnRuntime)
      | Some k =>
          match s_files s k with
          | Some (FFile r true _) => (set_os (set_files s (upd (s_files s) k (Some (FFile r true [])))) (Some k), Ok tt)
          | Some _ => (set_os s None, Throw ExnRuntime)
          | None => if e_cancreate e (cstr name)
                    then (set_os (set_files s (upd (s_files s) k (Some (FFile true true [])))) (Some k), Ok tt)
                    else (set_os s None, Throw ExnRuntime)
          end
      end
  end.
(** 155-168; a readable directory can be opened, but not read *)
Definition open_input (e : env) : M unit := fun s =>
  match s_in s with
  | [] => (s, Ok tt)
  | name =>
      match search e s name with
      | Ok p =>
          let q := match p with [] => name | _ => p end in
          if can_open e (s_files s) q
          then (set_is s (slot e q), Ok tt)
          else (set_is s None, Throw ExnRuntime)
      | Throw x => (s, Throw x) | UB => (s, UB) | Abort => (s, Abort) | Hang => (s, Hang)
      end
  end.
(** 725-784 *)
Definition read_input (e : env) : M unit := fun s =>
  match s_is s with
  | Some k =>
      match s_files s k with
      | Some (FFile _ _ b) =>
          match ReadXMLInput (e_asserts e) (e_ext e) b with
          | Ok l => (set_input s l, Ok tt)
          | Throw x => (s, Throw x) | UB => (s, UB) | Abort => (s, Abort) | Hang => (s, Hang)
          end
      | _ => (s, Throw ExnRuntime)
      end
  | None => (s, Throw ExnRuntime)
  end.
(** 139-175 *)
Definition BeginMeasurement (e : env) : M unit :=
  _ <- open_output e ;;
  _ <- open_input e ;;
  cm <- GetCompareMode e ;;
  if (cm : bool) then read_input e else put (header e).
(** 177-196, 787-792 *)
Definition EndMeasurement (e : env) : M unit :=
  cm <- GetCompareMode e ;;
  _ <- (if (cm : bool) then modify (fun s => set_input s []) else put footer) ;;
  modify (fun s => set_is (set_os s None) None).

(** * Measurements *)
(** 347-351 *)
Definition UnmatchedMeasurement (m : meas) : M unit :=
  _ <- modify (fun s => set_unmatched s (s_unmatched s + 1)) ;;
  put_meas (mset_name m ($"Unmatched " ++ mname m)).
(** 357-365 *)
Definition DifferenceMeasurement (e : env) (m baseline : meas) : M unit :=
  _ <- modify (fun s => set_unmatched s (s_unmatched s + 1)) ;;
  text <- mlift (snd (Difference (e_sc e) (e_asserts e) (e_oob e) baseline m)) ;;
  put text.
(** 386-399: the baseline file is searched by its last path component *)
Definition locate (e : env) (s : rst) (baseline m : meas) : res meas :=
  match baseline, m with
  | MF inf, MF _ =>
      p <-- search e s (Tail (ffile inf)) ;;
      Ok (match p with [] => baseline | _ => MF (Mf (fname inf) (fesc inf) (ftype inf) p) end)
  | _, _ => Ok baseline
  end.
Definition visitor (s : rst) (tolerant : bool) : cmp :=
  if tolerant then SetTolerance new_cmp (s_tol s) else new_cmp.
(** 372-434 *)
Definition CompareMeasurement (e : env) (m : meas) (tolerant : bool) : M Z :=
  inp <- gets s_input ;;
  match inp with
  | [] => _ <- UnmatchedMeasurement m ;; mret 1%Z
  | baseline :: rest =>
      _ <- modify (fun s => set_input s rest) ;;
      if eqs (mname baseline) (mname m) && eqs (mtype baseline) (mtype m) then
        baseline <- (fun s => (s, locate e s baseline m)) ;;
        out <- gets (fun s => Compare (e_sc e) (sources e (s_files s)) (e_io e) (visitor s tolerant) baseline m) ;;
        let '(baseline, m, v) := out in
        same <- mlift v ;;
        if (same : bool) then mret 1%Z
        else _ <- DifferenceMeasurement e m baseline ;; mret 0%Z
      else _ <- UnmatchedMeasurement m ;; mret 1%Z
  end.

(** the [Measurement*] member functions with their arguments (441-584) *)
Inductive call :=
| TextString (content name : str)
| TextPlain (content name : str)
| FileTextPlain (file name : str)
| NumericInteger (i : Z) (name : str) (tolerant : bool)
| NumericFloat (x : spec_float) (name : str) (tolerant : bool)
| NumericDouble (x : spec_float) (name : str) (tolerant : bool)
| NumericBoolean (b : bool) (name : str) (tolerant : bool)
| FileImagePNG (file name : str)
| FileImageJPEG (file name : str).

(** conversion of a [long] to [int] *)
Definition wrap32 (z : Z) : Z := ((z + 2147483648) mod 4294967296 - 2147483648)%Z.
(** the measurement built by each of them; [cm]: in compare mode *)
Definition named (c : cls) (name : str) : dm := SetAttributeName (new_dm c) name.
Definition file_meas (cm : bool) (type file name : str) : meas :=
  MF (Mf name true type (if cm then file else Tail file)).
Definition meas_of (io : numio) (cm : bool) (c : call) : meas :=
  match c with
  | TextString t n => MD (SetContent (named CString n) t)
  | TextPlain t n => MD (SetContent (named CPlain n) t)
  | FileTextPlain f n => file_meas cm ($"text/plain") f n
  | NumericInteger i n _ => MD (int_SetValue (named CInt n) (wrap32 i))
  | NumericFloat x n _ => MD (float_SetValue io (named CFloat n) x)
  | NumericDouble x n _ => MD (double_SetValue io (named CDouble n) x)
  | NumericBoolean b n _ => MD (bool_SetValue (named CBool n) b)
  | FileImagePNG f n => file_meas cm ($"image/png") f n
  | FileImageJPEG f n => file_meas cm ($"image/jpeg") f n
  end.
Definition tolerant_of (c : call) : bool :=
  match c with
  | NumericInteger _ _ t | NumericFloat _ _ t | NumericDouble _ _ t | NumericBoolean _ _ t => t
  | _ => false
  end.
Definition Measure (e : env) (c : call) : M Z :=
  cm <- GetCompareMode e ;;
  if (cm : bool) then CompareMeasurement e (meas_of (e_io e) true c) (tolerant_of c)
  else _ <- put_meas (meas_of (e_io e) false c) ;; mret 0%Z.

(** * The test: what the overridden [Test] does with the framework.  It ends with its return value or an exception; a
    measurement returns a value on which the rest may depend; it may set the tolerance (109-111) and the expected return
    value (105-107), and write files of its own.  *)
Inductive prog :=
| Return (z : Z)
| Raise (x : exn)
| Call (c : call) (k : Z -> prog)
| SetRelativeTolerance (t : spec_float) (k : prog)
| SetExpectedReturn (z : Z) (k : prog)
| WriteFile (path bytes : str) (k : prog).

(** writing a file of its own: nothing happens if it is not possible *)
Definition write_file (e : env) (f : store) (path bytes : str) : store :=
  match slot e path with
  | None => f
  | Some k =>
      match f k with
      | Some (FFile r true _) => upd f k (Some (FFile r true bytes))
      | Some _ => f
      | None => if e_cancreate e (cstr path) then upd f k (Some (FFile true true bytes)) else f
      end
  end.
Fixpoint run (e : env) (p : prog) : M Z :=
  match p with
  | Return z => mret z
  | Raise x => mlift (Throw x)
  | Call c k => r <- Measure e c ;; run e (k r)
  | SetRelativeTolerance t k => _ <- modify (fun s => set_tol s t) ;; run e k
  | SetExpectedReturn z k => _ <- modify (fun s => set_expected s z) ;; run e k
  | WriteFile path b k => _ <- modify (fun s => set_files s (write_file e (s_files s) path b)) ;; run e k
  end.

(** * Arguments *)
(** [std::swap(argv[a], argv[b])] *)
Definition swap (a b : nat) (l : list str) : res (list str) :=
  x <-- rd a l ;; y <-- rd b l ;; l <-- wr a y l ;; wr b x l.
(** [for (int j = i; j+2 < argc; ++j) std::swap(argv[j+2], argv[j]);]; [n] iterations remain *)
Fixpoint swap_loop (n j : nat) (l : list str) : res (list str) :=
  match n with
  | 0 => Ok l
  | S n' => l <-- swap (j + 2) j l ;; swap_loop n' (j + 1) l
  end.
(** [strtol(s, 0, 10)] and the cast to [int] *)
Definition strtol10 (s : str) : Z := match read_int LONG_MIN LONG_MAX s with Ok v => v | _ => 0%Z end.

(** 205-284; [i] is always 1 *)
Fixpoint parse_loop (e : env) (fuel : nat) (argc : nat) (argv : list str) (inf outf : option str)
  : M (nat * list str * option str * option str) := fun s =>
  match fuel with
  | 0 => (s, Hang)
  | S fuel' =>
      if argc <=? 1 then (s, Ok (argc, argv, inf, outf)) else
      (a <- mlift (rd 1 argv) ;;
       let remove (k : nat -> list str -> M (nat * list str * option str * option str)) :=
         argv' <- mlift (swap_loop (argc - 3) 1 argv) ;; k (argc - 2) argv' in
       if eqs a ($"-O") then
         if 2 <? argc then
           v <- mlift (rd 2 argv) ;;
           ok <- gets (fun s => negb (is_file e (s_files s) v && negb (is_writable e (s_files s) v))) ;;
           remove (fun argc argv => parse_loop e fuel' argc argv inf (if (ok : bool) then Some v else None))
         else parse_loop e fuel' argc argv inf outf
       else if eqs a ($"-I") then
         if 2 <? argc then
           v <- mlift (rd 2 argv) ;;
           ok <- gets (fun s => is_file e (s_files s) v && is_readable e (s_files s) v) ;;
           if (ok : bool) then remove (fun argc argv => parse_loop e fuel' argc argv (Some v) outf)
           else mlift (Throw ExnRuntime)
         else parse_loop e fuel' argc argv inf outf
       else if eqs a ($"-R") then
         if 2 <? argc then
           v <- mlift (rd 2 argv) ;;
           _ <- modify (fun s => set_expected s (wrap32 (strtol10 v))) ;;
           remove (fun argc argv => parse_loop e fuel' argc argv inf outf)
         else parse_loop e fuel' argc argv inf outf
       else if eqs a ($"-P") then
         if 2 <? argc then
           v <- mlift (rd 2 argv) ;;
           ok <- gets (fun s => is_directory e (s_files s) v && is_readable e (s_files s) v) ;;
           if (ok : bool) then
             remove (fun argc argv => _ <- modify (fun s => set_path s (v :: s_path s)) ;; parse_loop e fuel' argc argv inf outf)
           else mlift (Throw ExnRuntime)
         else parse_loop e fuel' argc argv inf outf
       else mret (argc, argv, inf, outf)) s
  end.
(** 199-290: the new [argc] and the array *)
Definition ParseAndRemoveArguments (e : env) (fuel : nat) (argv : list str) : M (nat * list str) :=
  r <- parse_loop e fuel (length argv) argv None None ;;
  let '(argc, argv, inf, outf) := r in
  _ <- modify (fun s => match inf with Some v => set_in s v | None => s end) ;;
  _ <- modify (fun s => match outf with Some v => set_out s v | None => s end) ;;
  mret (argc, argv).

(** 301-315, first part: up to the return of [Test], which gets the remaining arguments *)
Definition main_body (e : env) (test : list str -> prog) (argv : list str) : M Z :=
  r <- ParseAndRemoveArguments e (S (length argv)) argv ;;
  let '(argc, argv) := r in
  _ <- BeginMeasurement e ;;
  run e (test (firstn argc argv)).
(** 292-345; the value returned *)
Definition Main (e : env) (test : list str -> prog) (argv : list str) : M Z := fun s =>
  let s := set_unmatched s (s_unmatched s + 1) in
  let finish (ret : Z) (s : rst) : rst * res Z :=
    if negb (ret =? s_expected s)%Z then (s, Ok ret)
    else (s, cm <-- compare_mode e s ;; Ok (if (cm : bool) then s_unmatched s else 0%Z)) in
  match main_body e test argv s with
  | (s, Ok ret) =>
      match EndMeasurement e s with
      | (s, Ok _) => finish ret (set_unmatched s (s_unmatched s - 1))
      | (s, Throw _) => finish ret s
      | (s, UB) => (s, UB) | (s, Abort) => (s, Abort) | (s, Hang) => (s, Hang)
      end
  | (s, Throw _) => finish (-1)%Z s
  | (s, UB) => (s, UB) | (s, Abort) => (s, Abort) | (s, Hang) => (s, Hang)
  end.
(** what the shell sees when [main] returns this value *)
Definition exit_status (ret : Z) : Z := (ret mod 256)%Z.

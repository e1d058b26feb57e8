(** Model of tests that read from GetInStream, /repo/TestingFramework/tfRegressionTest.h 200-204, tfRegressionTest.cpp 121-123.
    The streams are those of the standard library (ISO C++ [istream.unformatted], [string.io]): characters not yet extracted and two bits.  Standard input [stdin] is finite (redirected, or ended by
    the user); the driver itself takes nothing from it.  In a comparing run the stream is the baseline, which ReadXMLInput has read until a read fell short (761-766).
    Not modelled: clear(), seekg() and exceptions() of the stream by the test. *)
From Coq Require Import Floats.SpecFloat.
From Verif Require Import Base Str Dec MeasModel RegModel ItkModel ApiModel FullModel.

Record instream := Is { left : str; eof : bool; fail : bool }.
Definition good (i : instream) : bool := negb (eof i) && negb (fail i).
(** std::cin at the start of the program *)
Definition standard_input (text : str) : instream := Is text false false.
(** the baseline after 761-766: the last [read] met the end *)
Definition read_to_the_end : instream := Is [] true true.
Fixpoint cut_line (s : str) : str * option str :=
  match s with [] => ([], None) | c :: s' => if Ascii.eqb c nl then ([], Some s') else let '(l, r) := cut_line s' in (c :: l, r) end.
(** std::getline(stream, string): the string afterwards; [None]: it was not touched *)
Definition getline (i : instream) : option str * instream :=
  if good i then
    match cut_line (left i) with
    | (l, Some rest) => (Some l, Is rest false false)
    | (l, None) => (Some l, Is [] true (match l with [] => true | _ => false end))
    end
  else (None, Is (left i) (eof i) true).
(** stream.read(buffer, n): the gcount() characters *)
Definition read_chars (n : nat) (i : instream) : str * instream :=
  if good i then
    if length (left i) <? n then (left i, Is [] true true) else (firstn n (left i), Is (skipn n (left i)) false false)
  else ([], Is (left i) (eof i) true).

(** A test: as FullModel.fprog, and [RLine], [RRead]: std::getline(GetInStream(), s), GetInStream().read(buffer, n), with the bits eof and fail afterwards. *)
Inductive rprog :=
| RReturn (z : Z)
| RRaise (x : exn)
| RMeasure (c : call) (k : Z + exn -> rprog)
| RCompare (m : meas) (tolerant : bool) (k : Z + exn -> meas -> rprog)
| RPrint (text : str) (k : rprog)
| RSetRelativeTolerance (t : spec_float) (k : rprog)
| RSetExpectedReturn (z : Z) (k : rprog)
| RSetInFileName (name : str) (k : rprog)
| RSetOutFileName (name : str) (k : rprog)
| RSetInFileSearchPath (dirs : list str) (k : rprog)
| RPrependInFileSearchPath (dir : str) (k : rprog)
| RWriteFile (path bytes : str) (k : rprog)
| RLook (k : view -> rprog)
| RLine (k : option str -> bool -> bool -> rprog)
| RRead (n : nat) (k : str -> bool -> bool -> rprog).
(** [cin], [base]: std::cin and the stream [*is] *)
Fixpoint rrun (e : env) (p : rprog) (cin base : instream) : M Z :=
  match p with
  | RReturn z => mret z
  | RRaise x => mlift (Throw x)
  | RMeasure c k => r <- caught (Measure e c) ;; rrun e (k r) cin base
  | RCompare m tolerant k =>
      m' <- gets (fun s => object_after e s m tolerant) ;;
      r <- caught (CompareMeasurement e m tolerant) ;; rrun e (k r m') cin base
  | RPrint text k => _ <- print_out text ;; rrun e k cin base
  | RSetRelativeTolerance t k => _ <- modify (fun s => set_tol s t) ;; rrun e k cin base
  | RSetExpectedReturn z k => _ <- modify (fun s => set_expected s z) ;; rrun e k cin base
  | RSetInFileName n k => _ <- modify (fun s => set_in s n) ;; rrun e k cin base
  | RSetOutFileName n k => _ <- modify (fun s => set_out s n) ;; rrun e k cin base
  | RSetInFileSearchPath l k => _ <- modify (fun s => set_path s l) ;; rrun e k cin base
  | RPrependInFileSearchPath d k => _ <- modify (fun s => set_path s (d :: s_path s)) ;; rrun e k cin base
  | RWriteFile path b k => _ <- modify (fun s => set_files s (write_file e (s_files s) path b)) ;; rrun e k cin base
  | RLook k => v <- look_at e ;; rrun e (k v) cin base
  | RLine k =>
      is <- gets s_is ;;                                                                           (* 122 *)
      match is with
      | Some _ => let '(l, base') := getline base in rrun e (k l (eof base') (fail base')) cin base'
      | None => let '(l, cin') := getline cin in rrun e (k l (eof cin') (fail cin')) cin' base
      end
  | RRead n k =>
      is <- gets s_is ;;
      match is with
      | Some _ => let '(l, base') := read_chars n base in rrun e (k l (eof base') (fail base')) cin base'
      | None => let '(l, cin') := read_chars n cin in rrun e (k l (eof cin') (fail cin')) cin' base
      end
  end.
(** tfRegressionTest.cpp 292-345 *)
Definition in_Main (e : env) (stdin : str) (test : list str -> rprog) (argv : list str) : M Z :=
  Main_with e (fun args => rrun e (test args) (standard_input stdin) read_to_the_end) argv.

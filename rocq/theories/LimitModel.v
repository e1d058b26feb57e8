(** Model of the test driver on an output stream that fails: it takes a number of bytes (a full disk, a quota, a closed pipe) and, the error state of a C++ stream being kept, nothing
    more.  /repo/TestingFramework/tfRegressionTest.cpp never asks for the state of the stream after opening it.
    The definitions are those of RegModel with writing replaced; what does not write is used as it is ([lift]).
    The second part of the state is the number of bytes the stream ([GetOutStream()]) still takes. *)
From Coq Require Import Floats.SpecFloat.
From Verif Require Import Base Str Dec PathModel MeasModel DiffModel VisitModel ReadModel RegModel.

Definition LM (A : Type) : Type := rst * nat -> (rst * nat) * res A.
Definition lret {A} (a : A) : LM A := fun p => (p, Ok a).
Definition lbind {A B} (m : LM A) (k : A -> LM B) : LM B := fun p =>
  let '(p', r) := m p in
  match r with Ok a => k a p' | Throw e => (p', Throw e) | UB => (p', UB) | Abort => (p', Abort) | Hang => (p', Hang) end.
Notation "x <~ m ;; k" := (lbind m (fun x => k)) (at level 61, m at next level, right associativity).
(** a computation that does not write to the stream *)
Definition lift {A} (m : M A) : LM A := fun p => let '(s', r) := m (fst p) in ((s', snd p), r).
(** 117-119 *)
Definition lput (text : str) : LM unit := fun p => ((put_text (firstn (snd p) text) (fst p), snd p - length text), Ok tt).
Definition lput_meas (m : meas) : LM unit := t <~ lift (mlift (Print m)) ;; lput (t ++ [nl]).
(** 139-175 *)
Definition lBegin (e : env) : LM unit :=
  _ <~ lift (open_output e) ;;
  _ <~ lift (open_input e) ;;
  cm <~ lift (GetCompareMode e) ;;
  if (cm : bool) then lift (read_input e) else lput (header e).
(** 177-196, 787-792 *)
Definition lEnd (e : env) : LM unit :=
  cm <~ lift (GetCompareMode e) ;;
  _ <~ (if (cm : bool) then lift (modify (fun s => set_input s [])) else lput footer) ;;
  lift (modify (fun s => set_is (set_os s None) None)).
(** 347-351 *)
Definition lUnmatched (m : meas) : LM unit :=
  _ <~ lift (modify (fun s => set_unmatched s (s_unmatched s + 1))) ;;
  lput_meas (mset_name m ($"Unmatched " ++ mname m)).
(** 357-365 *)
Definition lDifference (e : env) (m baseline : meas) : LM unit :=
  _ <~ lift (modify (fun s => set_unmatched s (s_unmatched s + 1))) ;;
  text <~ lift (mlift (snd (Difference (e_sc e) (e_asserts e) (e_oob e) baseline m))) ;;
  lput text.
(** 372-434 *)
Definition lCompare (e : env) (m : meas) (tolerant : bool) : LM Z :=
  inp <~ lift (gets s_input) ;;
  match inp with
  | [] => _ <~ lUnmatched m ;; lret 1%Z
  | baseline :: rest =>
      _ <~ lift (modify (fun s => set_input s rest)) ;;
      if eqs (mname baseline) (mname m) && eqs (mtype baseline) (mtype m) then
        baseline <~ lift (fun s => (s, locate e s baseline m)) ;;
        out <~ lift (gets (fun s => Compare (e_sc e) (sources e (s_files s)) (e_io e) (visitor s tolerant) baseline m)) ;;
        let '(baseline, m, v) := out in
        same <~ lift (mlift v) ;;
        if (same : bool) then lret 1%Z
        else _ <~ lDifference e m baseline ;; lret 0%Z
      else _ <~ lUnmatched m ;; lret 1%Z
  end.
(** 441-584 *)
Definition lMeasure (e : env) (c : call) : LM Z :=
  cm <~ lift (GetCompareMode e) ;;
  if (cm : bool) then lCompare e (meas_of (e_io e) true c) (tolerant_of c)
  else _ <~ lput_meas (meas_of (e_io e) false c) ;; lret 0%Z.
Fixpoint lrun (e : env) (p : prog) : LM Z :=
  match p with
  | Return z => lret z
  | Raise x => lift (mlift (Throw x))
  | Call c k => r <~ lMeasure e c ;; lrun e (k r)
  | SetRelativeTolerance t k => _ <~ lift (modify (fun s => set_tol s t)) ;; lrun e k
  | SetExpectedReturn z k => _ <~ lift (modify (fun s => set_expected s z)) ;; lrun e k
  | WriteFile path b k => _ <~ lift (modify (fun s => set_files s (write_file e (s_files s) path b))) ;; lrun e k
  end.
(** 292-345 *)
Definition lmain_body (e : env) (test : list str -> prog) (argv : list str) : LM Z :=
  r <~ lift (ParseAndRemoveArguments e (S (length argv)) argv) ;;
  let '(argc, argv) := r in
  _ <~ lBegin e ;;
  lrun e (test (firstn argc argv)).
Definition lfinish (e : env) (ret : Z) (p : rst * nat) : (rst * nat) * res Z :=
  if negb (ret =? s_expected (fst p))%Z then (p, Ok ret)
  else (p, cm <-- compare_mode e (fst p) ;; Ok (if (cm : bool) then s_unmatched (fst p) else 0%Z)).
Definition limited_Main (e : env) (test : list str -> prog) (argv : list str) : LM Z := fun p =>
  match lmain_body e test argv (set_unmatched (fst p) (s_unmatched (fst p) + 1), snd p) with
  | (p, Ok ret) =>
      match lEnd e p with
      | (p, Ok _) => lfinish e ret (set_unmatched (fst p) (s_unmatched (fst p) - 1), snd p)
      | (p, Throw _) => lfinish e ret p
      | (p, UB) => (p, UB) | (p, Abort) => (p, Abort) | (p, Hang) => (p, Hang)
      end
  | (p, Throw _) => lfinish e (-1)%Z p
  | (p, UB) => (p, UB) | (p, Abort) => (p, Abort) | (p, Hang) => (p, Hang)
  end.

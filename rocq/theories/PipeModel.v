(** Model of /repo/TestingFramework/tfPipeToXML.cxx 9-102 in full: the array it allocates, the object of the process library, its messages; ItkModel.tfPipeToXML is the same program
    without them (C85_same_program).  The process library (itksysProcess, not part of the repository) is described by what its functions are documented to do.
    Simplifications: those of ErrModel; addresses are never used again; the strings of the command are values; what the library does without a command is [launch []]. *)
From Coq Require Import Floats.SpecFloat.
From Verif Require Import Base Str Dec PathModel MeasModel VisitModel RegModel ImgModel ItkModel ErrModel.

(** itksysProcess_State_*: how the process stands after the wait *)
Inductive fate := Starting | Executing | Expired | Exit (value : Z) | Killed | Exception (text : str) | Disowned | Error (text : str).
(** What the library gives for a command: the chunks of data, each from one of the two streams, and the state afterwards; [None]: the streams are never closed. *)
Record process := Process { pr_chunks : list (bool * str); pr_fate : option fate }.

(** * Memory *)
(** an array of pointers ([None]: never written; [Some None]: the null pointer), a process object with its command, the chunks not yet delivered and the final state, once it runs *)
Inductive block := Array (cells : list (option (option str))) | Proc (command : option (list str)) (running : option process).
Record pst := Pst { p_x : xst; p_next : nat; p_mem : list (nat * block) }.
Definition P (A : Type) : Type := pst -> pst * res A.
Definition pret {A} (a : A) : P A := fun p => (p, Ok a).
Definition pbind {A B} (m : P A) (k : A -> P B) : P B := fun p =>
  let '(p', r) := m p in
  match r with Ok a => k a p' | Throw e => (p', Throw e) | UB => (p', UB) | Abort => (p', Abort) | Hang => (p', Hang) end.
Notation "x <* m ;; k" := (pbind m (fun x => k)) (at level 61, m at next level, right associativity).
Definition lift {A} (m : X A) : P A := fun p => let '(x, r) := m (p_x p) in (Pst x (p_next p) (p_mem p), r).
Definition fail {A} (r : res A) : P A := fun p => (p, r).
Fixpoint block_at (a : nat) (mem : list (nat * block)) : option block :=
  match mem with [] => None | (b, c) :: l => if b =? a then Some c else block_at a l end.
Fixpoint put_block (a : nat) (c : block) (mem : list (nat * block)) : list (nat * block) :=
  match mem with [] => [] | (b, d) :: l => if b =? a then (b, c) :: l else (b, d) :: put_block a c l end.
Definition remove_block (a : nat) (mem : list (nat * block)) : list (nat * block) := List.filter (fun b => negb (fst b =? a)) mem.
(** new: never fails *)
Definition alloc (c : block) : P nat := fun p => (Pst (p_x p) (S (p_next p)) ((p_next p, c) :: p_mem p), Ok (p_next p)).
(** a store to [array[i]] *)
Definition store_at (a : nat) (i : Z) (v : option str) : P unit := fun p =>
  match block_at a (p_mem p) with
  | Some (Array cells) => if ((0 <=? i) && (i <? Z.of_nat (length cells)))%Z
      then (Pst (p_x p) (p_next p) (put_block a (Array (firstn (Z.to_nat i) cells ++ Some v :: skipn (S (Z.to_nat i)) cells)) (p_mem p)), Ok tt) else (p, UB)
  | _ => (p, UB)
  end.

(** * The process library *)
Fixpoint strings (cells : list (option (option str))) : option (list str) :=
  match cells with
  | Some (Some s) :: l => match strings l with Some t => Some (s :: t) | None => None end
  | Some None :: _ => Some []
  | _ => None                          (* an element never written, or the end of the array *)
  end.
(** itksysProcess_SetCommand: reads up to the null pointer *)
Definition set_command (k a : nat) : P unit := fun p =>
  match block_at k (p_mem p), block_at a (p_mem p) with
  | Some (Proc _ _), Some (Array cells) => match strings cells with Some l => (Pst (p_x p) (p_next p) (put_block k (Proc (Some l) None) (p_mem p)), Ok tt) | None => (p, UB) end
  | _, _ => (p, UB)
  end.
(** itksysProcess_Execute *)
Definition execute (launch : list str -> process) (k : nat) : P unit := fun p =>
  match block_at k (p_mem p) with
  | Some (Proc (Some l) None) => (Pst (p_x p) (p_next p) (put_block k (Proc (Some l) (Some (launch l))) (p_mem p)), Ok tt)
  | _ => (p, UB)
  end.
(** itksysProcess_WaitForData without timeout: the next chunk, or none when both streams are closed *)
Definition wait_data (k : nat) : P (option str) := fun p =>
  match block_at k (p_mem p) with
  | Some (Proc c (Some (Process ((_, d) :: l) f))) => (Pst (p_x p) (p_next p) (put_block k (Proc c (Some (Process l f))) (p_mem p)), Ok (Some d))
  | Some (Proc c (Some (Process [] (Some _)))) => (p, Ok None)
  | Some (Proc c (Some (Process [] None))) => (p, Hang)
  | _ => (p, UB)
  end.
(** itksysProcess_WaitForExit without timeout, itksysProcess_GetState *)
Definition wait_exit (k : nat) : P unit := fun p => match block_at k (p_mem p) with Some (Proc _ (Some (Process _ (Some _)))) => (p, Ok tt) | Some (Proc _ (Some _)) => (p, Hang) | _ => (p, UB) end.
Definition get_state (k : nat) : P fate := fun p => match block_at k (p_mem p) with Some (Proc _ (Some (Process _ (Some f)))) => (p, Ok f) | _ => (p, UB) end.
(** itksysProcess_Delete *)
Definition delete (k : nat) : P unit := fun p => match block_at k (p_mem p) with Some (Proc _ _) => (Pst (p_x p) (p_next p) (remove_block k (p_mem p)), Ok tt) | _ => (p, UB) end.

(** * The program *)
(** 24-30: [args] are [argv[i]], [argv[i+1]], ... *)
Fixpoint command_loop (cmd : nat) (i : Z) (args : list str) : P unit :=
  match args with
  | [] => pret tt
  | a :: l => _ <* store_at cmd (i - 1) (Some a) ;; _ <* lift (quiet (ItkModel.say ((if (i =? 1)%Z then [] else $" ") ++ a))) ;; command_loop cmd (i + 1)%Z l
  end.
(** 47-50; the fuel is for the chunks and the end *)
Fixpoint data_loop (fuel k : nat) (outputString : str) : P str :=
  match fuel with
  | 0 => fail Hang
  | S fuel' => d <* wait_data k ;; match d with Some data => data_loop fuel' k (outputString ++ data) | None => pret outputString end
  end.
(** 56-83 *)
Definition fate_says (f : fate) : list msg :=
  let line t := [Written (t ++ [nl])] in
  match f with
  | Starting => line ($"No process has been executed.")
  | Executing => line ($"The process is still executing.")
  | Expired => line ($"Child was killed when timeout expired.")
  | Exit _ => []
  | Killed => line ($"Child was killed by parent.")
  | Exception t => line ($"Child terminated abnormally: " ++ t)
  | Disowned => line ($"Child was disowned.")
  | Error t => line ($"Error in administrating child process: [" ++ t ++ $"]")
  end.
Definition value_of (f : fate) : Z := match f with Exit v => v | _ => -1 end%Z.
(** 17-89; [args]: the [argc] arguments *)
Definition p_Test (launch : list str -> process) (dir : bool) (e : env) (args : list str) : P Z :=
  let argc := length args in
  _ <* lift (quiet (ItkModel.say ($"Redirecting output from: " ++ quote))) ;;
  cmd <* alloc (Array (repeat None argc)) ;;
  _ <* command_loop cmd 1%Z (tl args) ;;
  _ <* store_at cmd (Z.of_nat argc - 1) None ;;
  _ <* lift (quiet (ItkModel.say (quote ++ [nl]))) ;;
  kp <* alloc (Proc None None) ;;
  _ <* set_command kp cmd ;;
  _ <* execute launch kp ;;
  n <* (fun p => (p, match block_at kp (p_mem p) with Some (Proc _ (Some q)) => Ok (S (length (pr_chunks q))) | _ => UB end)) ;;   (* the fuel, not part of the program *)
  outputString <* data_loop n kp [] ;;
  _ <* wait_exit kp ;;
  _ <* lift (x_Measure dir e (TextPlain outputString ($"stdout"))) ;;
  f <* get_state kp ;;
  _ <* lift (say (fun _ => fate_says f)) ;;
  _ <* delete kp ;;
  pret (value_of f).
(** tfRegressionTest.cpp 292-345, as ErrModel.x_Main *)
Definition p_body (launch : list str -> process) (dir : bool) (e : env) (argv : list str) : P Z :=
  q <* lift (x_Parse e (S (length argv)) argv) ;;
  let '(argc, argv) := q in
  _ <* lift (x_Begin e) ;;
  p_Test launch dir e (firstn argc argv).
Definition p_Main (launch : list str -> process) (dir : bool) (e : env) (argv : list str) : P Z := fun p =>
  let with_x x := Pst x (p_next p) (p_mem p) in
  let p := with_x (Xst (set_unmatched (x_s (p_x p)) (s_unmatched (x_s (p_x p)) + 1)) (x_err (p_x p)) None) in
  let finish (ret : Z) (x : xst) (p : pst) : pst * res Z :=
    let p := Pst x (p_next p) (p_mem p) in
    if negb (ret =? s_expected (x_s x))%Z then (p, Ok ret)
    else (p, cm <-- compare_mode e (x_s x) ;; Ok (if (cm : bool) then s_unmatched (x_s x) else 0%Z)) in
  match p_body launch dir e argv p with
  | (p, Ok ret) =>
      match quiet (EndMeasurement e) (p_x p) with
      | (x, Ok _) => finish ret (Xst (set_unmatched (x_s x) (s_unmatched (x_s x) - 1)) (x_err x) (x_what x)) p
      | (x, Throw ex) => finish ret (ErrModel.report ex x) p
      | (x, UB) => (Pst x (p_next p) (p_mem p), UB) | (x, Abort) => (Pst x (p_next p) (p_mem p), Abort) | (x, Hang) => (Pst x (p_next p) (p_mem p), Hang)
      end
  | (p, Throw ex) => finish (-1)%Z (ErrModel.report ex (p_x p)) p
  | (p, UB) => (p, UB) | (p, Abort) => (p, Abort) | (p, Hang) => (p, Hang)
  end.
(** 95-101: one object, one run; nothing is allocated before *)
Definition pipe_run (launch : list str -> process) (dir : bool) (e : env) (f : store) (argv : list str) : pst * res Z :=
  p_Main launch dir e argv (Pst (Xst (new_test f) [] None) 0 []).

(** Vocabulary of the statements about the test driver. *)
From Coq Require Import Floats.SpecFloat.
From Verif Require Import Base Str Dec PathModel MeasModel XmlModel ReadModel RegModel.

(** * Recording: every measurement returns 0 *)
(** the measurements a test makes, and how it ends, when every measurement returns 0 *)
Fixpoint recorded (p : prog) : list call :=
  match p with
  | Call c k => c :: recorded (k 0%Z)
  | SetRelativeTolerance _ k | SetExpectedReturn _ k | WriteFile _ _ k => recorded k
  | _ => []
  end.
Fixpoint ends (p : prog) : res Z :=
  match p with
  | Return z => Ok z
  | Raise x => Throw x
  | Call c k => ends (k 0%Z)
  | SetRelativeTolerance _ k | SetExpectedReturn _ k | WriteFile _ _ k => ends k
  end.
(** the expected return value when the test ends *)
Fixpoint expects (ex : Z) (p : prog) : Z :=
  match p with
  | Call c k => expects ex (k 0%Z)
  | SetExpectedReturn z k => expects z k
  | SetRelativeTolerance _ k | WriteFile _ _ k => expects ex k
  | _ => ex
  end.
(** the test does not itself write the file with identity [o] *)
Fixpoint leaves_alone (e : env) (o : option str) (p : prog) : Prop :=
  match p with
  | Call c k => forall r, leaves_alone e o (k r)
  | WriteFile path _ k => (slot e path = None \/ slot e path <> o) /\ leaves_alone e o k
  | SetRelativeTolerance _ k | SetExpectedReturn _ k => leaves_alone e o k
  | _ => True
  end.

(** where the output goes, and what has been written so far *)
Definition output (s : rst) : str :=
  match s_os s with
  | None => s_stdout s
  | Some k => match s_files s k with Some (FFile _ _ b) => b | _ => [] end
  end.
Definition output_ready (s : rst) : Prop :=
  match s_os s with None => True | Some k => exists r w b, s_files s k = Some (FFile r w b) end.

(** * Starting *)
(** opening the output file (none: standard output): its identity and the files afterwards *)
Definition opened (e : env) (f : store) (out : str) : option (option str * store) :=
  match out with
  | [] => Some (None, f)
  | _ => match slot e out with
         | None => None
         | Some k =>
             match f k with
             | Some (FFile r true _) => Some (Some k, upd f k (Some (FFile r true [])))
             | Some _ => None
             | None => if e_cancreate e (cstr out) then Some (Some k, upd f k (Some (FFile true true []))) else None
             end
         end
  end.
(** the path under which the baseline is opened *)
Definition baseline_path (e : env) (f : store) (dirs : list str) (inf : str) : str :=
  match SearchPathList (is_file e f) inf dirs with Ok (c :: p) => c :: p | _ => inf end.
(** output file opened, then baseline opened and read *)
Definition started (e : env) (f : store) (out : str) (dirs : list str) (inf : str) : option (option str * store * list meas) :=
  match opened e f out with
  | None => None
  | Some (o, f1) =>
      match contents e f1 (baseline_path e f1 dirs inf) with
      | None => None
      | Some bytes => match ReadXMLInput (e_asserts e) (e_ext e) bytes with Ok l => Some (o, f1, l) | _ => None end
      end
  end.
(** the value [Main] returns in compare mode: test outcome, expected value, number of mismatches *)
Definition status (out : res Z) (expected n : Z) : Z :=
  match out with
  | Ok r => if (r =? expected)%Z then n else r
  | _ => if (-1 =? expected)%Z then (n + 1)%Z else (-1)%Z
  end.

(** * Comparing *)
(** A measurement call with the tolerance and the file contents at that time. *)
Definition moment : Type := call * spec_float * store.
Definition same_but (o : option str) (f f' : store) : Prop := forall k, o <> Some k -> f' k = f k.

(** How a test unfolds: the calls it makes given the results [rs] they return, its end, and the expected return value
    before and after.  Between two steps only the framework's own output file [o] may change.  The last rule: the
    measurement raised an exception, it has no result. *)
Inductive unfolds (e : env) (o : option str) : spec_float -> store -> Z -> prog -> list moment -> list Z -> Z -> res Z -> Prop :=
| u_return t f x z : unfolds e o t f x (Return z) [] [] x (Ok z)
| u_raise t f x i : unfolds e o t f x (Raise i) [] [] x (Throw i)
| u_call t f f' x c k r ms rs x' out : same_but o f f' ->
    unfolds e o t f' x (k r) ms rs x' out -> unfolds e o t f x (Call c k) ((c, t, f) :: ms) (r :: rs) x' out
| u_tol t t' f x k ms rs x' out : unfolds e o t' f x k ms rs x' out -> unfolds e o t f x (SetRelativeTolerance t' k) ms rs x' out
| u_exp t f x x1 k ms rs x' out : unfolds e o t f x1 k ms rs x' out -> unfolds e o t f x (SetExpectedReturn x1 k) ms rs x' out
| u_write t f x path b k ms rs x' out : unfolds e o t (write_file e f path b) x k ms rs x' out ->
    unfolds e o t f x (WriteFile path b k) ms rs x' out
| u_stop t f x c k i : unfolds e o t f x (Call c k) [(c, t, f)] [] x (Throw i).

(** the baseline measurement with its file found in the search directories, if the measurement is one of a file too *)
Definition found (e : env) (path : list str) (f : store) (b m : meas) : meas :=
  match b, m with
  | MF g, MF _ => match SearchPathList (is_file e f) (Tail (ffile g)) path with
                  | Ok (c :: p) => MF (Mf (fname g) (fesc g) (ftype g) (c :: p))
                  | _ => b
                  end
  | _, _ => b
  end.
Definition same_kind (b m : meas) : bool := eqs (mname b) (mname m) && eqs (mtype b) (mtype m).
Definition verdict (e : env) (path : list str) (b : meas) (mo : moment) : res bool :=
  let '(c, t, f) := mo in
  let m := meas_of (e_io e) true c in
  snd (Compare (e_sc e) (sources e f) (e_io e) (if tolerant_of c then SetTolerance new_cmp t else new_cmp) (found e path f b m) m).
Definition same_value (e : env) (path : list str) (b : meas) (mo : moment) : bool :=
  match verdict e path b mo with Ok true => true | _ => false end.
Definition kind_of_moment (e : env) (b : meas) (mo : moment) : bool := same_kind b (meas_of (e_io e) true (fst (fst mo))).
(** number of measurements that have no equal partner at their position in the baseline *)
Fixpoint mismatches (e : env) (path : list str) (bs : list meas) (ms : list moment) : Z :=
  match ms with
  | [] => 0%Z
  | mo :: ms' =>
      ((match bs with b :: _ => if kind_of_moment e b mo && same_value e path b mo then 0 else 1 | [] => 1 end)
       + mismatches e path (tl bs) ms')%Z
  end.
(** what the measurement functions return: 0 if the partner has the same name and type but not the same value, else 1 *)
Fixpoint results (e : env) (path : list str) (bs : list meas) (ms : list moment) : list Z :=
  match ms with
  | [] => []
  | mo :: ms' =>
      (match bs with b :: _ => if kind_of_moment e b mo && negb (same_value e path b mo) then 0%Z else 1%Z | [] => 1%Z end)
       :: results e path (tl bs) ms'
  end.

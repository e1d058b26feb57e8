(** Vocabulary of the statements about tests that ask the driver and set its file names. *)
From Coq Require Import Floats.SpecFloat.
From Verif Require Import Base Str Dec PathModel MeasModel VisitModel RegModel RegSpec ApiModel.

(** How such a test unfolds against a baseline, cf. RegSpec.unfolds: [inf], [outf] are the file names set, before and after.  What it sees is determined. *)
Inductive aunfolds (e : env) (o : option str) (dirs : list str)
  : spec_float -> store -> Z -> str -> str -> aprog -> list moment -> list Z -> Z -> str -> str -> res Z -> Prop :=
| au_return t f x i n z : aunfolds e o dirs t f x i n (AReturn z) [] [] x i n (Ok z)
| au_raise t f x i n ex : aunfolds e o dirs t f x i n (ARaise ex) [] [] x i n (Throw ex)
| au_call t f f' x i n c k r ms rs x' i' n' out : same_but o f f' ->
    aunfolds e o dirs t f' x i n (k r) ms rs x' i' n' out -> aunfolds e o dirs t f x i n (ACall c k) ((c, t, f) :: ms) (r :: rs) x' i' n' out
| au_tol t t' f x i n k ms rs x' i' n' out : aunfolds e o dirs t' f x i n k ms rs x' i' n' out ->
    aunfolds e o dirs t f x i n (ASetRelativeTolerance t' k) ms rs x' i' n' out
| au_exp t f x x1 i n k ms rs x' i' n' out : aunfolds e o dirs t f x1 i n k ms rs x' i' n' out ->
    aunfolds e o dirs t f x i n (ASetExpectedReturn x1 k) ms rs x' i' n' out
| au_write t f x i n path b k ms rs x' i' n' out : aunfolds e o dirs t (write_file e f path b) x i n k ms rs x' i' n' out ->
    aunfolds e o dirs t f x i n (AWriteFile path b k) ms rs x' i' n' out
| au_look t f x i n k ms rs x' i' n' out : aunfolds e o dirs t f x i n (k (View true x t i n dirs (node_at e f))) ms rs x' i' n' out ->
    aunfolds e o dirs t f x i n (ALook k) ms rs x' i' n' out
| au_in t f x i n i1 k ms rs x' i' n' out : aunfolds e o dirs t f x i1 n k ms rs x' i' n' out ->
    aunfolds e o dirs t f x i n (ASetInFileName i1 k) ms rs x' i' n' out
| au_out t f x i n n1 k ms rs x' i' n' out : aunfolds e o dirs t f x i n1 k ms rs x' i' n' out ->
    aunfolds e o dirs t f x i n (ASetOutFileName n1 k) ms rs x' i' n' out
| au_stop t f x i n c k ex : aunfolds e o dirs t f x i n (ACall c k) [(c, t, f)] [] x i n (Throw ex).

(** a readable file is found under this baseline name *)
Definition names_baseline (e : env) (f : store) (dirs : list str) (inf : str) : bool :=
  match inf with
  | [] => false
  | _ => let p := baseline_path e f dirs inf in is_file e f p && is_readable e f p
  end.
(** the value returned; [named]: a baseline can still be found under the name set at the end *)
Definition astatus (named : bool) (out : res Z) (expected n : Z) : Z :=
  match out with
  | Ok r => if (r =? expected)%Z then (if named then n else 0%Z) else r
  | _ => status out expected n
  end.
(** the same test, told that it is [b] that a comparison is made *)
Fixpoint told (b : bool) (p : aprog) : aprog :=
  match p with
  | AReturn z => AReturn z
  | ARaise x => ARaise x
  | ACall c k => ACall c (fun r => told b (k r))
  | ASetRelativeTolerance t k => ASetRelativeTolerance t (told b k)
  | ASetExpectedReturn z k => ASetExpectedReturn z (told b k)
  | AWriteFile path bytes k => AWriteFile path bytes (told b k)
  | ALook k => ALook (fun v => told b (k (View b (v_expected v) (v_tol v) (v_in v) (v_out v) (v_path v) (v_file v))))
  | ASetInFileName n k => ASetInFileName n (told b k)
  | ASetOutFileName n k => ASetOutFileName n (told b k)
  end.

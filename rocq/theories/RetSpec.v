(** What a comparison needs in order to come to an end: the vocabulary of property C90. *)
From Coq Require Import Floats.SpecFloat.
From Verif Require Import Base Str Dec PathModel MeasModel DiffModel VisitModel DiffSpec DiffProps RegModel RegSpec.
Local Open Scope Z_scope.

(** A computation that gives a value. *)
Definition defined {A} (r : res A) : Prop := exists v, r = Ok v.
(** The measurement call [c] can be compared with the baseline [b] of its name and type:
    - data of the baseline is not declared as base64;
    - the text of the baseline is a number, if the call asks for a tolerant comparison; for integers the two numbers and their difference are
      values of [int] other than the least; for floating point also the text of the measured number can be read back;
    - for plain text, the two texts have together fewer than 2^31 - 8 lines, no two different ones with the same hash value, and the read past the lines that the
      difference can make (C30) gives some value. *)
Definition harmless (e : env) (b : meas) (c : call) : Prop :=
  match b with
  | MD d =>
      denc d <> $"base64" /\
      match c with
      | NumericInteger i _ true =>
          exists v, int_GetValue d = Ok v /\ let w := wrap32 i in -2147483648 < v /\ -2147483648 < w /\ -2147483648 < v - w <= 2147483647
      | NumericFloat x _ true => defined (read32 (e_io e) (dcontent d)) /\ defined (read32 (e_io e) (print32 (e_io e) x))
      | NumericDouble x _ true => defined (read64 (e_io e) (dcontent d)) /\ defined (read64 (e_io e) (print64 (e_io e) x))
      | NumericBoolean _ _ true => defined (bool_GetValue d)
      | _ => True
      end
  | MF _ => True
  end /\
  match c with
  | TextPlain t _ => (exists g, e_oob e = Some g) /\ small (mcontent b) t /\ distinct_hashes (e_sc e) (mcontent b) t
  | _ => True
  end.
(** every call the test can make, against every measurement of the baseline that has its name and type *)
Fixpoint can_be_compared (e : env) (baseline : list meas) (p : prog) : Prop :=
  match p with
  | Call c k => (forall b, In b baseline -> same_kind b (meas_of (e_io e) true c) = true -> harmless e b c) /\ forall r, can_be_compared e baseline (k r)
  | SetRelativeTolerance _ k | SetExpectedReturn _ k | WriteFile _ _ k => can_be_compared e baseline k
  | _ => True
  end.

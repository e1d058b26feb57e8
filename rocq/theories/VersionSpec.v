(** What it means that a measurement of a new version agrees or disagrees with the one an old version recorded (C69), in terms of the values
    given to the measurement functions. *)
From Coq Require Import Reals Floats.SpecFloat.
From Flocq Require Import Core.
From Verif Require Import Base Str Dec FloatFacts NumSpec MeasModel RegModel.
Local Open Scope Z_scope.

(** the measurements a test makes, each with the tolerance in force, when every measurement returns 0 *)
Fixpoint timed (t : spec_float) (p : prog) : list (call * spec_float) :=
  match p with
  | Call c k => (c, t) :: timed t (k 0)
  | SetRelativeTolerance t' k => timed t' k
  | SetExpectedReturn _ k | WriteFile _ _ k => timed t k
  | Return _ | Raise _ => []
  end.
(** the same measurement function with the same name *)
Inductive alike : call -> call -> Prop :=
| like_string s s' n : alike (TextString s n) (TextString s' n)
| like_plain s s' n : alike (TextPlain s n) (TextPlain s' n)
| like_int i i' n a b : alike (NumericInteger i n a) (NumericInteger i' n b)
| like_float x x' n a b : alike (NumericFloat x n a) (NumericFloat x' n b)
| like_double x x' n a b : alike (NumericDouble x n a) (NumericDouble x' n b)
| like_bool v v' n a b : alike (NumericBoolean v n a) (NumericBoolean v' n b).

(** the comparison uses the tolerance: it was asked for and is not zero *)
Definition tolerance_used (asked : bool) (t : spec_float) : Prop := asked = true /\ rv t <> 0%R.
(** the larger absolute value *)
Definition size (x y : R) : R := Rmax (Rabs x) (Rabs y).
(** what rounding can do: one part in [10^14] for double, in [10^5] for float, and a tiny absolute number *)
Definition slack64 (t M : R) : R := (ten (-14) * (1 + t) * M + 10 * (1 + t) * bpow radix2 (-1075))%R.
Definition slack32 (t M : R) : R := (ten (-5) * (1 + t) * M + 10 * (1 + t) * bpow radix2 (-150))%R.

(** [agrees c (c', t)]: recorded by [c], now measured by [c'] with the tolerance [t], and certainly accepted *)
Inductive agrees : call -> call * spec_float -> Prop :=
| agree_string s n t : agrees (TextString s n) (TextString s n, t)
| agree_plain s n t : agrees (TextPlain s n) (TextPlain s n, t)
| agree_bool v n a b t : agrees (NumericBoolean v n a) (NumericBoolean v n b, t)
| agree_int i j n a b t : ~ tolerance_used b t -> wrap32 i = wrap32 j -> agrees (NumericInteger i n a) (NumericInteger j n b, t)
| agree_int_near i j n a b t : tolerance_used b t -> let l := wrap32 i in let r := wrap32 j in
    -2147483648 < l -> -2147483648 < r -> -2147483648 < l - r < 2147483648 ->
    (Rabs (IZR l - IZR r) <= Rabs (rv t) * size (IZR l) (IZR r))%R -> agrees (NumericInteger i n a) (NumericInteger j n b, t)
| agree_double x n a b t : ~ tolerance_used b t -> agrees (NumericDouble x n a) (NumericDouble x n b, t)
| agree_double_near x y n a b t : tolerance_used b t -> double_number x -> double_number y ->
    let T := Rabs (rv t) in let M := size (rv x) (rv y) in (M <= bpow radix2 1022)%R ->
    (Rabs (rv x - rv y) + slack64 T M <= T * M)%R \/ (M < bpow radix2 (-53))%R -> agrees (NumericDouble x n a) (NumericDouble y n b, t)
| agree_float x n a b t : ~ tolerance_used b t -> agrees (NumericFloat x n a) (NumericFloat x n b, t)
| agree_float_near x y n a b t : tolerance_used b t -> float_number x -> float_number y ->
    let T := Rabs (rv t) in let M := size (rv x) (rv y) in (M <= bpow radix2 126)%R ->
    (Rabs (rv x - rv y) + slack32 T M <= T * M)%R \/ (M < bpow radix2 (-24))%R -> agrees (NumericFloat x n a) (NumericFloat y n b, t).

(** ... and certainly rejected *)
Inductive disagrees : call -> call * spec_float -> Prop :=
| dis_alike c c' t : ~ alike c c' -> disagrees c (c', t)
| dis_string s s' n t : s <> s' -> disagrees (TextString s n) (TextString s' n, t)
| dis_plain s s' n t : s <> s' -> disagrees (TextPlain s n) (TextPlain s' n, t)
| dis_bool v v' n a b t : v <> v' -> disagrees (NumericBoolean v n a) (NumericBoolean v' n b, t)
| dis_int i j n a b t : ~ tolerance_used b t -> wrap32 i <> wrap32 j -> disagrees (NumericInteger i n a) (NumericInteger j n b, t)
| dis_int_far i j n a b t : tolerance_used b t -> let l := wrap32 i in let r := wrap32 j in
    (Rabs (rv t) * size (IZR l) (IZR r) * (1 + bpow radix2 (-53)) + bpow radix2 (-1075) < Rabs (IZR l - IZR r))%R ->
    disagrees (NumericInteger i n a) (NumericInteger j n b, t)
| dis_double x y n a b t : ~ tolerance_used b t -> double_number x -> double_number y ->
    (ten (-15) * size (rv x) (rv y) < Rabs (rv x - rv y))%R -> disagrees (NumericDouble x n a) (NumericDouble y n b, t)
| dis_double_far x y n a b t : tolerance_used b t -> double_number x -> double_number y ->
    let T := Rabs (rv t) in let M := size (rv x) (rv y) in (bpow radix2 (-51) <= M <= bpow radix2 1022)%R ->
    (T * M + slack64 T M < Rabs (rv x - rv y))%R -> disagrees (NumericDouble x n a) (NumericDouble y n b, t)
| dis_float x y n a b t : ~ tolerance_used b t -> float_number x -> float_number y ->
    (ten (-6) * size (rv x) (rv y) < Rabs (rv x - rv y))%R -> disagrees (NumericFloat x n a) (NumericFloat y n b, t)
| dis_float_far x y n a b t : tolerance_used b t -> float_number x -> float_number y ->
    let T := Rabs (rv t) in let M := size (rv x) (rv y) in (bpow radix2 (-22) <= M <= bpow radix2 126)%R ->
    (T * M + slack32 T M < Rabs (rv x - rv y))%R -> disagrees (NumericFloat x n a) (NumericFloat y n b, t).

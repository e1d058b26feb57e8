(** Decimal text of floating point numbers: what [ostream << double] writes after [precision(P)] (tfMeasurement.cpp 561-566, 579-584: 7 for [float],
    16 for [double]) and what [istream >> double] reads (554-559, 572-577), in the "C" locale with default flags.  These are C++ library functions,
    modelled after libstdc++ and glibc ([num_put] is [printf("%.*g")], [num_get] collects the characters for [strtod] and [strtof], all rounding
    correctly); the code base only calls them.  [std_io] is an instance of the parameter [numio] of MeasModel. *)
From Coq Require Import Floats.SpecFloat.
From Verif Require Import Base Str Dec MeasModel.
Local Open Scope Z_scope.

(** * Writing *)
(** [m * 2^e] as a fraction *)
Definition frac (m : positive) (e : Z) : Z * Z := if 0 <=? e then (Zpos m * 2 ^ e, 1) else (Zpos m, 2 ^ (- e)).
Definition ndigits (n : Z) : Z := Z.of_nat (length (dec_of_nonneg n)).
(** [a/b = n/d * 10^k] *)
Definition scaled (n d k : Z) : Z * Z := if 0 <=? k then (n * 10 ^ k, d) else (n, d * 10 ^ (- k)).
(** the decimal exponent: [10^X <= n/d < 10^(X+1)] *)
Definition exp10 (n d : Z) : Z :=
  let k := ndigits n - ndigits d in
  let '(a, b) := scaled n d (- k) in if b <=? a then k else k - 1.
(** [a/b] rounded to the nearest integer, to the even one of two *)
Definition div_even (a b : Z) : Z :=
  let q := a / b in let r := a mod b in
  match 2 * r ?= b with Lt => q | Gt => q + 1 | Eq => if Z.even q then q else q + 1 end.
(** [P] significant digits: the number [D], of [P] digits, and the exponent of the first of them *)
Definition significant (P : Z) (m : positive) (e : Z) : Z * Z :=
  let '(n, d) := frac m e in
  let X := exp10 n d in
  let '(a, b) := scaled n d (P - 1 - X) in
  let D := div_even a b in
  if D =? 10 ^ P then (10 ^ (P - 1), X + 1) else (D, X).
(** "%g" leaves out trailing zeros *)
Fixpoint strip (fuel : nat) (D : Z) : Z :=
  match fuel with O => D | S f => if D mod 10 =? 0 then strip f (D / 10) else D end.
Definition zeros (k : Z) : str := repeat "0"%char (Z.to_nat k).
Definition exponent (X : Z) : str :=
  (if X <? 0 then $"e-" else $"e+") ++ (if Z.abs X <? 10 then $"0" else []) ++ dec_of_nonneg (Z.abs X).
Definition layout (P D X : Z) : str :=
  let ds := dec_of_nonneg (strip (Z.to_nat P) D) in
  if (X <? -4) || (P <=? X) then
    match ds with
    | [] => []
    | d :: r => d :: (match r with [] => [] | _ => "."%char :: r end) ++ exponent X
    end
  else if 0 <=? X then
    if Z.of_nat (length ds) <=? X + 1 then ds ++ zeros (X + 1 - Z.of_nat (length ds))
    else firstn (Z.to_nat (X + 1)) ds ++ "."%char :: skipn (Z.to_nat (X + 1)) ds
  else $"0." ++ zeros (- X - 1) ++ ds.
Definition print_g (P : Z) (x : spec_float) : str :=
  match x with
  | S754_nan => $"nan"
  | S754_infinity s => (if s then $"-" else []) ++ $"inf"
  | S754_zero s => (if s then $"-" else []) ++ $"0"
  | S754_finite s m e => (if s then $"-" else []) ++ let '(D, X) := significant P m e in layout P D X
  end.

(** * Reading *)
Definition sign_of (s : str) : bool * str :=
  match s with
  | c :: r => if eqc c "-" then (true, r) else if eqc c "+" then (false, r) else (false, s)
  | [] => (false, s)
  end.
(** the number at the beginning: sign, digits [D] and exponent [k], meaning [D * 10^k]; [None]: there is none, or it breaks off after the "e" *)
Definition scan (s : str) : option (bool * Z * Z) :=
  let '(neg, r) := sign_of s in
  let i := digit_prefix r in
  let r1 := skipn (length i) r in
  let '(f, r2) := match r1 with
                  | c :: r' => if eqc c "." then (digit_prefix r', skipn (length (digit_prefix r')) r') else ([], r1)
                  | [] => ([], r1)
                  end in
  match i ++ f with
  | [] => None
  | ds =>
      let D := digits_value 0 ds in let p := Z.of_nat (length f) in
      match r2 with
      | c :: r3 =>
          if eqc c "e" || eqc c "E" then
            let '(eneg, r4) := sign_of r3 in
            match digit_prefix r4 with
            | [] => None
            | es => Some (neg, D, (if eneg then - digits_value 0 es else digits_value 0 es) - p)
            end
          else Some (neg, D, - p)
      | [] => Some (neg, D, - p)
      end
  end.
(** the largest finite number *)
Definition fp_max (prec emax : Z) (s : bool) : spec_float := S754_finite s (Z.to_pos (2 ^ prec - 1)) (emax - prec).
(** rounded to nearest even; out of range: the largest *)
Definition nearest (prec emax : Z) (s : bool) (D k : Z) : spec_float :=
  if D =? 0 then S754_zero s
  else
    let '(a, b) := scaled D 1 k in
    match SFdiv prec emax (S754_finite s (Z.to_pos a) 0) (S754_finite false (Z.to_pos b) 0) with
    | S754_infinity s' => fp_max prec emax s'
    | x => x
    end.
(** [T v; is >> v; return v]: nothing left after white space: [v] is not set; no number: 0 *)
Definition read_fp (prec emax : Z) (s : str) : res spec_float :=
  match skip_ws s with
  | [] => UB
  | s' => Ok (match scan s' with Some (neg, D, k) => nearest prec emax neg D k | None => S754_zero false end)
  end.

Definition std_io : numio := NumIO (print_g 7) (read_fp p32 x32) (print_g 16) (read_fp p64 x64).


(** What the decimal text of a number means, without reference to the model of the library's conversions. *)
From Coq Require Import Reals Floats.SpecFloat.
From Flocq Require Import Core.
From Verif Require Import Base Str Dec FloatFacts.
Local Open Scope Z_scope.

Definition radix10 : radix := Build_radix 10 eq_refl.
(** [10^k] as a real number *)
Notation ten k := (bpow radix10 k).
(** "." and digits, or nothing *)
Inductive fraction_part : str -> str -> Prop :=
| no_fraction : fraction_part [] []
| a_fraction f : forallb is_digit f = true -> fraction_part ("."%char :: f) f.
(** "e", a sign or none, and digits, or nothing *)
Inductive exponent_part : str -> Z -> Prop :=
| no_exponent : exponent_part [] 0
| an_exponent c sg ds : (c = "e"%char \/ c = "E"%char) -> (sg = $"+" \/ sg = $"-" \/ sg = []) -> forallb is_digit ds = true -> ds <> [] ->
    exponent_part (c :: sg ++ ds) (if eqs sg ($"-") then - digits_value 0 ds else digits_value 0 ds).
(** the text [t] writes the number [D * 10^k], with a minus sign before it if [neg] *)
Inductive writes : str -> bool -> Z -> Z -> Prop :=
| Writes (neg : bool) i fr f ex X : forallb is_digit i = true -> i <> [] -> fraction_part fr f -> exponent_part ex X ->
    writes ((if neg then $"-" else []) ++ i ++ fr ++ ex) neg (digits_value 0 (i ++ f)) (X - Z.of_nat (length f)).
Definition signed (neg : bool) (r : R) : R := if neg then Ropp r else r.
(** the number a text writes *)
Definition denotes (t : str) (v : R) : Prop := exists neg D k, writes t neg D k /\ v = signed neg (IZR D * ten k)%R.
(** the largest number of a format, and the set of its finite numbers *)
Definition largest (prec emax : Z) : R := (IZR (2 ^ prec - 1) * bpow radix2 (emax - prec))%R.
Definition finite_in (prec emax : Z) (x : spec_float) : Prop := valid_binary prec emax x = true /\ finite_sf x = true.
Definition double_number := finite_in 53 1024.
Definition float_number := finite_in 24 128.

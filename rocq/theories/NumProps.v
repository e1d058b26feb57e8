(** C60: the decimal text of floating point measurements.  [std_io] is the C++ library's behaviour; [denotes t v]: the text [t] writes the number [v]. *)
From Coq Require Import Reals Psatz Floats.SpecFloat.
From Flocq Require Import Core.
From Verif Require Import Base Str Dec MeasModel MeasFacts FloatFacts NumModel NumSpec NumFacts NumReal.
Local Open Scope Z_scope.

Lemma writes_fun t s D k s' D' k' : writes t s D k -> writes t s' D' k' -> s' = s /\ D' = D /\ k' = k.
Proof. intros A B. apply scan_text in A, B. rewrite A in B. injection B as -> -> ->. auto. Qed.
Lemma denotes_fun t v v' : denotes t v -> denotes t v' -> v' = v.
Proof. intros (s & D & k & W & ->) (s' & D' & k' & W' & ->). destruct (writes_fun _ _ _ _ _ _ _ W W') as (-> & -> & ->). reflexivity. Qed.

(** The text of a [double] is a decimal number off by at most half a unit of the 16th digit, that of a [float] of the 7th. *)
Theorem C60_text_error : forall x,
  (double_number x -> exists v, denotes (print64 std_io x) v /\ (Rabs (v - rv x) <= / 2 * ten (-15) * Rabs (rv x))%R) /\
  (float_number x -> exists v, denotes (print32 std_io x) v /\ (Rabs (v - rv x) <= / 2 * ten (-6) * Rabs (rv x))%R).
Proof.
  intros x. split; intros [_ F].
  - apply (print_error 16 x); [lia|exact F].
  - apply (print_error 7 x); [lia|exact F].
Qed.
Print Assumptions C60_text_error.

Lemma same_text P x y : 1 <= P -> finite_sf x = true -> finite_sf y = true -> print_g P x = print_g P y ->
  (Rabs (rv x - rv y) <= ten (1 - P) * Rmax (Rabs (rv x)) (Rabs (rv y)))%R.
Proof.
  intros HP Fx Fy E. destruct (print_error P x HP Fx) as (v & V1 & V2), (print_error P y HP Fy) as (v' & V1' & V2').
  rewrite E in V1. rewrite (denotes_fun _ _ _ V1 V1') in *. assert (T := bpow_gt_0 radix10 (1 - P)). set (t := ten (1 - P)) in *. clearbody t.
  set (M := Rmax (Rabs (rv x)) (Rabs (rv y))). assert (Mx := Rmax_l (Rabs (rv x)) (Rabs (rv y))). assert (My := Rmax_r (Rabs (rv x)) (Rabs (rv y))). fold M in Mx, My.
  apply Rabs_le_inv in V2, V2'. assert (t * Rabs (rv x) <= t * M)%R by (apply Rmult_le_compat_l; lra). assert (t * Rabs (rv y) <= t * M)%R by (apply Rmult_le_compat_l; lra).
  apply Rabs_le. lra.
Qed.
(** Numbers with the same text are close, so numbers further apart have different texts. *)
Theorem C60_text_resolution : forall x y,
  (double_number x -> double_number y -> (ten (-15) * Rmax (Rabs (rv x)) (Rabs (rv y)) < Rabs (rv x - rv y))%R -> print64 std_io x <> print64 std_io y) /\
  (float_number x -> float_number y -> (ten (-6) * Rmax (Rabs (rv x)) (Rabs (rv y)) < Rabs (rv x - rv y))%R -> print32 std_io x <> print32 std_io y).
Proof.
  intros x y. split; intros [_ Fx] [_ Fy] H E.
  - pose proof (same_text 16 x y ltac:(lia) Fx Fy E) as S. change (1 - 16) with (-15) in S. lra.
  - pose proof (same_text 7 x y ltac:(lia) Fx Fy E) as S. change (1 - 7) with (-6) in S. lra.
Qed.
Print Assumptions C60_text_resolution.
(** Sixteen digits do not tell all doubles apart: 0.1 + 0.2 and 0.3. *)
Definition tenth3 : spec_float := S754_finite false 5404319552844596 (-54).   (* 0.1 + 0.2 *)
Definition three_tenths : spec_float := S754_finite false 5404319552844595 (-54).   (* 0.3 *)
Theorem C60_distinct_numbers_distinct_texts_refuted : exists x y, double_number x /\ double_number y /\ rv x <> rv y /\ print64 std_io x = print64 std_io y.
Proof.
  exists tenth3, three_tenths. split; [split; reflexivity|]. split; [split; reflexivity|]. split; [|vm_compute; reflexivity].
  unfold tenth3, three_tenths. rewrite !rv_finite. cbn [signed]. intros E. apply Rmult_eq_reg_r in E; [|apply Rgt_not_eq, bpow_gt_0]. apply eq_IZR in E. discriminate E.
Qed.
Print Assumptions C60_distinct_numbers_distinct_texts_refuted.

(** A text that writes a number is read as the nearest floating point number, to even of two; beyond the range as the largest. *)
Definition nearest_to (prec emax : Z) (v : R) (y : spec_float) : Prop :=
  finite_in prec emax y /\ Rabs (rv y) = Rmin (rnd prec emax (Rabs v)) (largest prec emax) /\ (0 <= v * rv y)%R.
Lemma signed_nonneg s a : (0 <= a)%R -> (0 <= signed s 1 * signed s a)%R.
Proof. destruct s; cbn; lra. Qed.
Lemma reads prec emax t v : FLX.Prec_gt_0 prec -> BinarySingleNaN.Prec_lt_emax prec emax -> denotes t v ->
  exists y, read_fp prec emax t = Ok y /\ nearest_to prec emax v y.
Proof.
  intros Hp Hm (s & D & k & W & ->). destruct (read_writes prec emax Hp Hm t s D k W) as (y & R1 & R2 & R3 & R4). exists y. split; [exact R1|].
  destruct (writes_nonempty t s D k W) as (_ & _ & HD).
  assert (P : (0 <= IZR D * ten k)%R) by (apply Rmult_le_pos; [apply IZR_le, HD|apply bpow_ge_0]).
  assert (Q : (0 <= Rmin (rnd prec emax (IZR D * ten k)) (largest prec emax))%R).
  { apply Rmin_glb; [apply rnd_nonneg; [exact Hp|exact P]|left; apply big_pos, Hp]. }
  split; [exact R2|]. rewrite R3, !signed_abs, (Rabs_pos_eq _ P), (Rabs_pos_eq _ Q). split; [reflexivity|].
  destruct s; cbn [signed]; nra.
Qed.
Theorem C60_reading : forall t v, denotes t v ->
  (exists y, read64 std_io t = Ok y /\ nearest_to 53 1024 v y) /\ (exists y, read32 std_io t = Ok y /\ nearest_to 24 128 v y).
Proof. intros t v H. split; [apply (reads 53 1024 t v p53 p53max H)|apply (reads 24 128 t v p24 p24max H)]. Qed.
Print Assumptions C60_reading.

Lemma pow10_num j k n : 0 <= k -> j = - k -> 10 ^ k = n -> ten j = (/ IZR n)%R.
Proof. intros H -> <-. rewrite bpow_opp, ten_pow by exact H. reflexivity. Qed.
Lemma pow2_num j k n : 0 <= k -> j = - k -> 2 ^ k = n -> bpow radix2 j = (/ IZR n)%R.
Proof. intros H -> <-. rewrite bpow_opp, two_pow by exact H. reflexivity. Qed.
Lemma back64 x : double_number x -> exists y, read64 std_io (print64 std_io x) = Ok y /\ double_number y /\ BinarySingleNaN.sign_SF y = BinarySingleNaN.sign_SF x /\
  (Rabs (rv y - rv x) <= ten (-15) * Rabs (rv x) + bpow radix2 (-1075))%R.
Proof.
  intros H. destruct (round_trip 53 1024 p53 p53max 16 x ltac:(lia) H) as (y & R1 & R2 & R3 & R4). exists y. split; [exact R1|]. split; [exact R2|]. split; [exact R3|].
  eapply Rle_trans; [exact R4|]. change (1 - 16) with (-15). change (1 - 53) with (-52). change (3 - 1024 - 53) with (1 + -1075). rewrite bpow_plus. change (bpow radix2 1) with 2%R.
  apply Rplus_le_compat; [|lra]. apply Rmult_le_compat_r; [apply Rabs_pos|].
  rewrite (pow10_num (-15) 15 1000000000000000) by (lia || reflexivity). rewrite (pow2_num (-52) 52 4503599627370496) by (lia || reflexivity). lra.
Qed.
Lemma back32 x : float_number x -> exists y, read32 std_io (print32 std_io x) = Ok y /\ float_number y /\ BinarySingleNaN.sign_SF y = BinarySingleNaN.sign_SF x /\
  (Rabs (rv y - rv x) <= ten (-6) * Rabs (rv x) + bpow radix2 (-150))%R.
Proof.
  intros H. destruct (round_trip 24 128 p24 p24max 7 x ltac:(lia) H) as (y & R1 & R2 & R3 & R4). exists y. split; [exact R1|]. split; [exact R2|]. split; [exact R3|].
  eapply Rle_trans; [exact R4|]. change (1 - 7) with (-6). change (1 - 24) with (-23). change (3 - 128 - 24) with (1 + -150). rewrite bpow_plus. change (bpow radix2 1) with 2%R.
  apply Rplus_le_compat; [|lra]. apply Rmult_le_compat_r; [apply Rabs_pos|].
  rewrite (pow10_num (-6) 6 1000000) by (lia || reflexivity). rewrite (pow2_num (-23) 23 8388608) by (lia || reflexivity). lra.
Qed.
(** A value put into a measurement and taken out again: finite, of the same sign, and close. *)
Theorem C60_value_kept : forall d x,
  (double_number x -> exists y, double_GetValue std_io (double_SetValue std_io d x) = Ok y /\ double_number y /\ BinarySingleNaN.sign_SF y = BinarySingleNaN.sign_SF x /\
     (Rabs (rv y - rv x) <= ten (-15) * Rabs (rv x) + bpow radix2 (-1075))%R) /\
  (float_number x -> exists y, float_GetValue std_io (float_SetValue std_io d x) = Ok y /\ float_number y /\ BinarySingleNaN.sign_SF y = BinarySingleNaN.sign_SF x /\
     (Rabs (rv y - rv x) <= ten (-6) * Rabs (rv x) + bpow radix2 (-150))%R).
Proof. intros d x. split; [apply back64|apply back32]. Qed.
Print Assumptions C60_value_kept.
(** exactly if the number has at most 16 (for [float] 7) decimal digits, such as the whole numbers below [10^16] *)
Theorem C60_short_numbers_kept : forall d x N k, (rv x = IZR N * ten k)%R ->
  (double_number x -> Z.abs N < 10 ^ 16 -> double_GetValue std_io (double_SetValue std_io d x) = Ok x) /\
  (float_number x -> Z.abs N < 10 ^ 7 -> float_GetValue std_io (float_SetValue std_io d x) = Ok x).
Proof.
  intros d x N k H. split; intros V HN.
  - apply (round_trip_exact 53 1024 p53 p53max 16 x N k); auto; lia.
  - apply (round_trip_exact 24 128 p24 p24max 7 x N k); auto; lia.
Qed.
Print Assumptions C60_short_numbers_kept.
(** others not *)
Theorem C60_value_kept_exactly_refuted : exists d x y, double_number x /\ double_GetValue std_io (double_SetValue std_io d x) = Ok y /\ y <> x.
Proof.
  exists (new_dm CDouble), tenth3, three_tenths. split; [split; reflexivity|]. split; [vm_compute; reflexivity|discriminate].
Qed.
Print Assumptions C60_value_kept_exactly_refuted.
(** infinities and NaN are written as words and read as 0 *)
Theorem C60_not_numbers : forall d x, finite_sf x = false ->
  double_GetValue std_io (double_SetValue std_io d x) = Ok (S754_zero false) /\ float_GetValue std_io (float_SetValue std_io d x) = Ok (S754_zero false).
Proof. intros d x H. destruct x as [s|s| |s m e]; try discriminate H; [destruct s|]; split; reflexivity. Qed.
Print Assumptions C60_not_numbers.

Example C60_case : double_number tenth3 /\ print64 std_io tenth3 = $"0.3" /\ float_number (S754_finite true 13421773 (-27)) /\
  print32 std_io (S754_finite true 13421773 (-27)) = $"-0.1" /\
  print64 std_io (S754_finite false 4503599627370497 (-1074)) = $"2.225073858507202e-308" /\ double_number (S754_finite false 4503599627370497 (-1074)).
Proof. repeat split; vm_compute; reflexivity. Qed.
Example C60_reading_case : denotes ($"-12.50e+01") (-125)%R.
Proof.
  exists true, 1250, (-1). split; [|cbn [signed]; change (ten (-1)) with (/ 10)%R; lra].
  change (writes ((if true then $"-" else []) ++ $"12" ++ ("."%char :: $"50") ++ ("e"%char :: $"+" ++ $"01")) true (digits_value 0 ($"12" ++ $"50")) (1 - Z.of_nat (length ($"50")))).
  apply Writes; [reflexivity|discriminate|constructor; reflexivity|].
  change (exponent_part ("e"%char :: $"+" ++ $"01") (if eqs ($"+") ($"-") then - digits_value 0 ($"01") else digits_value 0 ($"01"))). constructor; auto. discriminate.
Qed.
(** [1.5] and its neighbour [1.5 + 2^-40] are further apart than the texts' resolution *)
Example C60_resolution_case : double_number (S754_finite false 6755399441055744 (-52)) /\ double_number (S754_finite false 6755399441059840 (-52)) /\
  print64 std_io (S754_finite false 6755399441055744 (-52)) = $"1.5" /\ print64 std_io (S754_finite false 6755399441059840 (-52)) = $"1.500000000000909".
Proof. repeat split; vm_compute; reflexivity. Qed.
Example C60_short_case : rv (S754_finite false 5 (-3)) = (IZR 625 * ten (-3))%R /\ double_number (S754_finite false 5629499534213120 (-53)) /\
  rv (S754_finite false 5629499534213120 (-53)) = (IZR 625 * ten (-3))%R.
Proof.
  rewrite !rv_finite. cbn [signed]. split; [|split; [split; reflexivity|]].
  - change (ten (-3)) with (/ 1000)%R. change (bpow radix2 (-3)) with (/ 8)%R. lra.
  - change (ten (-3)) with (/ 1000)%R. rewrite (pow2_num (-53) 53 9007199254740992) by (lia || reflexivity). lra.
Qed.

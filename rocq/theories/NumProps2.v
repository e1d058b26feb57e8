(** C61: floating point measurements from the recording run to the comparison, with the library's decimal text. *)
From Coq Require Import Reals Psatz Floats.SpecFloat.
From Flocq Require Import Core.
From Verif Require Import Base Str Dec PathModel MeasModel MeasFacts MeasFacts2 FloatFacts TolFacts MeasProps XmlText XmlModel ReadModel ReadFacts ReadBack ReadProps RegModel ArgFacts ArgProps RegSpec RegFacts RegStart RegMain RegProps RegProps2 RegRound RegProps3 NumModel NumSpec NumFacts NumReal NumProps NumRun.
Local Open Scope Z_scope.

(** * Exact comparison *)
(** Without tolerance values agree iff their texts do: always if they are the same, never if they differ by more than one part in [10^15] ([10^6]). *)
Theorem C61_exact : forall e dirs f n x y t tol, e_io e = std_io -> tol = false \/ SFeqb t SFzero = true ->
  (double_verdict e dirs f n x x t tol = Ok true) /\ (float_verdict e dirs f n x x t tol = Ok true) /\
  (double_number x -> double_number y -> (ten (-15) * Rmax (Rabs (rv x)) (Rabs (rv y)) < Rabs (rv x - rv y))%R -> double_verdict e dirs f n x y t tol = Ok false) /\
  (float_number x -> float_number y -> (ten (-6) * Rmax (Rabs (rv x)) (Rabs (rv y)) < Rabs (rv x - rv y))%R -> float_verdict e dirs f n x y t tol = Ok false).
Proof.
  intros e dirs f n x y t tol Hio H. rewrite !double_exact, !float_exact by assumption. rewrite !eqs_refl.
  split; [reflexivity|]. split; [reflexivity|].
  split; intros Vx Vy D; f_equal; destruct (C60_text_resolution x y) as [A B].
  - specialize (A Vx Vy D). destruct (eqs_spec (print_g 16 x) (print_g 16 y)) as [E|E]; [contradiction|reflexivity].
  - specialize (B Vx Vy D). destruct (eqs_spec (print_g 7 x) (print_g 7 y)) as [E|E]; [contradiction|reflexivity].
Qed.
Print Assumptions C61_exact.
(** zeros of different sign are equal numbers and differ *)
Theorem C61_equal_numbers_agree_refuted : exists e dirs f n x y t, e_io e = std_io /\ double_number x /\ double_number y /\ rv x = rv y /\
  double_verdict e dirs f n x y t false = Ok false.
Proof.
  exists (Env true true None std_io (fun _ => ([], true)) (fun p => p) (fun _ => true) [] []), [], (fun _ => None), ($"n"), (S754_zero true), (S754_zero false), default_tol.
  repeat split; vm_compute; reflexivity.
Qed.
Print Assumptions C61_equal_numbers_agree_refuted.

(** * Comparison with a tolerance *)
Lemma abs_near a b : (Rabs (Rabs a - Rabs b) <= Rabs (a - b))%R.
Proof. apply Rabs_triang_inv2. Qed.
Lemma rnd_near53 r : (Rabs (rnd64 r - r) <= bpow radix2 (-53) * Rabs r + bpow radix2 (-1075))%R.
Proof.
  pose proof (rn_error 53 1024 p53 r) as H. change (1 - 53) with (1 + -53) in H. change (3 - 1024 - 53) with (1 + -1075) in H.
  rewrite !bpow_plus in H. change (bpow radix2 1) with 2%R in H. unfold rnd64. lra.
Qed.
Lemma rnd_near24 r : (Rabs (rnd32 r - r) <= bpow radix2 (-24) * Rabs r + bpow radix2 (-150))%R.
Proof.
  pose proof (rn_error 24 128 p24 r) as H. change (1 - 24) with (1 + -24) in H. change (3 - 128 - 24) with (1 + -150) in H.
  rewrite !bpow_plus in H. change (bpow radix2 1) with 2%R in H. unfold rnd32. lra.
Qed.
Lemma near_abs r d u w : (Rabs (d - r) <= u * Rabs r + w -> Rabs (Rabs d - Rabs r) <= u * Rabs r + w)%R.
Proof. intros H. eapply Rle_trans; [apply abs_near|exact H]. Qed.
Lemma near_prod t z d u w : (0 <= t -> Rabs (d - t * Rabs z) <= u * Rabs (t * Rabs z) + w -> Rabs (d - t * Rabs z) <= u * (t * Rabs z) + w)%R.
Proof. intros Ht H. rewrite (Rabs_pos_eq (t * Rabs z)) in H by (apply Rmult_le_pos; [exact Ht|apply Rabs_pos]). exact H. Qed.

(** the margin left for the rounding of texts, difference and product: one part in [10^14] ([10^5]) and a tiny absolute number *)
Definition margin64 (t M : R) : R := (ten (-14) * (1 + t) * M + 10 * (1 + t) * bpow radix2 (-1075))%R.
Definition margin32 (t M : R) : R := (ten (-5) * (1 + t) * M + 10 * (1 + t) * bpow radix2 (-150))%R.

(** The recorded value [x] and the measured value [y] agree if they are within the tolerance by the margin, and differ if they are outside by the margin;
    numbers below [2^-53] always agree. *)
Theorem C61_double_tolerance : forall e dirs f n x y t, e_io e = std_io -> double_number x -> double_number y -> double_number t -> SFeqb t SFzero = false ->
  let M := Rmax (Rabs (rv x)) (Rabs (rv y)) in let T := Rabs (rv t) in
  (M <= bpow radix2 1022)%R ->
  ((Rabs (rv x - rv y) + margin64 T M <= T * M)%R -> double_verdict e dirs f n x y t true = Ok true) /\
  ((T * M + margin64 T M < Rabs (rv x - rv y))%R -> (bpow radix2 (-51) <= M)%R -> double_verdict e dirs f n x y t true = Ok false) /\
  ((M < bpow radix2 (-53))%R -> double_verdict e dirs f n x y t true = Ok true).
Proof.
  intros e dirs f n x y t Hio Nx Ny Nt Zt M T HM.
  destruct (back64 x Nx) as (x' & Rx & [Vx Fx] & _ & Ex), (back64 y Ny) as (y' & Ry & [Vy Fy] & _ & Ey).
  rewrite (double_tolerant e dirs f n Hio x y t x' y' Zt Rx Ry).
  assert (C15 : (0 <= ten (-15) <= 1)%R) by (rewrite (pow10_num (-15) 15 1000000000000000) by (lia || reflexivity); lra).
  assert (U53 : (0 <= bpow radix2 (-53) <= ten (-15))%R).
  { rewrite (pow10_num (-15) 15 1000000000000000) by (lia || reflexivity). rewrite (pow2_num (-53) 53 9007199254740992) by (lia || reflexivity). lra. }
  pose proof (bpow_ge_0 radix2 (-1075)) as W.
  pose proof (near_abs _ _ _ _ (rnd_near53 (rv x' - rv y'))) as Ed.
  assert (T0 : (0 <= T)%R) by apply Rabs_pos.
  pose proof (near_prod T (rv x') _ _ _ T0 (rnd_near53 (T * Rabs (rv x')))) as Ep.
  pose proof (near_prod T (rv y') _ _ _ T0 (rnd_near53 (T * Rabs (rv y')))) as Eq.
  assert (M14 : forall A : R, (10 * ten (-15) * A = ten (-14) * A)%R) by (intros A; f_equal; rewrite <- (Rmult_1_l (ten (-14))); change (-14) with (1 + -15); rewrite bpow_plus; change (ten 1) with 10%R; ring).
  assert (Meq : (10 * ten (-15) * (1 + T) * M + 10 * (1 + T) * bpow radix2 (-1075) = margin64 T M)%R).
  { unfold margin64. rewrite (Rmult_assoc (10 * ten (-15))), M14. ring. }
  assert (W1 : (bpow radix2 (-1075) <= / 1000000)%R).
  { apply Rle_trans with (bpow radix2 (-20)); [apply bpow_le; lia|]. rewrite (pow2_num (-20) 20 1048576) by (lia || reflexivity). lra. }
  assert (Pm : (0 <= M)%R) by (apply (M_pos (rv x) (rv y))).
  assert (Ov : (Rabs (rnd64 (rv x' - rv y')) < bpow radix2 1024)%R).
  { pose proof (diff_near (ten (-15)) _ _ (rv x) (rv y) (rv x') (rv y') _ C15 U53 W Ex Ey Ed) as Dn. fold M in Dn. apply Rabs_le_inv in Dn.
    assert (Rabs (rv x - rv y) <= 2 * M)%R.
    { unfold Rminus. eapply Rle_trans; [apply Rabs_triang|]. rewrite Rabs_Ropp. pose proof (M_x (rv x) (rv y)). pose proof (M_y (rv x) (rv y)). unfold M. lra. }
    replace (bpow radix2 1024) with (4 * bpow radix2 1022)%R by (change 1024 with (2 + 1022); rewrite bpow_plus; reflexivity).
    assert (1 <= bpow radix2 1022)%R by (change 1%R with (bpow radix2 0); apply bpow_le; lia).
    assert (ten (-15) * M <= / 1000 * M)%R.
    { apply Rmult_le_compat_r; [exact Pm|]. rewrite (pow10_num (-15) 15 1000000000000000) by (lia || reflexivity). lra. }
    lra. }
  destruct (C23_meaning x' y' t Fx Fy (proj2 Nt) (proj1 Nt)) as [_ S]. specialize (S Vx Vy Ov). fold T in S.
  set (p := rnd64 (T * Rabs (rv x'))) in *. set (q := rnd64 (T * Rabs (rv y'))) in *. set (d := Rabs (rnd64 (rv x' - rv y'))) in *.
  split; [|split].
  - intros H. f_equal. apply S.
    destruct (accept (ten (-15)) _ _ (rv x) (rv y) (rv x') (rv y') T d p q C15 U53 W T0 Ex Ey Ed Ep Eq) as [A|A]; [|auto|auto].
    fold M. rewrite <- Meq in H. lra.
  - intros H HM'. f_equal. apply not_true_iff_false. intros G. apply S in G.
    destruct (reject (ten (-15)) _ _ (rv x) (rv y) (rv x') (rv y') T d p q C15 U53 W T0 Ex Ey Ed Ep Eq) as [A B]; [fold M; rewrite <- Meq in H; lra|].
    destruct G as [G|[G|[G1 G2]]]; [lra|lra|].
    replace (bpow radix2 (-51)) with (2 * bpow radix2 (-52))%R in HM' by (change (-51) with (1 + -52); rewrite bpow_plus; reflexivity).
    assert (bpow radix2 (-1075) <= / 16 * bpow radix2 (-52))%R.
    { apply Rle_trans with (bpow radix2 (-56)); [apply bpow_le; lia|]. change (-56) with (-4 + -52). rewrite bpow_plus. right. reflexivity. }
    assert (CM : (ten (-15) * M <= / 1000 * M)%R).
    { apply Rmult_le_compat_r; [exact Pm|]. rewrite (pow10_num (-15) 15 1000000000000000) by (lia || reflexivity). lra. }
    pose proof (size_x (ten (-15)) _ (rv x) (rv y) (rv x') C15 Ex) as Sx. pose proof (size_y (ten (-15)) _ (rv x) (rv y) (rv y') C15 Ey) as Sy.
    fold M in Sx, Sy. apply Rabs_le_inv in Sx, Sy.
    destruct (Rle_dec (Rabs (rv y)) (Rabs (rv x))) as [L|L].
    + assert (EM : M = Rabs (rv x)) by (apply Rmax_left, L). lra.
    + assert (EM : M = Rabs (rv y)) by (apply Rmax_right; lra). lra.
  - intros H. f_equal. apply S. right. right.
    pose proof (size_x (ten (-15)) _ (rv x) (rv y) (rv x') C15 Ex) as Sx. pose proof (size_y (ten (-15)) _ (rv x) (rv y) (rv y') C15 Ey) as Sy.
    pose proof (M_x (rv x) (rv y)) as Mx. pose proof (M_y (rv x) (rv y)) as My. fold M in Sx, Sy, Mx, My. apply Rabs_le_inv in Sx, Sy.
    replace (bpow radix2 (-52)) with (2 * bpow radix2 (-53))%R by (change (-52) with (1 + -53); rewrite bpow_plus; reflexivity).
    assert (bpow radix2 (-1075) <= / 16 * bpow radix2 (-53))%R.
    { apply Rle_trans with (bpow radix2 (-57)); [apply bpow_le; lia|]. change (-57) with (-4 + -53). rewrite bpow_plus. right. reflexivity. }
    assert (CM : (ten (-15) * M <= / 1000 * M)%R).
    { apply Rmult_le_compat_r; [exact Pm|]. rewrite (pow10_num (-15) 15 1000000000000000) by (lia || reflexivity). lra. }
    lra.
Qed.
Print Assumptions C61_double_tolerance.
Lemma rnd_near53' r : (Rabs (rnd64 r - r) <= bpow radix2 (-24) * Rabs r + bpow radix2 (-150))%R.
Proof.
  eapply Rle_trans; [apply rnd_near53|]. apply Rplus_le_compat; [|apply bpow_le; lia]. apply Rmult_le_compat_r; [apply Rabs_pos|apply bpow_le; lia].
Qed.
Theorem C61_float_tolerance : forall e dirs f n x y t, e_io e = std_io -> float_number x -> float_number y -> double_number t -> SFeqb t SFzero = false ->
  let M := Rmax (Rabs (rv x)) (Rabs (rv y)) in let T := Rabs (rv t) in
  (M <= bpow radix2 126)%R ->
  ((Rabs (rv x - rv y) + margin32 T M <= T * M)%R -> float_verdict e dirs f n x y t true = Ok true) /\
  ((T * M + margin32 T M < Rabs (rv x - rv y))%R -> (bpow radix2 (-22) <= M)%R -> float_verdict e dirs f n x y t true = Ok false) /\
  ((M < bpow radix2 (-24))%R -> float_verdict e dirs f n x y t true = Ok true).
Proof.
  intros e dirs f n x y t Hio Nx Ny Nt Zt M T HM.
  destruct (back32 x Nx) as (x' & Rx & [Vx Fx] & _ & Ex), (back32 y Ny) as (y' & Ry & [Vy Fy] & _ & Ey).
  rewrite (float_tolerant e dirs f n Hio x y t x' y' Zt Rx Ry).
  assert (C6 : (0 <= ten (-6) <= 1)%R) by (rewrite (pow10_num (-6) 6 1000000) by (lia || reflexivity); lra).
  assert (U24 : (0 <= bpow radix2 (-24) <= ten (-6))%R).
  { rewrite (pow10_num (-6) 6 1000000) by (lia || reflexivity). rewrite (pow2_num (-24) 24 16777216) by (lia || reflexivity). lra. }
  pose proof (bpow_ge_0 radix2 (-150)) as W.
  pose proof (near_abs _ _ _ _ (rnd_near24 (rv x' - rv y'))) as Ed.
  assert (T0 : (0 <= T)%R) by apply Rabs_pos.
  pose proof (near_prod T (rv x') _ _ _ T0 (rnd_near53' (T * Rabs (rv x')))) as Ep.
  pose proof (near_prod T (rv y') _ _ _ T0 (rnd_near53' (T * Rabs (rv y')))) as Eq.
  assert (M5 : forall A : R, (10 * ten (-6) * A = ten (-5) * A)%R) by (intros A; f_equal; rewrite <- (Rmult_1_l (ten (-5))); change (-5) with (1 + -6); rewrite bpow_plus; change (ten 1) with 10%R; ring).
  assert (Meq : (10 * ten (-6) * (1 + T) * M + 10 * (1 + T) * bpow radix2 (-150) = margin32 T M)%R).
  { unfold margin32. rewrite (Rmult_assoc (10 * ten (-6))), M5. ring. }
  assert (W1 : (bpow radix2 (-150) <= / 1000000)%R).
  { apply Rle_trans with (bpow radix2 (-20)); [apply bpow_le; lia|]. rewrite (pow2_num (-20) 20 1048576) by (lia || reflexivity). lra. }
  assert (Pm : (0 <= M)%R) by (apply (M_pos (rv x) (rv y))).
  assert (Ov : (Rabs (rnd32 (rv x' - rv y')) < bpow radix2 128)%R).
  { pose proof (diff_near (ten (-6)) _ _ (rv x) (rv y) (rv x') (rv y') _ C6 U24 W Ex Ey Ed) as Dn. fold M in Dn. apply Rabs_le_inv in Dn.
    assert (Rabs (rv x - rv y) <= 2 * M)%R.
    { unfold Rminus. eapply Rle_trans; [apply Rabs_triang|]. rewrite Rabs_Ropp. pose proof (M_x (rv x) (rv y)). pose proof (M_y (rv x) (rv y)). unfold M. lra. }
    replace (bpow radix2 128) with (4 * bpow radix2 126)%R by (change 128 with (2 + 126); rewrite bpow_plus; reflexivity).
    assert (1 <= bpow radix2 126)%R by (change 1%R with (bpow radix2 0); apply bpow_le; lia).
    assert (ten (-6) * M <= / 1000 * M)%R.
    { apply Rmult_le_compat_r; [exact Pm|]. rewrite (pow10_num (-6) 6 1000000) by (lia || reflexivity). lra. }
    lra. }
  destruct (C23_meaning x' y' t Fx Fy (proj2 Nt) (proj1 Nt)) as [S _]. specialize (S Vx Vy Ov). fold T in S.
  set (p := rnd64 (T * Rabs (rv x'))) in *. set (q := rnd64 (T * Rabs (rv y'))) in *. set (d := Rabs (rnd32 (rv x' - rv y'))) in *.
  split; [|split].
  - intros H. f_equal. apply S.
    destruct (accept (ten (-6)) _ _ (rv x) (rv y) (rv x') (rv y') T d p q C6 U24 W T0 Ex Ey Ed Ep Eq) as [A|A]; [|auto|auto].
    fold M. rewrite <- Meq in H. lra.
  - intros H HM'. f_equal. apply not_true_iff_false. intros G. apply S in G.
    destruct (reject (ten (-6)) _ _ (rv x) (rv y) (rv x') (rv y') T d p q C6 U24 W T0 Ex Ey Ed Ep Eq) as [A B]; [fold M; rewrite <- Meq in H; lra|].
    destruct G as [G|[G|[G1 G2]]]; [lra|lra|].
    replace (bpow radix2 (-22)) with (2 * bpow radix2 (-23))%R in HM' by (change (-22) with (1 + -23); rewrite bpow_plus; reflexivity).
    assert (bpow radix2 (-150) <= / 16 * bpow radix2 (-23))%R.
    { apply Rle_trans with (bpow radix2 (-27)); [apply bpow_le; lia|]. change (-27) with (-4 + -23). rewrite bpow_plus. right. reflexivity. }
    assert (CM : (ten (-6) * M <= / 1000 * M)%R).
    { apply Rmult_le_compat_r; [exact Pm|]. rewrite (pow10_num (-6) 6 1000000) by (lia || reflexivity). lra. }
    pose proof (size_x (ten (-6)) _ (rv x) (rv y) (rv x') C6 Ex) as Sx. pose proof (size_y (ten (-6)) _ (rv x) (rv y) (rv y') C6 Ey) as Sy.
    fold M in Sx, Sy. apply Rabs_le_inv in Sx, Sy.
    destruct (Rle_dec (Rabs (rv y)) (Rabs (rv x))) as [L|L].
    + assert (EM : M = Rabs (rv x)) by (apply Rmax_left, L). lra.
    + assert (EM : M = Rabs (rv y)) by (apply Rmax_right; lra). lra.
  - intros H. f_equal. apply S. right. right.
    pose proof (size_x (ten (-6)) _ (rv x) (rv y) (rv x') C6 Ex) as Sx. pose proof (size_y (ten (-6)) _ (rv x) (rv y) (rv y') C6 Ey) as Sy.
    pose proof (M_x (rv x) (rv y)) as Mx. pose proof (M_y (rv x) (rv y)) as My. fold M in Sx, Sy, Mx, My. apply Rabs_le_inv in Sx, Sy.
    replace (bpow radix2 (-23)) with (2 * bpow radix2 (-24))%R by (change (-23) with (1 + -24); rewrite bpow_plus; reflexivity).
    assert (bpow radix2 (-150) <= / 16 * bpow radix2 (-24))%R.
    { apply Rle_trans with (bpow radix2 (-28)); [apply bpow_le; lia|]. change (-28) with (-4 + -24). rewrite bpow_plus. right. reflexivity. }
    assert (CM : (ten (-6) * M <= / 1000 * M)%R).
    { apply Rmult_le_compat_r; [exact Pm|]. rewrite (pow10_num (-6) 6 1000000) by (lia || reflexivity). lra. }
    lra.
Qed.
Print Assumptions C61_float_tolerance.
(** The hypotheses on the distance are met, with the default tolerance [2^-17]: 1000 against 1000.001 and 1000.1. *)
Definition thousand : spec_float := dbl 1000 0.
Definition thousand_1 : spec_float := dbl 8796101828542333 (-43).      (* 1000.001 *)
Definition thousand_2 : spec_float := dbl 8796972636635955 (-43).      (* 1000.1 *)
Definition std_env : env := Env true true None std_io (fun _ => ([], true)) (fun p => p) (fun _ => true) ($"host") ($"now").
Example C61_tolerance_case : double_number thousand /\ double_number thousand_1 /\ double_number thousand_2 /\ double_number default_tol /\ SFeqb default_tol SFzero = false /\
  double_verdict std_env [] (fun _ => None) ($"n") thousand thousand_1 default_tol true = Ok true /\
  double_verdict std_env [] (fun _ => None) ($"n") thousand thousand_2 default_tol true = Ok false.
Proof. repeat split; vm_compute; reflexivity. Qed.
Lemma rv_dbl m e : rv (S754_finite false m e) = (IZR (Zpos m) * bpow radix2 e)%R.
Proof. apply rv_finite. Qed.
Example C61_distance_case : let x := rv (S754_finite false 8796093022208000 (-43)) in let y := rv (S754_finite false 8796101828542333 (-43)) in let t := rv default_tol in
  (Rabs (x - y) + margin64 (Rabs t) (Rmax (Rabs x) (Rabs y)) <= Rabs t * Rmax (Rabs x) (Rabs y))%R /\ thousand = S754_finite false 8796093022208000 (-43) /\ thousand_1 = S754_finite false 8796101828542333 (-43).
Proof.
  cbv zeta. split; [|split; vm_compute; reflexivity].
  change default_tol with (S754_finite false 4503599627370496 (-69)). rewrite !rv_dbl.
  rewrite (pow2_num (-43) 43 8796093022208), (pow2_num (-69) 69 590295810358705651712) by (lia || reflexivity).
  assert (W : (bpow radix2 (-1075) <= / 1000000)%R).
  { apply Rle_trans with (bpow radix2 (-20)); [apply bpow_le; lia|]. rewrite (pow2_num (-20) 20 1048576) by (lia || reflexivity). lra. }
  unfold margin64. rewrite (pow10_num (-14) 14 100000000000000) by (lia || reflexivity).
  rewrite (Rabs_pos_eq (4503599627370496 * _)) by lra. rewrite (Rabs_pos_eq (8796093022208000 * _)), (Rabs_pos_eq (8796101828542333 * _)) by lra.
  rewrite Rmax_right by lra. rewrite <- Rabs_Ropp, Rabs_pos_eq by lra. lra.
Qed.

(** * Values that are no numbers *)
(** With a tolerance an infinity or a NaN counts as 0: it agrees with itself, every other of them, and every number agreeing with 0. *)
Theorem C61_not_numbers_count_as_zero : forall e dirs f n x y t, e_io e = std_io -> SFeqb t SFzero = false -> finite_sf x = false ->
  double_verdict e dirs f n x y t true = double_verdict e dirs f n (S754_zero false) y t true /\
  double_verdict e dirs f n y x t true = double_verdict e dirs f n y (S754_zero false) t true /\
  float_verdict e dirs f n x y t true = float_verdict e dirs f n (S754_zero false) y t true /\
  float_verdict e dirs f n y x t true = float_verdict e dirs f n y (S754_zero false) t true.
Proof.
  intros e dirs f n x y t Hio Ht Hx.
  assert (D : read64 std_io (print64 std_io x) = Ok (S754_zero false)) by (apply (C60_not_numbers (new_dm CDouble) x Hx)).
  assert (F : read32 std_io (print32 std_io x) = Ok (S754_zero false)) by (apply (C60_not_numbers (new_dm CFloat) x Hx)).
  assert (G : forall a b a' b', read64 std_io (print64 std_io a) = read64 std_io (print64 std_io a') -> read64 std_io (print64 std_io b) = read64 std_io (print64 std_io b') ->
    double_verdict e dirs f n a b t true = double_verdict e dirs f n a' b' t true).
  { intros a b a' b' Ha Hb. unfold double_verdict, verdict. cbn [meas_of stored found tolerant_of].
    rewrite !compare_tolerant; try reflexivity; try (rewrite tolerance_set_get by exact Ht; exact Ht).
    cbn [snd]. unfold IsEqualTolerant, double_GetValue, double_SetValue. cbn [SetContent DeleteContentAsData named SetAttributeName new_dm dcls dcontent cls_eqb].
    rewrite Hio, Ha, Hb. reflexivity. }
  assert (H : forall a b a' b', read32 std_io (print32 std_io a) = read32 std_io (print32 std_io a') -> read32 std_io (print32 std_io b) = read32 std_io (print32 std_io b') ->
    float_verdict e dirs f n a b t true = float_verdict e dirs f n a' b' t true).
  { intros a b a' b' Ha Hb. unfold float_verdict, verdict. cbn [meas_of stored found tolerant_of].
    rewrite !compare_tolerant; try reflexivity; try (rewrite tolerance_set_get by exact Ht; exact Ht).
    cbn [snd]. unfold IsEqualTolerant, float_GetValue, float_SetValue. cbn [SetContent DeleteContentAsData named SetAttributeName new_dm dcls dcontent cls_eqb].
    rewrite Hio, Ha, Hb. reflexivity. }
  split; [apply G; [rewrite D|]; reflexivity|]. split; [apply G; [|rewrite D]; reflexivity|]. split; [apply H; [rewrite F|]; reflexivity|apply H; [|rewrite F]; reflexivity].
Qed.
Print Assumptions C61_not_numbers_count_as_zero.
(** a result that became infinite or NaN is not noticed where 0 was recorded *)
Theorem C61_infinite_result_noticed_refuted : exists e dirs f n t, e_io e = std_io /\
  double_verdict e dirs f n (S754_zero false) (S754_infinity false) t true = Ok true /\ double_verdict e dirs f n (S754_zero false) S754_nan t true = Ok true.
Proof. exists std_env, [], (fun _ => None), ($"n"), default_tol. repeat split; vm_compute; reflexivity. Qed.
Print Assumptions C61_infinite_result_noticed_refuted.

(** * Repeated runs *)
(** what a test may measure: texts without control characters, names without those and markup, integers other than the smallest if compared with a
    tolerance, and any floating point values *)
Definition usual_call (c : call) : Prop :=
  match c with
  | TextString s n | TextPlain s n => text_safe s /\ attr_safe n
  | NumericInteger i n tol => attr_safe n /\ (tol = true -> wrap32 i <> INT_MIN)
  | NumericBoolean _ n _ => attr_safe n
  | NumericFloat x n _ => attr_safe n /\ valid_binary 24 128 x = true
  | NumericDouble x n _ => attr_safe n /\ valid_binary 53 1024 x = true
  | _ => False
  end.
(** a test that measures such values, sets finite tolerances, and does not depend on the results *)
Fixpoint usual_test (p : prog) : Prop :=
  match p with
  | Return _ | Raise _ => True
  | Call c k => usual_call c /\ k 1%Z = k 0%Z /\ usual_test (k 0%Z)
  | SetRelativeTolerance t k => double_number t /\ usual_test k
  | SetExpectedReturn _ k | WriteFile _ _ k => usual_test k
  end.
Lemma usual_reproducible e dirs t f c : e_io e = std_io -> double_number t -> usual_call c -> reproducible e dirs t f c.
Proof.
  intros Hio Ht Hc. destruct c; cbn [reproducible usual_call] in *; try exact I; try contradiction.
  - destruct Hc as [_ Hc]. intros T. right. split; [exact Ht|apply Hc, T].
  - destruct Hc as [_ Hc]. intros _. right. split; [exact Ht|]. rewrite Hio. destruct (read_std32 _ Hc) as (z & R & V & F). exists z. auto.
  - destruct Hc as [_ Hc]. intros _. right. split; [exact Ht|]. rewrite Hio. destruct (read_std64 _ Hc) as (z & R & V & F). exists z. auto.
Qed.
Lemma usual_repeatable e dirs p : e_io e = std_io -> usual_test p -> forall t f, double_number t -> repeatable e dirs t f p.
Proof.
  intros Hio. induction p as [z|i|c k IH|t' k IH|z k IH|path b k IH]; intros H t f Ht; cbn [usual_test repeatable] in *; try exact I.
  - destruct H as (H1 & H2 & H3). split; [exact H2|]. split; [apply usual_reproducible; assumption|]. apply IH; assumption.
  - destruct H as [H1 H2]. apply IH; assumption.
  - apply IH; assumption.
  - apply IH; assumption.
Qed.
Lemma int_text z : text_safe (print_int z).
Proof.
  destruct (print_int_form z) as (ds & _ & D & _ & E). unfold text_safe. rewrite E. destruct (z <? 0); cbn [app forallb]; rewrite ?(digits_text ds D); reflexivity.
Qed.
Lemma usual_storable p : usual_test p -> Forall storable (map (meas_of std_io false) (recorded p)).
Proof.
  induction p as [z|i|c k IH|t' k IH|z k IH|path b k IH]; intros H; cbn [usual_test recorded map] in *; try (constructor; fail).
  - destruct H as (H1 & _ & H3). constructor; [|apply IH, H3].
    destruct c; cbn [usual_call] in H1; try contradiction; cbn [meas_of storable];
      unfold int_SetValue, float_SetValue, double_SetValue, bool_SetValue, SetContent, named, SetAttributeName, new_dm; cbn [desc dname denc dcomp dcontent].
    + destruct H1. repeat split; assumption.
    + destruct H1. repeat split; assumption.
    + destruct H1. repeat split; try assumption. apply int_text.
    + destruct H1. repeat split; try assumption. exact (print_text 7 _ ltac:(lia)).
    + destruct H1. repeat split; try assumption. exact (print_text 16 _ ltac:(lia)).
    + repeat split; try assumption. match goal with |- context [if ?b then 1 else 0] => destruct b end; reflexivity.
  - destruct H as [_ H]. apply IH, H.
  - apply IH, H.
  - apply IH, H.
Qed.
(** A second run of such a test against the baseline recorded by the first gives the same status, whatever the floating point values. *)
Theorem C61_repeated_run : forall e f test a0 rest opts o f1 s1 z k e' f' opts' inf o' f2,
  command_line e f opts rest -> input_of opts = None -> opened e f (output_of e f opts) = Some (o, f1) ->
  leaves_alone e o (test (a0 :: rest)) -> ends (test (a0 :: rest)) = Ok k -> comment_safe (e_host e) -> comment_safe (e_time e) ->
  Main e test (a0 :: flat opts ++ rest) (new_test f) = (s1, Ok z) ->
  command_line e' f' opts' rest -> input_of opts' = Some inf -> expected_of opts' = expected_of opts ->
  opened e' f' (output_of e' f' opts') = Some (o', f2) ->
  contents e' f2 (baseline_path e' f2 (dirs_of opts') inf) = Some (written o s1) ->
  e_io e = std_io -> e_io e' = std_io -> usual_test (test (a0 :: rest)) ->
  exists s2, Main e' test (a0 :: flat opts' ++ rest) (new_test f') = (s2, Ok z) /\ s_stdout s2 = [].
Proof.
  intros e f test a0 rest opts o f1 s1 z k e' f' opts' inf o' f2 H1 H2 H3 H4 H5 H6 H7 H8 H9 H10 H11 H12 H13 Hio Hio' Hu.
  destruct (C39_record_then_compare e f test a0 rest opts o f1 s1 z k e' f' opts' inf o' f2) as (s2 & M & S & _); try assumption.
  - rewrite Hio. apply usual_storable, Hu.
  - congruence.
  - apply usual_repeatable; [exact Hio'|exact Hu|]. split; reflexivity.
  - exists s2. auto.
Qed.
Print Assumptions C61_repeated_run.
(** Recording and comparing: a test with a number, an infinity and a NaN. *)
Definition mixed_test (_ : list str) : prog :=
  Call (NumericDouble tenth3 ($"sum") true) (fun _ => Call (NumericFloat (S754_infinity true) ($"inf") true) (fun _ =>
  SetRelativeTolerance (dbl 1 (-30)) (Call (NumericDouble S754_nan ($"nan") false) (fun _ => Return 0)))).
Example C61_repeated_case : usual_test (mixed_test []) /\ record_compare std_env mixed_test (fun _ => None) ($"b.xml") [] = (Ok 0%Z, Ok 0%Z).
Proof. split; [repeat split|vm_compute; reflexivity]. Qed.

(** The threshold rule in terms of real numbers and integers. *)
From Coq Require Import Reals Psatz.
From Flocq Require Import Core Relative BinarySingleNaN.
From Coq Require Import Floats.SpecFloat.
From Verif Require Import Base Str Dec MeasModel FloatFacts TolFacts ImgModel ImgSpec ImgPixel.
Local Open Scope Z_scope.

Lemma square_val (a : b64) : is_finite a = true ->
  (exists c : b64, square (B2SF a) = B2SF c /\ is_finite c = true /\ B2R c = rnd64 (B2R a * B2R a)
     /\ (rnd64 (B2R a * B2R a) < bpow radix2 1024)%R) \/
  (square (B2SF a) = S754_infinity false /\ (bpow radix2 1024 <= rnd64 (B2R a * B2R a))%R).
Proof.
  intros F. unfold square. rewrite (mul_B 53 1024 p53 p53max a a).
  pose proof (Bmult_correct 53 1024 p53 p53max mode_NE a a) as H.
  change (round radix2 (SpecFloat.fexp 53 1024) (round_mode mode_NE)) with rnd64 in H.
  assert (P : (0 <= rnd64 (B2R a * B2R a))%R) by (apply (rnd_nonneg 53 1024 p53), Rle_0_sqr).
  revert H. case Rlt_bool_spec; intros Hb H; rewrite Rabs_pos_eq in Hb by exact P.
  - left. destruct H as (Hr & Hf & _). rewrite F in Hf. exists (Bmult mode_NE a a). auto.
  - right. split; [|exact Hb]. rewrite H. destruct (Bsign a); reflexivity.
Qed.
Lemma leb_inf (x : spec_float) : isnan x = false -> SFleb x (S754_infinity false) = true.
Proof. destruct x as [[]|[]| |[] m e]; cbn; congruence. Qed.
Lemma finite_not_nan (c : b64) : is_finite c = true -> isnan (B2SF c) = false.
Proof. destruct c; cbn; congruence. Qed.
Lemma square_nan (a : b64) : isnan (B2SF a) = false -> isnan (square (B2SF a)) = false.
Proof.
  intros H. destruct (is_finite a) eqn:F.
  - destruct (square_val a F) as [(c & -> & Fc & _)|[-> _]]; [apply finite_not_nan, Fc|reflexivity].
  - destruct a as [s|s| |s m e h]; try discriminate. destruct s; reflexivity.
Qed.
Lemma square_mono (a b : b64) : SFleb (SFabs (B2SF a)) (SFabs (B2SF b)) = true -> SFleb (square (B2SF a)) (square (B2SF b)) = true.
Proof.
  intros H.
  assert (N : isnan (B2SF a) = false /\ isnan (B2SF b) = false).
  { destruct (leb_nan _ _ H) as [A B]. destruct a, b; cbn in *; auto. }
  destruct N as [Na Nb]. destruct (is_finite b) eqn:Fb.
  2: { assert (E : square (B2SF b) = S754_infinity false) by (destruct b as [s|[]| |s m e h]; try discriminate; reflexivity).
       rewrite E. apply leb_inf, square_nan, Na. }
  assert (Fa : is_finite a = true).
  { destruct a as [s|s| |s m e h]; try reflexivity; [|discriminate]. destruct b as [s'|s'| |s' m' e' h']; try discriminate. }
  destruct (square_val b Fb) as [(cb & -> & Fc & Rb & Bb)|[-> _]]; [|apply leb_inf, square_nan, Na].
  assert (L : (Rabs (B2R a) <= Rabs (B2R b))%R).
  { rewrite !abs_B in H. destruct (abs_finite _ _ a Fa) as (A1 & _ & A3), (abs_finite _ _ b Fb) as (B1 & _ & B3).
    change (Bleb (Babs a) (Babs b) = true) in H. rewrite Bleb_correct in H by assumption. rewrite A3, B3 in H. apply rle_true in H. exact H. }
  assert (M : (rnd64 (B2R a * B2R a) <= rnd64 (B2R b * B2R b))%R).
  { apply (rnd_mono 53 1024 p53). apply Rsqr_le_abs_1 in L. exact L. }
  destruct (square_val a Fa) as [(ca & -> & Fca & Ra & _)|[_ G]]; [|lra].
  change (Bleb ca cb = true). rewrite Bleb_correct by assumption. rewrite Ra, Rb. apply rle_true, M.
Qed.
(** a larger threshold reports less *)
Lemma differs_mono t1 t2 r valid test i :
  valid_binary 53 1024 t1 = true -> valid_binary 53 1024 t2 = true -> SFleb (SFabs t1) (SFabs t2) = true ->
  differs t2 r valid test i -> differs t1 r valid test i.
Proof.
  intros V1 V2 L. apply (valid_B 53 1024) in V1. apply (valid_B 53 1024) in V2. destruct V1 as [b1 <-], V2 as [b2 <-].
  pose proof (square_mono b1 b2 L) as M. unfold differs, above, tolerated. intros [A B]. split.
  - exact (leb_ltb_trans _ _ _ M A).
  - intros j Hj Hn T. apply (B j Hj Hn).
    destruct (SFleb (square (difference (ipix valid i) (ipix test j))) (square (B2SF b2))) eqn:E; [reflexivity|]. exfalso.
    apply not_leb_ltb in E; [|apply (leb_nan _ _ T)|apply (leb_nan _ _ M)].
    pose proof (leb_ltb_trans _ _ _ M E) as G. rewrite (leb_not_ltb _ _ T) in G. discriminate.
Qed.
(** a larger radius reports less *)
Lemma near_mono r1 r2 i j : r1 <= r2 -> near r1 i j -> near r2 i j.
Proof. intros L [A B]. split; [exact A|]. intros k x y E1 E2. specialize (B k x y E1 E2). lia. Qed.
Lemma differs_radius t r1 r2 valid test i : r1 <= r2 -> differs t r2 valid test i -> differs t r1 valid test i.
Proof. intros L [A B]. split; [exact A|]. intros j Hj Hn. apply (B j Hj). exact (near_mono _ _ _ _ L Hn). Qed.
(** equal pixels never differ *)
Lemma sub_self_zero (x : spec_float) : valid_binary 53 1024 x = true -> finite_sf x = true -> difference x x = S754_zero false.
Proof.
  intros V F. destruct (valid_B 53 1024 x V) as [b <-]. unfold difference. rewrite finite_B in F.
  pose proof (sub_self 53 1024 p53 p53max b F) as H. rewrite (sub_B 53 1024 p53 p53max) in *.
  pose proof (Bminus_correct 53 1024 p53 p53max mode_NE b b F F) as C. rewrite Rminus_diag_eq in C by reflexivity.
  rewrite round_0 in C by apply valid_rnd_N. rewrite Rabs_R0, Rlt_bool_true in C by apply bpow_gt_0.
  destruct C as (_ & _ & C). rewrite Rcompare_Eq in C by reflexivity. cbn in C.
  destruct (Bminus mode_NE b b) as [s|s| |s m e h]; cbn in *; try discriminate; try (rewrite C; destruct (Bsign b); reflexivity).
Qed.
Lemma zero_le_square (t : b64) : isnan (B2SF t) = false -> SFleb (S754_zero false) (square (B2SF t)) = true.
Proof.
  intros N. apply (square_mono (B754_zero false) t). destruct t as [s|s| |s m e h]; try discriminate; reflexivity.
Qed.
Lemma not_above_self thr x : valid_binary 53 1024 thr = true -> valid_binary 53 1024 x = true -> ~ above thr (difference x x).
Proof.
  intros Vt V. unfold above. destruct (valid_B 53 1024 thr Vt) as [t <-]. destruct (finite_sf x) eqn:F.
  - rewrite (sub_self_zero x V F). change (square (S754_zero false)) with (S754_zero false). intros H.
    destruct (isnan (B2SF t)) eqn:N.
    + destruct t as [s|s| |s m e h]; try discriminate.
    + rewrite (leb_not_ltb _ _ (zero_le_square t N)) in H. discriminate.
  - destruct x as [s|s| |s m e]; try discriminate; [destruct s|]; cbn; unfold SFltb; destruct (square (B2SF t)) as [[]|[]| |[] ? ?]; cbn; discriminate.
Qed.
(** what [above] says about magnitudes *)
Lemma above_magnitude thr d : valid_binary 53 1024 thr = true -> valid_binary 53 1024 d = true ->
  above thr d -> SFltb (SFabs thr) (SFabs d) = true.
Proof.
  intros Vt Vd. destruct (valid_B 53 1024 thr Vt) as [t <-], (valid_B 53 1024 d Vd) as [b <-]. unfold above. intros H.
  assert (N : isnan (B2SF t) = false /\ isnan (B2SF b) = false).
  { destruct (ltb_nan _ _ H) as [A B]. destruct t, b; cbn in *; auto. }
  destruct N as [Nt Nb]. apply not_leb_ltb.
  - destruct b; try discriminate; reflexivity.
  - destruct t; try discriminate; reflexivity.
  - destruct (SFleb (SFabs (B2SF b)) (SFabs (B2SF t))) eqn:E; [|reflexivity]. apply square_mono in E. rewrite (leb_not_ltb _ _ E) in H. discriminate.
Qed.

(** * Real numbers *)
Lemma difference_val (x y : b64) : is_finite x = true -> is_finite y = true ->
  (exists d : b64, difference (B2SF x) (B2SF y) = B2SF d /\ is_finite d = true /\ B2R d = rnd64 (B2R x - B2R y)) \/
  ((exists s, difference (B2SF x) (B2SF y) = S754_infinity s) /\ (bpow radix2 1024 <= Rabs (rnd64 (B2R x - B2R y)))%R).
Proof.
  intros Fx Fy. unfold difference. rewrite (sub_B 53 1024 p53 p53max).
  pose proof (Bminus_correct 53 1024 p53 p53max mode_NE x y Fx Fy) as C.
  change (round radix2 (SpecFloat.fexp 53 1024) (round_mode mode_NE)) with rnd64 in C.
  revert C. case Rlt_bool_spec; intros Hb C.
  - left. destruct C as (C1 & C2 & _). exists (Bminus mode_NE x y). auto.
  - right. split; [|exact Hb]. destruct C as [C _]. exists (Bsign x). exact C.
Qed.
(** a reported pixel really differs: exact real difference above the threshold *)
Lemma not_tolerated_real (t x y : b64) : is_finite t = true -> is_finite x = true -> is_finite y = true ->
  ~ tolerated (B2SF t) (difference (B2SF x) (B2SF y)) -> (Rabs (B2R t) < Rabs (B2R x - B2R y))%R.
Proof.
  intros Ft Fx Fy H. apply Rnot_le_lt. intros L. apply H. clear H.
  assert (M : (Rabs (rnd64 (B2R x - B2R y)) <= Rabs (B2R t))%R).
  { unfold rnd64. rewrite <- (rnd_abs 53 1024 p53). apply (rnd_mono 53 1024 p53) in L. rewrite (rnd_abs 53 1024 p53 (B2R t)), (rnd_B 53 1024) in L. exact L. }
  destruct (difference_val x y Fx Fy) as [(d & E & Fd & Rd)|[(s & E) B]].
  - unfold tolerated. rewrite E. apply square_mono. rewrite !abs_B. destruct (abs_finite _ _ d Fd) as (A1 & _ & A3), (abs_finite _ _ t Ft) as (B1 & _ & B3).
    change (Bleb (Babs d) (Babs t) = true). rewrite Bleb_correct by assumption. rewrite A3, B3, Rd. apply rle_true, M.
  - pose proof (B_bound 53 1024 t). lra.
Qed.

Definition u53 : R := bpow radix2 (-53).
Lemma u53_small : (0 < u53 <= / 1024)%R.
Proof. unfold u53. split; [apply bpow_gt_0|]. change (/ 1024)%R with (bpow radix2 (-10)). apply bpow_le. lia. Qed.
Lemma rel_err x : (bpow radix2 (-1022) <= Rabs x)%R -> (Rabs (rnd64 x - x) <= u53 * Rabs x)%R.
Proof.
  intros H. unfold rnd64, rnd, u53.
  pose proof (relative_error_N_FLT radix2 (-1074) 53 p53 (fun x => negb (Z.even x)) x) as G.
  replace (bpow radix2 (-53)) with (/ 2 * bpow radix2 (- (53) + 1))%R.
  - apply G. exact H.
  - change (-53) with (-1 + -52). rewrite bpow_plus. change (- (53) + 1) with (-52). f_equal. cbn. lra.
Qed.
Lemma rnd_pow k : (-1074 <= k)%Z -> rnd64 (bpow radix2 k) = bpow radix2 k.
Proof.
  intros H. unfold rnd64, rnd. apply round_generic; [apply valid_rnd_N|]. apply generic_format_bpow. unfold SpecFloat.fexp, SpecFloat.emin. lia.
Qed.
Lemma ltb_inf (c : b64) : is_finite c = true -> SFltb (B2SF c) (S754_infinity false) = true.
Proof. destruct c as [s|s| |[] m e h]; cbn; congruence. Qed.
Lemma margin_alg (u t e : R) : (0 < u <= / 1024 -> 0 <= t -> t * (1 + 4 * u) < e -> t * t * (1 + u) < e * e * (1 - u) * (1 - u) * (1 - u))%R.
Proof.
  intros Hu Ht He.
  assert (E2 : (t * (1 + 4 * u) * (t * (1 + 4 * u)) < e * e)%R) by (apply Rmult_le_0_lt_compat; nra).
  assert (K : (1 + u <= (1 + 4 * u) * (1 + 4 * u) * ((1 - u) * (1 - u) * (1 - u)))%R).
  { assert (A : (1 - 3 * u <= (1 - u) * (1 - u) * (1 - u))%R) by nra.
    assert (B : (1 + 8 * u <= (1 + 4 * u) * (1 + 4 * u))%R) by nra.
    assert (C : (0 <= 1 - 3 * u)%R) by lra.
    apply Rle_trans with ((1 + 8 * u) * (1 - 3 * u))%R; [nra|]. apply Rmult_le_compat; lra. }
  assert (W : (0 < (1 - u) * (1 - u) * (1 - u))%R) by (repeat apply Rmult_lt_0_compat; lra).
  apply Rle_lt_trans with (t * (1 + 4 * u) * (t * (1 + 4 * u)) * ((1 - u) * (1 - u) * (1 - u)))%R.
  - replace (t * (1 + 4 * u) * (t * (1 + 4 * u)) * ((1 - u) * (1 - u) * (1 - u)))%R with (t * t * ((1 + 4 * u) * (1 + 4 * u) * ((1 - u) * (1 - u) * (1 - u))))%R by ring.
    apply Rmult_le_compat_l; [nra|exact K].
  - replace (e * e * (1 - u) * (1 - u) * (1 - u))%R with (e * e * ((1 - u) * (1 - u) * (1 - u)))%R by ring. apply Rmult_lt_compat_r; assumption.
Qed.
(** a difference beyond the threshold by more than rounding is reported *)
Lemma above_margin (t x y : b64) : is_finite t = true -> is_finite x = true -> is_finite y = true ->
  (Rabs (B2R t) <= bpow radix2 511)%R -> (bpow radix2 (-500) <= Rabs (B2R x - B2R y))%R ->
  (Rabs (B2R t) * (1 + bpow radix2 (-51)) < Rabs (B2R x - B2R y))%R ->
  above (B2SF t) (difference (B2SF x) (B2SF y)).
Proof.
  intros Ft Fx Fy Bt Be Hm. unfold above.
  assert (U : bpow radix2 (-51) = (4 * u53)%R) by (unfold u53; change (-51) with (2 + -53); rewrite bpow_plus; f_equal; cbn; lra).
  rewrite U in Hm. pose proof u53_small as Hu. set (e := Rabs (B2R x - B2R y)) in *. set (T := Rabs (B2R t)) in *.
  assert (T0 : (0 <= T)%R) by apply Rabs_pos.
  assert (Et : (B2R t * B2R t = T * T)%R) by (unfold T; rewrite <- Rabs_mult; symmetry; apply Rabs_pos_eq, Rle_0_sqr).
  pose proof (margin_alg u53 T e Hu T0 Hm) as Alg.
  (* the square of the threshold is finite *)
  assert (Bsq : (rnd64 (B2R t * B2R t) <= bpow radix2 1022)%R).
  { rewrite Et, <- (rnd_pow 1022) by lia. apply (rnd_mono 53 1024 p53). change 1022 with (511 + 511). rewrite bpow_plus. apply Rmult_le_compat; assumption. }
  destruct (square_val t Ft) as [(ct & -> & Fct & Rct & _)|[_ G]].
  2: { exfalso. assert (bpow radix2 1022 < bpow radix2 1024)%R by (apply bpow_lt; lia). lra. }
  destruct (difference_val x y Fx Fy) as [(d & -> & Fd & Rd)|[(s & ->) _]].
  2: { destruct s; apply ltb_inf, Fct. }
  destruct (square_val d Fd) as [(cd & -> & Fcd & Rcd & _)|[-> _]]; [|apply ltb_inf, Fct].
  change (Bltb ct cd = true). rewrite Bltb_correct by assumption. rewrite Rct, Rcd, Rd. apply Rlt_bool_true.
  (* sizes *)
  assert (e0 : (0 < e)%R) by (eapply Rlt_le_trans; [apply bpow_gt_0|exact Be]).
  assert (P1 : (bpow radix2 (-1022) <= e)%R) by (eapply Rle_trans; [apply bpow_le|exact Be]; lia).
  pose proof (rel_err (B2R x - B2R y) P1) as R1. fold e in R1.
  set (D := rnd64 (B2R x - B2R y)) in *.
  assert (D1 : (e * (1 - u53) <= Rabs D)%R).
  { pose proof (Rabs_triang_inv (B2R x - B2R y) ((B2R x - B2R y) - D)) as G.
    replace (B2R x - B2R y - (B2R x - B2R y - D))%R with D in G by ring. rewrite (Rabs_minus_sym (B2R x - B2R y) D) in G. fold e in G. lra. }
  assert (ED : (D * D = Rabs D * Rabs D)%R) by (rewrite <- Rabs_mult; symmetry; apply Rabs_pos_eq, Rle_0_sqr).
  assert (D2 : (e * (1 - u53) * (e * (1 - u53)) <= D * D)%R).
  { rewrite ED. apply Rmult_le_compat; try exact D1; apply Rmult_le_pos; lra. }
  assert (half : (/ 2 <= (1 - u53) * (1 - u53) * (1 - u53))%R) by nra.
  assert (half2 : (/ 2 <= (1 - u53) * (1 - u53))%R) by nra.
  assert (e2 : (bpow radix2 (-1000) <= e * e)%R).
  { change (-1000) with (-500 + -500). rewrite bpow_plus. apply Rmult_le_compat; try apply bpow_ge_0; exact Be. }
  assert (b1 : (bpow radix2 (-1001) = bpow radix2 (-1000) * / 2)%R) by (change (-1001) with (-1000 + -1); rewrite bpow_plus; f_equal).
  assert (low : (bpow radix2 (-1001) <= D * D)%R).
  { apply Rle_trans with (2 := D2). rewrite b1. replace (e * (1 - u53) * (e * (1 - u53)))%R with (e * e * ((1 - u53) * (1 - u53)))%R by ring.
    apply Rmult_le_compat; try lra. apply bpow_ge_0. }
  assert (DD : (0 <= D * D)%R) by apply Rle_0_sqr.
  assert (R2 : (Rabs (rnd64 (D * D) - D * D) <= u53 * (D * D))%R).
  { pose proof (rel_err (D * D)) as G. rewrite (Rabs_pos_eq (D * D) DD) in G. apply G. eapply Rle_trans; [apply bpow_le|exact low]; lia. }
  apply Rabs_le_inv in R2.
  assert (low2 : (e * e * (1 - u53) * (1 - u53) * (1 - u53) <= rnd64 (D * D))%R).
  { apply Rle_trans with (D * D * (1 - u53))%R; [|lra]. apply Rmult_le_compat_r; [lra|]. eapply Rle_trans; [|exact D2]. apply Req_le. ring. }
  apply Rlt_le_trans with (2 := low2). rewrite Et.
  destruct (Rle_lt_dec (bpow radix2 (-1022)) (T * T)) as [L|L].
  - assert (TT : (0 <= T * T)%R) by apply Rle_0_sqr.
    pose proof (rel_err (T * T)) as G. rewrite (Rabs_pos_eq (T * T) TT) in G. specialize (G L). apply Rabs_le_inv in G. lra.
  - apply Rle_lt_trans with (bpow radix2 (-1022)).
    + rewrite <- (rnd_pow (-1022)) by lia. apply (rnd_mono 53 1024 p53). lra.
    + apply Rlt_le_trans with (bpow radix2 (-1001)); [apply bpow_lt; lia|]. rewrite b1.
      replace (e * e * (1 - u53) * (1 - u53) * (1 - u53))%R with (e * e * ((1 - u53) * (1 - u53) * (1 - u53)))%R by ring.
      apply Rmult_le_compat; try lra. apply bpow_ge_0.
Qed.

(** * Integers *)
Lemma IZR_sq z : (IZR z * IZR z = IZR (z * z))%R. Proof. symmetry. apply mult_IZR. Qed.
Lemma int_square (b : b64) z : is_finite b = true -> B2R b = IZR z -> Z.abs z <= 2 ^ 26 ->
  exists c : b64, square (B2SF b) = B2SF c /\ is_finite c = true /\ B2R c = IZR (z * z).
Proof.
  intros F R H. assert (Z2 : Z.abs (z * z) <= 2 ^ 53) by (rewrite Z.abs_mul; nia).
  destruct (square_val b F) as [(c & E & Fc & Rc & _)|[_ G]].
  - exists c. rewrite R, IZR_sq, Z_exact in Rc by exact Z2. auto.
  - exfalso. rewrite R, IZR_sq, Z_exact in G by exact Z2.
    assert (G2 : (bpow radix2 1024 <= bpow radix2 53)%R).
    { eapply Rle_trans; [exact G|]. change (bpow radix2 53) with (IZR (2 ^ 53)). apply IZR_le. lia. }
    assert (bpow radix2 53 < bpow radix2 1024)%R by (apply bpow_lt; lia). lra.
Qed.
Lemma int_difference x y : Z.abs x <= 2 ^ 52 -> Z.abs y <= 2 ^ 52 ->
  exists d : b64, difference (of_int64 x) (of_int64 y) = B2SF d /\ is_finite d = true /\ B2R d = IZR (x - y).
Proof.
  intros Hx Hy. destruct (of_int_B x) as (bx & -> & Rx & Fx & _); [lia|]. destruct (of_int_B y) as (b & -> & Ry & Fy & _); [lia|].
  destruct (difference_val bx b Fx Fy) as [(d & E & Fd & Rd)|[_ G]].
  - exists d. rewrite Rx, Ry, <- minus_IZR, Z_exact in Rd by lia. auto.
  - exfalso. rewrite Rx, Ry, <- minus_IZR, Z_exact, <- abs_IZR in G by lia.
    assert (G2 : (bpow radix2 1024 <= bpow radix2 53)%R).
    { eapply Rle_trans; [exact G|]. change (bpow radix2 53) with (IZR (2 ^ 53)). apply IZR_le. lia. }
    assert (bpow radix2 53 < bpow radix2 1024)%R by (apply bpow_lt; lia). lra.
Qed.
Lemma int_above t x y : 0 <= t <= 2 ^ 26 -> Z.abs x <= 2 ^ 25 -> Z.abs y <= 2 ^ 25 ->
  (above (of_int64 t) (difference (of_int64 x) (of_int64 y)) <-> t < Z.abs (x - y)) /\
  (tolerated (of_int64 t) (difference (of_int64 x) (of_int64 y)) <-> Z.abs (x - y) <= t).
Proof.
  intros Ht Hx Hy. destruct (of_int_B t) as (bt & -> & Rt & Ft & _); [lia|].
  destruct (int_difference x y) as (d & -> & Fd & Rd); [lia|lia|].
  destruct (int_square bt t Ft Rt) as (ct & Et & Fct & Rct); [lia|]. destruct (int_square d (x - y) Fd Rd) as (cd & Ed & Fcd & Rcd); [lia|].
  unfold above, tolerated. rewrite Et, Ed. split.
  - change (SFltb (B2SF ct) (B2SF cd)) with (Bltb ct cd). rewrite Bltb_correct, Rct, Rcd by assumption. case Rlt_bool_spec; intros H.
    + apply lt_IZR in H. split; [intros _; nia|reflexivity].
    + apply le_IZR in H. split; [discriminate|nia].
  - change (SFleb (B2SF cd) (B2SF ct)) with (Bleb cd ct). rewrite Bleb_correct, Rct, Rcd by assumption. case Rle_bool_spec; intros H.
    + apply le_IZR in H. split; [intros _; nia|reflexivity].
    + apply lt_IZR in H. split; [discriminate|nia].
Qed.

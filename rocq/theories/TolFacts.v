(** Facts about the tolerant comparisons (tfMeasurement.h 441-450). *)
From Coq Require Import Reals Psatz.
From Flocq Require Import Core BinarySingleNaN.
From Coq Require Import Floats.SpecFloat.
From Verif Require Import Base Str Dec MeasModel FloatFacts.
Local Open Scope Z_scope.

Lemma Z_exact z : Z.abs z <= 2 ^ 53 -> rnd64 (IZR z) = IZR z.
Proof.
  intros H. unfold rnd64, rnd. apply round_generic; [apply valid_rnd_N|].
  destruct (Z.eq_dec z 0) as [->|Hz]; [apply generic_format_0|].
  destruct (Z.eq_dec (Z.abs z) (2 ^ 53)) as [E|E].
  - assert (Hb : generic_format radix2 (SpecFloat.fexp 53 1024) (bpow radix2 53)).
    { apply generic_format_bpow. unfold SpecFloat.fexp, SpecFloat.emin. lia. }
    change (bpow radix2 53) with (IZR (2 ^ 53)) in Hb.
    destruct (Z.abs_eq_or_opp z) as [Ea|Ea]; rewrite Ea in E.
    + rewrite E. exact Hb.
    + replace z with (- 2 ^ 53) by lia. rewrite opp_IZR. apply generic_format_opp, Hb.
  - apply generic_format_FLT. exists (Float radix2 z 0).
    + unfold F2R. cbn. lra.
    + cbn. lia.
    + unfold SpecFloat.emin. cbn. lia.
Qed.

Lemma of_int_B z : Z.abs z <= 2 ^ 53 ->
  exists b : b64, of_int64 z = B2SF b /\ B2R b = IZR z /\ is_finite b = true /\ (0 <= z -> Bsign b = false).
Proof.
  intros H. exists (BinarySingleNaN.binary_normalize 53 1024 p53 p53max mode_NE z 0 false).
  split; [apply normalize_B|].
  pose proof (binary_normalize_correct 53 1024 p53 p53max mode_NE z 0 false) as C. cbv zeta in C.
  assert (E : F2R (Float radix2 z 0) = IZR z) by (unfold F2R; cbn; lra).
  rewrite E in C.
  change (round radix2 (SpecFloat.fexp 53 1024) (round_mode mode_NE)) with rnd64 in C.
  rewrite (Z_exact z H) in C.
  rewrite Rlt_bool_true in C.
  - destruct C as (C1 & C2 & C3). repeat split; auto. intros Hz. rewrite C3.
    case Rcompare_spec; intros Hc; try reflexivity. apply IZR_le in Hz. lra.
  - rewrite <- abs_IZR. change (bpow radix2 1024) with (IZR (2 ^ 1024)). apply IZR_lt. 
    eapply Z.le_lt_trans; [exact H|]. apply Z.pow_lt_mono_r; lia.
Qed.

Lemma abs_finite prec emax (b : binary_float prec emax) : is_finite b = true ->
  is_finite (Babs b) = true /\ Bsign (Babs b) = false /\ B2R (Babs b) = Rabs (B2R b).
Proof. intros H. rewrite is_finite_Babs, Bsign_Babs, B2R_Babs. auto. Qed.

(** one clause of the comparison: an exact non-negative left side against tolerance times magnitude *)
Lemma clause (tol t a : b64) : is_finite tol = true -> is_finite t = true -> is_finite a = true ->
  (0 <= B2R t)%R -> Bsign a = false -> (0 <= B2R a)%R ->
  SFleb (B2SF t) (mul64 (SFabs (B2SF tol)) (B2SF a)) = Rle_bool (B2R t) (rnd64 (Rabs (B2R tol) * B2R a)).
Proof.
  intros F1 F2 F3 P S Pa. rewrite abs_B. destruct (abs_finite _ _ tol F1) as (A & B & C).
  unfold mul64, p64, x64. rewrite (le_mult 53 1024 p53 p53max t (Babs tol) a); auto.
  - rewrite C. reflexivity.
  - rewrite C. apply Rabs_pos.
Qed.

Definition rle (a b : R) : bool := Rle_bool a b.
Lemma rle_true a b : rle a b = true <-> (a <= b)%R.
Proof. unfold rle. case Rle_bool_spec; split; intros; try lra; try reflexivity; discriminate. Qed.

(** ** Integers *)
Definition int_ok (l r : Z) : Prop := INT_MIN < l <= INT_MAX /\ INT_MIN < r <= INT_MAX /\ INT_MIN < l - r <= INT_MAX.

Lemma tol_int_spec l r tol : valid_binary 53 1024 tol = true -> finite_sf tol = true -> int_ok l r ->
  tol_int l r tol = Ok (rle (IZR (Z.abs (l - r))) (rnd64 (Rabs (rv tol) * IZR (Z.abs l)))
                     || rle (IZR (Z.abs (l - r))) (rnd64 (Rabs (rv tol) * IZR (Z.abs r)))).
Proof.
  intros V F (Hl & Hr & Hd). destruct (valid_B 53 1024 tol V) as [bt Et]. subst tol.
  rewrite finite_B in F. rewrite rv_B.
  unfold tol_int. unfold INT_MIN, INT_MAX in *.
  replace (l - r <? -2147483648) with false by lia. replace (2147483647 <? l - r) with false by lia. cbn [orb].
  unfold int_abs, INT_MIN. replace (l - r =? -2147483648) with false by lia.
  replace (l =? -2147483648) with false by lia. cbn [bind].
  destruct (of_int_B (Z.abs (l - r))) as (t & -> & Rt & Ft & St); [lia|].
  destruct (of_int_B (Z.abs l)) as (a & -> & Ra & Fa & Sa); [lia|].
  destruct (of_int_B (Z.abs r)) as (b & Eb & Rb & Fb & Sb); [lia|].
  assert (Pt : (0 <= B2R t)%R) by (rewrite Rt; apply IZR_le; lia).
  assert (Pa : (0 <= B2R a)%R) by (rewrite Ra; apply IZR_le; lia).
  assert (Pb : (0 <= B2R b)%R) by (rewrite Rb; apply IZR_le; lia).
  rewrite clause by (auto; apply Sa; lia). rewrite Rt, Ra. fold (rle (IZR (Z.abs (l - r))) (rnd64 (Rabs (B2R bt) * IZR (Z.abs l)))).
  destruct (rle _ _); [reflexivity|].
  replace (r =? -2147483648) with false by lia. cbn [bind]. rewrite Eb.
  rewrite clause by (auto; apply Sb; lia). rewrite Rt, Rb. unfold rle.
  destruct (Rle_bool (IZR (Z.abs (l - r))) (rnd64 (Rabs (B2R bt) * IZR (Z.abs r)))); [reflexivity|].
  replace (Z.abs l <? 0) with false by lia. reflexivity.
Qed.

Lemma tol_int_ub l r tol : in_int l -> in_int r ->
  (tol_int l r tol = UB -> ~ int_ok l r) /\
  (l - r < INT_MIN \/ INT_MAX < l - r \/ l - r = INT_MIN \/ l = INT_MIN -> tol_int l r tol = UB).
Proof.
  intros Hl Hr. unfold in_int in *. unfold tol_int, int_abs, int_ok. unfold INT_MIN, INT_MAX in *.
  destruct (Z.ltb_spec (l - r) (-2147483648)), (Z.ltb_spec 2147483647 (l - r)); cbn [orb]; try (split; [lia|reflexivity]).
  destruct (Z.eqb_spec (l - r) (-2147483648)); cbn [bind]; [split; [lia|reflexivity]|].
  destruct (Z.eqb_spec l (-2147483648)); cbn [bind]; [split; [lia|reflexivity]|].
  split; [|lia].
  destruct (SFleb _ _); [discriminate|].
  destruct (Z.eqb_spec r (-2147483648)); cbn [bind]; [intros _; lia|].
  destruct (SFleb _ _); discriminate.
Qed.

(** ** Floating point values *)
Lemma widen_B (x : b32) : exists y : b64, widen (B2SF x) = B2SF y /\ B2R y = B2R x /\
  is_finite y = is_finite x /\ is_nan y = is_nan x /\ Bsign y = Bsign x.
Proof.
  destruct x as [s|s| |s m e h].
  - exists (B754_zero s). auto.
  - exists (B754_infinity s). auto.
  - exists B754_nan. auto.
  - pose (x := B754_finite s m e h : b32).
    exists (BinarySingleNaN.binary_normalize 53 1024 p53 p53max mode_NE (cond_Zopp s (Zpos m)) e s).
    split; [apply normalize_B|].
    pose proof (binary_normalize_correct 53 1024 p53 p53max mode_NE (cond_Zopp s (Zpos m)) e s) as C. cbv zeta in C.
    change (F2R (Float radix2 (cond_Zopp s (Zpos m)) e)) with (B2R x) in C.
    change (round radix2 (SpecFloat.fexp 53 1024) (round_mode mode_NE)) with rnd64 in C.
    assert (Ex : rnd64 (B2R x) = B2R x).
    { unfold rnd64, rnd. apply round_generic; [apply valid_rnd_N|].
      pose proof (generic_format_B2R 24 128 x) as G.
      apply generic_inclusion_mag with (SpecFloat.fexp 24 128); [|exact G].
      intros _. unfold SpecFloat.fexp, SpecFloat.emin. lia. }
    rewrite Ex in C.
    rewrite Rlt_bool_true in C.
    + destruct C as (C1 & C2 & C3). split; [exact C1|]. split; [exact C2|].
      split; [destruct (BinarySingleNaN.binary_normalize _ _ _ _ _ _ _ _); try reflexivity; discriminate C2|].
      rewrite C3. case Rcompare_spec; intros Hc.
      * destruct s; [reflexivity|]. exfalso. unfold x in Hc. cbn in Hc.
        assert (0 < F2R (Float radix2 (Zpos m) e))%R by (apply F2R_gt_0; reflexivity). lra.
      * exfalso. unfold x in Hc. cbn in Hc. apply eq_0_F2R in Hc. destruct s; discriminate.
      * destruct s; [|reflexivity]. exfalso. unfold x in Hc. cbn in Hc.
        assert (F2R (Float radix2 (Zneg m) e) < 0)%R by (apply F2R_lt_0; reflexivity). lra.
    + eapply Rlt_trans; [apply (abs_B2R_lt_emax 24 128 x)|]. apply bpow_lt. lia.
Qed.

(** A conversion of the compared type to double that loses nothing. *)
Definition lossless {prec emax} (w : spec_float -> spec_float) : Prop :=
  forall x : binary_float prec emax, exists y : b64, w (B2SF x) = B2SF y /\ B2R y = B2R x /\
    is_finite y = is_finite x /\ is_nan y = is_nan x /\ Bsign y = Bsign x.
Lemma lossless32 : @lossless 24 128 widen.
Proof. exact widen_B. Qed.
Lemma lossless64 : @lossless 53 1024 (fun x => x).
Proof. intros x. exists x. auto. Qed.

Section Fp.
Variables prec emax : Z.
Context (Hprec : Prec_gt_0 prec) (Hmax : Prec_lt_emax prec emax).
Notation bf := (binary_float prec emax).
Variable w : spec_float -> spec_float.
Hypothesis W : @lossless prec emax w.
Notation tolf := (tol_fp prec emax w).

(** symmetry of the subtraction up to sign *)
Lemma sub_abs_sym (x y : bf) : SFabs (SFsub prec emax (B2SF x) (B2SF y)) = SFabs (SFsub prec emax (B2SF y) (B2SF x)).
Proof.
  rewrite !(sub_B prec emax Hprec Hmax).
  destruct (is_finite x) eqn:Fx, (is_finite y) eqn:Fy.
  - pose proof (Bminus_correct prec emax Hprec Hmax mode_NE x y Fx Fy) as A.
    pose proof (Bminus_correct prec emax Hprec Hmax mode_NE y x Fy Fx) as B.
    change (round radix2 (SpecFloat.fexp prec emax) (round_mode mode_NE)) with (rnd prec emax) in A, B.
    replace (B2R y - B2R x)%R with (- (B2R x - B2R y))%R in B by ring.
    rewrite rnd_opp, Rabs_Ropp in B. revert A B.
    case Rlt_bool_spec; intros _ A B.
    + destruct A as (A1 & A2 & A3), B as (B1 & B2 & B3). rewrite !abs_B. f_equal. apply B2R_Bsign_inj.
      * rewrite is_finite_Babs. exact A2.
      * rewrite is_finite_Babs. exact B2.
      * rewrite !B2R_Babs, A1, B1. rewrite Rabs_Ropp. reflexivity.
      * rewrite !Bsign_Babs. reflexivity.
    + destruct A as (A1 & A2), B as (B1 & B2). rewrite A1, B1. unfold binary_overflow. cbn. reflexivity.
  - destruct x as [s|s| |s m e h], y as [s'|s'| |s' m' e' h']; try discriminate; reflexivity.
  - destruct x as [s|s| |s m e h], y as [s'|s'| |s' m' e' h']; try discriminate; reflexivity.
  - destruct x as [s|s| |s m e h], y as [s'|s'| |s' m' e' h']; try discriminate; try reflexivity.
    destruct s, s'; reflexivity.
Qed.

Lemma tol_sym (x y : bf) tol : tolf (B2SF x) (B2SF y) tol = tolf (B2SF y) (B2SF x) tol.
Proof.
  unfold tol_fp. rewrite sub_abs_sym. rewrite (orb_comm (SFleb _ (mul64 _ (w (SFabs (B2SF x)))))).
  f_equal. apply andb_comm.
Qed.
Lemma tol_sign (x y : spec_float) tol : tolf x y (SFopp tol) = tolf x y tol.
Proof. unfold tol_fp. destruct tol; reflexivity. Qed.

(** real-number meaning of the comparison *)
Definition tiny (r : R) : bool := Rlt_bool (Rabs r) (bpow radix2 (1 - prec)).

Hypothesis Heps : exists e : bf, epsilon prec emax = B2SF e /\ is_finite e = true /\ B2R e = bpow radix2 (1 - prec).

Lemma tiny_B (x : bf) : is_finite x = true -> SFltb (SFabs (B2SF x)) (epsilon prec emax) = tiny (B2R x).
Proof.
  intros F. destruct Heps as (e & -> & Fe & Re). rewrite abs_B.
  change (SFltb (B2SF (Babs x)) (B2SF e)) with (Bltb (Babs x) e).
  rewrite Bltb_correct by (try rewrite is_finite_Babs; assumption).
  rewrite B2R_Babs, Re. reflexivity.
Qed.

Lemma w_abs (x : bf) : is_finite x = true -> exists y : b64, w (SFabs (B2SF x)) = B2SF y /\ B2R y = Rabs (B2R x) /\
  is_finite y = true /\ Bsign y = false /\ (0 <= B2R y)%R.
Proof.
  intros F. rewrite abs_B. destruct (W (Babs x)) as (y & E & R1 & F1 & _ & S1). exists y.
  rewrite B2R_Babs in R1. rewrite is_finite_Babs in F1. rewrite Bsign_Babs in S1.
  repeat split; try congruence. rewrite R1. apply Rabs_pos.
Qed.

Lemma tol_spec (x y : bf) (tol : b64) : is_finite x = true -> is_finite y = true -> is_finite tol = true ->
  (Rabs (rnd prec emax (B2R x - B2R y)) < bpow radix2 emax)%R ->
  tolf (B2SF x) (B2SF y) (B2SF tol) =
    (rle (Rabs (rnd prec emax (B2R x - B2R y))) (rnd64 (Rabs (B2R tol) * Rabs (B2R x)))
     || rle (Rabs (rnd prec emax (B2R x - B2R y))) (rnd64 (Rabs (B2R tol) * Rabs (B2R y)))
     || (tiny (B2R x) && tiny (B2R y))).
Proof.
  intros Fx Fy Ft Hov. unfold tol_fp. rewrite (sub_B prec emax Hprec Hmax).
  pose proof (Bminus_correct prec emax Hprec Hmax mode_NE x y Fx Fy) as A.
  change (round radix2 (SpecFloat.fexp prec emax) (round_mode mode_NE)) with (rnd prec emax) in A.
  rewrite Rlt_bool_true in A by exact Hov. destruct A as (A1 & A2 & _).
  destruct (w_abs _ A2) as (t & Et & Rt & Ftt & St & Pt).
  destruct (w_abs x Fx) as (a & Ea & Ra & Fa & Sa & Pa).
  destruct (w_abs y Fy) as (b & Eb & Rb & Fb & Sb & Pb).
  rewrite Et, Ea, Eb. rewrite !clause by assumption.
  rewrite !tiny_B by assumption. rewrite Rt, Ra, Rb, A1. reflexivity.
Qed.

(** infinite subtraction result *)
Lemma sub_overflow (x y : bf) : is_finite x = true -> is_finite y = true ->
  (bpow radix2 emax <= Rabs (rnd prec emax (B2R x - B2R y)))%R ->
  SFabs (SFsub prec emax (B2SF x) (B2SF y)) = S754_infinity false.
Proof.
  intros Fx Fy Hov. rewrite (sub_B prec emax Hprec Hmax).
  pose proof (Bminus_correct prec emax Hprec Hmax mode_NE x y Fx Fy) as A.
  change (round radix2 (SpecFloat.fexp prec emax) (round_mode mode_NE)) with (rnd prec emax) in A.
  rewrite Rlt_bool_false in A by exact Hov. destruct A as (A1 & _). rewrite A1. reflexivity.
Qed.

Lemma w_inf : w (S754_infinity false) = S754_infinity false.
Proof.
  destruct (W (B754_infinity false)) as (y & E & _ & F & N & S). cbn in E. rewrite E.
  destruct y; try discriminate; cbn in *. subst. reflexivity.
Qed.
Lemma w_nan : w S754_nan = S754_nan.
Proof. destruct (W B754_nan) as (y & E & _ & F & N & S). cbn in E. rewrite E. destruct y; try discriminate; reflexivity. Qed.

Lemma leb_nan_l y : SFleb S754_nan y = false. Proof. reflexivity. Qed.
Lemma leb_nan_r x : SFleb x S754_nan = false. Proof. destruct x as [[]|[]| |[] ? ?]; reflexivity. Qed.
Lemma ltb_nan_l y : SFltb S754_nan y = false. Proof. reflexivity. Qed.

Lemma tol_nan (y tol : spec_float) : tolf S754_nan y tol = false.
Proof.
  unfold tol_fp. replace (SFsub prec emax S754_nan y) with S754_nan by (destruct y; reflexivity).
  cbn [SFabs]. rewrite w_nan. rewrite !leb_nan_l. rewrite ltb_nan_l. reflexivity.
Qed.

(** an infinite value is equal to every finite value and to the opposite infinity, but not to itself *)
Lemma eps_not_inf : SFltb (S754_infinity false) (epsilon prec emax) = false.
Proof. destruct Heps as (e & -> & Fe & _). destruct e as [[]|[]| |[] ? ? ?]; try discriminate; reflexivity. Qed.
Lemma inf_self s tol : tolf (S754_infinity s) (S754_infinity s) tol = false.
Proof.
  unfold tol_fp. replace (SFsub prec emax (S754_infinity s) (S754_infinity s)) with S754_nan by (destruct s; reflexivity).
  cbn [SFabs]. rewrite w_nan, !leb_nan_l, eps_not_inf. reflexivity.
Qed.
Lemma inf_other s (y : bf) (tol : b64) : is_nan y = false -> B2SF y <> S754_infinity s ->
  is_nan tol = false -> B2R tol <> 0%R \/ is_finite tol = false ->
  tolf (S754_infinity s) (B2SF y) (B2SF tol) = true.
Proof.
  intros Ny Hy Nt Ht. unfold tol_fp.
  replace (SFabs (SFsub prec emax (S754_infinity s) (B2SF y))) with (S754_infinity false).
  - cbn [SFabs]. rewrite w_inf.
    replace (mul64 (SFabs (B2SF tol)) (S754_infinity false)) with (S754_infinity false); [reflexivity|].
    destruct tol as [st|st| |st m e h]; try discriminate; try reflexivity. cbn in Ht. exfalso. destruct Ht; [lra|discriminate].
  - destruct y as [sy|sy| |sy m e h]; try discriminate; try reflexivity.
    destruct s, sy; try reflexivity; cbn in Hy; congruence.
Qed.

Lemma sub_self (x : bf) : is_finite x = true -> SFabs (SFsub prec emax (B2SF x) (B2SF x)) = S754_zero false.
Proof.
  intros F. rewrite (sub_B prec emax Hprec Hmax), abs_B.
  pose proof (Bminus_correct prec emax Hprec Hmax mode_NE x x F F) as A.
  change (round radix2 (SpecFloat.fexp prec emax) (round_mode mode_NE)) with (rnd prec emax) in A.
  replace (B2R x - B2R x)%R with 0%R in A by ring. rewrite rnd_0, Rabs_R0 in A.
  rewrite Rlt_bool_true in A by apply bpow_gt_0. destruct A as (A1 & A2 & _).
  destruct (Bminus mode_NE x x) as [s|s| |s m e h] eqn:E; try discriminate; [reflexivity|].
  exfalso. cbn in A1. apply eq_0_F2R in A1. destruct s; discriminate.
Qed.

Lemma w_zero : w (S754_zero false) = S754_zero false.
Proof.
  destruct (W (B754_zero false)) as (y & E & R0 & F & N & S). cbn in E. rewrite E.
  destruct y as [s|s| |s m e h]; try discriminate; cbn in *; [subst; reflexivity|].
  exfalso. apply eq_0_F2R in R0. destruct s; discriminate.
Qed.

(** every finite value equals itself, whatever the tolerance except NaN *)
Lemma tol_refl (x : bf) (tol : b64) : is_finite x = true -> is_nan tol = false ->
  tolf (B2SF x) (B2SF x) (B2SF tol) = true.
Proof.
  intros F N. unfold tol_fp. rewrite sub_self by exact F. rewrite w_zero.
  destruct (w_abs x F) as (a & Ea & Ra & Fa & Sa & Pa). rewrite Ea.
  destruct (is_finite tol) eqn:Ft.
  - change (S754_zero false) with (B2SF (B754_zero false : b64)) at 1 2.
    rewrite clause by (auto; cbn; lra).
    rewrite Rle_bool_true; [reflexivity|]. cbn [B2R].
    apply rnd_nonneg; [exact p53|]. apply Rmult_le_pos; [apply Rabs_pos|exact Pa].
  - destruct tol as [st|st| |st m e h]; try discriminate.
    destruct a as [sa|sa| |sa m e h]; try discriminate.
    + (* x = 0 *) cbn in Ra. symmetry in Ra.
      assert (Hx : tiny (B2R x) = true).
      { unfold tiny. rewrite Ra. apply Rlt_bool_true, bpow_gt_0. }
      rewrite tiny_B, Hx by exact F. apply orb_true_r.
    + cbn in Sa. subst sa. reflexivity.
Qed.

(** with a NaN tolerance only pairs of tiny values are equal *)
Lemma tol_nan_tol (x y : bf) : is_finite x = true -> is_finite y = true ->
  tolf (B2SF x) (B2SF y) S754_nan = tiny (B2R x) && tiny (B2R y).
Proof.
  intros Fx Fy. unfold tol_fp. cbn [SFabs].
  assert (E : forall z, mul64 S754_nan z = S754_nan) by (intros []; reflexivity).
  rewrite !E, !leb_nan_r. cbn [orb]. rewrite !tiny_B by assumption. reflexivity.
Qed.

(** widening the tolerance (in absolute value) never turns equal into different *)
Lemma tol_mono (x y : bf) (t1 t2 : b64) : is_finite x = true -> is_finite y = true ->
  is_finite t1 = true -> is_nan t2 = false ->
  (is_finite t2 = true -> (Rabs (B2R t1) <= Rabs (B2R t2))%R) ->
  tolf (B2SF x) (B2SF y) (B2SF t1) = true -> tolf (B2SF x) (B2SF y) (B2SF t2) = true.
Proof.
  intros Fx Fy F1 N2 H12 H.
  destruct (Rlt_le_dec (Rabs (rnd prec emax (B2R x - B2R y))) (bpow radix2 emax)) as [Hov|Hov].
  - rewrite tol_spec in H by assumption. destruct (is_finite t2) eqn:F2.
    + rewrite tol_spec by assumption. specialize (H12 eq_refl).
      assert (M : forall a, (0 <= a)%R -> (rnd64 (Rabs (B2R t1) * a) <= rnd64 (Rabs (B2R t2) * a))%R).
      { intros a Ha. apply rnd_mono; [exact p53|]. apply Rmult_le_compat_r; assumption. }
      apply orb_true_iff in H. destruct H as [H|H]; [|rewrite H; apply orb_true_r].
      apply orb_true_iff in H. destruct H as [H|H]; apply rle_true in H.
      * replace (rle _ (rnd64 (Rabs (B2R t2) * Rabs (B2R x)))) with true; [reflexivity|].
        symmetry. apply rle_true. eapply Rle_trans; [exact H|]. apply M, Rabs_pos.
      * replace (rle _ (rnd64 (Rabs (B2R t2) * Rabs (B2R y)))) with true; [rewrite orb_true_r; reflexivity|].
        symmetry. apply rle_true. eapply Rle_trans; [exact H|]. apply M, Rabs_pos.
    + (* infinite tolerance *)
      destruct t2 as [s2|s2| |s2 m e h]; try discriminate.
      unfold tol_fp. cbn [B2SF SFabs].
      rewrite (sub_B prec emax Hprec Hmax).
      pose proof (Bminus_correct prec emax Hprec Hmax mode_NE x y Fx Fy) as A.
      change (round radix2 (SpecFloat.fexp prec emax) (round_mode mode_NE)) with (rnd prec emax) in A.
      rewrite Rlt_bool_true in A by exact Hov. destruct A as (A1 & A2 & _).
      destruct (w_abs _ A2) as (t & Et & Rt & Ftt & St & Pt).
      destruct (w_abs x Fx) as (a & Ea & Ra & Fa & Sa & Pa).
      destruct (w_abs y Fy) as (b & Eb & Rb & Fb & Sb & Pb).
      rewrite Et, Ea, Eb, !tiny_B by assumption.
      assert (Hinf : forall c : b64, is_finite c = true -> Bsign c = false -> B2R c <> 0%R ->
                SFleb (B2SF t) (mul64 (S754_infinity false) (B2SF c)) = true).
      { intros c Fc Sc Hc. destruct c as [sc|sc| |sc m e h]; try discriminate; [cbn in Hc; lra|].
        cbn in Sc. subst sc. destruct t as [ss|ss| |ss m' e' h']; try discriminate; reflexivity. }
      destruct (Req_dec (B2R a) 0) as [Za|Za]; [|rewrite Hinf by assumption; reflexivity].
      destruct (Req_dec (B2R b) 0) as [Zb|Zb]; [|rewrite (Hinf b) by assumption; rewrite orb_true_r; reflexivity].
      rewrite Ra in Za. rewrite Rb in Zb.
      assert (Hx : tiny (B2R x) = true) by (unfold tiny; rewrite Za; apply Rlt_bool_true, bpow_gt_0).
      assert (Hy : tiny (B2R y) = true) by (unfold tiny; rewrite Zb; apply Rlt_bool_true, bpow_gt_0).
      rewrite Hx, Hy. apply orb_true_r.
  - (* the difference overflows *)
    unfold tol_fp in *. rewrite sub_overflow in * by assumption. rewrite w_inf in *.
    destruct (w_abs x Fx) as (a & Ea & Ra & Fa & Sa & Pa).
    destruct (w_abs y Fy) as (b & Eb & Rb & Fb & Sb & Pb).
    rewrite Ea, Eb in *. rewrite !tiny_B in * by assumption.
    apply orb_true_iff in H. destruct H as [H|H]; [|rewrite H; apply orb_true_r].
    (* an infinite product stays infinite *)
    assert (Hp : forall c : b64, is_finite c = true -> Bsign c = false ->
              SFleb (S754_infinity false) (mul64 (SFabs (B2SF t1)) (B2SF c)) = true ->
              SFleb (S754_infinity false) (mul64 (SFabs (B2SF t2)) (B2SF c)) = true).
    { intros c Fc Sc Hc. rewrite abs_B in *. unfold mul64, p64, x64 in *. rewrite (mul_B 53 1024 p53 p53max) in *.
      destruct (abs_finite _ _ t1 F1) as (A & B & C).
      pose proof (Bmult_correct 53 1024 p53 p53max mode_NE (Babs t1) c) as M1.
      change (round radix2 (SpecFloat.fexp 53 1024) (round_mode mode_NE)) with rnd64 in M1.
      revert M1. case Rlt_bool_spec; intros Hb M1.
      - exfalso. destruct M1 as (_ & Mf & _). rewrite A, Fc in Mf.
        destruct (Bmult mode_NE (Babs t1) c) as [s|s| |s m e h]; try discriminate.
      - destruct (is_finite t2) eqn:F2.
        + destruct (abs_finite _ _ t2 F2) as (A2 & B2 & C2).
          pose proof (Bmult_correct 53 1024 p53 p53max mode_NE (Babs t2) c) as M2.
          change (round radix2 (SpecFloat.fexp 53 1024) (round_mode mode_NE)) with rnd64 in M2.
          assert (Pc : (0 <= B2R c)%R).
          { destruct c as [sc|sc| |sc m e h]; try discriminate; cbn; [lra|]. cbn in Sc. subst sc. apply F2R_ge_0. cbn. lia. }
          rewrite Rlt_bool_false in M2.
          * rewrite M2, B2, Sc. reflexivity.
          * rewrite C in Hb. rewrite C2. specialize (H12 eq_refl).
            rewrite Rabs_pos_eq in * by (apply rnd_nonneg; [exact p53|]; apply Rmult_le_pos; [apply Rabs_pos|exact Pc]).
            eapply Rle_trans; [exact Hb|]. apply rnd_mono; [exact p53|]. apply Rmult_le_compat_r; assumption.
        + destruct t2 as [s2|s2| |s2 m2 e2 h2]; try discriminate.
          destruct c as [sc|sc| |sc m e h]; try discriminate.
          * (* 0: the product with t1 is 0 *) exfalso. cbn in Hb. rewrite Rmult_0_r in Hb. unfold rnd64 in Hb. rewrite rnd_0, Rabs_R0 in Hb.
            pose proof (bpow_gt_0 radix2 1024). lra.
          * cbn in Sc. subst sc. reflexivity. }
    apply orb_true_iff in H. destruct H as [H|H]; apply Hp in H; auto; rewrite H; rewrite ?orb_true_r; reflexivity.
Qed.

End Fp.

Lemma heps64 : exists e : b64, epsilon 53 1024 = B2SF e /\ is_finite e = true /\ B2R e = bpow radix2 (-52).
Proof.
  exists (BinarySingleNaN.binary_normalize 53 1024 p53 p53max mode_NE 1 (-52) false). split; [apply normalize_B|].
  pose proof (binary_normalize_correct 53 1024 p53 p53max mode_NE 1 (-52) false) as C. cbv zeta in C.
  rewrite F2R_bpow in C. 
  change (round radix2 (SpecFloat.fexp 53 1024) (round_mode mode_NE)) with rnd64 in C.
  assert (E : rnd64 (bpow radix2 (-52)) = bpow radix2 (-52)).
  { unfold rnd64, rnd. apply round_generic; [apply valid_rnd_N|]. apply generic_format_bpow. unfold SpecFloat.fexp, SpecFloat.emin. lia. }
  rewrite E in C. rewrite Rlt_bool_true in C; [tauto|].
  rewrite Rabs_pos_eq by apply bpow_ge_0. apply bpow_lt. lia.
Qed.
Lemma heps32 : exists e : b32, epsilon 24 128 = B2SF e /\ is_finite e = true /\ B2R e = bpow radix2 (-23).
Proof.
  exists (BinarySingleNaN.binary_normalize 24 128 p24 p24max mode_NE 1 (-23) false). split; [apply normalize_B|].
  pose proof (binary_normalize_correct 24 128 p24 p24max mode_NE 1 (-23) false) as C. cbv zeta in C.
  rewrite F2R_bpow in C. 
  change (round radix2 (SpecFloat.fexp 24 128) (round_mode mode_NE)) with rnd32 in C.
  assert (E : rnd32 (bpow radix2 (-23)) = bpow radix2 (-23)).
  { unfold rnd32, rnd. apply round_generic; [apply valid_rnd_N|]. apply generic_format_bpow. unfold SpecFloat.fexp, SpecFloat.emin. lia. }
  rewrite E in C. rewrite Rlt_bool_true in C; [tauto|].
  rewrite Rabs_pos_eq by apply bpow_ge_0. apply bpow_lt. lia.
Qed.

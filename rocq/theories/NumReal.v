(** Decimal text and real numbers: the error of writing, and reading as rounding. *)
From Coq Require Import Reals Psatz Floats.SpecFloat.
From Flocq Require Import Core BinarySingleNaN Relative.
From Verif Require Import Base Str Dec MeasModel FloatFacts NumModel NumSpec NumFacts.
Local Open Scope Z_scope.

Lemma ten_pow k : 0 <= k -> ten k = IZR (10 ^ k).
Proof. intros H. rewrite <- IZR_Zpower by exact H. reflexivity. Qed.
Lemma two_pow k : 0 <= k -> bpow radix2 k = IZR (2 ^ k).
Proof. intros H. rewrite <- IZR_Zpower by exact H. reflexivity. Qed.
Lemma frac_R m e n d : frac m e = (n, d) -> 0 < n /\ 0 < d /\ (IZR n / IZR d = IZR (Zpos m) * bpow radix2 e)%R.
Proof.
  unfold frac. destruct (Z.leb_spec 0 e) as [H|H]; intros E; pose proof (f_equal fst E) as E1; pose proof (f_equal snd E) as E2; cbn [fst snd] in E1, E2; subst n d; clear E.
  - assert (0 < 2 ^ e) by (apply Z.pow_pos_nonneg; lia). split; [apply Z.mul_pos_pos; lia|]. split; [lia|].
    rewrite mult_IZR, two_pow by exact H. field.
  - assert (0 < 2 ^ (- e)) by (apply Z.pow_pos_nonneg; lia). split; [lia|]. split; [lia|].
    rewrite <- two_pow by lia. rewrite bpow_opp. field. apply Rgt_not_eq, bpow_gt_0.
Qed.
Lemma scaled_R n d k a b : 0 < n -> 0 < d -> scaled n d k = (a, b) -> 0 < a /\ 0 < b /\ (IZR a / IZR b = IZR n / IZR d * ten k)%R.
Proof.
  intros Hn Hd. assert (IZR d <> 0)%R by (apply not_0_IZR; lia).
  unfold scaled. destruct (Z.leb_spec 0 k) as [H1|H1]; intros E; pose proof (f_equal fst E) as E1; pose proof (f_equal snd E) as E2; cbn [fst snd] in E1, E2; subst a b; clear E.
  - assert (0 < 10 ^ k) by (apply Z.pow_pos_nonneg; lia). split; [nia|]. split; [lia|].
    rewrite mult_IZR, ten_pow by exact H1. field. assumption.
  - assert (0 < 10 ^ (- k)) by (apply Z.pow_pos_nonneg; lia). split; [lia|]. split; [nia|].
    rewrite mult_IZR. rewrite <- (ten_pow (- k)) by lia. rewrite bpow_opp. field. split; [assumption|apply Rgt_not_eq, bpow_gt_0].
Qed.
Lemma quot_le a b c d : 0 < b -> 0 < d -> a * d <= c * b -> (IZR a / IZR b <= IZR c / IZR d)%R.
Proof.
  intros Hb Hd H. apply IZR_lt in Hb, Hd. apply IZR_le in H. rewrite !mult_IZR in H.
  apply (Rmult_le_reg_r (IZR b * IZR d)); [nra|]. field_simplify; nra.
Qed.
Lemma quot_bounds n d k : 0 < n -> 0 < d -> k = ndigits n - ndigits d -> (ten (k - 1) <= IZR n / IZR d < ten (k + 1))%R.
Proof.
  intros Hn Hd ->. destruct (ndigits_spec n Hn) as (L1 & A1 & B1), (ndigits_spec d Hd) as (L2 & A2 & B2).
  set (kn := ndigits n) in *. set (kd := ndigits d) in *. apply IZR_lt in Hd as Pd.
  apply IZR_le in A1, A2. apply IZR_lt in B1, B2. rewrite <- !ten_pow in * by lia.
  replace (kn - kd - 1) with (kn - 1 + - kd) by lia. replace (kn - kd + 1) with (kn + - (kd - 1)) by lia. rewrite !bpow_plus, !bpow_opp.
  assert (P1 := bpow_gt_0 radix10 (kn - 1)). assert (P2 := bpow_gt_0 radix10 kd). assert (P3 := bpow_gt_0 radix10 (kd - 1)). assert (P4 := bpow_gt_0 radix10 kn).
  unfold Rdiv. split.
  - apply Rle_trans with (ten (kn - 1) * / IZR d)%R.
    + apply Rmult_le_compat_l; [lra|]. apply Rinv_le_contravar; lra.
    + apply Rmult_le_compat_r; [|exact A1]. left. apply Rinv_0_lt_compat, Pd.
  - apply Rlt_le_trans with (ten kn * / IZR d)%R.
    + apply Rmult_lt_compat_r; [apply Rinv_0_lt_compat, Pd|exact B1].
    + apply Rmult_le_compat_l; [lra|]. apply Rinv_le_contravar; lra.
Qed.
Lemma exp10_R n d : 0 < n -> 0 < d -> (ten (exp10 n d) <= IZR n / IZR d < ten (exp10 n d + 1))%R.
Proof.
  intros Hn Hd. unfold exp10. set (k := ndigits n - ndigits d). pose proof (quot_bounds n d k Hn Hd eq_refl) as [A B].
  destruct (scaled n d (- k)) as [a b] eqn:E. destruct (scaled_R n d (- k) a b Hn Hd E) as (Pa & Pb & Q).
  rewrite bpow_opp in Q. assert (P := bpow_gt_0 radix10 k). apply IZR_lt in Pb as Pb'.
  set (q := (IZR n / IZR d)%R) in *.
  assert (Q' : (q = IZR a / IZR b * ten k)%R) by (rewrite Q; field; lra).
  destruct (Z.leb_spec b a) as [L|L].
  - split; [|exact B]. rewrite Q'. apply IZR_le in L. rewrite <- (Rmult_1_l (ten k)) at 1. apply Rmult_le_compat_r; [lra|].
    apply (Rmult_le_reg_r (IZR b)); [exact Pb'|]. field_simplify; lra.
  - replace (k - 1 + 1) with k by lia. split; [exact A|]. rewrite Q'. apply IZR_lt in L. rewrite <- (Rmult_1_l (ten k)) at 2. apply Rmult_lt_compat_r; [lra|].
    apply (Rmult_lt_reg_r (IZR b)); [exact Pb'|]. field_simplify; lra.
Qed.
Lemma div_even_R a b : 0 < b -> (Rabs (IZR (div_even a b) - IZR a / IZR b) <= / 2)%R.
Proof.
  intros Hb. assert (- b <= 2 * (div_even a b * b - a) <= b).
  { unfold div_even. pose proof (Z.div_mod a b) as E. pose proof (Z.mod_pos_bound a b Hb) as M.
    destruct (Z.compare_spec (2 * (a mod b)) b); [destruct (Z.even _)| |]; nia. }
  set (D := div_even a b) in *. clearbody D. apply IZR_lt in Hb. destruct H as [H1 H2]. apply IZR_le in H1, H2.
  rewrite opp_IZR in H1. rewrite mult_IZR, minus_IZR, mult_IZR in H1, H2.
  apply (Rmult_le_reg_r (IZR b)); [exact Hb|]. replace (Rabs (IZR D - IZR a / IZR b) * IZR b)%R with (Rabs ((IZR D - IZR a / IZR b) * IZR b)) by (rewrite Rabs_mult, (Rabs_pos_eq (IZR b)) by lra; reflexivity).
  replace ((IZR D - IZR a / IZR b) * IZR b)%R with (IZR D * IZR b - IZR a)%R by (field; lra). apply Rabs_le. lra.
Qed.
(** [P] digits, off by half a unit of the last *)
Lemma significant_R P m e D X : 1 <= P -> significant P m e = (D, X) ->
  10 ^ (P - 1) <= D < 10 ^ P /\
  (Rabs (IZR D * ten (X - P + 1) - IZR (Zpos m) * bpow radix2 e) <= / 2 * ten (1 - P) * (IZR (Zpos m) * bpow radix2 e))%R.
Proof.
  intros HP. unfold significant. destruct (frac m e) as [n d] eqn:Ef. destruct (frac_R m e n d Ef) as (Hn & Hd & Q). rewrite <- Q. clear Q Ef.
  pose proof (exp10_R n d Hn Hd) as [A B]. set (X0 := exp10 n d) in *. clearbody X0. set (q := (IZR n / IZR d)%R) in *.
  destruct (scaled n d (P - 1 - X0)) as [a b] eqn:E. destruct (scaled_R n d _ a b Hn Hd E) as (Pa & Pb & Q). fold q in Q.
  pose proof (div_even_R a b Pb) as R. set (D0 := div_even a b) in *. clearbody D0. rewrite Q in R. clear E Q.
  assert (Hs : (ten (P - 1 - X0) * ten (X0 - P + 1) = 1)%R) by (rewrite <- bpow_plus; replace (P - 1 - X0 + (X0 - P + 1)) with 0 by lia; reflexivity).
  assert (T1 := bpow_gt_0 radix10 (P - 1 - X0)). assert (T2 := bpow_gt_0 radix10 (X0 - P + 1)).
  assert (L : (ten (P - 1) <= q * ten (P - 1 - X0))%R).
  { replace (P - 1) with (X0 + (P - 1 - X0)) at 1 by lia. rewrite bpow_plus. apply Rmult_le_compat_r; lra. }
  assert (U : (q * ten (P - 1 - X0) < ten P)%R).
  { replace P with (X0 + 1 + (P - 1 - X0)) at 2 by lia. rewrite bpow_plus. apply Rmult_lt_compat_r; lra. }
  rewrite (ten_pow (P - 1)) in L by lia. rewrite (ten_pow P) in U by lia. apply Rabs_le_inv in R as R'.
  assert (B1 : 10 ^ (P - 1) <= D0).
  { assert (10 ^ (P - 1) - 1 < D0); [|lia]. apply lt_IZR. rewrite minus_IZR. lra. }
  assert (B2 : D0 <= 10 ^ P).
  { assert (D0 < 10 ^ P + 1); [|lia]. apply lt_IZR. rewrite plus_IZR. lra. }
  assert (Err : (Rabs (IZR D0 * ten (X0 - P + 1) - q) <= / 2 * ten (1 - P) * q)%R).
  { replace (IZR D0 * ten (X0 - P + 1) - q)%R with ((IZR D0 - q * ten (P - 1 - X0)) * ten (X0 - P + 1))%R.
    2:{ rewrite Rmult_minus_distr_r, Rmult_assoc, Hs. ring. }
    rewrite Rabs_mult, (Rabs_pos_eq (ten (X0 - P + 1))) by lra.
    apply Rle_trans with (/ 2 * ten (X0 - P + 1))%R; [apply Rmult_le_compat_r; lra|].
    rewrite Rmult_assoc. apply Rmult_le_compat_l; [lra|]. replace (X0 - P + 1) with (1 - P + X0) by lia. rewrite bpow_plus.
    apply Rmult_le_compat_l; [apply bpow_ge_0|exact A]. }
  destruct (Z.eqb_spec D0 (10 ^ P)) as [->|N]; intros [= <- <-].
  - split. { split; [lia|]. apply Z.pow_lt_mono_r; lia. }
    replace (IZR (10 ^ (P - 1)) * ten (X0 + 1 - P + 1))%R with (IZR (10 ^ P) * ten (X0 - P + 1))%R; [exact Err|].
    rewrite <- !ten_pow by lia. rewrite <- !bpow_plus. f_equal. lia.
  - split; [lia|exact Err].
Qed.
(** exact if the number has no more than [P] digits *)
Lemma div_even_exact a b q : 0 < b -> a = q * b -> div_even a b = q.
Proof.
  intros Hb ->. unfold div_even. rewrite Z.mod_mul, Z.div_mul by lia. destruct (Z.compare_spec (2 * 0) b); lia.
Qed.
Lemma significant_exact P m e D X N k : 1 <= P -> significant P m e = (D, X) -> 0 < N < 10 ^ P -> (IZR (Zpos m) * bpow radix2 e = IZR N * ten k)%R ->
  (IZR D * ten (X - P + 1) = IZR (Zpos m) * bpow radix2 e)%R.
Proof.
  intros HP. unfold significant. destruct (frac m e) as [n d] eqn:Ef. destruct (frac_R m e n d Ef) as (Hn & Hd & Q). rewrite <- Q. clear Q Ef.
  pose proof (exp10_R n d Hn Hd) as [A B]. set (X0 := exp10 n d) in *. clearbody X0. set (q := (IZR n / IZR d)%R) in *.
  destruct (scaled n d (P - 1 - X0)) as [a b] eqn:E. destruct (scaled_R n d _ a b Hn Hd E) as (Pa & Pb & Q). fold q in Q.
  intros Hs HN Hq.
  assert (Hk : 0 <= k + (P - 1 - X0)).
  { destruct (Z.le_gt_cases 0 (k + (P - 1 - X0))) as [|G]; [assumption|exfalso].
    assert (ten P * ten k <= ten X0)%R by (rewrite <- bpow_plus; apply bpow_le; lia).
    assert (IZR N < ten P)%R by (rewrite ten_pow by lia; apply IZR_lt; lia). pose proof (bpow_gt_0 radix10 k). nra. }
  assert (Ea : a = N * 10 ^ (k + (P - 1 - X0)) * b).
  { apply eq_IZR. rewrite !mult_IZR, <- ten_pow by exact Hk. rewrite bpow_plus, <- Rmult_assoc, <- Hq, <- Q. field. apply not_0_IZR. lia. }
  rewrite (div_even_exact a b _ Pb Ea) in Hs.
  assert (V : (IZR (N * 10 ^ (k + (P - 1 - X0))) * ten (X0 - P + 1) = q)%R).
  { rewrite mult_IZR, <- ten_pow by exact Hk. rewrite Rmult_assoc, <- bpow_plus, Hq. do 2 f_equal. lia. }
  destruct (Z.eqb_spec (N * 10 ^ (k + (P - 1 - X0))) (10 ^ P)) as [E10|_]; pose proof (f_equal fst Hs) as E1; pose proof (f_equal snd Hs) as E2; cbn [fst snd] in E1, E2; subst D X; [|exact V].
  rewrite <- V, E10, <- !ten_pow by lia. rewrite <- !bpow_plus. f_equal. lia.
Qed.
(** what is printed *)
Lemma denotes_scaled t s D k E z j k' : writes t s (E * 10 ^ j) k' -> D = E * 10 ^ z -> 0 <= z -> 0 <= j -> k' + j = k + z ->
  denotes t (signed s (IZR D * ten k)).
Proof.
  intros W -> Hz Hj Hk. exists s, (E * 10 ^ j), k'. split; [exact W|]. f_equal. rewrite !mult_IZR, <- !ten_pow by assumption.
  rewrite !Rmult_assoc, <- !bpow_plus. do 2 f_equal. lia.
Qed.
Lemma signed_sub s a b : Rabs (signed s a - signed s b) = Rabs (a - b).
Proof. destruct s; cbn [signed]; [|reflexivity]. rewrite <- Rabs_Ropp. f_equal. ring. Qed.
Lemma signed_abs s a : Rabs (signed s a) = Rabs a.
Proof. destruct s; cbn [signed]; [apply Rabs_Ropp|reflexivity]. Qed.
Lemma rv_finite s m e : rv (S754_finite s m e) = signed s (IZR (Zpos m) * bpow radix2 e).
Proof.
  unfold rv, SF2R, F2R. cbn [Fnum Fexp]. destruct s; cbn [signed cond_Zopp]; [|reflexivity].
  rewrite opp_IZR. ring.
Qed.
Lemma print_finite P s m e : 1 <= P -> exists D k, 0 < D /\ writes (print_g P (S754_finite s m e)) s D k /\
  (Rabs (signed s (IZR D * ten k) - rv (S754_finite s m e)) <= / 2 * ten (1 - P) * Rabs (rv (S754_finite s m e)))%R.
Proof.
  intros HP. cbn [print_g]. destruct (significant P m e) as [D X] eqn:E. destruct (significant_R P m e D X HP E) as (HD & Err).
  destruct (layout_parts P D X HP HD) as (i & fr & f & ex & Y & E0 & z & j & L & H1 & H2 & H3 & H4 & H5 & H6 & H7 & H8 & H9 & H10).
  exists (E0 * 10 ^ j), (Y - Z.of_nat (length f)). assert (0 < 10 ^ j) by (apply Z.pow_pos_nonneg; lia). split; [nia|].
  split. { rewrite L, <- H9. constructor; assumption. }
  rewrite rv_finite, signed_sub, signed_abs. rewrite (Rabs_pos_eq (_ * bpow radix2 e)) by (apply Rmult_le_pos; [apply IZR_le; lia|apply bpow_ge_0]).
  replace (IZR (E0 * 10 ^ j) * ten (Y - Z.of_nat (length f)))%R with (IZR D * ten (X - P + 1))%R; [exact Err|].
  rewrite H8, !mult_IZR, <- !ten_pow by assumption. rewrite !Rmult_assoc, <- !bpow_plus. do 2 f_equal. lia.
Qed.
Lemma print_exact P s m e N k0 : 1 <= P -> 0 < N < 10 ^ P -> (IZR (Zpos m) * bpow radix2 e = IZR N * ten k0)%R ->
  exists D k, 0 < D /\ writes (print_g P (S754_finite s m e)) s D k /\ (IZR D * ten k = IZR (Zpos m) * bpow radix2 e)%R.
Proof.
  intros HP HN Hx. cbn [print_g]. destruct (significant P m e) as [D X] eqn:E. destruct (significant_R P m e D X HP E) as (HD & _).
  pose proof (significant_exact P m e D X N k0 HP E HN Hx) as Err.
  destruct (layout_parts P D X HP HD) as (i & fr & f & ex & Y & E0 & z & j & L & H1 & H2 & H3 & H4 & H5 & H6 & H7 & H8 & H9 & H10).
  exists (E0 * 10 ^ j), (Y - Z.of_nat (length f)). assert (0 < 10 ^ j) by (apply Z.pow_pos_nonneg; lia). split; [nia|].
  split. { rewrite L, <- H9. constructor; assumption. }
  rewrite <- Err. rewrite H8, !mult_IZR, <- !ten_pow by assumption. rewrite !Rmult_assoc, <- !bpow_plus. do 2 f_equal. lia.
Qed.
Lemma print_error P x : 1 <= P -> finite_sf x = true ->
  exists v, denotes (print_g P x) v /\ (Rabs (v - rv x) <= / 2 * ten (1 - P) * Rabs (rv x))%R.
Proof.
  intros HP F. destruct x as [s| | |s m e]; try discriminate F.
  - exists 0%R. split.
    + exists s, 0, 0. split; [|destruct s; cbn; ring]. cbn [print_g].
      pose proof (Writes s ($"0") [] [] [] 0 eq_refl ltac:(discriminate) no_fraction no_exponent) as W. cbn [app] in W. exact W.
    + cbn [rv SF2R]. rewrite Rminus_0_r, Rabs_R0. lra.
  - destruct (print_finite P s m e HP) as (D & k & _ & W & Err). eexists. split; [exists s, D, k; split; [exact W|reflexivity]|exact Err].
Qed.

(** * Reading *)
Section Reading.
Variables prec emax : Z.
Context (Hprec : Prec_gt_0 prec) (Hmax : Prec_lt_emax prec emax).
Notation rn := (rnd prec emax).
Notation big := (largest prec emax).
Let Hp : 0 < prec := Hprec.

Lemma two_prec : 1 <= 2 ^ prec - 1.
Proof. pose proof Hp. assert (2 ^ 1 <= 2 ^ prec) by (apply Z.pow_le_mono_r; lia). lia. Qed.
Lemma largest_eq : (big = bpow radix2 emax - bpow radix2 (emax - prec))%R.
Proof.
  unfold largest. pose proof Hp. rewrite minus_IZR, <- two_pow by lia. rewrite Rmult_minus_distr_r, <- bpow_plus.
  replace (prec + (emax - prec)) with emax by lia. ring.
Qed.
Lemma fp_max_eq s : fp_max prec emax s = binary_overflow prec emax mode_ZR s.
Proof. reflexivity. Qed.
Lemma fp_max_valid s : valid_binary prec emax (fp_max prec emax s) = true.
Proof. rewrite fp_max_eq. apply binary_overflow_correct; assumption. Qed.
Lemma rv_fp_max s : rv (fp_max prec emax s) = signed s big.
Proof. unfold fp_max. rewrite rv_finite. f_equal. unfold largest. f_equal. f_equal. rewrite Z2Pos.id by (pose proof two_prec; lia). reflexivity. Qed.
Lemma finite_le x : finite_in prec emax x -> (Rabs (rv x) <= big)%R.
Proof.
  intros [V F]. destruct (valid_B prec emax x V) as [b <-]. rewrite rv_B, largest_eq. apply abs_B2R_le_emax_minus_prec. exact Hprec.
Qed.
Lemma big_pos : (0 < big)%R.
Proof. unfold largest. apply Rmult_lt_0_compat; [apply IZR_lt; pose proof two_prec; lia|apply bpow_gt_0]. Qed.
Lemma rn_big : rn big = big.
Proof.
  pose proof (fp_max_valid false) as V. destruct (valid_B prec emax _ V) as [b E].
  replace big with (B2R b); [apply rnd_B|]. rewrite <- rv_B, E. apply (rv_fp_max false).
Qed.
Lemma nearest_R s D k : 0 < D ->
  finite_in prec emax (nearest prec emax s D k) /\ rv (nearest prec emax s D k) = signed s (Rmin (rn (IZR D * ten k)) big) /\
  sign_SF (nearest prec emax s D k) = s.
Proof.
  intros HD. unfold nearest. destruct (Z.eqb_spec D 0) as [|_]; [lia|].
  destruct (scaled D 1 k) as [a b] eqn:E. destruct (scaled_R D 1 k a b HD eq_refl E) as (Pa & Pb & Q). clear E.
  pose proof (Bdiv_correct_aux prec emax Hprec Hmax mode_NE s (Z.to_pos a) 0 false (Z.to_pos b) 0) as C. cbv zeta in C.
  unfold SFdiv. destruct (SFdiv_core_binary prec emax (Z.pos (Z.to_pos a)) 0 (Z.pos (Z.to_pos b)) 0) as [[mz ez] lz].
  rewrite binary_round_aux_equiv by assumption. set (z := BinarySingleNaN.binary_round_aux prec emax mode_NE (xorb s false) mz ez lz) in *. clearbody z.
  destruct C as [V C].
  assert (Ex : (F2R (Float radix2 (cond_Zopp s (Z.pos (Z.to_pos a))) 0) / F2R (Float radix2 (cond_Zopp false (Z.pos (Z.to_pos b))) 0))%R = signed s (IZR D * ten k)).
  { unfold F2R. cbn [Fnum Fexp cond_Zopp bpow]. rewrite !Z2Pos.id by lia. unfold Rdiv in Q at 2. rewrite Rinv_1, Rmult_1_r in Q. rewrite <- Q.
    destruct s; cbn [signed cond_Zopp]; rewrite ?opp_IZR; field; apply not_0_IZR; lia. }
  rewrite Ex in C. change (round radix2 (SpecFloat.fexp prec emax) (round_mode mode_NE)) with rn in C.
  assert (Nn : (0 <= rn (IZR D * ten k))%R).
  { apply rnd_nonneg; [exact Hprec|]. apply Rmult_le_pos; [apply IZR_le; lia|apply bpow_ge_0]. }
  assert (Es : rn (signed s (IZR D * ten k)) = signed s (rn (IZR D * ten k))) by (destruct s; cbn [signed]; [apply rnd_opp|reflexivity]).
  rewrite Es, signed_abs, Rabs_pos_eq in C by exact Nn. rewrite xorb_false_r in C.
  revert C. case Rlt_bool_spec; intros L C.
  - destruct C as (C1 & C2 & C3).
    assert (F : finite_in prec emax z) by (split; [exact V|destruct z; try discriminate C2; reflexivity]).
    assert (Em : Rmin (rn (IZR D * ten k)) big = rn (IZR D * ten k)).
    { apply Rmin_left. rewrite <- (Rabs_pos_eq _ Nn), <- (signed_abs s), <- C1. apply finite_le, F. }
    rewrite Em. destruct z; try discriminate C2; (split; [exact F|]); (split; [exact C1|exact C3]).
  - unfold binary_overflow in C. cbn [overflow_to_inf] in C. subst z.
    split; [split; [apply fp_max_valid|reflexivity]|]. split; [|reflexivity]. rewrite rv_fp_max. f_equal. symmetry. apply Rmin_right.
    apply Rle_trans with (bpow radix2 emax); [|exact L]. rewrite largest_eq. pose proof (bpow_ge_0 radix2 (emax - prec)). lra.
Qed.
Lemma writes_nonempty t s D k : writes t s D k -> skip_ws t = t /\ t <> [] /\ 0 <= D.
Proof.
  intros [neg i fr f ex X Hi Ni Hf He].
  assert (0 <= digits_value 0 (i ++ f)).
  { apply digits_value_bound. rewrite forallb_app, Hi. destruct Hf; [reflexivity|assumption]. }
  destruct i as [|c i]; [contradiction|]. cbn [forallb] in Hi. apply andb_true_iff in Hi as [Hc _]. destruct (digit_facts c Hc) as (W & _ & _).
  destruct neg; [split; [reflexivity|split; [discriminate|assumption]]|].
  cbn [app skip_ws]. rewrite W. split; [reflexivity|]. split; [discriminate|assumption].
Qed.
(** a number is read as the nearest of the format, the largest if it is too large *)
Lemma read_writes t s D k : writes t s D k ->
  exists y, read_fp prec emax t = Ok y /\ finite_in prec emax y /\ rv y = signed s (Rmin (rn (IZR D * ten k)) big) /\ sign_SF y = s.
Proof.
  intros W. destruct (writes_nonempty t s D k W) as (S & N & P). pose proof (scan_text t s D k W) as Sc. unfold read_fp. rewrite S.
  destruct t as [|c t]; [contradiction|]. rewrite Sc. eexists. split; [reflexivity|].
  destruct (Z.eq_dec D 0) as [->|ND]; [|apply nearest_R; lia].
  unfold nearest. rewrite Z.eqb_refl. split; [split; reflexivity|]. split; [|reflexivity].
  rewrite Rmult_0_l, rnd_0 by exact Hprec. rewrite Rmin_left by (left; apply big_pos). cbn. destruct s; cbn; lra.
Qed.
(** the error of rounding *)
Lemma rn_error r : (Rabs (rn r - r) <= / 2 * bpow radix2 (1 - prec) * Rabs r + / 2 * bpow radix2 (3 - emax - prec))%R.
Proof.
  destruct (error_N_FLT radix2 (3 - emax - prec) prec Hp (fun x => negb (Z.even x)) r) as (eps & eta & A & B & _ & E).
  unfold rnd. change (SpecFloat.fexp prec emax) with (FLT_exp (3 - emax - prec) prec). rewrite E.
  replace (r * (1 + eps) + eta - r)%R with (r * eps + eta)%R by ring.
  replace (1 - prec) with (- prec + 1) by lia. eapply Rle_trans; [apply Rabs_triang|]. rewrite Rabs_mult.
  apply Rplus_le_compat; [|exact B]. rewrite (Rmult_comm _ (Rabs r)). apply Rmult_le_compat_l; [apply Rabs_pos|exact A].
Qed.
(** write and read *)
Lemma round_trip P x : 1 <= P -> finite_in prec emax x ->
  exists y, read_fp prec emax (print_g P x) = Ok y /\ finite_in prec emax y /\ sign_SF y = sign_SF x /\
  (Rabs (rv y - rv x) <= (/ 2 * ten (1 - P) + / 2 * bpow radix2 (1 - prec) * (1 + / 2 * ten (1 - P))) * Rabs (rv x) + / 2 * bpow radix2 (3 - emax - prec))%R.
Proof.
  intros HP [V F]. destruct x as [s| | |s m e]; try discriminate F.
  - exists (S754_zero s). split; [destruct s; reflexivity|]. split; [split; reflexivity|]. split; [reflexivity|].
    cbn [rv SF2R]. rewrite Rminus_0_r, Rabs_R0, Rmult_0_r, Rplus_0_l. pose proof (bpow_ge_0 radix2 (3 - emax - prec)). lra.
  - destruct (print_finite P s m e HP) as (D & k & HD & W & Err). destruct (read_writes _ s D k W) as (y & R1 & R2 & R3 & R4).
    exists y. split; [exact R1|]. split; [exact R2|]. split; [exact R4|].
    rewrite R3. rewrite rv_finite in Err |- *. rewrite signed_sub, signed_abs in Err |- *.
    pose proof (finite_le _ (conj V F)) as Mx. rewrite rv_finite, signed_abs in Mx.
    set (r := (IZR (Z.pos m) * bpow radix2 e)%R) in *. set (v := (IZR D * ten k)%R) in *.
    assert (Pr : (0 <= r)%R) by (apply Rmult_le_pos; [apply IZR_le; lia|apply bpow_ge_0]).
    assert (Pv : (0 <= v)%R) by (apply Rmult_le_pos; [apply IZR_le; lia|apply bpow_ge_0]).
    rewrite (Rabs_pos_eq r Pr) in *. pose proof (rn_error v) as Er. rewrite (Rabs_pos_eq v Pv) in Er.
    assert (T := bpow_gt_0 radix10 (1 - P)). assert (U := bpow_gt_0 radix2 (1 - prec)). assert (M := bpow_gt_0 radix2 (3 - emax - prec)).
    set (t := (/ 2 * ten (1 - P))%R) in *. set (u := (/ 2 * bpow radix2 (1 - prec))%R) in *. set (w := (/ 2 * bpow radix2 (3 - emax - prec))%R) in *.
    assert (0 < t)%R by (unfold t; lra). assert (0 < u)%R by (unfold u; lra). assert (0 < w)%R by (unfold w; lra). clearbody t u w.
    apply Rabs_le_inv in Err, Er. unfold Rmin. destruct (Rle_dec (rn v) big) as [L|L].
    + assert (u * v <= u * (r + t * r))%R by (apply Rmult_le_compat_l; lra). apply Rabs_le. nra.
    + apply Rnot_le_lt in L. assert (Lv : (big <= v)%R).
      { apply Rnot_lt_le. intros G. apply Rlt_le, (rnd_mono prec emax Hprec) in G. rewrite rn_big in G. lra. }
      assert (0 <= u * (1 + t) * r)%R by (apply Rmult_le_pos; [apply Rmult_le_pos|]; lra). rewrite Rabs_pos_eq by lra. nra.
Qed.
(** a number of at most [P] digits is kept exactly *)
Lemma round_trip_exact P x N k : 1 <= P -> finite_in prec emax x -> Z.abs N < 10 ^ P -> (rv x = IZR N * ten k)%R ->
  read_fp prec emax (print_g P x) = Ok x.
Proof.
  intros HP [V F] HN Hx. destruct x as [s| | |s m e]; try discriminate F; [destruct s; reflexivity|].
  rewrite rv_finite in Hx. set (r := (IZR (Z.pos m) * bpow radix2 e)%R) in *.
  assert (Pr : (0 < r)%R) by (apply Rmult_lt_0_compat; [apply IZR_lt; lia|apply bpow_gt_0]).
  assert (Hx' : (r = IZR (Z.abs N) * ten k)%R).
  { pose proof (bpow_gt_0 radix10 k). rewrite abs_IZR. rewrite <- (Rabs_pos_eq (ten k)) by lra. rewrite <- Rabs_mult, <- Hx, signed_abs, Rabs_pos_eq by lra. reflexivity. }
  assert (N0 : Z.abs N <> 0) by (intros Z0; rewrite Z0, Rmult_0_l in Hx'; lra).
  destruct (print_exact P s m e (Z.abs N) k HP ltac:(lia) Hx') as (D & k' & HD & W & Err). fold r in Err.
  destruct (read_writes _ s D k' W) as (y & R1 & [Vy Fy] & R3 & R4). rewrite R1. f_equal.
  destruct (valid_B prec emax y Vy) as [by' Ey], (valid_B prec emax _ V) as [bx Ex]. rewrite <- Ey, <- Ex. f_equal.
  assert (Ex' : B2R bx = signed s r) by (rewrite <- rv_B, Ex; apply rv_finite).
  apply B2R_Bsign_inj.
  - rewrite <- finite_B, Ey. exact Fy.
  - rewrite <- finite_B, Ex. reflexivity.
  - rewrite <- rv_B, Ey, R3, Ex', Err. f_equal.
    replace (rn r) with r. 2:{ pose proof (rnd_B prec emax bx) as G. rewrite Ex' in G. destruct s; cbn [signed] in G; [rewrite rnd_opp in G; lra|lra]. }
    apply Rmin_left. pose proof (finite_le _ (conj V F)) as Mx. rewrite rv_finite, signed_abs in Mx. fold r in Mx. rewrite Rabs_pos_eq in Mx by lra. exact Mx.
  - assert (S1 : sign_SF (B2SF by') = s) by (rewrite Ey; exact R4). assert (S2 : sign_SF (B2SF bx) = s) by (rewrite Ex; reflexivity).
    destruct by', bx; cbn in *; congruence.
Qed.
End Reading.

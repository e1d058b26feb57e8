(** C61: floating point measurements from the recording run to the comparison. *)
From Coq Require Import Reals Psatz Floats.SpecFloat.
From Flocq Require Import Core.
From Verif Require Import Base Str Dec PathModel MeasModel MeasFacts MeasFacts2 FloatFacts TolFacts MeasProps XmlText XmlModel ReadModel ReadFacts ReadBack ReadProps RegModel ArgFacts ArgProps RegSpec RegFacts RegStart RegMain RegProps RegProps2 RegRound RegProps3 NumModel NumSpec NumFacts NumReal NumProps.
Local Open Scope Z_scope.

(** * The printed text can be stored *)
Lemma digit_text c : is_digit c = true -> text_char c = true.
Proof. destruct c as [b0 b1 b2 b3 b4 b5 b6 b7]. destruct b0, b1, b2, b3, b4, b5, b6, b7; vm_compute; auto. Qed.
Lemma digits_text s : forallb is_digit s = true -> forallb text_char s = true.
Proof.
  induction s as [|c s IH]; intros H; [reflexivity|]. cbn [forallb] in *. apply andb_true_iff in H as [H1 H2].
  rewrite (digit_text c H1), (IH H2). reflexivity.
Qed.
Lemma exponent_text ex X : exponent_part ex X -> forallb text_char ex = true.
Proof.
  intros [|c sg ds Hc Hs Hd _]; [reflexivity|]. cbn [forallb]. rewrite forallb_app, (digits_text ds Hd).
  destruct Hc as [->| ->], Hs as [->|[->| ->]]; reflexivity.
Qed.
Lemma writes_text t s D k : writes t s D k -> text_safe t.
Proof.
  intros [neg i fr f ex X Hi _ Hf He]. unfold text_safe. rewrite !forallb_app, (digits_text i Hi), (exponent_text ex X He).
  replace (forallb text_char fr) with true; [destruct neg; reflexivity|].
  destruct Hf as [|f Hf]; [reflexivity|]. cbn [forallb]. rewrite (digits_text f Hf). reflexivity.
Qed.
Lemma print_text P x : 1 <= P -> text_safe (print_g P x).
Proof.
  intros HP. destruct x as [s|s| |s m e]; [destruct s; reflexivity|destruct s; reflexivity|reflexivity|].
  destruct (print_finite P s m e HP) as (D & k & _ & W & _). apply (writes_text _ _ _ _ W).
Qed.
Lemma read_std64 x : valid_binary 53 1024 x = true -> exists y, read64 std_io (print64 std_io x) = Ok y /\ double_number y.
Proof.
  intros V. destruct (finite_sf x) eqn:F.
  - destruct (back64 x (conj V F)) as (y & R1 & R2 & _). exists y. auto.
  - exists (S754_zero false). split; [destruct x as [s|s| |]; try discriminate F; [destruct s|]; reflexivity|split; reflexivity].
Qed.
Lemma read_std32 x : valid_binary 24 128 x = true -> exists y, read32 std_io (print32 std_io x) = Ok y /\ float_number y.
Proof.
  intros V. destruct (finite_sf x) eqn:F.
  - destruct (back32 x (conj V F)) as (y & R1 & R2 & _). exists y. auto.
  - exists (S754_zero false). split; [destruct x as [s|s| |]; try discriminate F; [destruct s|]; reflexivity|split; reflexivity].
Qed.

(** * The verdict *)
(** the verdict when [x] was recorded under the name [n] and [y] is measured under it *)
Section Verdict.
Variables (e : env) (dirs : list str) (f : store) (n : str).
Hypothesis Hio : e_io e = std_io.
Definition double_verdict (x y t : spec_float) (tol : bool) : res bool :=
  verdict e dirs (stored (meas_of (e_io e) false (NumericDouble x n tol))) (NumericDouble y n tol, t, f).
Definition float_verdict (x y t : spec_float) (tol : bool) : res bool :=
  verdict e dirs (stored (meas_of (e_io e) false (NumericFloat x n tol))) (NumericFloat y n tol, t, f).
Lemma exact_dm cm c s s' : SFeqb (GetTolerance cm) SFzero = true ->
  snd (Compare (e_sc e) (sources e f) (e_io e) cm (MD (DeleteContentAsData (SetContent (named c n) s))) (MD (SetContent (named c n) s'))) = Ok (eqs s s').
Proof.
  intros T. rewrite (compare_exact (e_sc e) (sources e f) (e_io e) cm _ _ s s' T); [|right; repeat split; destruct c; discriminate|right; repeat split; destruct c; discriminate].
  cbn [snd DeleteContentAsData SetContent named SetAttributeName new_dm dname dcls]. rewrite eqs_refl, (proj2 (cls_eqb_true c c) eq_refl). reflexivity.
Qed.
Lemma double_exact x y t tol : tol = false \/ SFeqb t SFzero = true -> double_verdict x y t tol = Ok (eqs (print_g 16 x) (print_g 16 y)).
Proof.
  intros H. unfold double_verdict, verdict. cbn [meas_of stored found tolerant_of]. rewrite Hio. unfold double_SetValue. cbn [print64 std_io].
  rewrite <- Hio. apply exact_dm. destruct tol; [|reflexivity]. destruct H as [H|H]; [discriminate|]. rewrite tolerance_zero by exact H. reflexivity.
Qed.
Lemma float_exact x y t tol : tol = false \/ SFeqb t SFzero = true -> float_verdict x y t tol = Ok (eqs (print_g 7 x) (print_g 7 y)).
Proof.
  intros H. unfold float_verdict, verdict. cbn [meas_of stored found tolerant_of]. rewrite Hio. unfold float_SetValue. cbn [print32 std_io].
  rewrite <- Hio. apply exact_dm. destruct tol; [|reflexivity]. destruct H as [H|H]; [discriminate|]. rewrite tolerance_zero by exact H. reflexivity.
Qed.
Lemma double_tolerant x y t x' y' : SFeqb t SFzero = false -> read64 std_io (print64 std_io x) = Ok x' -> read64 std_io (print64 std_io y) = Ok y' ->
  double_verdict x y t true = Ok (tol_double x' y' t).
Proof.
  intros T Rx Ry. unfold double_verdict, verdict. cbn [meas_of stored found tolerant_of].
  rewrite compare_tolerant; [|rewrite tolerance_set_get by exact T; exact T|reflexivity|reflexivity]. rewrite tolerance_set_get by exact T.
  cbn [snd]. unfold IsEqualTolerant, double_GetValue, double_SetValue. cbn [SetContent DeleteContentAsData named SetAttributeName new_dm dcls dcontent cls_eqb].
  rewrite Hio, Rx, Ry. reflexivity.
Qed.
Lemma float_tolerant x y t x' y' : SFeqb t SFzero = false -> read32 std_io (print32 std_io x) = Ok x' -> read32 std_io (print32 std_io y) = Ok y' ->
  float_verdict x y t true = Ok (tol_float x' y' t).
Proof.
  intros T Rx Ry. unfold float_verdict, verdict. cbn [meas_of stored found tolerant_of].
  rewrite compare_tolerant; [|rewrite tolerance_set_get by exact T; exact T|reflexivity|reflexivity]. rewrite tolerance_set_get by exact T.
  cbn [snd]. unfold IsEqualTolerant, float_GetValue, float_SetValue. cbn [SetContent DeleteContentAsData named SetAttributeName new_dm dcls dcontent cls_eqb].
  rewrite Hio, Rx, Ry. reflexivity.
Qed.
End Verdict.

(** * Errors of reading, subtracting and multiplying *)
Section Errors.
Local Open Scope R_scope.
Variables (c u w : R) (x y x' y' t d p q : R).
Hypotheses (Hc : 0 <= c <= 1) (Hu : 0 <= u <= c) (Hw : 0 <= w) (Ht : 0 <= t).
Hypotheses (Ex : Rabs (x' - x) <= c * Rabs x + w) (Ey : Rabs (y' - y) <= c * Rabs y + w).
Hypothesis (Ed : Rabs (d - Rabs (x' - y')) <= u * Rabs (x' - y') + w).
Hypothesis (Ep : Rabs (p - t * Rabs x') <= u * (t * Rabs x') + w) (Eq : Rabs (q - t * Rabs y') <= u * (t * Rabs y') + w).
Let M := Rmax (Rabs x) (Rabs y).
Lemma M_x : Rabs x <= M. Proof. apply Rmax_l. Qed.
Lemma M_y : Rabs y <= M. Proof. apply Rmax_r. Qed.
Lemma M_pos : 0 <= M. Proof. apply Rle_trans with (Rabs x); [apply Rabs_pos|apply M_x]. Qed.
Lemma near_x : Rabs (x' - x) <= c * M + w. Proof. eapply Rle_trans; [exact Ex|]. pose proof M_x. assert (c * Rabs x <= c * M) by (apply Rmult_le_compat_l; lra). lra. Qed.
Lemma near_y : Rabs (y' - y) <= c * M + w. Proof. eapply Rle_trans; [exact Ey|]. pose proof M_y. assert (c * Rabs y <= c * M) by (apply Rmult_le_compat_l; lra). lra. Qed.
Lemma size_x : Rabs (Rabs x' - Rabs x) <= c * M + w. Proof. eapply Rle_trans; [apply Rabs_triang_inv2|apply near_x]. Qed.
Lemma size_y : Rabs (Rabs y' - Rabs y) <= c * M + w. Proof. eapply Rle_trans; [apply Rabs_triang_inv2|apply near_y]. Qed.
Lemma diff_near : Rabs (d - Rabs (x - y)) <= 6 * (c * M) + 5 * w.
Proof.
  pose proof near_x as Nx. pose proof near_y as Ny. pose proof M_x. pose proof M_y. pose proof M_pos.
  assert (A : Rabs (Rabs (x' - y') - Rabs (x - y)) <= 2 * (c * M) + 2 * w).
  { eapply Rle_trans; [apply Rabs_triang_inv2|]. replace (x' - y' - (x - y)) with ((x' - x) + - (y' - y)) by ring.
    eapply Rle_trans; [apply Rabs_triang|]. rewrite Rabs_Ropp. lra. }
  assert (B : Rabs (x - y) <= 2 * M). { unfold Rminus. eapply Rle_trans; [apply Rabs_triang|]. rewrite Rabs_Ropp. lra. }
  assert (0 <= Rabs (x' - y')) by apply Rabs_pos. apply Rabs_le_inv in A. apply Rabs_le_inv in Ed.
  assert (c * M <= 1 * M) by (apply Rmult_le_compat_r; lra). 
  assert (U : u * Rabs (x' - y') <= c * (2 * M + 2 * (c * M) + 2 * w)) by (apply Rmult_le_compat; lra).
  assert (c * (c * M) <= 1 * (c * M)) by (apply Rmult_le_compat_r; [apply Rmult_le_pos|]; lra). assert (c * w <= 1 * w) by (apply Rmult_le_compat_r; lra).
  assert (0 <= c * M) by (apply Rmult_le_pos; lra).
  apply Rabs_le. rewrite !Rmult_plus_distr_l in U. lra.
Qed.
Lemma prod_near (z z' r : R) : Rabs z <= M -> Rabs (Rabs z' - Rabs z) <= c * M + w -> Rabs (r - t * Rabs z') <= u * (t * Rabs z') + w ->
  Rabs (r - t * Rabs z) <= 3 * (t * (c * M)) + 3 * (t * w) + w.
Proof.
  intros Hz S E. pose proof M_pos. apply Rabs_le_inv in S, E. pose proof (Rabs_pos z) as P. pose proof (Rabs_pos z') as P'.
  assert (c * M <= 1 * M) by (apply Rmult_le_compat_r; lra). assert (0 <= c * M) by (apply Rmult_le_pos; lra).
  assert (T1 : t * Rabs z' <= t * (Rabs z + (c * M + w))) by (apply Rmult_le_compat_l; lra).
  assert (T2 : t * (Rabs z - (c * M + w)) <= t * Rabs z') by (apply Rmult_le_compat_l; lra).
  assert (T3 : t * Rabs z' <= t * (2 * M + w)) by (apply Rmult_le_compat_l; lra).
  assert (P3 : 0 <= t * Rabs z') by (apply Rmult_le_pos; lra).
  assert (U : u * (t * Rabs z') <= c * (t * (2 * M + w))) by (apply Rmult_le_compat; lra).
  assert (V : c * (t * w) <= 1 * (t * w)) by (apply Rmult_le_compat_r; [apply Rmult_le_pos|]; lra).
  assert (0 <= t * w) by (apply Rmult_le_pos; lra).
  replace (c * (t * (2 * M + w))) with (2 * (t * (c * M)) + c * (t * w)) in U by ring.
  rewrite !Rmult_plus_distr_l in T1. unfold Rminus in T2. rewrite Rmult_plus_distr_l, <- Ropp_mult_distr_r, Rmult_plus_distr_l in T2.
  apply Rabs_le. lra.
Qed.
(** close enough: accepted; too far: rejected *)
Lemma accept : Rabs (x - y) + 10 * c * (1 + t) * M + 10 * (1 + t) * w <= t * M -> d <= p \/ d <= q.
Proof.
  intros H. pose proof diff_near as D. apply Rabs_le_inv in D. pose proof M_pos.
  assert (0 <= c * M) by (apply Rmult_le_pos; lra). assert (0 <= t * (c * M)) by (apply Rmult_le_pos; lra). assert (0 <= t * w) by (apply Rmult_le_pos; lra).
  replace (10 * c * (1 + t) * M) with (10 * (c * M) + 10 * (t * (c * M))) in H by ring. replace (10 * (1 + t) * w) with (10 * w + 10 * (t * w)) in H by ring.
  destruct (Rle_dec (Rabs y) (Rabs x)) as [L|L].
  - left. assert (EM : M = Rabs x) by (apply Rmax_left, L). pose proof (prod_near x x' p M_x size_x Ep) as P. apply Rabs_le_inv in P. rewrite <- EM in P. lra.
  - right. assert (EM : M = Rabs y) by (apply Rmax_right; lra). pose proof (prod_near y y' q M_y size_y Eq) as P. apply Rabs_le_inv in P. rewrite <- EM in P. lra.
Qed.
Lemma reject : t * M + 10 * c * (1 + t) * M + 10 * (1 + t) * w < Rabs (x - y) -> p < d /\ q < d.
Proof.
  intros H. pose proof diff_near as D. apply Rabs_le_inv in D. pose proof M_pos.
  assert (0 <= c * M) by (apply Rmult_le_pos; lra). assert (0 <= t * (c * M)) by (apply Rmult_le_pos; lra). assert (0 <= t * w) by (apply Rmult_le_pos; lra).
  replace (10 * c * (1 + t) * M) with (10 * (c * M) + 10 * (t * (c * M))) in H by ring. replace (10 * (1 + t) * w) with (10 * w + 10 * (t * w)) in H by ring.
  pose proof (prod_near x x' p M_x size_x Ep) as P. pose proof (prod_near y y' q M_y size_y Eq) as Q. apply Rabs_le_inv in P, Q.
  assert (t * Rabs x <= t * M) by (apply Rmult_le_compat_l; [lra|apply M_x]). assert (t * Rabs y <= t * M) by (apply Rmult_le_compat_l; [lra|apply M_y]).
  lra.
Qed.
End Errors.

(** C67: image comparison for other pixel types. *)
From Coq Require Import Reals Psatz Floats.SpecFloat Permutation.
From Flocq Require Import Core BinarySingleNaN.
From Verif Require Import Base Str Dec MeasModel FloatFacts TolFacts ImgModel ImgFacts ImgSpec ImgBox ImgPixel ImgRun ImgMore ImgFloat PixModel PixSpec PixFacts PixRun.
From Verif Require ImgProps.
Local Open Scope Z_scope.

(** * Any pixel type *)
Lemma first_closest_unique T f valid test i d d' : q_reported T f valid test i ->
  first_closest T (f_radius f) valid test i d -> first_closest T (f_radius f) valid test i d' -> d = d'.
Proof.
  intros (_ & (R & _) & _) (b & j & a & E & -> & B & A) (b' & j' & a' & E' & -> & B' & A').
  pose proof (proj2 (ltb_nan _ _ R)) as Nc.
  assert (N : forall bb jj aa, order_of_search T test (f_radius f) i = bb ++ jj :: aa ->
    (forall k, In k bb -> SFltb (p_norm2 T (p_sub T (q_pix T valid i) (q_pix T test jj))) (distance2 T (q_pix T valid i) (q_pix T test k)) = true \/ distance2 T (q_pix T valid i) (q_pix T test k) = S754_nan) ->
    isnan (distance2 T (q_pix T valid i) (q_pix T test jj)) = false).
  { intros bb jj aa Eo Hb. destruct bb as [|k bb].
    - unfold order_of_search in Eo. injection Eo as <- _. exact Nc.
    - unfold order_of_search in Eo. injection Eo as <- _. destruct (Hb i (or_introl eq_refl)) as [G|G].
      + apply (ltb_nan _ _ G).
      + rewrite G in Nc. discriminate. }
  pose proof (N b j a E B) as N1. pose proof (N b' j' a' E' B') as N2. rewrite E in E'.
  destruct (Nat.lt_trichotomy (length b) (length b')) as [L|[L|L]].
  - exfalso. assert (In j b').
    { apply (f_equal (fun l => nth_error l (length b))) in E'. rewrite nth_error_app2, Nat.sub_diag in E' by lia. rewrite nth_error_app1 in E' by lia.
      symmetry in E'. exact (nth_error_In _ _ E'). }
    assert (In j' a).
    { apply (f_equal (fun l => nth_error l (length b'))) in E'. rewrite (nth_error_app2 b') , Nat.sub_diag in E' by lia. rewrite nth_error_app2 in E' by lia.
      replace (length b' - length b)%nat with (S (length b' - length b - 1)) in E' by lia. cbn [nth_error] in E'. exact (nth_error_In _ _ E'). }
    specialize (B' j H). specialize (A j' H0). destruct B' as [G|G]; [|rewrite G in N1; discriminate].
    unfold distance2 in *. rewrite G in A. discriminate.
  - apply (f_equal (fun l => nth_error l (length b))) in E'. rewrite nth_error_app2, Nat.sub_diag in E' by lia. rewrite L, nth_error_app2, Nat.sub_diag in E' by lia.
    injection E' as ->. reflexivity.
  - exfalso. assert (In j' b).
    { apply (f_equal (fun l => nth_error l (length b'))) in E'. rewrite (nth_error_app2 b'), Nat.sub_diag in E' by lia. rewrite nth_error_app1 in E' by lia.
      exact (nth_error_In _ _ E'). }
    assert (In j a').
    { apply (f_equal (fun l => nth_error l (length b))) in E'. rewrite (nth_error_app2 b), Nat.sub_diag in E' by lia. rewrite nth_error_app2 in E' by lia.
      replace (length b - length b')%nat with (S (length b - length b' - 1)) in E' by lia. cbn [nth_error] in E'. symmetry in E'. exact (nth_error_In _ _ E'). }
    specialize (B j' H). specialize (A' j H0). destruct B as [G|G]; [|rewrite G in N2; discriminate].
    unfold distance2 in *. rewrite G in A'. discriminate.
Qed.

(** C67.  Whatever the pixel type, the split and the schedule: the run is undefined iff the first of the closest differences of some reported pixel
    does not fit the pixel type of the output; otherwise the number is that of the reported pixels, and the output image has that difference at
    the reported pixels and a zero at the others. *)
Theorem C67_any_pixel_type : forall T f valid test threads schedule r,
  q_comparable T valid test -> 0 <= f_radius f -> q_split T f valid test threads -> q_run T f valid test threads schedule r ->
  (r = UB <-> exists i d, q_reported T f valid test i /\ first_closest T (f_radius f) valid test i d /\ p_cast T d = None) /\
  (r <> UB -> exists q, r = Ok q /\ how_many (q_reported T f valid test) (q_number T q) /\
    (forall i, ~ in_image (shape T valid) i -> q_image T q i = None) /\
    (forall i, in_image (shape T valid) i -> ~ q_reported T f valid test i -> exists c, in_image (shape T valid) c /\ q_image T q i = Some (p_zero T (q_pix T valid c))) /\
    (forall i d, q_reported T f valid test i -> first_closest T (f_radius f) valid test i d -> q_image T q i = p_cast T d)).
Proof.
  intros T f valid test threads schedule r C Hr S R. destruct (PixRun.run_result T f valid test threads S schedule r C Hr R) as [(B & ->)|(q & -> & N & _ & _ & I1 & I2 & I3)].
  - split; [tauto|]. intros H. congruence.
  - split.
    + split; [discriminate|]. intros (i & d & Hi & Hd & Hc). destruct (I3 i Hi) as (d' & v & D1 & _ & D3 & _).
      rewrite (first_closest_unique T f valid test i d d' Hi Hd D1) in Hc. congruence.
    + intros _. exists q. split; [reflexivity|]. split.
      { rewrite N. exists (PixRun.reported_list T f valid test threads). split; [apply PixRun.reported_NoDup, S|]. split; [|reflexivity].
        intros i. apply PixRun.reported_in; assumption. }
      split; [exact I1|]. split; [exact I2|]. intros i d Hi Hd. destruct (I3 i Hi) as (d' & v & D1 & _ & D3 & D4).
      rewrite (first_closest_unique T f valid test i d d' Hi Hd D1), D3. exact D4.
Qed.
Print Assumptions C67_any_pixel_type.
(** so neither definedness nor the number depend on the split and the schedule *)
Theorem C67_split_and_schedule : forall T f valid test threads threads' schedule schedule' r r',
  q_comparable T valid test -> 0 <= f_radius f -> q_split T f valid test threads -> q_split T f valid test threads' ->
  q_run T f valid test threads schedule r -> q_run T f valid test threads' schedule' r' ->
  r = UB /\ r' = UB \/ exists q q', r = Ok q /\ r' = Ok q' /\ q_number T q = q_number T q'.
Proof.
  intros T f valid test threads threads' schedule schedule' r r' C Hr S S' R R'.
  destruct (C67_any_pixel_type T f valid test threads schedule r C Hr S R) as [U O].
  destruct (C67_any_pixel_type T f valid test threads' schedule' r' C Hr S' R') as [U' O'].
  assert (D : r = UB \/ r <> UB) by (destruct r; ((left; reflexivity) || (right; discriminate))).
  destruct D as [D|D].
  - left. split; [exact D|]. apply U', U, D.
  - right. destruct (O D) as (q & E & N & _). assert (D' : r' <> UB) by (intros E'; apply D, U, U', E'). destruct (O' D') as (q' & E' & N' & _).
    exists q, q'. split; [exact E|]. split; [exact E'|]. exact (how_many_unique _ _ _ N N').
Qed.
Print Assumptions C67_split_and_schedule.

(** * Pixels of type double: the same as C45 *)
Definition as_pixels (im : image) : pimage double_type := PImage double_type (istart im) (isize im) (ipix im).
Theorem C67_doubles : forall f valid test i, q_reported double_type f (as_pixels valid) (as_pixels test) i <-> reported f valid test i.
Proof.
  intros f valid test i. unfold q_reported, reported, q_differs, differs. unfold in_image, at_boundary, in_image. cbn [shape as_pixels q_start q_size q_pix istart isize].
  unfold above, tolerated, distance2. cbn [double_type p_norm2 p_sub]. 
  change (fun a b : p_in double_type => SquaredTwoNorm (sub64 a b)) with (fun a b => square (difference a b)).
  split; intros (A & (B & C) & D); (split; [exact A|]; split; [split; [exact B|]|exact D]).
  - intros j H1 H2 H3. specialize (C j H1 H2). apply (eq_true_false_abs _ H3), C.
  - intros j H1 H2. specialize (C j H1 H2). apply not_true_is_false. exact C.
Qed.
Print Assumptions C67_doubles.

(** Pixels of type double, and vectors of them: nothing is undefined; the image holds the first closest difference at the reported pixels and a zero (a vector of
    zeros, as long as the vectors of the baseline) at the others. *)
Theorem C67_defined_pixel_types : forall f n threads,
  (forall valid test schedule r, q_comparable double_type valid test -> 0 <= f_radius f -> q_split double_type f valid test threads -> q_run double_type f valid test threads schedule r ->
     exists q, r = Ok q /\ how_many (q_reported double_type f valid test) (q_number double_type q) /\
       (forall i, in_image (shape double_type valid) i -> ~ q_reported double_type f valid test i -> q_image double_type q i = Some (S754_zero false)) /\
       (forall i d, q_reported double_type f valid test i -> first_closest double_type (f_radius f) valid test i d -> q_image double_type q i = Some d)) /\
  (forall valid test schedule r, q_comparable vector_type valid test -> 0 <= f_radius f -> q_split vector_type f valid test threads -> q_run vector_type f valid test threads schedule r ->
     (forall j, in_image (shape vector_type valid) j -> length (q_pix vector_type valid j) = n) ->
     exists q, r = Ok q /\ how_many (q_reported vector_type f valid test) (q_number vector_type q) /\
       (forall i, in_image (shape vector_type valid) i -> ~ q_reported vector_type f valid test i -> q_image vector_type q i = Some (repeat (S754_zero false) n)) /\
       (forall i d, q_reported vector_type f valid test i -> first_closest vector_type (f_radius f) valid test i d -> q_image vector_type q i = Some d)).
Proof.
  assert (MR : forall (A B : Type) (x : B) (l : list A), map (fun _ => x) l = repeat x (length l)).
  { intros A B x. induction l as [|a l IH]; cbn [map repeat length]; [reflexivity|]. rewrite IH. reflexivity. }
  intros f n threads. split.
  - intros valid test schedule r C Hr S R. destruct (C67_any_pixel_type double_type f valid test threads schedule r C Hr S R) as [U O].
    assert (Nu : r <> UB). { intros E. apply U in E. destruct E as (i & d & _ & _ & X). discriminate X. }
    destruct (O Nu) as (q & E & N & _ & Z0 & D). exists q. split; [exact E|]. split; [exact N|]. split; [|exact D].
    intros i Hi Nr. destruct (Z0 i Hi Nr) as (c & _ & Ec). exact Ec.
  - intros valid test schedule r C Hr S R Hn. destruct (C67_any_pixel_type vector_type f valid test threads schedule r C Hr S R) as [U O].
    assert (Nu : r <> UB). { intros E. apply U in E. destruct E as (i & d & _ & _ & X). discriminate X. }
    destruct (O Nu) as (q & E & N & _ & Z0 & D). exists q. split; [exact E|]. split; [exact N|]. split; [|exact D].
    intros i Hi Nr. destruct (Z0 i Hi Nr) as (c & Hc & Ec). rewrite Ec. f_equal. cbn [vector_type p_zero]. rewrite MR. f_equal. apply Hn, Hc.
Qed.
Print Assumptions C67_defined_pixel_types.

(** * Integer pixels *)
Lemma truncate_int (d : b64) z : is_finite d = true -> B2R d = IZR z -> truncate (B2SF d) = Some z.
Proof.
  intros F R. destruct d as [s|s| |s m e He]; cbn [B2SF truncate is_finite] in *; try discriminate.
  - cbn [B2R] in R. apply (eq_IZR 0) in R. congruence.
  - cbn [B2R] in R. unfold F2R in R. cbn [Fnum Fexp] in R. f_equal.
    destruct (Z.leb_spec 0 e) as [L|L].
    + rewrite <- IZR_Zpower in R by exact L. rewrite <- mult_IZR in R. apply eq_IZR in R. rewrite <- R. change (radix_val radix2) with 2.
      destruct s; cbn [cond_Zopp]; lia.
    + assert (G : cond_Zopp s (Zpos m) = z * 2 ^ (- e)).
      { apply eq_IZR. rewrite mult_IZR, <- R. change (2 ^ (- e)) with (radix_val radix2 ^ (- e)). rewrite IZR_Zpower by lia. rewrite Rmult_assoc, <- bpow_plus.
        replace (e + - e) with 0 by lia. cbn. ring. }
      assert (P : 0 < 2 ^ (- e)) by (apply Z.pow_pos_nonneg; lia).
      destruct s; cbn [cond_Zopp] in *.
      * replace (Zpos m) with (- z * 2 ^ (- e)) by lia. rewrite Z.div_mul by lia. lia.
      * rewrite G. rewrite Z.div_mul by lia. reflexivity.
Qed.
Lemma int_cast lo hi c x : Z.abs c <= 2 ^ 25 -> Z.abs x <= 2 ^ 25 ->
  to_integer lo hi (sub64 (of_int64 c) (of_int64 x)) = if (lo <=? c - x) && (c - x <=? hi) then Some (c - x) else None.
Proof.
  intros Hc Hx. unfold to_integer. destruct (int_difference c x) as (d & E & F & R); [lia|lia|]. change (sub64 (of_int64 c) (of_int64 x)) with (difference (of_int64 c) (of_int64 x)).
  rewrite E, (truncate_int d (c - x) F R). reflexivity.
Qed.
(** squared distances of integers are compared like absolute differences *)
Lemma int_closer c x y : Z.abs c <= 2 ^ 25 -> Z.abs x <= 2 ^ 25 -> Z.abs y <= 2 ^ 25 ->
  SquaredTwoNorm (sub64 (of_int64 c) (of_int64 x)) <> S754_nan /\
  SFltb (SquaredTwoNorm (sub64 (of_int64 c) (of_int64 x))) (SquaredTwoNorm (sub64 (of_int64 c) (of_int64 y))) = (Z.abs (c - x) <? Z.abs (c - y)).
Proof.
  intros Hc Hx Hy. destruct (int_difference c x) as (d & E & F & R); [lia|lia|]. destruct (int_difference c y) as (d' & E' & F' & R'); [lia|lia|].
  change (sub64 (of_int64 c) (of_int64 x)) with (difference (of_int64 c) (of_int64 x)). change (sub64 (of_int64 c) (of_int64 y)) with (difference (of_int64 c) (of_int64 y)).
  change SquaredTwoNorm with square. rewrite E, E'.
  destruct (int_square d (c - x) F R) as (s & -> & Fs & Rs); [lia|]. destruct (int_square d' (c - y) F' R') as (s' & -> & Fs' & Rs'); [lia|].
  split; [destruct s; discriminate|]. change (SFltb (B2SF s) (B2SF s')) with (Bltb s s'). rewrite Bltb_correct, Rs, Rs' by assumption.
  case Rlt_bool_spec; intros H.
  - apply lt_IZR in H. symmetry. apply Z.ltb_lt. nia.
  - apply le_IZR in H. symmetry. apply Z.ltb_ge. nia.
Qed.

Section Integers.
Variables (lo hi thr r : Z) (valid test : pimage (integer_type lo hi)).
Notation v := (q_pix _ valid). Notation w := (q_pix _ test). Notation T := (integer_type lo hi).
Definition small_range : Prop := - 2 ^ 25 <= lo /\ hi <= 2 ^ 25.
Definition values_in_range (im : pimage T) : Prop := forall j, in_image (shape T im) j -> lo <= q_pix T im j <= hi.
Hypotheses (Hs : small_range) (Ht : 0 <= thr <= 2 ^ 26) (C : q_comparable T valid test) (Hr : 0 <= r) (Vv : values_in_range valid) (Vw : values_in_range test).
Lemma valid_test i : in_image (shape T valid) i <-> in_image (shape T test) i.
Proof. destruct C as (C1 & C2 & _). unfold in_image. rewrite C1, C2. tauto. Qed.
Lemma int_reported i : in_image (shape T valid) i ->
  (q_reported T (Filter r (of_int64 thr) false) valid test i <-> forall j, in_image (shape T test) j -> near r i j -> thr < Z.abs (v i - w j)).
Proof.
  intros Hi. destruct Hs as [S1 S2]. pose proof (Vv i Hi) as B1. pose proof (proj1 (valid_test i) Hi) as It.
  unfold q_reported, q_differs, distance2. cbn [f_threshold f_radius f_ignore_boundary integer_type p_norm2 p_sub].
  assert (G : forall j, in_image (shape T test) j ->
    (SFltb (square (of_int64 thr)) (SquaredTwoNorm (sub64 (of_int64 (v i)) (of_int64 (w j)))) = true <-> thr < Z.abs (v i - w j)) /\
    (SFleb (SquaredTwoNorm (sub64 (of_int64 (v i)) (of_int64 (w j)))) (square (of_int64 thr)) = true <-> Z.abs (v i - w j) <= thr)).
  { intros j Hj. pose proof (Vw j Hj) as B2. apply (int_above thr (v i) (w j) Ht); lia. }
  split.
  - intros (_ & (_ & H) & _) j Hj Hn. specialize (H j Hj Hn). destruct (G j Hj) as [_ G2]. cbn [integer_type p_in] in *.
    destruct (Z.lt_ge_cases thr (Z.abs (v i - w j))) as [L|L]; [exact L|]. apply G2 in L. congruence.
  - intros H. split; [exact Hi|]. split; [|discriminate]. split.
    + apply (G i It), H; [exact It|apply near_refl, Hr].
    + intros j Hj Hn. specialize (H j Hj Hn). apply not_true_is_false. intros K. apply (G j Hj) in K. lia.
Qed.
(** the first of the closest test pixels *)
Definition first_closest_place (i j : index) : Prop :=
  exists before after, order_of_search T test r i = before ++ j :: after /\
    (forall k, In k before -> Z.abs (v i - w j) < Z.abs (v i - w k)) /\ (forall k, In k after -> Z.abs (v i - w j) <= Z.abs (v i - w k)).
Lemma int_first_closest i d : in_image (shape T valid) i ->
  (first_closest T r valid test i d <-> exists j, first_closest_place i j /\ d = sub64 (of_int64 (v i)) (of_int64 (w j))).
Proof.
  intros Hi. destruct Hs as [S1 S2]. pose proof (Vv i Hi) as B1. pose proof (proj1 (valid_test i) Hi) as It.
  assert (P : forall bb jj aa, order_of_search T test r i = bb ++ jj :: aa -> forall k, In k (bb ++ jj :: aa) -> Z.abs (w k) <= 2 ^ 25).
  { intros bb jj aa E k Hk. rewrite <- E in Hk. apply (in_places T test r i k Hr It) in Hk. pose proof (Vw k (proj1 Hk)). lia. }
  assert (Bi : Z.abs (v i) <= 2 ^ 25) by lia.
  unfold first_closest, first_closest_place, distance2. cbn [integer_type p_norm2 p_sub p_real]. split.
  - intros (b & j & a & E & -> & B & A). exists j. split; [|reflexivity]. exists b, a. split; [exact E|]. specialize (P b j a E).
    pose proof (P j (in_elt j b a)) as Bj. split.
    + intros k Hk. pose proof (P k (in_or_app b (j :: a) k (or_introl Hk))) as Bk. destruct (int_closer (v i) (w j) (w k) Bi Bj Bk) as [_ G]. destruct (int_closer (v i) (w k) (w k) Bi Bk Bk) as [G' _].
      cbn [integer_type p_in] in *. destruct (B k Hk) as [H|H]; [|destruct (G' H)]. rewrite G in H. apply Z.ltb_lt in H. exact H.
    + intros k Hk. pose proof (P k (in_or_app b (j :: a) k (or_intror (in_cons j k a Hk)))) as Bk. destruct (int_closer (v i) (w k) (w j) Bi Bk Bj) as [_ G].
      specialize (A k Hk). cbn [integer_type p_in] in *. rewrite G in A. apply Z.ltb_ge in A. exact A.
  - intros (j & (b & a & E & B & A) & ->). exists b, j, a. split; [exact E|]. split; [reflexivity|]. specialize (P b j a E).
    pose proof (P j (in_elt j b a)) as Bj. split.
    + intros k Hk. pose proof (P k (in_or_app b (j :: a) k (or_introl Hk))) as Bk. left. destruct (int_closer (v i) (w j) (w k) Bi Bj Bk) as [_ G].
      cbn [integer_type p_in] in *. rewrite G. apply Z.ltb_lt, B, Hk.
    + intros k Hk. pose proof (P k (in_or_app b (j :: a) k (or_intror (in_cons j k a Hk)))) as Bk. destruct (int_closer (v i) (w k) (w j) Bi Bk Bj) as [_ G].
      cbn [integer_type p_in] in *. rewrite G. apply Z.ltb_ge, A, Hk.
Qed.
Lemma place_in i j : in_image (shape T valid) i -> first_closest_place i j -> in_image (shape T test) j /\ near r i j.
Proof.
  intros Hi (b & a & E & _). apply (in_places T test r i j Hr (proj1 (valid_test i) Hi)). rewrite E. apply in_or_app. right. left. reflexivity.
Qed.
End Integers.

(** Images of 8 or 16 bit integers, or any others up to 2^25 in magnitude, with an integer threshold: the reported pixels are those further than the threshold
    from every test pixel in reach; but the comparison is undefined iff, for one of them, the difference to the first of the closest test pixels is
    not a value of the pixel type. *)
Theorem C67_integer_images : forall lo hi thr r valid test threads schedule res,
  let T := integer_type lo hi in let f := Filter r (of_int64 thr) false in
  small_range lo hi -> 0 <= thr <= 2 ^ 26 -> 0 <= r -> q_comparable T valid test -> values_in_range lo hi valid -> values_in_range lo hi test ->
  q_split T f valid test threads -> q_run T f valid test threads schedule res ->
  let far i := in_image (shape T valid) i /\ forall j, in_image (shape T test) j -> near r i j -> thr < Z.abs (q_pix T valid i - q_pix T test j) in
  (res = UB <-> exists i j, far i /\ first_closest_place lo hi r valid test i j /\ ~ lo <= q_pix T valid i - q_pix T test j <= hi) /\
  (res <> UB -> exists q, res = Ok q /\ how_many far (q_number T q) /\
     (forall i, in_image (shape T valid) i -> ~ far i -> q_image T q i = Some 0) /\
     (forall i j, far i -> first_closest_place lo hi r valid test i j -> q_image T q i = Some (q_pix T valid i - q_pix T test j))).
Proof.
  intros lo hi thr r valid test threads schedule res T f Hs Ht Hr C Vv Vw S R far.
  destruct (C67_any_pixel_type T f valid test threads schedule res C Hr S R) as [U O].
  assert (F : forall i, q_reported T f valid test i <-> far i).
  { intros i. split.
    - intros Hi. split; [apply Hi|]. apply (int_reported lo hi thr r valid test Hs Ht C Hr Vv Vw i (proj1 Hi)), Hi.
    - intros [Hi Hf]. apply (int_reported lo hi thr r valid test Hs Ht C Hr Vv Vw i Hi), Hf. }
  assert (K : forall i j, far i -> first_closest_place lo hi r valid test i j ->
    (p_cast T (sub64 (of_int64 (q_pix T valid i)) (of_int64 (q_pix T test j))) = None <-> ~ lo <= q_pix T valid i - q_pix T test j <= hi)).
  { intros i j [Hi _] Hj. destruct (place_in lo hi thr r valid test Ht C Hr i j Hi Hj) as [Ij _]. destruct Hs as [S1 S2]. pose proof (Vv i Hi). pose proof (Vw j Ij).
    cbn [T integer_type p_cast]. unfold T in *. cbn [integer_type p_in] in *. rewrite int_cast by lia.
    destruct (Z.leb_spec lo (q_pix (integer_type lo hi) valid i - q_pix (integer_type lo hi) test j)), (Z.leb_spec (q_pix (integer_type lo hi) valid i - q_pix (integer_type lo hi) test j) hi); cbn [andb]; split; try discriminate; try reflexivity; lia. }
  split.
  - eapply iff_trans; [exact U|]. split.
    + intros (i & d & Hi & Hd & Hc). pose proof (proj1 (F i) Hi) as Fi. apply (int_first_closest lo hi thr r valid test Hs Ht C Hr Vv Vw i d (proj1 Hi)) in Hd. destruct Hd as (j & Hj & ->).
      exists i, j. split; [exact Fi|]. split; [exact Hj|]. apply (K i j Fi Hj), Hc.
    + intros (i & j & Fi & Hj & Hc). exists i, (sub64 (of_int64 (q_pix T valid i)) (of_int64 (q_pix T test j))). split; [apply F, Fi|]. split.
      * apply (int_first_closest lo hi thr r valid test Hs Ht C Hr Vv Vw i _ (proj1 Fi)). exists j. split; [exact Hj|reflexivity].
      * apply (K i j Fi Hj), Hc.
  - intros H. destruct (O H) as (q & E & (l & N & In_l & L) & _ & Z0 & D). exists q. split; [exact E|]. split; [|split].
    + exists l. split; [exact N|]. split; [|exact L]. intros i. rewrite In_l. apply F.
    + intros i Hi Nf. destruct (Z0 i Hi (fun X => Nf (proj1 (F i) X))) as (c & _ & Ec). exact Ec.
    + intros i j Fi Hj. destruct (place_in lo hi thr r valid test Ht C Hr i j (proj1 Fi) Hj) as [Ij _].
      assert (Fits : lo <= q_pix T valid i - q_pix T test j <= hi).
      { destruct (Z.le_decidable lo (q_pix T valid i - q_pix T test j)) as [A|A]; [destruct (Z.le_decidable (q_pix T valid i - q_pix T test j) hi) as [B|B]; [split; assumption|]|];
          (exfalso; apply H, U; exists i, (sub64 (of_int64 (q_pix T valid i)) (of_int64 (q_pix T test j))); split; [apply F, Fi|]; split;
            [apply (int_first_closest lo hi thr r valid test Hs Ht C Hr Vv Vw i _ (proj1 Fi)); exists j; split; [exact Hj|reflexivity]|apply (K i j Fi Hj); intros [X Y]; contradiction]). }
      rewrite (D i (sub64 (of_int64 (q_pix T valid i)) (of_int64 (q_pix T test j))) (proj2 (F i) Fi)).
      2: { apply (int_first_closest lo hi thr r valid test Hs Ht C Hr Vv Vw i _ (proj1 Fi)). exists j. split; [exact Hj|reflexivity]. }
      pose proof (Vv i (proj1 Fi)) as Bi. pose proof (Vw j Ij) as Bj. destruct Hs as [S1 S2].
      cbn [T integer_type p_cast]. unfold T in *. cbn [integer_type p_in] in *. rewrite int_cast by lia.
      destruct Fits as [F1 F2]. apply Z.leb_le in F1, F2. rewrite F1, F2. reflexivity.
Qed.
Print Assumptions C67_integer_images.

(** Unsigned pixels: undefined as soon as a reported pixel has only brighter test pixels in reach, defined if no reported pixel has a brighter one.
    With radius 0, undefined iff the test image is brighter than the baseline somewhere by more than the threshold. *)
Lemma closest_exists lo hi thr r (valid test : pimage (integer_type lo hi)) i :
  small_range lo hi -> 0 <= thr <= 2 ^ 26 -> 0 <= r -> q_comparable _ valid test -> values_in_range lo hi valid -> values_in_range lo hi test ->
  q_reported (integer_type lo hi) (Filter r (of_int64 thr) false) valid test i -> exists j, first_closest_place lo hi r valid test i j.
Proof.
  intros Hs Ht Hr C Vv Vw R. pose proof (proj1 R) as Hi. pose proof C as (C1 & C2 & _).
  assert (It : in_image (shape _ test) i) by (unfold in_image in *; rewrite C1, C2; exact Hi).
  pose proof (PixRun.found_first (integer_type lo hi) (Filter r (of_int64 thr) false) valid test i Hr It) as F.
  apply (int_first_closest lo hi thr r valid test Hs Ht C Hr Vv Vw i) in F; [|exact Hi|].
  - destruct F as (j & Hj & _). exists j. exact Hj.
  - apply PixRun.hit_differs; [exact Hr|exact It|apply R].
Qed.
Lemma near_0 i j : near 0 i j -> j = i.
Proof.
  intros [L H]. revert j L H. induction i as [|x i IH]; intros [|y j] L H; try discriminate; [reflexivity|].
  pose proof (H 0%nat x y eq_refl eq_refl). f_equal; [lia|]. apply IH; [injection L as L; exact L|]. intros k. exact (H (S k)).
Qed.
Theorem C67_unsigned_images : forall hi thr r valid test threads schedule res,
  let T := integer_type 0 hi in let f := Filter r (of_int64 thr) false in
  hi <= 2 ^ 25 -> 0 <= thr <= 2 ^ 26 -> 0 <= r -> q_comparable T valid test -> values_in_range 0 hi valid -> values_in_range 0 hi test ->
  q_split T f valid test threads -> q_run T f valid test threads schedule res ->
  let v := q_pix T valid in let w := q_pix T test in
  let near_values i (P : Z -> Prop) := forall j, in_image (shape T test) j -> near r i j -> P (w j) in
  ((exists i, in_image (shape T valid) i /\ near_values i (fun x => v i + thr < x)) -> res = UB) /\
  ((forall i, in_image (shape T valid) i -> near_values i (fun x => x <= v i)) -> res <> UB) /\
  (r = 0 -> (res = UB <-> exists i, in_image (shape T valid) i /\ v i + thr < w i)).
Proof.
  intros hi thr r valid test threads schedule res T f Hh Ht Hr C Vv Vw S R v w near_values.
  assert (Hs : small_range 0 hi) by (split; lia).
  destruct (C67_integer_images 0 hi thr r valid test threads schedule res Hs Ht Hr C Vv Vw S R) as [U _].
  assert (It : forall i, in_image (shape T valid) i -> in_image (shape T test) i).
  { intros i Hi. destruct C as (C1 & C2 & _). unfold in_image in *. rewrite C1, C2. exact Hi. }
  assert (B : forall i, in_image (shape T valid) i -> near_values i (fun x => v i + thr < x) -> res = UB).
  { intros i Hi Hn. assert (F : forall j, in_image (shape T test) j -> near r i j -> thr < Z.abs (v i - w j)).
    { intros j Hj Hij. specialize (Hn j Hj Hij). cbv beta in Hn. unfold v, w, T in *. cbn [integer_type p_in] in *. lia. }
    apply U. destruct (closest_exists 0 hi thr r valid test i Hs Ht Hr C Vv Vw) as (j & Hj).
    { apply (int_reported 0 hi thr r valid test Hs Ht C Hr Vv Vw i Hi). exact F. }
    exists i, j. split; [split; [exact Hi|exact F]|]. split; [exact Hj|].
    destruct (place_in 0 hi thr r valid test Ht C Hr i j Hi Hj) as [Ij Nj]. specialize (Hn j Ij Nj). cbv beta in Hn. unfold v, w, T in *. cbn [integer_type p_in] in *. lia. }
  split; [|split].
  - intros (i & Hi & Hn). exact (B i Hi Hn).
  - intros H E. apply U in E. destruct E as (i & j & (Hi & _) & Hj & N).
    destruct (place_in 0 hi thr r valid test Ht C Hr i j Hi Hj) as [Ij Nj]. specialize (H i Hi j Ij Nj). pose proof (Vv i Hi) as V1. pose proof (Vw j Ij) as V2. cbv beta in H. unfold v, w, T in *. cbn [integer_type p_in] in *. lia.
  - intros ->. split.
    + intros E. apply U in E. destruct E as (i & j & (Hi & Hf) & Hj & N). destruct (place_in 0 hi thr 0 valid test Ht C Hr i j Hi Hj) as [Ij Nj].
      apply near_0 in Nj. subst j. exists i. split; [exact Hi|]. specialize (Hf i Ij (near_refl 0 i Hr)). pose proof (Vv i Hi) as V1. pose proof (Vw i Ij) as V2. unfold v, w, T in *. cbn [integer_type p_in] in *. lia.
    + intros (i & Hi & L). apply (B i Hi). intros j Hj Nj. apply near_0 in Nj. subst j. exact L.
Qed.
Print Assumptions C67_unsigned_images.

(** * CompareImage *)
(** [diff] gives what some run of the filter gives *)
Definition q_runs_filter (T : pixeltype) (diff : filter -> pimage T -> pimage T -> res Z) : Prop :=
  forall f valid test, q_comparable T valid test -> 0 <= f_radius f ->
    exists threads schedule r, q_split T f valid test threads /\ q_run T f valid test threads schedule r /\
      diff f valid test = (q <-- r ;; Ok (q_number T q)).
Theorem C67_compare_image : forall T diff test baseline thr np r, q_runs_filter T diff -> 0 <= r ->
  let f := Filter r thr false in
  (q_size T baseline <> q_size T test -> q_CompareImage T diff test baseline thr np r ([], []) = Ok ULONG_MAX) /\
  (q_size T baseline = q_size T test -> q_start T baseline <> q_start T test -> q_CompareImage T diff test baseline thr np r ([], []) = Throw ExnRuntime) /\
  (q_comparable T baseline test ->
     (exists i d, q_reported T f baseline test i /\ first_closest T r baseline test i d /\ p_cast T d = None) /\ q_CompareImage T diff test baseline thr np r ([], []) = UB \/
     ~ (exists i d, q_reported T f baseline test i /\ first_closest T r baseline test i d /\ p_cast T d = None) /\
       exists n, how_many (q_reported T f baseline test) n /\ q_CompareImage T diff test baseline thr np r ([], []) = Ok (Z.max 0 (n - np))).
Proof.
  intros T diff test baseline thr np r D Hr f. unfold q_CompareImage. cbn [default_region fst snd forallb andb negb]. unfold eqzs.
  split; [|split].
  - intros H. destruct (list_eq_dec Z.eq_dec (q_size T baseline) (q_size T test)); [contradiction|]. reflexivity.
  - intros E H. destruct (list_eq_dec Z.eq_dec (q_size T baseline) (q_size T test)); [|contradiction]. cbn [negb].
    destruct (list_eq_dec Z.eq_dec (q_start T baseline) (q_start T test)); [contradiction|]. reflexivity.
  - intros C. destruct (D f baseline test C Hr) as (threads & schedule & q & S & R & E). pose proof C as (C1 & C2 & _). cbn [shape istart isize] in C1, C2.
    destruct (list_eq_dec Z.eq_dec (q_size T baseline) (q_size T test)) as [_|N]; [|congruence]. cbn [negb].
    destruct (list_eq_dec Z.eq_dec (q_start T baseline) (q_start T test)) as [_|N]; [|congruence]. fold f. rewrite E.
    destruct (C67_any_pixel_type T f baseline test threads schedule q C Hr S R) as [U O].
    assert (Dq : q = UB \/ q <> UB) by (destruct q; ((left; reflexivity) || (right; discriminate))). destruct Dq as [Dq|Dq].
    + left. split; [apply U, Dq|]. rewrite Dq. reflexivity.
    + right. split; [intros X; apply Dq, U, X|]. destruct (O Dq) as (q' & -> & N & _). exists (q_number T q'). split; [exact N|]. cbn [bind].
      destruct (Z.ltb_spec (q_number T q') np); f_equal; lia.
Qed.
Print Assumptions C67_compare_image.

(** With a region that is not the default one: the baseline is cut to the test image, whatever the region is. *)
Definition q_cropped (T : pixeltype) (baseline test : pimage T) : pimage T := PImage T (q_start T test) (q_size T test) (q_pix T baseline).
Theorem C67_compare_region : forall T diff test baseline thr np r region, q_runs_filter T diff -> 0 <= r -> ImgProps.non_default region ->
  length (q_start T test) = length (q_size T test) -> length (q_start T baseline) = length (q_size T baseline) ->
  length (q_start T test) = length (q_start T baseline) -> Forall (fun n => 0 < n) (q_size T test) ->
  let f := Filter r thr false in let cut := q_cropped T baseline test in
  let undefined := exists i d, q_reported T f cut test i /\ first_closest T r cut test i d /\ p_cast T d = None in
  ((forall j, in_image (shape T test) j -> in_image (shape T baseline) j) ->
     undefined /\ q_CompareImage T diff test baseline thr np r region = UB \/
     ~ undefined /\ exists n, how_many (q_reported T f cut test) n /\ q_CompareImage T diff test baseline thr np r region = Ok (Z.max 0 (n - np))) /\
  (~ (forall j, in_image (shape T test) j -> in_image (shape T baseline) j) -> q_CompareImage T diff test baseline thr np r region = Throw ExnRuntime).
Proof.
  intros T diff test baseline thr np r region D Hr Hd E1 E2 E3 P f cut undefined.
  pose proof (ImgProps.inside_region (q_start T test) (q_size T test) (q_start T baseline) (q_size T baseline) E1 E2 E3 P) as I.
  unfold q_CompareImage. rewrite (ImgProps.non_default_false region Hd). cbn [negb]. split.
  - intros Hin. rewrite (proj2 I Hin). fold f. change (PImage T (q_start T test) (q_size T test) (q_pix T baseline)) with cut.
    assert (C : q_comparable T cut test) by (repeat split; exact E1).
    destruct (D f cut test C Hr) as (threads & schedule & q & S & R & E). rewrite E.
    destruct (C67_any_pixel_type T f cut test threads schedule q C Hr S R) as [U O].
    assert (Dq : q = UB \/ q <> UB) by (destruct q; ((left; reflexivity) || (right; discriminate))). destruct Dq as [Dq|Dq].
    + left. split; [apply U, Dq|]. rewrite Dq. reflexivity.
    + right. split; [intros X; apply Dq, U, X|]. destruct (O Dq) as (q' & -> & N & _). exists (q_number T q'). split; [exact N|]. cbn [bind].
      destruct (Z.ltb_spec (q_number T q') np); f_equal; lia.
  - intros Hin. destruct (inside _ _ _ _); [destruct Hin; apply I; reflexivity|]. reflexivity.
Qed.
Print Assumptions C67_compare_region.

(** * Vectors *)
(** vectors of integers *)
Definition int_vector (z : list Z) : list spec_float := map of_int64 z.
Fixpoint sum_of_squares (a b : list Z) : Z := match a, b with x :: a', y :: b' => (x - y) * (x - y) + sum_of_squares a' b' | _, _ => 0 end.
Lemma sum_nonneg a b : 0 <= sum_of_squares a b.
Proof. revert b. induction a as [|x a IH]; intros [|y b]; cbn [sum_of_squares]; try lia. specialize (IH b). apply Z.add_nonneg_nonneg; [apply Z.square_nonneg|exact IH]. Qed.
Lemma int_add (x y : b64) a b : is_finite x = true -> is_finite y = true -> B2R x = IZR a -> B2R y = IZR b -> Z.abs (a + b) <= 2 ^ 53 ->
  exists c : b64, add64 (B2SF x) (B2SF y) = B2SF c /\ is_finite c = true /\ B2R c = IZR (a + b).
Proof.
  intros Fx Fy Rx Ry H. exists (Bplus mode_NE x y). split; [exact (add_B 53 1024 p53 p53max x y)|].
  pose proof (Bplus_correct 53 1024 p53 p53max mode_NE x y Fx Fy) as C.
  change (round radix2 (SpecFloat.fexp 53 1024) (round_mode mode_NE)) with rnd64 in C.
  rewrite Rx, Ry, <- plus_IZR, Z_exact in C by exact H. rewrite Rlt_bool_true in C; [tauto|].
  rewrite <- abs_IZR. apply Rle_lt_trans with (bpow radix2 53); [|apply bpow_lt; lia]. change (bpow radix2 53) with (IZR (2 ^ 53)). apply IZR_le, H.
Qed.
Lemma vector_norm a : forall b (s : b64) z, length a = length b -> Forall (fun x => Z.abs x <= 2 ^ 25) a -> Forall (fun x => Z.abs x <= 2 ^ 25) b ->
  is_finite s = true -> B2R s = IZR z -> 0 <= z -> z + sum_of_squares a b <= 2 ^ 53 ->
  exists c : b64, fold_left (fun s x => add64 s (mul64 x x)) (vector_sub (int_vector a) (int_vector b)) (B2SF s) = B2SF c /\ is_finite c = true /\ B2R c = IZR (z + sum_of_squares a b).
Proof.
  induction a as [|x a IH]; intros [|y b] s z L Ha Hb Fs Rs Hz H; try discriminate.
  - exists s. cbn. rewrite Z.add_0_r. auto.
  - inversion Ha as [|? ? Hx Ha']; subst. inversion Hb as [|? ? Hy Hb']; subst. cbn [sum_of_squares] in *.
    pose proof (sum_nonneg a b) as P. pose proof (Z.square_nonneg (x - y)) as P2.
    unfold vector_sub, int_vector. cbn [map combine fold_left fst snd].
    destruct (int_difference x y) as (d & E & F & R); [lia|lia|]. change (sub64 (of_int64 x) (of_int64 y)) with (difference (of_int64 x) (of_int64 y)). rewrite E.
    destruct (int_square d (x - y) F R) as (q & E2 & F2 & R2); [lia|]. change (mul64 (B2SF d) (B2SF d)) with (square (B2SF d)). rewrite E2.
    destruct (int_add s q z ((x - y) * (x - y)) Fs F2 Rs R2) as (t & E3 & F3 & R3).
    { clear - P P2 Hz H. revert P P2 H. generalize ((x - y) * (x - y)), (sum_of_squares a b). intros u v ? ? ?. lia. }
    rewrite E3.
    destruct (IH b t (z + (x - y) * (x - y)) ltac:(injection L as L; exact L) Ha' Hb' F3 R3) as (c & Ec & Fc & Rc).
    { clear - P2 Hz. revert P2. generalize ((x - y) * (x - y)). intros; lia. }
    { rewrite <- Z.add_assoc. exact H. }
    exists c. split; [exact Ec|]. split; [exact Fc|]. rewrite Rc. f_equal. symmetry. apply Z.add_assoc.
Qed.
Lemma vector_distance a b : length a = length b -> Forall (fun x => Z.abs x <= 2 ^ 25) a -> Forall (fun x => Z.abs x <= 2 ^ 25) b -> sum_of_squares a b <= 2 ^ 53 ->
  exists c : b64, distance2 vector_type (int_vector a) (int_vector b) = B2SF c /\ is_finite c = true /\ B2R c = IZR (sum_of_squares a b).
Proof.
  intros L Ha Hb H. destruct (vector_norm a b (B754_zero false) 0 L Ha Hb eq_refl eq_refl) as (c & E & F & R); [lia|lia|]. exists c. split; [exact E|]. split; [exact F|exact R].
Qed.
(** Vectors of small integers (colour images, for instance) with an integer threshold: a pixel is reported iff its Euclidean distance to every test pixel
    in reach is above the threshold *)
Theorem C67_integer_vectors : forall thr r (valid test : pimage vector_type) (v w : index -> list Z) n i,
  0 <= thr <= 2 ^ 26 -> 0 <= r -> q_comparable vector_type valid test -> in_image (shape vector_type valid) i ->
  (forall j, in_image (shape vector_type valid) j -> q_pix vector_type valid j = int_vector (v j) /\ length (v j) = n /\ Forall (fun x => Z.abs x <= 2 ^ 25) (v j)) ->
  (forall j, in_image (shape vector_type test) j -> q_pix vector_type test j = int_vector (w j) /\ length (w j) = n /\ Forall (fun x => Z.abs x <= 2 ^ 25) (w j)) ->
  (forall j, in_image (shape vector_type test) j -> near r i j -> sum_of_squares (v i) (w j) <= 2 ^ 53) ->
  (q_reported vector_type (Filter r (of_int64 thr) false) valid test i <->
   forall j, in_image (shape vector_type test) j -> near r i j -> thr * thr < sum_of_squares (v i) (w j)).
Proof.
  intros thr r valid test v w n i Ht Hr C Hi Hv Hw Hb. pose proof C as (C1 & C2 & _).
  assert (It : in_image (shape vector_type test) i) by (unfold in_image in *; rewrite C1, C2; exact Hi).
  destruct (of_int_B thr) as (bt & Et & Rt & Ft & _); [lia|]. destruct (int_square bt thr Ft Rt) as (ct & Ect & Fct & Rct); [lia|].
  destruct (Hv i Hi) as (Ei & Li & Bi).
  assert (G : forall j, in_image (shape vector_type test) j -> near r i j ->
    (SFltb (square (of_int64 thr)) (distance2 vector_type (q_pix vector_type valid i) (q_pix vector_type test j)) = true <-> thr * thr < sum_of_squares (v i) (w j)) /\
    (SFleb (distance2 vector_type (q_pix vector_type valid i) (q_pix vector_type test j)) (square (of_int64 thr)) = false <-> thr * thr < sum_of_squares (v i) (w j))).
  { intros j Hj Nj. destruct (Hw j Hj) as (Ej & Lj & Bj). rewrite Ei, Ej, Et, Ect.
    destruct (vector_distance (v i) (w j)) as (c & Ec & Fc & Rc); [congruence|exact Bi|exact Bj|apply Hb; assumption|]. rewrite Ec.
    change (SFltb (B2SF ct) (B2SF c)) with (Bltb ct c). change (SFleb (B2SF c) (B2SF ct)) with (Bleb c ct). rewrite Bltb_correct, Bleb_correct, Rct, Rc by assumption. split.
    - case Rlt_bool_spec; intros H; [apply lt_IZR in H|apply le_IZR in H]; split; try discriminate; try reflexivity; lia.
    - case Rle_bool_spec; intros H; [apply le_IZR in H|apply lt_IZR in H]; split; try discriminate; try reflexivity; lia. }
  unfold q_reported, q_differs. cbn [f_threshold f_radius f_ignore_boundary]. split.
  - intros (_ & (_ & H) & _) j Hj Nj. apply (G j Hj Nj), H; assumption.
  - intros H. split; [exact Hi|]. split; [|discriminate]. split.
    + apply (G i It (near_refl r i Hr)), H; [exact It|apply near_refl, Hr].
    + intros j Hj Nj. apply (G j Hj Nj), H; assumption.
Qed.
Print Assumptions C67_integer_vectors.

(** * Cases *)
Definition q_sequential T f (valid test : pimage T) threads : res (qresult T) :=
  let schedule := concat (q_programs T f valid test threads) in
  if existsb (is_bad T) schedule then UB else Ok (q_after T (length threads) (Z.of_nat (length (pixels (shape T valid)))) (q_exec T (q_before T) schedule)).
Lemma q_sequential_is_run T f valid test threads : q_run T f valid test threads (concat (q_programs T f valid test threads)) (q_sequential T f valid test threads).
Proof. split; [apply interleaving_concat|reflexivity]. Qed.
Definition some_q_diff T (f : filter) (valid test : pimage T) : res Z := q <-- q_sequential T f valid test (one_thread f (shape T valid)) ;; Ok (q_number T q).
Lemma some_q_diff_runs T : q_runs_filter T (some_q_diff T).
Proof.
  intros f valid test C Hr. exists (one_thread f (shape T valid)), (concat (q_programs T f valid test (one_thread f (shape T valid)))), (q_sequential T f valid test (one_thread f (shape T valid))).
  split; [apply one_thread_split; assumption|]. split; [apply q_sequential_is_run|reflexivity].
Qed.
(** two images of bytes with one different pixel: comparing the brighter one with the darker one is undefined, the other way round gives 1 *)
Definition bytes (a b c : Z) : pimage unsigned_char := PImage unsigned_char [0] [3] (fun i => match i with [0] => a | [1] => b | _ => c end).
Theorem C67_exchange_refuted : exists dark bright, q_comparable unsigned_char dark bright /\ values_in_range 0 255 dark /\ values_in_range 0 255 bright /\
  forall diff, q_runs_filter unsigned_char diff ->
    q_CompareImage unsigned_char diff dark bright (of_int64 0) 0 0 ([], []) = Ok 1 /\ q_CompareImage unsigned_char diff bright dark (of_int64 0) 0 0 ([], []) = UB.
Proof.
  exists (bytes 10 20 30), (bytes 10 21 30).
  assert (C : q_comparable unsigned_char (bytes 10 20 30) (bytes 10 21 30)) by (repeat split).
  assert (C' : q_comparable unsigned_char (bytes 10 21 30) (bytes 10 20 30)) by (repeat split).
  assert (V : forall b, 0 <= b <= 255 -> values_in_range 0 255 (bytes 10 b 30)).
  { intros b Hb j _. unfold bytes. cbn [q_pix]. destruct j as [|[|[]|] [|? ?]]; lia. }
  split; [exact C|]. split; [apply V; lia|]. split; [apply V; lia|]. intros diff D.
  destruct (C67_compare_image unsigned_char diff (bytes 10 20 30) (bytes 10 21 30) (of_int64 0) 0 0 D) as (_ & _ & A); [lia|].
  destruct (C67_compare_image unsigned_char diff (bytes 10 21 30) (bytes 10 20 30) (of_int64 0) 0 0 D) as (_ & _ & B); [lia|].
  destruct (C67_compare_image unsigned_char (some_q_diff _) (bytes 10 20 30) (bytes 10 21 30) (of_int64 0) 0 0 (some_q_diff_runs _)) as (_ & _ & A'); [lia|].
  destruct (C67_compare_image unsigned_char (some_q_diff _) (bytes 10 21 30) (bytes 10 20 30) (of_int64 0) 0 0 (some_q_diff_runs _)) as (_ & _ & B'); [lia|].
  assert (K : q_CompareImage unsigned_char (some_q_diff _) (bytes 10 20 30) (bytes 10 21 30) (of_int64 0) 0 0 ([], []) = Ok 1) by (vm_compute; reflexivity).
  assert (K' : q_CompareImage unsigned_char (some_q_diff _) (bytes 10 21 30) (bytes 10 20 30) (of_int64 0) 0 0 ([], []) = UB) by (vm_compute; reflexivity).
  rewrite K in A'. rewrite K' in B'. split.
  - destruct (A' C') as [[_ X]|[N (n & Hn & E)]]; [discriminate|]. destruct (A C') as [[X _]|[_ (n' & Hn' & E')]]; [contradiction|]. rewrite E', (how_many_unique _ _ _ Hn' Hn). symmetry. exact E.
  - destruct (B' C) as [[X _]|[_ (n & _ & E)]]; [|discriminate]. destruct (B C) as [[_ E]|[N _]]; [exact E|contradiction].
Qed.
Print Assumptions C67_exchange_refuted.
(** a pixel each of whose components is within the threshold is reported if the distance is not *)
Definition colour (v : list Z) : pimage vector_type := PImage vector_type [0] [1] (fun _ => int_vector v).
Theorem C67_componentwise_refuted : exists a b thr, q_comparable vector_type (colour a) (colour b) /\
  (forall k x y, nth_error a k = Some x -> nth_error b k = Some y -> Z.abs (x - y) <= thr) /\
  q_reported vector_type (Filter 0 (of_int64 thr) false) (colour a) (colour b) [0].
Proof.
  exists [10; 20; 30], [14; 23; 30], 4. split; [repeat split|]. split.
  - intros [|[|[|[|k]]]] x y A B; cbn in A, B; try discriminate; injection A as <-; injection B as <-; lia. 
  - apply (C67_integer_vectors 4 0 _ _ (fun _ => [10; 20; 30]) (fun _ => [14; 23; 30]) 3).
    + lia.
    + lia.
    + repeat split.
    + apply in_box; [reflexivity|]. left. reflexivity.
    + intros j _. split; [reflexivity|]. split; [reflexivity|]. repeat constructor; lia.
    + intros j _. split; [reflexivity|]. split; [reflexivity|]. repeat constructor; lia.
    + intros j _ _. cbn. lia.
    + intros j _ _. cbn. lia.
Qed.
Print Assumptions C67_componentwise_refuted.
(** the hypotheses of the theorems about integer images hold of a 3-pixel image of bytes and radius 1 *)
Example C67_ex : small_range 0 255 /\ q_comparable unsigned_char (bytes 10 20 30) (bytes 10 99 30) /\
  q_split unsigned_char (Filter 1 (of_int64 5) false) (bytes 10 20 30) (bytes 10 99 30) (one_thread (Filter 1 (of_int64 5) false) (shape unsigned_char (bytes 10 20 30))) /\
  some_q_diff unsigned_char (Filter 1 (of_int64 5) false) (bytes 10 20 30) (bytes 10 99 30) = Ok 1.
Proof. split; [split; lia|]. split; [repeat split|]. split; [apply one_thread_split; [repeat split|cbn; lia]|]. vm_compute; reflexivity. Qed.
(** a small test image cut out of a larger baseline *)
Definition small_bytes : pimage unsigned_char := PImage unsigned_char [1] [2] (fun i => match i with [1] => 20 | _ => 31 end).
Example C67_region_ex : ImgProps.non_default ([1], [1]) /\ (forall j, in_image (shape unsigned_char small_bytes) j -> in_image (shape unsigned_char (bytes 10 20 30)) j) /\
  q_CompareImage unsigned_char (some_q_diff _) (bytes 10 20 30) small_bytes (of_int64 0) 0 0 ([1], [1]) = Throw ExnRuntime /\
  q_CompareImage unsigned_char (some_q_diff _) small_bytes (bytes 10 20 32) (of_int64 0) 0 0 ([1], [1]) = Ok 1.
Proof.
  split; [exists 1; split; [left; reflexivity|lia]|]. split; [|split; vm_compute; reflexivity].
  apply (proj1 (ImgProps.inside_region [1] [2] [0] [3] eq_refl eq_refl eq_refl ltac:(repeat constructor))). reflexivity.
Qed.
(** the hypotheses of [C67_defined_pixel_types] and of the clauses about the difference image *)
Example C67_image_ex :
  match q_sequential unsigned_char (Filter 0 (of_int64 5) false) (bytes 10 99 30) (bytes 10 20 30) (one_thread (Filter 0 (of_int64 5) false) (shape unsigned_char (bytes 10 99 30))) with
  | Ok q => (q_image unsigned_char q [0], q_image unsigned_char q [1], q_number unsigned_char q) = (Some 0, Some 79, 1)
  | _ => False
  end.
Proof. vm_compute. reflexivity. Qed.
Example C67_vectors_ex : let f := Filter 0 (of_int64 4) false in
  (forall j, in_image (shape vector_type (colour [10; 20; 30])) j -> @length spec_float (q_pix vector_type (colour [10; 20; 30]) j) = 3%nat) /\
  q_comparable vector_type (colour [10; 20; 30]) (colour [14; 23; 30]) /\
  q_split vector_type f (colour [10; 20; 30]) (colour [14; 23; 30]) (one_thread f (shape vector_type (colour [10; 20; 30]))).
Proof. intros f. split; [intros j _; reflexivity|]. split; [repeat split|]. apply one_thread_split; [repeat split|cbn; lia]. Qed.

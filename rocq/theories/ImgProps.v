(** C45-C49: image comparison. *)
From Coq Require Import Reals Psatz Floats.SpecFloat Permutation.
From Verif Require Import Base Str MeasModel FloatFacts TolFacts ImgModel ImgFacts ImgSpec ImgBox ImgPixel ImgRun ImgMore ImgFloat.
From Flocq Require Import Core BinarySingleNaN.
Local Open Scope Z_scope.

Definition doubles (im : image) : Prop := forall j, in_image im j -> valid_binary 53 1024 (ipix im j) = true.

(** ** C45 *)
(** the count is the number of pixels without acceptable counterpart *)
Theorem C45_count f valid test threads schedule res :
  comparable valid test -> 0 <= f_radius f -> well_split f valid test threads -> filter_run f valid test threads schedule res ->
  how_many (reported f valid test) (NumberOfPixelsWithDifferences res).
Proof. intros Hc Hr W R. exact (run_count f valid test threads W schedule res Hc Hr R). Qed.
(** the output image: nothing outside the image, zero for an accepted pixel, otherwise the closest difference *)
Theorem C45_output f valid test threads schedule res i :
  comparable valid test -> 0 <= f_radius f -> well_split f valid test threads -> filter_run f valid test threads schedule res ->
  (~ in_image valid i -> out_image res i = None) /\
  (in_image valid i -> ~ reported f valid test i -> out_image res i = Some (S754_zero false)) /\
  (reported f valid test i -> exists d, out_image res i = Some d /\
     (exists j, in_image test j /\ near (f_radius f) i j /\ d = difference (ipix valid i) (ipix test j)) /\
     forall j, in_image test j -> near (f_radius f) i j -> SFltb (square (difference (ipix valid i) (ipix test j))) (square d) = false).
Proof. intros Hc Hr W R. exact (run_out f valid test threads W schedule res i Hc Hr R). Qed.
(** images of integers up to 2^25 in magnitude (8 and 16 bit images, for instance) with an integer threshold: exact *)
Theorem C45_integers thr r valid test (v w : index -> Z) i :
  0 <= thr <= 2 ^ 26 -> comparable valid test -> in_image valid i -> 0 <= r ->
  (forall j, in_image valid j -> ipix valid j = of_int64 (v j) /\ Z.abs (v j) <= 2 ^ 25) ->
  (forall j, in_image test j -> ipix test j = of_int64 (w j) /\ Z.abs (w j) <= 2 ^ 25) ->
  (reported (Filter r (of_int64 thr) false) valid test i <-> forall j, in_image test j -> near r i j -> thr < Z.abs (v i - w j)).
Proof.
  intros Ht (C1 & C2 & C3) Hi Hr Hv Hw. unfold reported, differs. cbn [f_threshold f_radius f_ignore_boundary].
  destruct (Hv i Hi) as [Ev Bv]. rewrite Ev.
  assert (It : in_image test i) by (unfold in_image in *; rewrite C1, C2; exact Hi).
  split.
  - intros (_ & (_ & H) & _) j Hj Hn. specialize (H j Hj Hn). destruct (Hw j Hj) as [Ew Bw]. rewrite Ew in H.
    rewrite (proj2 (int_above thr (v i) (w j) Ht Bv Bw)) in H. lia.
  - intros H. split; [exact Hi|]. split; [|discriminate]. split.
    + destruct (Hw i It) as [Ew Bw]. rewrite Ew. apply (int_above thr (v i) (w i) Ht Bv Bw), H; [exact It|apply near_refl, Hr].
    + intros j Hj Hn. destruct (Hw j Hj) as [Ew Bw]. rewrite Ew, (proj2 (int_above thr (v i) (w j) Ht Bv Bw)). specialize (H j Hj Hn). lia.
Qed.
(** any finite doubles: what is reported really differs, in exact real arithmetic, from every pixel in reach *)
Theorem C45_reported_differs f valid test i j :
  valid_binary 53 1024 (f_threshold f) = true -> finite_sf (f_threshold f) = true -> doubles valid -> doubles test ->
  reported f valid test i -> in_image test j -> near (f_radius f) i j ->
  finite_sf (ipix valid i) = true -> finite_sf (ipix test j) = true ->
  (Rabs (rv (f_threshold f)) < Rabs (rv (ipix valid i) - rv (ipix test j)))%R.
Proof.
  intros Vt Ft Dv Dt (Hi & (_ & H) & _) Hj Hn Fv Fw. specialize (H j Hj Hn).
  destruct (valid_B 53 1024 _ Vt) as [t Et], (valid_B 53 1024 _ (Dv i Hi)) as [x Ex], (valid_B 53 1024 _ (Dt j Hj)) as [y Ey].
  rewrite <- Et, <- Ex, <- Ey in *. rewrite !rv_B. rewrite finite_B in *. apply not_tolerated_real; assumption.
Qed.
(** and what differs from everything in reach by more than rounding (relative 2^-51, at least 2^-500) is reported *)
Theorem C45_differing_reported f valid test i :
  valid_binary 53 1024 (f_threshold f) = true -> finite_sf (f_threshold f) = true -> doubles valid -> doubles test ->
  comparable valid test -> 0 <= f_radius f -> f_ignore_boundary f = false ->
  (Rabs (rv (f_threshold f)) <= bpow radix2 511)%R -> in_image valid i -> finite_sf (ipix valid i) = true ->
  (forall j, in_image test j -> near (f_radius f) i j -> finite_sf (ipix test j) = true /\
     (bpow radix2 (-500) <= Rabs (rv (ipix valid i) - rv (ipix test j)))%R /\
     (Rabs (rv (f_threshold f)) * (1 + bpow radix2 (-51)) < Rabs (rv (ipix valid i) - rv (ipix test j)))%R) ->
  reported f valid test i.
Proof.
  intros Vt Ft Dv Dt (C1 & C2 & C3) Hr Hg Bt Hi Fv H. split; [exact Hi|]. split; [|congruence].
  assert (It : in_image test i) by (unfold in_image in *; rewrite C1, C2; exact Hi).
  destruct (valid_B 53 1024 _ Vt) as [t Et], (valid_B 53 1024 _ (Dv i Hi)) as [x Ex].
  assert (K : forall j, in_image test j -> near (f_radius f) i j -> above (f_threshold f) (difference (ipix valid i) (ipix test j))).
  { intros j Hj Hn. destruct (H j Hj Hn) as (Fj & A & B). destruct (valid_B 53 1024 _ (Dt j Hj)) as [y Ey].
    rewrite <- Et, <- Ex, <- Ey in *. rewrite !rv_B in *. rewrite finite_B in *. apply above_margin; assumption. }
  split; [apply K; [exact It|apply near_refl, Hr]|]. intros j Hj Hn T. specialize (K j Hj Hn). unfold above, tolerated in *.
  rewrite (ltb_not_leb _ _ K) in T. discriminate.
Qed.
(** a NaN in either pixel is never reported; nor is a tiny difference, whose square vanishes *)
Theorem C45_every_difference_reported_refuted :
  (forall f valid test i, ipix valid i = S754_nan \/ ipix test i = S754_nan -> ~ reported f valid test i) /\
  exists valid test, comparable valid test /\ doubles valid /\ doubles test /\ in_image valid [0] /\
    rv (ipix valid [0]) <> rv (ipix test [0]) /\ ~ reported (Filter 0 (S754_zero false) false) valid test [0].
Proof.
  split.
  - intros f valid test i H (_ & (A & _) & _). unfold above in A. apply ltb_nan in A. destruct A as [_ A].
    assert (E : difference (ipix valid i) (ipix test i) = S754_nan) by (destruct H as [-> | ->]; [reflexivity|destruct (ipix valid i); reflexivity]).
    rewrite E in A. discriminate.
  - exists (Image [0] [1] (fun _ => S754_finite false 4503599627370496 (-652))), (Image [0] [1] (fun _ => S754_zero false)).
    split; [repeat split|]. split; [intros j _; reflexivity|]. split; [intros j _; reflexivity|]. split; [|split].
    + apply in_region_cons. split; [lia|apply in_region_nil].
    + unfold rv. cbn [ipix SF2R]. unfold F2R. cbn [Fnum Fexp cond_Zopp].
      assert (G : (0 < IZR 4503599627370496 * bpow radix2 (-652))%R) by (apply Rmult_lt_0_compat; [apply IZR_lt; lia|apply bpow_gt_0]). lra.
    + intros (_ & (A & _) & _). vm_compute in A. discriminate.
Qed.
Print Assumptions C45_count. Print Assumptions C45_output. Print Assumptions C45_integers.
Print Assumptions C45_reported_differs. Print Assumptions C45_differing_reported. Print Assumptions C45_every_difference_reported_refuted.

(** a 3x2 image with one bad pixel, radius 1 *)
Definition ex_valid : image := Image [0; 0] [3; 2] (fun i => of_int64 (match i with x :: y :: _ => 10 * x + y | _ => 0 end)).
Definition ex_test : image := Image [0; 0] [3; 2] (fun i => of_int64 (match i with [2; 1] => 77 | x :: y :: _ => 10 * x + y | _ => 0 end)).
Definition ex_filter : filter := Filter 1 (of_int64 0) false.
Example C45_ex_hyps : comparable ex_valid ex_test /\ well_split ex_filter ex_valid ex_test (one_thread ex_filter ex_valid) /\
  filter_run ex_filter ex_valid ex_test (one_thread ex_filter ex_valid) (concat (programs ex_filter ex_valid ex_test (one_thread ex_filter ex_valid)))
    (sequential_run ex_filter ex_valid ex_test (one_thread ex_filter ex_valid)).
Proof. split; [repeat split|]. split; [apply one_thread_split; [repeat split|cbn; lia]|apply sequential_is_run]. Qed.
Example C45_ex : NumberOfPixelsWithDifferences (sequential_run ex_filter ex_valid ex_test (one_thread ex_filter ex_valid)) = 1 /\
  out_image (sequential_run ex_filter ex_valid ex_test (one_thread ex_filter ex_valid)) [2; 1] = Some (of_int64 1).
Proof. split; vm_compute; reflexivity. Qed.

(** ** C46 *)
Lemma same_result f valid test threads threads' schedule schedule' res res' :
  well_split f valid test threads -> well_split f valid test threads' ->
  filter_run f valid test threads schedule res -> filter_run f valid test threads' schedule' res' ->
  NumberOfPixelsWithDifferences res = NumberOfPixelsWithDifferences res' /\ forall i, out_image res i = out_image res' i.
Proof.
  intros W W' R R'.
  destruct (run_result f valid test threads W schedule res R) as (A & B & _), (run_result f valid test threads' W' schedule' res' R') as (A' & B' & _).
  assert (S : forall i, In i (pixels valid) -> skipped f threads i = skipped f threads' i).
  { intros i Hi. destruct (job_of f valid test threads W i Hi) as (j & Hj & <-). destruct (job_of f valid test threads' W' (jindex j) Hi) as (k & Hk & E).
    rewrite <- (skipped_job f valid test threads W j Hj), <- E, <- (skipped_job f valid test threads' W' k Hk).
    pose proof (job_skip f valid test threads W j Hj) as P. pose proof (job_skip f valid test threads' W' k Hk) as Q. rewrite E in Q.
    destruct (jskip j), (jskip k); try reflexivity; [symmetry; apply Q, P; reflexivity|apply P, Q; reflexivity]. }
  split.
  - rewrite B, B'. f_equal. apply Nat.le_antisymm; apply NoDup_incl_length; try (eapply reported_NoDup; eassumption); intros x; unfold reported_list; rewrite !in_map_iff; intros (j & <- & Hj); apply filter_In in Hj; destruct Hj as [Hj C].
    + assert (P : In (jindex j) (pixels valid)) by (apply (alljobs_pixel f valid test threads W), in_map, Hj).
      destruct (job_of f valid test threads' W' (jindex j) P) as (k & Hk & E). exists k. split; [exact E|]. apply filter_In. split; [exact Hk|].
      rewrite (skipped_job f valid test threads' W' k Hk), E, <- S by exact P. rewrite (skipped_job f valid test threads W j Hj) in C. exact C.
    + assert (P : In (jindex j) (pixels valid)) by (apply (alljobs_pixel f valid test threads' W'), in_map, Hj).
      destruct (job_of f valid test threads W (jindex j) P) as (k & Hk & E). exists k. split; [exact E|]. apply filter_In. split; [exact Hk|].
      rewrite (skipped_job f valid test threads W k Hk), E, S by exact P. rewrite (skipped_job f valid test threads' W' j Hj) in C. exact C.
  - intros i. rewrite A, A'.
    assert (X : forall th, well_split f valid test th -> existsb (eqi i) (map jindex (alljobs f th)) = existsb (eqi i) (pixels valid)).
    { intros th Wt. destruct (existsb (eqi i) (pixels valid)) eqn:E.
      - apply existsb_exists in E. destruct E as (y & Hy & Ey). apply existsb_exists. exists y. split; [apply (alljobs_pixel f valid test th Wt), Hy|exact Ey].
      - destruct (existsb (eqi i) (map jindex (alljobs f th))) eqn:G; [|reflexivity]. rewrite <- E. symmetry. apply existsb_exists in G. destruct G as (y & Hy & Ey).
        apply existsb_exists. exists y. split; [apply (alljobs_pixel f valid test th Wt), Hy|exact Ey]. }
    rewrite (X threads W), (X threads' W'). destruct (existsb (eqi i) (pixels valid)) eqn:E; [|reflexivity].
    apply existsb_exists in E. destruct E as (y & Hy & Ey). apply eqi_true in Ey. subst y. rewrite (S i Hy). reflexivity.
Qed.
(** neither the split nor the schedule matters for the count and the output image *)
Theorem C46_split_and_schedule f valid test threads threads' schedule schedule' res res' :
  well_split f valid test threads -> well_split f valid test threads' ->
  filter_run f valid test threads schedule res -> filter_run f valid test threads' schedule' res' ->
  NumberOfPixelsWithDifferences res = NumberOfPixelsWithDifferences res' /\ forall i, out_image res i = out_image res' i.
Proof. exact (same_result f valid test threads threads' schedule schedule' res res'). Qed.
(** for a given split, the schedule does not matter for the magnitudes either *)
Theorem C46_schedule f valid test threads schedule schedule' res res' :
  well_split f valid test threads -> filter_run f valid test threads schedule res -> filter_run f valid test threads schedule' res' ->
  TotalMagnitude res = TotalMagnitude res' /\ MeanMagnitude res = MeanMagnitude res'.
Proof.
  intros W R R'. destruct (run_result f valid test threads W schedule res R) as (_ & _ & A & B), (run_result f valid test threads W schedule' res' R') as (_ & _ & A' & B').
  assert (E : TotalMagnitude res = TotalMagnitude res') by (rewrite A, A'; reflexivity). split; [exact E|]. rewrite B, B', E. reflexivity.
Qed.
(** but the split does *)
Definition mag_valid : image := Image [0] [3] (fun i => match i with [0] => of_int64 1 | _ => S754_finite false 4503599627370496 (-105) end).
Definition mag_test : image := Image [0] [3] (fun _ => S754_zero false).
Definition mag_filter : filter := Filter 0 (S754_zero false) false.
Lemma near0 i j : near 0 i j -> j = i.
Proof.
  revert j. induction i as [|x i IH]; intros [|y j] H; try (destruct H; discriminate); [reflexivity|].
  apply near_cons in H. destruct H as [A B]. f_equal; [lia|exact (IH j B)].
Qed.
Lemma radius0 im i : in_image im i -> ~ at_boundary im 0 i.
Proof. intros Hi (j & E & Hn & H). apply H. rewrite (near0 i j Hn). exact Hi. Qed.
Theorem C46_magnitude_depends_on_split_refuted :
  exists f valid test threads threads' schedule schedule' res res',
    comparable valid test /\ well_split f valid test threads /\ well_split f valid test threads' /\
    filter_run f valid test threads schedule res /\ filter_run f valid test threads' schedule' res' /\
    TotalMagnitude res <> TotalMagnitude res'.
Proof.
  exists mag_filter, mag_valid, mag_test, [[(false, [[0]; [1]; [2]])]], [[(false, [[0]])]; [(false, [[1]; [2]])]].
  do 2 eexists. exists (sequential_run mag_filter mag_valid mag_test [[(false, [[0]; [1]; [2]])]]), (sequential_run mag_filter mag_valid mag_test [[(false, [[0]])]; [(false, [[1]; [2]])]]).
  assert (B : forall i, In i (pixels mag_test) -> ~ at_boundary mag_test 0 i) by (intros i Hi; apply radius0, in_box; [reflexivity|exact Hi]).
  split; [repeat split|]. split; [|split; [|split; [|split]]].
  - split; [apply Permutation_refl|]. intros faces fc i [<-|[]] [<-|[]] Hi. cbn [fst snd f_radius mag_filter] in *. split; [discriminate|]. intros X. destruct (B i Hi X).
  - split; [apply Permutation_refl|]. intros faces fc i Hf Hfc Hi. assert (F : fst fc = false) by (destruct Hf as [<-|[<-|[]]]; destruct Hfc as [<-|[]]; reflexivity).
    rewrite F. split; [discriminate|]. intros X. destruct (B i); [|exact X].
    destruct Hf as [<-|[<-|[]]]; destruct Hfc as [<-|[]]; cbn in Hi; vm_compute; tauto.
  - apply sequential_is_run.
  - apply sequential_is_run.
  - vm_compute. discriminate.
Qed.
Print Assumptions C46_split_and_schedule. Print Assumptions C46_schedule. Print Assumptions C46_magnitude_depends_on_split_refuted.
(** a schedule that is not sequential: two threads with one counted pixel each, alternating *)
Example C46_ex : exists schedule res, filter_run mag_filter mag_valid mag_test [[(false, [[0]])]; [(false, [[1]; [2]])]] schedule res /\
  schedule <> concat (programs mag_filter mag_valid mag_test [[(false, [[0]])]; [(false, [[1]; [2]])]]) /\ NumberOfPixelsWithDifferences res = 3.
Proof.
  pose (p := programs mag_filter mag_valid mag_test [[(false, [[0]])]; [(false, [[1]; [2]])]]).
  pose (a := nth 0 p []). pose (b := nth 1 p []).
  exists (firstn 2 b ++ a ++ skipn 2 b). eexists. split; [split; [|reflexivity]|split].
  - change (interleaving [a; b] (firstn 2 b ++ a ++ skipn 2 b)). vm_compute.
    refine (il_step [_] _ _ [] _ _). refine (il_step [_] _ _ [] _ _). cbn [app].
    do 5 refine (il_step [] _ _ _ _ _). cbn [app]. do 8 refine (il_step [_] _ _ [] _ _). apply il_done. repeat constructor.
  - vm_compute. discriminate.
  - vm_compute. reflexivity.
Qed.

(** ** C47 *)
Theorem C47_threshold diff t1 t2 r ig valid test : runs_filter diff -> comparable valid test -> 0 <= r ->
  valid_binary 53 1024 t1 = true -> valid_binary 53 1024 t2 = true -> SFleb (SFabs t1) (SFabs t2) = true ->
  diff (Filter r t2 ig) valid test <= diff (Filter r t1 ig) valid test.
Proof.
  intros H Hc Hr V1 V2 L. eapply how_many_mono; [|apply (runs_count diff (Filter r t2 ig)); assumption|apply (runs_count diff (Filter r t1 ig)); assumption].
  intros i (A & B & C). split; [exact A|]. split; [|exact C]. cbn [f_threshold f_radius] in *. eapply differs_mono; eassumption.
Qed.
Theorem C47_radius diff t r1 r2 ig valid test : runs_filter diff -> comparable valid test -> 0 <= r1 <= r2 ->
  diff (Filter r2 t ig) valid test <= diff (Filter r1 t ig) valid test.
Proof.
  intros H Hc Hr. eapply how_many_mono; [|apply (runs_count diff (Filter r2 t ig)); auto; cbn; lia|apply (runs_count diff (Filter r1 t ig)); auto; cbn; lia].
  intros i (A & B & C). cbn [f_threshold f_radius f_ignore_boundary] in *. split; [exact A|]. split; [cbn [f_threshold f_radius]; apply (differs_radius _ _ r2); [lia|exact B]|].
  cbn. intros Hg (j & E & Hn & Hj). apply (C Hg). exists j. split; [exact E|]. split; [apply (near_mono r1); [lia|exact Hn]|exact Hj].
Qed.
(** no pixel of identical images is counted, whatever the tolerances and even with infinities and NaNs *)
Theorem C47_identical diff f valid test : runs_filter diff -> comparable valid test -> 0 <= f_radius f -> doubles valid ->
  valid_binary 53 1024 (f_threshold f) = true -> (forall i, in_image valid i -> ipix test i = ipix valid i) -> diff f valid test = 0.
Proof.
  intros H Hc Hr Dv Vt E. eapply how_many_none; [|apply runs_count; eassumption]. intros i (Hi & (A & _) & _). rewrite (E i Hi) in A.
  exact (not_above_self _ _ Vt (Dv i Hi) A).
Qed.
(** between none and all pixels *)
Theorem C47_bounds diff f valid test n : runs_filter diff -> comparable valid test -> 0 <= f_radius f -> how_many (in_image valid) n ->
  0 <= diff f valid test <= n.
Proof.
  intros H Hc Hr Hn. pose proof (runs_count diff f valid test H Hc Hr) as C. split; [exact (how_many_nonneg _ _ C)|].
  eapply how_many_mono; [|exact C|exact Hn]. intros i R. apply R.
Qed.
(** exchanging the images changes nothing at radius 0 ... *)
Lemma square_sym (x y : spec_float) : valid_binary 53 1024 x = true -> valid_binary 53 1024 y = true -> square (difference x y) = square (difference y x).
Proof.
  intros Vx Vy. destruct (valid_B 53 1024 x Vx) as [a <-], (valid_B 53 1024 y Vy) as [b <-].
  pose proof (sub_abs_sym 53 1024 p53 p53max a b) as H. unfold difference.
  assert (G : forall u v, SFabs u = SFabs v -> square u = square v).
  { intros u v. destruct u as [[]|[]| |[] m e], v as [[]|[]| |[] n g]; cbn [SFabs]; intros E; try discriminate; try reflexivity; injection E as -> ->; reflexivity. }
  apply G, H.
Qed.
Theorem C47_symmetric diff t ig valid test : runs_filter diff -> comparable valid test -> doubles valid -> doubles test ->
  diff (Filter 0 t ig) valid test = diff (Filter 0 t ig) test valid.
Proof.
  intros H Hc Dv Dt. pose proof Hc as (C1 & C2 & C3).
  assert (Hc' : comparable test valid) by (repeat split; congruence).
  assert (Q : forall i, in_image test i <-> in_image valid i) by (intros; unfold in_image; rewrite C1, C2; tauto).
  assert (N : forall i j, near 0 i j -> j = i) by exact near0.
  eapply how_many_unique; [apply (runs_count diff (Filter 0 t ig) valid test); auto; cbn; lia|].
  destruct (runs_count diff (Filter 0 t ig) test valid H Hc') as (l & L1 & L2 & L3); [cbn; lia|]. exists l. split; [exact L1|]. split; [|exact L3].
  intros i. rewrite L2. clear L1 L2 L3 l. unfold reported, differs. cbn [f_threshold f_radius f_ignore_boundary].
  assert (P : forall a b, doubles a -> doubles b -> (forall i, in_image a i <-> in_image b i) ->
    in_image b i /\ (above t (difference (ipix b i) (ipix a i)) /\ (forall j, in_image a j -> near 0 i j -> ~ tolerated t (difference (ipix b i) (ipix a j)))) /\ (ig = true -> ~ at_boundary a 0 i) ->
    in_image a i /\ (above t (difference (ipix a i) (ipix b i)) /\ (forall j, in_image b j -> near 0 i j -> ~ tolerated t (difference (ipix a i) (ipix b j)))) /\ (ig = true -> ~ at_boundary b 0 i)).
  { intros a b Da Db Hab (I & (A & B) & C). pose proof (proj2 (Hab i) I) as Ia. split; [exact Ia|].
    assert (S : square (difference (ipix a i) (ipix b i)) = square (difference (ipix b i) (ipix a i))) by (apply square_sym; auto).
    split; [split|].
    - unfold above in *. rewrite S. exact A.
    - intros j Hj Hn. rewrite (N i j Hn). unfold tolerated in *. rewrite S. apply (B i Ia). apply near_refl. lia.
    - intros _. apply radius0, I. }
  split; apply P; auto. intros; symmetry; apply Q.
Qed.
(** ... but not at a larger radius: a spot is found in one direction only *)
Definition spot (x : Z) : image := Image [0] [3] (fun i => of_int64 (match i with [2] => x | _ => 0 end)).
Theorem C47_symmetric_refuted : exists valid test, comparable valid test /\ doubles valid /\ doubles test /\
  forall diff, runs_filter diff -> diff (Filter 1 (of_int64 0) false) valid test = 0 /\ diff (Filter 1 (of_int64 0) false) test valid = 1.
Proof.
  exists (spot 0), (spot 5). split; [repeat split|].
  assert (D : forall x, valid_binary 53 1024 (of_int64 x) = true -> doubles (spot x)).
  { intros x Hx j _. unfold spot. cbn [ipix]. destruct j as [|[|[?|[?|?|]|]|?] [|? ?]]; first [reflexivity|exact Hx]. }
  split; [apply D; reflexivity|]. split; [apply D; reflexivity|]. intros diff H.
  assert (U : forall v t, comparable v t -> diff (Filter 1 (of_int64 0) false) v t = some_diff (Filter 1 (of_int64 0) false) v t).
  { intros v t Hc. eapply how_many_unique; apply runs_count; auto; try apply some_diff_runs; cbn; lia. }
  rewrite !U by repeat split. split; vm_compute; reflexivity.
Qed.
Print Assumptions C47_threshold. Print Assumptions C47_radius. Print Assumptions C47_identical. Print Assumptions C47_bounds.
Print Assumptions C47_symmetric. Print Assumptions C47_symmetric_refuted.
Example C47_ex : runs_filter some_diff /\ some_diff (Filter 0 (of_int64 0) false) ex_valid ex_test = 1 /\ some_diff (Filter 0 (of_int64 60) false) ex_valid ex_test = 0.
Proof. split; [exact some_diff_runs|]. split; vm_compute; reflexivity. Qed.
Example C47_ex_radius : some_diff (Filter 0 (of_int64 0) false) (spot 0) (spot 5) = 1 /\ some_diff (Filter 1 (of_int64 0) false) (spot 0) (spot 5) = 0.
Proof. split; vm_compute; reflexivity. Qed.

(** ** C48 *)
(** no region: the whole images *)
Theorem C48_size diff test baseline t np r : isize baseline <> isize test ->
  CompareImage diff test baseline t np r ([], []) = Ok ULONG_MAX.
Proof.
  intros H. unfold CompareImage. cbn. unfold eqzs. destruct (list_eq_dec Z.eq_dec (isize baseline) (isize test)); [contradiction|]. reflexivity.
Qed.
Definition saturated (n tolerance : Z) : Z := Z.max 0 (n - tolerance).
Theorem C48_count diff test baseline t np r region : runs_filter diff -> 0 <= r -> comparable baseline test ->
  Forall (fun x => x = 0) (fst region ++ snd region) ->
  exists n, how_many (reported (Filter r t false) baseline test) n /\ CompareImage diff test baseline t np r region = Ok (saturated n np).
Proof.
  intros H Hr Hc Hz. exists (diff (Filter r t false) baseline test). split; [apply runs_count; assumption|].
  destruct Hc as (C1 & C2 & C3). unfold CompareImage.
  assert (E : default_region region = true).
  { unfold default_region. apply andb_true_iff. rewrite Forall_app in Hz. destruct Hz as [Z1 Z2]. rewrite Forall_forall in Z1, Z2.
    split; apply forallb_forall; intros x Hx; [rewrite (Z1 x Hx)|rewrite (Z2 x Hx)]; reflexivity. }
  rewrite E. unfold eqzs. rewrite C1, C2. do 2 (destruct (list_eq_dec Z.eq_dec _ _); [|contradiction]). cbn [negb].
  unfold saturated. cbn. destruct (Z.ltb_spec (diff (Filter r t false) baseline test) np); f_equal; lia.
Qed.
(** equal sizes at different start indices: the filter throws *)
Theorem C48_start diff test baseline t np r : isize baseline = isize test -> istart baseline <> istart test ->
  CompareImage diff test baseline t np r ([], []) = Throw ExnRuntime.
Proof.
  intros E H. unfold CompareImage. cbn. unfold eqzs. destruct (list_eq_dec Z.eq_dec (isize baseline) (isize test)); [|contradiction].
  destruct (list_eq_dec Z.eq_dec (istart baseline) (istart test)); [contradiction|]. reflexivity.
Qed.
(** a region: the baseline is cut to the test image; which region it is does not matter *)
Definition non_default (region : list Z * list Z) : Prop := exists x, In x (fst region ++ snd region) /\ x <> 0.
Lemma non_default_false region : non_default region -> default_region region = false.
Proof.
  intros (x & Hx & H). destruct (default_region region) eqn:E; [|reflexivity]. unfold default_region in E. apply andb_true_iff in E. destruct E as [A B].
  rewrite forallb_forall in A, B. apply in_app_iff in Hx. destruct Hx as [Hx|Hx]; [apply A in Hx|apply B in Hx]; apply Z.eqb_eq in Hx; congruence.
Qed.
Lemma inside_region st sz st' sz' : length st = length sz -> length st' = length sz' -> length st = length st' -> Forall (fun n => 0 < n) sz ->
  (inside st sz st' sz' = true <-> forall j, in_region st sz j -> in_region st' sz' j).
Proof.
  revert sz st' sz'. induction st as [|a st IH]; intros [|n sz] [|a' st'] [|n' sz'] E1 E2 E3 P; try discriminate.
  - split; [intros _ j Hj; exact Hj|reflexivity].
  - cbn [inside]. rewrite !andb_true_iff, !Z.leb_le. inversion P as [|? ? P1 P2]. subst.
    assert (W : exists j, in_region st sz j).
    { clear - E1 P2. injection E1 as E1. revert sz E1 P2. induction st as [|b st IH]; intros [|n' sz] E P; try discriminate; [exists []; apply in_region_nil|].
      injection E as E. inversion P as [|? ? P1 P3]. subst. destruct (IH sz E P3) as [j Hj]. exists (b :: j). apply in_region_cons. split; [lia|exact Hj]. }
    rewrite (IH sz st' sz') by (try exact P2; cbn in *; lia). split.
    + intros [[A B] C] [|x j] Hj; [destruct Hj as (_ & Hj & _); discriminate|]. apply in_region_cons in Hj. apply in_region_cons. split; [lia|apply C, Hj].
    + intros H. destruct W as [w Hw]. split.
      * assert (H1 := H (a :: w)). assert (H2 := H (a + n - 1 :: w)). rewrite !in_region_cons in H1, H2. split.
        -- destruct H1 as [H1 _]; [split; [lia|exact Hw]|]. lia.
        -- destruct H2 as [H2 _]; [split; [lia|exact Hw]|]. lia.
      * intros j Hj. assert (H1 := H (a :: j)). rewrite !in_region_cons in H1. apply H1. split; [lia|exact Hj].
Qed.
Definition cropped (baseline test : image) : image := Image (istart test) (isize test) (ipix baseline).
Theorem C48_region diff test baseline t np r region : runs_filter diff -> 0 <= r -> non_default region ->
  length (istart test) = length (isize test) -> length (istart baseline) = length (isize baseline) -> length (istart test) = length (istart baseline) ->
  Forall (fun n => 0 < n) (isize test) ->
  ((forall j, in_image test j -> in_image baseline j) ->
     exists n, how_many (reported (Filter r t false) (cropped baseline test) test) n /\ CompareImage diff test baseline t np r region = Ok (saturated n np)) /\
  (~ (forall j, in_image test j -> in_image baseline j) -> CompareImage diff test baseline t np r region = Throw ExnRuntime).
Proof.
  intros H Hr Hd E1 E2 E3 P. pose proof (inside_region (istart test) (isize test) (istart baseline) (isize baseline) E1 E2 E3 P) as I.
  unfold CompareImage. rewrite (non_default_false region Hd). cbn [negb]. split.
  - intros Hin. rewrite (proj2 I Hin). exists (diff (Filter r t false) (cropped baseline test) test). split; [apply runs_count; auto; repeat split; exact E1|].
    fold (cropped baseline test). unfold saturated. cbn. destruct (Z.ltb_spec (diff (Filter r t false) (cropped baseline test) test) np); f_equal; lia.
  - intros Hin. destruct (inside _ _ _ _); [destruct Hin; apply I; reflexivity|]. reflexivity.
Qed.
Theorem C48_region_irrelevant diff test baseline t np r region region' : non_default region -> non_default region' ->
  CompareImage diff test baseline t np r region = CompareImage diff test baseline t np r region'.
Proof. intros A B. unfold CompareImage. rewrite (non_default_false _ A), (non_default_false _ B). reflexivity. Qed.
(** so asking for the comparison of one good pixel can report differences elsewhere *)
Theorem C48_only_region_compared_refuted : exists test baseline region, comparable baseline test /\ non_default region /\
  (forall j, in_region (fst region) (snd region) j -> in_image test j /\ ipix test j = ipix baseline j) /\
  forall diff, runs_filter diff -> CompareImage diff test baseline (of_int64 0) 0 0 region = Ok 1.
Proof.
  exists (spot 5), (spot 0), ([0], [1]). split; [repeat split|]. split; [exists 1; split; [right; left; reflexivity|lia]|]. split.
  - intros [|x [|y j]] Hj; cbn [fst snd] in Hj; try (destruct Hj as (_ & Hj & _); discriminate). apply in_region_cons in Hj. destruct Hj as [Hj _]. assert (x = 0) by lia. subst.
    split; [apply in_region_cons; split; [lia|apply in_region_nil]|reflexivity].
  - intros diff H.
    destruct (C48_region diff (spot 5) (spot 0) (of_int64 0) 0 0 ([0], [1]) H (Z.le_refl 0)) as [G _]; try reflexivity.
    + exists 1. split; [right; left; reflexivity|lia].
    + repeat constructor.
    + destruct (G (fun j Hj => Hj)) as (n & Hn & ->).
      assert (E : n = some_diff (Filter 0 (of_int64 0) false) (cropped (spot 0) (spot 5)) (spot 5)).
      { eapply how_many_unique; [exact Hn|]. apply runs_count; [apply some_diff_runs|repeat split|cbn; lia]. }
      rewrite E. vm_compute. reflexivity.
Qed.
Print Assumptions C48_size. Print Assumptions C48_count. Print Assumptions C48_start. Print Assumptions C48_region.
Print Assumptions C48_region_irrelevant. Print Assumptions C48_only_region_compared_refuted.
Example C48_ex : CompareImage some_diff ex_test ex_valid (of_int64 0) 0 0 ([], []) = Ok 1 /\ CompareImage some_diff ex_test ex_valid (of_int64 0) 3 0 ([], []) = Ok 0 /\
  CompareImage some_diff ex_test (spot 0) (of_int64 0) 3 0 ([], []) = Ok ULONG_MAX.
Proof. split; [|split]; vm_compute; reflexivity. Qed.

(** ** C49 *)
(** files are read into images whose indices start at 0, with one size, spacing and origin per dimension *)
Definition file_image (g : imagefile) : Prop :=
  istart (g_image g) = map (fun _ => 0) (isize (g_image g)) /\ length (g_spacing g) = length (isize (g_image g)) /\ length (g_origin g) = length (isize (g_image g)).
Definition equal_values (a b : list spec_float) : Prop := length a = length b /\ forall k x y, nth_error a k = Some x -> nth_error b k = Some y -> SFeqb x y = true.
Lemma eqfs_spec a b : eqfs a b = true <-> equal_values a b.
Proof.
  revert b. induction a as [|x a IH]; intros [|y b]; cbn [eqfs]; unfold equal_values; cbn [length].
  - split; [intros _; split; [reflexivity|intros [|k]; discriminate]|reflexivity].
  - split; [discriminate|intros [E _]; discriminate].
  - split; [discriminate|intros [E _]; discriminate].
  - rewrite andb_true_iff, IH. unfold equal_values. split.
    + intros (A & B & C). split; [lia|]. intros [|k] u v; cbn [nth_error]; [congruence|apply C].
    + intros (A & B). split; [exact (B 0%nat x y eq_refl eq_refl)|]. split; [lia|]. intros k. exact (B (S k)).
Qed.
Lemma eqfs_self a : eqfs a a = true <-> ~ In S754_nan a.
Proof.
  induction a as [|x a IH]; cbn [eqfs In]; [split; [intros _ []|reflexivity]|]. rewrite andb_true_iff, IH.
  assert (S : SFeqb x x = true <-> S754_nan <> x).
  { destruct x as [[]|[]| |s m e]; try (split; [discriminate|reflexivity]); try (split; [discriminate|congruence]).
    unfold SFeqb. rewrite fin_cmp. cbv zeta. rewrite Z.compare_refl, Pos.compare_refl. destruct s; split; try discriminate; reflexivity. }
  rewrite S. split; [intros [A B] [G|G]; [congruence|contradiction]|intros G; split; [intros E; apply G; left; congruence|intros E; apply G; right; exact E]].
Qed.
(** the verdict: both files readable, equal size and spacing, no NaN in the baseline's origin, and at most twice the tolerated number of pixels *)
Theorem C49_accepted diff read tol (baseline m : mf) : runs_filter diff -> 0 <= t_radius tol -> 0 <= t_pixels tol ->
  (forall name g, read name = Some g -> file_image g) ->
  exists v, image_verdict diff read tol baseline m = Ok v /\
  (v = true <-> exists b t, read (ffile baseline) = Some b /\ read (ffile m) = Some t /\
     isize (g_image b) = isize (g_image t) /\ equal_values (g_spacing b) (g_spacing t) /\ ~ In S754_nan (g_origin b) /\
     exists n, how_many (reported (Filter (t_radius tol) (t_intensity tol) false) (g_image b) (g_image t)) n /\ n <= 2 * t_pixels tol).
Proof.
  intros H Hr Hp Hf. unfold image_verdict, RegressionTestImage.
  assert (No : forall (v : bool) P, v = false -> ~ P -> (v = true <-> P)) by (intros; subst; split; [discriminate|contradiction]).
  destruct (read (ffile baseline)) as [b|] eqn:Eb.
  2: { exists false. split; [reflexivity|]. apply No; [reflexivity|]. intros (? & ? & ? & _). discriminate. }
  destruct (read (ffile m)) as [t|] eqn:Et.
  2: { exists false. split; [reflexivity|]. apply No; [reflexivity|]. intros (? & ? & _ & ? & _). discriminate. }
  unfold eqzs. destruct (list_eq_dec Z.eq_dec (isize (g_image b)) (isize (g_image t))) as [Es|Es]; cbn [negb].
  2: { exists false. split; [reflexivity|]. apply No; [reflexivity|]. intros (? & ? & A & B & C & _). congruence. }
  destruct (eqfs (g_spacing b) (g_spacing t)) eqn:Esp; cbn [negb].
  2: { exists false. split; [reflexivity|]. apply No; [reflexivity|]. intros (? & ? & A & B & _ & C & _). injection A as <-. injection B as <-. apply eqfs_spec in C. congruence. }
  destruct (eqfs (g_origin b) (g_origin b)) eqn:Eo; cbn [negb].
  2: { exists false. split; [reflexivity|]. apply No; [reflexivity|]. intros (? & ? & A & B & _ & _ & C & _). injection A as <-. apply eqfs_self in C. congruence. }
  destruct (Hf _ _ Eb) as [Ib _], (Hf _ _ Et) as [It _].
  assert (Hc : comparable (g_image b) (g_image t)) by (repeat split; [rewrite Ib, It, Es; reflexivity|congruence|rewrite Ib, map_length; reflexivity]).
  destruct (C48_count diff (g_image t) (g_image b) (t_intensity tol) (t_pixels tol) (t_radius tol) ([], []) H Hr Hc (Forall_nil _)) as (n & Hn & ->).
  cbn. eexists. split; [reflexivity|]. apply eqfs_spec in Esp. apply eqfs_self in Eo. unfold saturated. split.
  - intros V. exists b, t. do 5 (split; [assumption || reflexivity|]). exists n. split; [exact Hn|].
    change (n <= 2 * t_pixels tol). revert V. destruct (Z.ltb_spec (t_pixels tol) (Z.max 0 (n - t_pixels tol))); [discriminate|intros _; lia].
  - intros (b' & t' & A & B & _ & _ & _ & n' & Hn' & L). injection A as <-. injection B as <-. pose proof (how_many_unique _ _ _ Hn Hn') as <-.
    change (n <= 2 * t_pixels tol) in L. destruct (Z.ltb_spec (t_pixels tol) (Z.max 0 (n - t_pixels tol))); [lia|reflexivity].
Qed.
(** the origin of the test image is never looked at *)
Theorem C49_origin_ignored diff read read' tol baseline m t o :
  read (ffile m) = Some t -> ffile m <> ffile baseline ->
  (forall name, read' name = if eqs name (ffile m) then Some (ImageFile (g_image t) (g_spacing t) o) else read name) ->
  image_verdict diff read' tol baseline m = image_verdict diff read tol baseline m.
Proof.
  intros Ht Hn Hr. unfold image_verdict, RegressionTestImage. rewrite !Hr, Ht.
  destruct (eqs_spec (ffile baseline) (ffile m)) as [E|_]; [congruence|]. rewrite eqs_refl. cbn [g_image g_spacing g_origin]. reflexivity.
Qed.
(** two images with different origins are accepted as equal; so is an image with more differing pixels than tolerated *)
Definition file_of (im : image) (origin : list spec_float) : imagefile := ImageFile im (map (fun _ => of_int64 1) (isize im)) origin.
Theorem C49_documented_checks_refuted : exists diff (b t : imagefile) read tol (baseline m : mf),
  runs_filter diff /\ read (ffile baseline) = Some b /\ read (ffile m) = Some t /\ file_image b /\ file_image t /\
  ~ equal_values (g_origin b) (g_origin t) /\ how_many (reported (Filter (t_radius tol) (t_intensity tol) false) (g_image b) (g_image t)) (2 * t_pixels tol) /\
  0 < t_pixels tol /\ image_verdict diff read tol baseline m = Ok true.
Proof.
  pose (two := Image [0] [3] (fun i => of_int64 (match i with [2] => 5 | [1] => 7 | _ => 0 end))).
  exists some_diff, (file_of (spot 0) [of_int64 0]), (file_of two [of_int64 1]),
    (fun name => if eqs name ($"a") then Some (file_of (spot 0) [of_int64 0]) else Some (file_of two [of_int64 1])), (Tolerances (of_int64 0) 1 0).
  exists (Mf [] false [] ($"a")), (Mf [] false [] ($"b")).
  split; [exact some_diff_runs|]. split; [reflexivity|]. split; [reflexivity|]. split; [repeat split|]. split; [repeat split|]. split; [|split; [|split]].
  - intros [_ G]. specialize (G 0%nat _ _ eq_refl eq_refl). vm_compute in G. discriminate.
  - pose proof (runs_count some_diff (Filter 0 (of_int64 0) false) (spot 0) two some_diff_runs) as G. apply G; [repeat split|cbn; lia].
  - cbn. lia.
  - vm_compute. reflexivity.
Qed.
Print Assumptions C49_accepted. Print Assumptions C49_origin_ignored. Print Assumptions C49_documented_checks_refuted.
Example C49_ex : let read := fun name => if eqs name ($"a") then Some (file_of ex_valid [of_int64 0; of_int64 0]) else Some (file_of ex_test [of_int64 0; of_int64 0]) in
  (forall name g, read name = Some g -> file_image g) /\
  image_verdict some_diff read (Tolerances (of_int64 0) 0 0) (Mf [] false [] ($"a")) (Mf [] false [] ($"b")) = Ok false.
Proof. split; [|vm_compute; reflexivity]. intros name g. destruct (eqs name ($"a")); intros E; injection E as <-; repeat split. Qed.

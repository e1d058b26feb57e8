(** Concrete cases for the theorems of ImgProps that have hypotheses: each theorem is applied to a case that meets them. *)
From Coq Require Import Reals Lra Psatz Floats.SpecFloat Permutation.
From Verif Require Import Base Str MeasModel FloatFacts TolFacts ImgModel ImgFacts ImgSpec ImgBox ImgPixel ImgRun ImgMore ImgFloat ImgProps.
From Flocq Require Import Core BinarySingleNaN.
Local Open Scope Z_scope.

(** [ex_valid] and [ex_test] have six pixels and differ in one, [2;1]: 21 and 77; [ex_filter]: radius 1, threshold 0. *)
Lemma ex_comparable : comparable ex_valid ex_test.
Proof. repeat split. Qed.
Lemma ex_comparable' : comparable ex_test ex_valid.
Proof. repeat split. Qed.
Lemma ex_in i : in_image ex_valid i -> exists x y, i = [x; y] /\ 0 <= x < 3 /\ 0 <= y < 2.
Proof.
  intros H. destruct H as (_ & L & H). cbn in L. destruct i as [|x [|y [|? ?]]]; try discriminate L. exists x, y. split; [reflexivity|].
  pose proof (H 0%nat 0 3 x eq_refl eq_refl eq_refl). pose proof (H 1%nat 0 2 y eq_refl eq_refl eq_refl). lia.
Qed.
Lemma ex_in_test i : in_image ex_test i -> exists x y, i = [x; y] /\ 0 <= x < 3 /\ 0 <= y < 2.
Proof. exact (ex_in i). Qed.
Definition v_of (i : index) : Z := match i with x :: y :: _ => 10 * x + y | _ => 0 end.
Definition w_of (i : index) : Z := match i with [2; 1] => 77 | x :: y :: _ => 10 * x + y | _ => 0 end.
Ltac six E := let x := fresh in let y := fresh in let A := fresh in let B := fresh in
  destruct E as (x & y & -> & A & B);
  assert (x = 0 \/ x = 1 \/ x = 2) as [->|[->| ->]] by lia; assert (y = 0 \/ y = 1) as [->| ->] by lia.
Lemma ex_valid_doubles : doubles ex_valid.
Proof. intros j H. apply ex_in in H. six H; reflexivity. Qed.
Lemma ex_test_doubles : doubles ex_test.
Proof. intros j H. apply ex_in in H. six H; reflexivity. Qed.
Example C45_count_met := let H := C45_ex_hyps in C45_count ex_filter ex_valid ex_test _ _ _ (proj1 H) ltac:(cbn; lia) (proj1 (proj2 H)) (proj2 (proj2 H)).
Example C45_output_met := let H := C45_ex_hyps in C45_output ex_filter ex_valid ex_test _ _ _ [2; 1] (proj1 H) ltac:(cbn; lia) (proj1 (proj2 H)) (proj2 (proj2 H)).
Lemma in_21 : in_image ex_valid [2; 1].
Proof. repeat (apply in_region_cons; split; [lia|]). apply in_region_nil. Qed.
Example C45_integers_met : reported (Filter 0 (of_int64 50) false) ex_valid ex_test [2; 1] <-> forall j, in_image ex_test j -> near 0 [2; 1] j -> 50 < Z.abs (v_of [2; 1] - w_of j).
Proof.
  apply (C45_integers 50 0 ex_valid ex_test v_of w_of [2; 1]); [lia|exact ex_comparable|exact in_21|lia| |].
  - intros j H. apply ex_in in H. six H; split; vm_compute; try reflexivity; intros X; discriminate X.
  - intros j H. apply ex_in in H. six H; split; vm_compute; try reflexivity; intros X; discriminate X.
Qed.
(** images of one pixel: 1 against 3 *)
Definition one_pixel (n : Z) : image := Image [0] [1] (fun _ => of_int64 n).
Lemma one_comparable a b : comparable (one_pixel a) (one_pixel b).
Proof. repeat split. Qed.
Lemma one_in n : in_image (one_pixel n) [0].
Proof. apply in_region_cons. split; [lia|apply in_region_nil]. Qed.
Lemma near_self r : 0 <= r -> near r [0] [0].
Proof. intros H. split; [reflexivity|]. intros [|[|k]] x y; cbn; intros A B; try discriminate. injection A as <-. injection B as <-. lia. Qed.
Lemma rv_1 : rv (of_int64 1) = 1%R.
Proof. change (F2R (Float radix2 4503599627370496 (-52)) = 1%R). unfold F2R. cbn [Fnum Fexp]. change (-52) with (Z.opp 52). rewrite bpow_opp. change (bpow radix2 52) with 4503599627370496%R. field. Qed.
Lemma rv_3 : rv (of_int64 3) = 3%R.
Proof. change (F2R (Float radix2 6755399441055744 (-51)) = 3%R). unfold F2R. cbn [Fnum Fexp]. change (-51) with (Z.opp 51). rewrite bpow_opp. change (bpow radix2 51) with 2251799813685248%R. field. Qed.
Example C45_reported_differs_met : (Rabs (rv (of_int64 1)) < Rabs (rv (of_int64 1) - rv (of_int64 3)))%R.
Proof.
  apply (C45_reported_differs (Filter 0 (of_int64 1) false) (one_pixel 1) (one_pixel 3) [0] [0]); try reflexivity; try (intros j _; reflexivity); try apply one_in; [|apply near_self; cbn; lia].
  split; [apply one_in|]. split; [|discriminate]. split; [reflexivity|]. intros j Hj Hn X. vm_compute in X. discriminate X.
Qed.
Example C45_differing_reported_met : reported (Filter 0 (of_int64 1) false) (one_pixel 1) (one_pixel 3) [0].
Proof.
  apply C45_differing_reported; [reflexivity|reflexivity|intros j _; reflexivity|intros j _; reflexivity|apply one_comparable|cbn; lia|reflexivity| |apply one_in|reflexivity|].
  - change (f_threshold (Filter 0 (of_int64 1) false)) with (of_int64 1). rewrite rv_1, Rabs_R1. change 1%R with (bpow radix2 0). apply bpow_le. lia.
  - intros j _ _. split; [reflexivity|]. change (f_threshold (Filter 0 (of_int64 1) false)) with (of_int64 1).
    change (ipix (one_pixel 1) [0]) with (of_int64 1). change (ipix (one_pixel 3) j) with (of_int64 3). rewrite rv_1, rv_3, Rabs_R1. rewrite Rabs_left by lra.
    assert (B1 : (bpow radix2 (-500) <= 1)%R) by (change 1%R with (bpow radix2 0); apply bpow_le; lia).
    assert (B2 : (bpow radix2 (-51) < 1)%R) by (change 1%R with (bpow radix2 0); apply bpow_lt; lia). lra.
Qed.
Example C45_every_difference_reported_refuted_met : ~ reported (Filter 0 (of_int64 1) false) (Image [0] [1] (fun _ => S754_nan)) (one_pixel 3) [0].
Proof. apply (proj1 C45_every_difference_reported_refuted). left. reflexivity. Qed.
Definition two_threads : list (list face) := [[(false, [[0]])]; [(false, [[1]; [2]])]].
Definition three_threads : list (list face) := [[(false, [[2]])]; [(false, [[0]])]; [(false, [[1]])]].
Lemma two_split : well_split mag_filter mag_valid mag_test two_threads.
Proof.
  assert (B : forall i, In i (pixels mag_test) -> ~ at_boundary mag_test 0 i) by (intros i Hi; apply radius0, in_box; [reflexivity|exact Hi]).
  split; [apply Permutation_refl|]. intros faces fc i Hf Hfc Hi. assert (F : fst fc = false) by (destruct Hf as [<-|[<-|[]]]; destruct Hfc as [<-|[]]; reflexivity).
  rewrite F. split; [discriminate|]. intros X. destruct (B i); [|exact X]. destruct Hf as [<-|[<-|[]]]; destruct Hfc as [<-|[]]; cbn in Hi; vm_compute; tauto.
Qed.
Lemma three_split : well_split mag_filter mag_valid mag_test three_threads.
Proof.
  assert (B : forall i, In i (pixels mag_test) -> ~ at_boundary mag_test 0 i) by (intros i Hi; apply radius0, in_box; [reflexivity|exact Hi]).
  split; [apply (Permutation_cons_append [[0]; [1]] [2])|]. intros faces fc i Hf Hfc Hi. assert (F : fst fc = false) by (destruct Hf as [<-|[<-|[<-|[]]]]; destruct Hfc as [<-|[]]; reflexivity).
  rewrite F. split; [discriminate|]. intros X. destruct (B i); [|exact X]. destruct Hf as [<-|[<-|[<-|[]]]]; destruct Hfc as [<-|[]]; cbn in Hi; vm_compute; tauto.
Qed.
(** the alternating schedule of two threads against three threads in another order *)
Example C46_split_and_schedule_met : exists schedule res, schedule <> concat (programs mag_filter mag_valid mag_test two_threads) /\ filter_run mag_filter mag_valid mag_test two_threads schedule res /\
  NumberOfPixelsWithDifferences res = NumberOfPixelsWithDifferences (sequential_run mag_filter mag_valid mag_test three_threads) /\
  TotalMagnitude res = TotalMagnitude (sequential_run mag_filter mag_valid mag_test two_threads).
Proof.
  destruct C46_ex as (schedule & res & R & N & _). exists schedule, res. split; [exact N|]. split; [exact R|]. split.
  - apply (C46_split_and_schedule mag_filter mag_valid mag_test two_threads three_threads schedule _ res _ two_split three_split R (sequential_is_run _ _ _ _)).
  - apply (C46_schedule mag_filter mag_valid mag_test two_threads schedule _ res _ two_split R (sequential_is_run _ _ _ _)).
Qed.
Example C47_threshold_met : some_diff (Filter 0 (of_int64 60) false) ex_valid ex_test <= some_diff (Filter 0 (of_int64 0) false) ex_valid ex_test.
Proof. apply C47_threshold; [exact some_diff_runs|exact ex_comparable|lia|reflexivity|reflexivity|reflexivity]. Qed.
Example C47_radius_met : some_diff (Filter 1 (of_int64 0) false) (spot 0) (spot 5) <= some_diff (Filter 0 (of_int64 0) false) (spot 0) (spot 5).
Proof. apply C47_radius; [exact some_diff_runs|repeat split|lia]. Qed.
Example C47_identical_met : some_diff (Filter 1 (of_int64 0) true) ex_valid ex_valid = 0.
Proof. apply C47_identical; [exact some_diff_runs|repeat split|cbn; lia|exact ex_valid_doubles|reflexivity|reflexivity]. Qed.
Example C47_bounds_met : 0 <= some_diff ex_filter ex_valid ex_test <= 6.
Proof.
  apply C47_bounds; [exact some_diff_runs|exact ex_comparable|cbn; lia|].
  exists [[0;0];[0;1];[1;0];[1;1];[2;0];[2;1]]. split; [|split; [|reflexivity]].
  - repeat constructor; cbn; intuition discriminate.
  - intros i. split.
    + intros H. cbn in H. intuition subst; (repeat (apply in_region_cons; split; [lia|]); apply in_region_nil).
    + intros H. apply ex_in in H. six H; cbn; tauto.
Qed.
Example C47_symmetric_met : some_diff (Filter 0 (of_int64 3) true) ex_valid ex_test = some_diff (Filter 0 (of_int64 3) true) ex_test ex_valid.
Proof. apply C47_symmetric; [exact some_diff_runs|exact ex_comparable|exact ex_valid_doubles|exact ex_test_doubles]. Qed.
Example C48_size_met : CompareImage some_diff ex_test (spot 0) (of_int64 0) 3 0 ([], []) = Ok ULONG_MAX.
Proof. apply C48_size. discriminate. Qed.
Example C48_count_met := C48_count some_diff ex_test ex_valid (of_int64 3) 2 1 ([0; 0], [0; 0]) some_diff_runs ltac:(lia) ex_comparable ltac:(repeat constructor).
Example C48_start_met : CompareImage some_diff (Image [1; 0] [3; 2] (ipix ex_test)) ex_valid (of_int64 0) 3 0 ([], []) = Throw ExnRuntime.
Proof. apply C48_start; [reflexivity|discriminate]. Qed.
Definition part : image := Image [1; 0] [2; 2] (ipix ex_test).
Lemma non_default_1 : non_default ([1; 0], [2; 2]).
Proof. exists 1. split; [left; reflexivity|discriminate]. Qed.
Lemma non_default_2 : non_default ([5], [7]).
Proof. exists 5. split; [left; reflexivity|discriminate]. Qed.
Lemma part_sizes : Forall (fun n => 0 < n) (isize part).
Proof. repeat apply Forall_cons; try apply Forall_nil; lia. Qed.
Example C48_region_met := C48_region some_diff part ex_valid (of_int64 0) 0 0 ([1; 0], [2; 2]) some_diff_runs (Z.le_refl 0) non_default_1 eq_refl eq_refl eq_refl part_sizes.
Example C48_region_inside j : in_image part j -> in_image ex_valid j.
Proof.
  intros (_ & L & H). cbn in L. destruct j as [|x [|y [|? ?]]]; try discriminate L. pose proof (H 0%nat 1 2 x eq_refl eq_refl eq_refl). pose proof (H 1%nat 0 2 y eq_refl eq_refl eq_refl).
  repeat (apply in_region_cons; split; [lia|]). apply in_region_nil.
Qed.
Example C48_region_irrelevant_met := C48_region_irrelevant some_diff part ex_valid (of_int64 0) 0 0 ([1; 0], [2; 2]) ([5], [7]) non_default_1 non_default_2.
Definition ex_read : str -> option imagefile := fun name => if eqs name ($"a") then Some (file_of ex_valid [of_int64 0; of_int64 0]) else Some (file_of ex_test [of_int64 0; of_int64 0]).
Example C49_accepted_met := C49_accepted some_diff ex_read (Tolerances (of_int64 0) 1 0) (Mf [] false [] ($"a")) (Mf [] false [] ($"b")) some_diff_runs ltac:(cbn; lia) ltac:(cbn; lia) (proj1 C49_ex).
Definition moved_read : str -> option imagefile := fun name => if eqs name ($"b") then Some (ImageFile ex_test (map (fun _ => of_int64 1) (isize ex_test)) [of_int64 7; S754_nan]) else ex_read name.
Example C49_origin_ignored_met := C49_origin_ignored some_diff ex_read moved_read (Tolerances (of_int64 0) 1 0) (Mf [] false [] ($"a")) (Mf [] false [] ($"b")) _ [of_int64 7; S754_nan] eq_refl ltac:(discriminate) (fun name => eq_refl).

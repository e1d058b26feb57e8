(** C48, continued: the overloads of CompareImage for files and for a region alone. *)
From Coq Require Import Reals Psatz Floats.SpecFloat Permutation.
From Verif Require Import Base Str MeasModel FloatFacts TolFacts ImgModel ImgFacts ImgSpec ImgBox ImgPixel ImgRun ImgMore ImgFloat ImgProps.
Local Open Scope Z_scope.

(** itktfRegression.h 196-220: the test file is read first; itk::ImageFileReader throws if it cannot read a file *)
Definition CompareImageFiles (diff : filter -> image -> image -> Z) (read : str -> option imagefile) (testFileName baselineFileName : str)
  (intensity : spec_float) (numberOfPixels radius : Z) : res Z :=
  match read testFileName with
  | None => Throw ExnRuntime
  | Some t =>
      match read baselineFileName with
      | None => Throw ExnRuntime
      | Some b => CompareImage diff (g_image t) (g_image b) intensity numberOfPixels radius ([], [])
      end
  end.
(** itktfRegression.h 239-242 *)
Definition CompareImageRegion (diff : filter -> image -> image -> Z) (test baseline : image) (region : list Z * list Z) : res Z :=
  CompareImage diff test baseline zero64 0 0 region.

(** Two readable files: the largest number if the sizes differ, else the differing pixels beyond the tolerated number.  Spacing and origin do not matter. *)
Theorem C48_files : forall diff read testf basef t np r, runs_filter diff -> 0 <= r -> (forall name g, read name = Some g -> file_image g) ->
  match read testf, read basef with
  | Some gt, Some gb =>
      (isize (g_image gt) <> isize (g_image gb) -> CompareImageFiles diff read testf basef t np r = Ok ULONG_MAX) /\
      (isize (g_image gt) = isize (g_image gb) -> exists n, how_many (reported (Filter r t false) (g_image gb) (g_image gt)) n /\
         CompareImageFiles diff read testf basef t np r = Ok (saturated n np))
  | _, _ => CompareImageFiles diff read testf basef t np r = Throw ExnRuntime
  end.
Proof.
  intros diff read testf basef t np r H Hr Hf. unfold CompareImageFiles. destruct (read testf) as [gt|] eqn:Et; [|reflexivity]. destruct (read basef) as [gb|] eqn:Eb; [|reflexivity]. split.
  - intros N. apply C48_size. congruence.
  - intros E. apply C48_count; [exact H|exact Hr| |constructor]. destruct (Hf _ _ Et) as [It _], (Hf _ _ Eb) as [Ib _].
    split; [rewrite Ib, It, E; reflexivity|]. split; [congruence|]. rewrite Ib, map_length. reflexivity.
Qed.
Print Assumptions C48_files.
(** An image measurement matches iff spacing and size agree, the baseline's origin is a number, and this function, which has already
    subtracted the tolerated number of pixels, returns at most that number. *)
Theorem C48_files_and_measurement : forall diff read tol (baseline m : mf), runs_filter diff -> 0 <= t_radius tol -> 0 <= t_pixels tol -> t_pixels tol < ULONG_MAX ->
  (forall name g, read name = Some g -> file_image g) ->
  (image_verdict diff read tol baseline m = Ok true <->
   exists b t n, read (ffile baseline) = Some b /\ read (ffile m) = Some t /\ equal_values (g_spacing b) (g_spacing t) /\ ~ In S754_nan (g_origin b) /\
     isize (g_image b) = isize (g_image t) /\
     CompareImageFiles diff read (ffile m) (ffile baseline) (t_intensity tol) (t_pixels tol) (t_radius tol) = Ok n /\ n <= t_pixels tol).
Proof.
  intros diff read tol baseline m H Hr Hp Hm Hf. destruct (C49_accepted diff read tol baseline m H Hr Hp Hf) as (v & -> & V).
  pose proof (C48_files diff read (ffile m) (ffile baseline) (t_intensity tol) (t_pixels tol) (t_radius tol) H Hr Hf) as F. split.
  - intros E. apply (f_equal (fun x => match x with Ok b => b | _ => false end)) in E. apply V in E.
    destruct E as (b & t & Rb & Rt & S & Sp & O & n & Hn & L). rewrite Rb, Rt in F. destruct F as [_ F]. destruct (F (eq_sym S)) as (n' & Hn' & E).
    pose proof (how_many_unique _ _ _ Hn Hn') as <-. exists b, t, (saturated n (t_pixels tol)). unfold saturated in *. repeat (split; [assumption|]). lia.
  - intros (b & t & n & Rb & Rt & Sp & O & S & E & L). rewrite Rb, Rt in F. destruct F as [_ F]. destruct (F (eq_sym S)) as (n' & Hn' & E').
    rewrite E' in E. apply (f_equal (fun x => match x with Ok b => b | _ => 0 end)) in E. unfold saturated in E.
    assert (v = true) as ->; [|reflexivity]. apply V. exists b, t. repeat (split; [assumption|]). exists n'. split; [exact Hn'|]. lia.
Qed.
Print Assumptions C48_files_and_measurement.
(** The overload with only a region compares exactly, and again not only in the region. *)
Theorem C48_region_only : forall diff test baseline region, runs_filter diff -> non_default region ->
  length (istart test) = length (isize test) -> length (istart baseline) = length (isize baseline) -> length (istart test) = length (istart baseline) ->
  Forall (fun n => 0 < n) (isize test) ->
  ((forall j, in_image test j -> in_image baseline j) ->
     exists n, how_many (reported (Filter 0 zero64 false) (cropped baseline test) test) n /\ CompareImageRegion diff test baseline region = Ok (saturated n 0)) /\
  (~ (forall j, in_image test j -> in_image baseline j) -> CompareImageRegion diff test baseline region = Throw ExnRuntime).
Proof. intros diff test baseline region H Hd A B C D. apply (C48_region diff test baseline zero64 0 0 region H (Z.le_refl 0) Hd A B C D). Qed.
Print Assumptions C48_region_only.
Definition two_files (name : str) : option imagefile :=
  if eqs name ($"test.png") then Some (file_of ex_test [of_int64 0; of_int64 0]) else if eqs name ($"base.png") then Some (file_of ex_valid [of_int64 0; of_int64 0]) else None.
Example C48_files_case : (forall name g, two_files name = Some g -> file_image g) /\
  CompareImageFiles some_diff two_files ($"test.png") ($"base.png") (of_int64 0) 0 0 = Ok 1 /\
  CompareImageFiles some_diff two_files ($"test.png") ($"none.png") (of_int64 0) 0 0 = Throw ExnRuntime /\
  CompareImageRegion some_diff ex_test ex_valid ([1], [1]) = Ok 1.
Proof.
  split; [|repeat split; vm_compute; reflexivity]. intros name g. unfold two_files.
  destruct (eqs name _); [intros [= <-]; repeat split|]. destruct (eqs name _); [intros [= <-]; repeat split|discriminate].
Qed.

(** Model of the image comparison, /repo/itktf/itktfDifferenceImageFilter.{h,txx} (class itk::tf::DifferenceImageFilter),
    /repo/itktf/itktfRegression.h 241-307 (CompareImage) and /repo/itktf/itktfCompareVisitor.cxx 65-140 (RegressionTestImage).

    Pixels are [double]s as in the instantiations of the visitors (SpecFloat, binary64); images have any dimension; an index is a
    list of coordinates.
    The ITK library is the environment: a neighbourhood iterator enumerates the offsets with the first coordinate fastest and its
    zero-flux boundary condition clamps coordinates to the image; a region of a filter is split among threads, each of which gets a
    list of faces; the filter needs the test image to cover the region of the valid image and throws otherwise (ITK 3 does not
    compare origins or spacing).
    Not modelled: progress reports, other pixel types (see PixModel), overflow of the pixel count. *)
From Coq Require Import Floats.SpecFloat.
From Verif Require Import Base Str MeasModel.
Local Open Scope Z_scope.

Definition sub64 := SFsub p64 x64.
Definition add64 := SFadd p64 x64.
Definition div64 := SFdiv p64 x64.
Definition sqrt64 := SFsqrt p64 x64.
(** [NumericTraits<double>::Zero] *)
Definition zero64 : spec_float := S754_zero false.

Definition index := list Z.
Record image := Image { istart : list Z; isize : list Z; ipix : index -> spec_float }.

(** the indices of a region (start, size), first coordinate fastest *)
Definition zseq (a n : Z) : list Z := map (fun i => a + Z.of_nat i) (seq 0 (Z.to_nat n)).
Fixpoint box (start size : list Z) : list index :=
  match start, size with
  | a :: st, n :: sz => flat_map (fun rest => map (fun x => x :: rest) (zseq a n)) (box st sz)
  | _, _ => [[]]
  end.
Definition pixels (im : image) : list index := box (istart im) (isize im).

(** the zero-flux boundary condition: each coordinate is clamped to the image *)
Definition clamp1 (a n x : Z) : Z := Z.max a (Z.min x (a + n - 1)).
Fixpoint clamp_to (start size : list Z) (i : index) : index :=
  match start, size, i with
  | a :: st, n :: sz, x :: i' => clamp1 a n x :: clamp_to st sz i'
  | _, _, _ => []
  end.
Fixpoint shift (i off : index) : index :=
  match i, off with x :: i', d :: off' => x + d :: shift i' off' | _, _ => [] end.
(** [test.GetPixel(0)], [test.GetPixel(1)], ... at index [i] with radius [r] *)
Definition neighbourhood (im : image) (r : Z) (i : index) : list spec_float :=
  map (fun off => ipix im (clamp_to (istart im) (isize im) (shift i off)))
      (box (map (fun _ => - r) (istart im)) (map (fun _ => 2 * r + 1) (istart im))).

(** [Math::SquaredTwoNorm] (itktfDifferenceImageFilter.h 45-50) *)
Definition SquaredTwoNorm (x : spec_float) : spec_float := mul64 x x.

(** itktfDifferenceImageFilter.txx 163-182: [for (i = 0; i < neighborhoodSize; ++i)]; [t2] is threshold * threshold *)
Fixpoint search_loop (t2 c : spec_float) (nb : list spec_float) (minimumDifference minimumMagnitude2 : spec_float)
  : spec_float * spec_float :=
  match nb with
  | [] => (minimumDifference, minimumMagnitude2)
  | x :: nb' =>
      let difference := sub64 c x in
      let magnitude2 := SquaredTwoNorm difference in
      let '(d, m) := if SFltb magnitude2 minimumMagnitude2 then (difference, magnitude2)
                     else (minimumDifference, minimumMagnitude2) in
      if SFleb m t2 then (d, m) else search_loop t2 c nb' d m
  end.
(** 150-185: the closest difference found and its square *)
Definition closest (thr c center : spec_float) (nb : list spec_float) : spec_float * spec_float :=
  let t2 := mul64 thr thr in
  let d := sub64 c center in
  let m := SquaredTwoNorm d in
  if SFltb t2 m then search_loop t2 c nb d m else (d, m).

(** * Threads *)
(** accesses to memory: the output image, and per thread a sum and a count; incrementing loads, then stores *)
Inductive act :=
| AOut (i : index) (v : spec_float)
| ALoadSum (t : nat) | AStoreSum (t : nat) (v : spec_float)
| ALoadCount (t : nat) | AStoreCount (t : nat).
Record mem := Mem { m_out : index -> option spec_float;
                    m_sum : nat -> spec_float; m_count : nat -> Z;       (* m_ThreadMagnitudeSum, m_ThreadNumberOfPixels *)
                    r_sum : nat -> spec_float; r_count : nat -> Z }.     (* registers of the threads *)
Definition eqi (a b : index) : bool := if list_eq_dec Z.eq_dec a b then true else false.
Definition updi {A} (f : index -> A) (i : index) (v : A) : index -> A := fun j => if eqi j i then v else f j.
Definition updn {A} (f : nat -> A) (i : nat) (v : A) : nat -> A := fun j => if Nat.eqb j i then v else f j.
Definition exec1 (s : mem) (a : act) : mem :=
  match a with
  | AOut i v => Mem (updi (m_out s) i (Some v)) (m_sum s) (m_count s) (r_sum s) (r_count s)
  | ALoadSum t => Mem (m_out s) (m_sum s) (m_count s) (updn (r_sum s) t (m_sum s t)) (r_count s)
  | AStoreSum t v => Mem (m_out s) (updn (m_sum s) t (add64 (r_sum s t) v)) (m_count s) (r_sum s) (r_count s)
  | ALoadCount t => Mem (m_out s) (m_sum s) (m_count s) (r_sum s) (updn (r_count s) t (m_count s t))
  | AStoreCount t => Mem (m_out s) (m_sum s) (updn (m_count s) t (r_count s t + 1)) (r_sum s) (r_count s)
  end.
Definition exec (s : mem) (l : list act) : mem := fold_left exec1 l s.

(** parameters of the filter: 85-97, txx 37-52 *)
Record filter := Filter { f_radius : Z; f_threshold : spec_float; f_ignore_boundary : bool }.

(** txx 146-199: one pixel *)
Definition pixel_actions (f : filter) (valid test : image) (t : nat) (i : index) : list act :=
  let c := ipix valid i in
  let '(d, m) := closest (f_threshold f) c (ipix test i) (neighbourhood test (f_radius f) i) in
  if SFltb (mul64 (f_threshold f) (f_threshold f)) m
  then [AOut i d; ALoadSum t; AStoreSum t (sqrt64 m); ALoadCount t; AStoreCount t]
  else [AOut i zero64].
(** a face: whether its neighbourhoods cross the boundary of the image, and its pixels *)
Definition face : Type := bool * list index.
(** 138-212 *)
Definition face_actions (f : filter) (valid test : image) (t : nat) (fc : face) : list act :=
  if negb (fst fc) || negb (f_ignore_boundary f)
  then flat_map (pixel_actions f valid test t) (snd fc)
  else map (fun i => AOut i zero64) (snd fc).
Definition ThreadedGenerateData (f : filter) (valid test : image) (faces : list face) (t : nat) : list act :=
  flat_map (face_actions f valid test t) faces.

(** the order in which the accesses of the threads happen *)
Inductive interleaving {A} : list (list A) -> list A -> Prop :=
| il_done ls : Forall (fun l => l = []) ls -> interleaving ls []
| il_step ls1 x l ls2 r : interleaving (ls1 ++ l :: ls2) r -> interleaving (ls1 ++ (x :: l) :: ls2) (x :: r).

(** 98-112: the memory before *)
Definition BeforeThreadedGenerateData : mem := Mem (fun _ => None) (fun _ => zero64) (fun _ => 0) (fun _ => zero64) (fun _ => 0).
Record result := Result { out_image : index -> option spec_float; TotalMagnitude : spec_float; NumberOfPixelsWithDifferences : Z; MeanMagnitude : spec_float }.
(** 216-236; [n]: number of threads, [np]: number of pixels of the region *)
Definition AfterThreadedGenerateData (n : nat) (np : Z) (s : mem) : result :=
  let total := fold_left add64 (map (m_sum s) (seq 0 n)) zero64 in
  Result (m_out s) total (fold_left Z.add (map (m_count s) (seq 0 n)) 0) (div64 total (of_int64 np)).
(** the accesses of each thread *)
Definition programs (f : filter) (valid test : image) (threads : list (list face)) : list (list act) :=
  map (fun p => ThreadedGenerateData f valid test (snd p) (fst p)) (combine (seq 0 (length threads)) threads).
(** a run of the filter with the given split of the region and the given schedule *)
Definition filter_run (f : filter) (valid test : image) (threads : list (list face)) (schedule : list act) (res : result) : Prop :=
  interleaving (programs f valid test threads) schedule /\
  res = AfterThreadedGenerateData (length threads) (Z.of_nat (length (pixels valid))) (exec BeforeThreadedGenerateData schedule).

(** * CompareImage, itktfRegression.h 249-307
    [diff f valid test]: [GetNumberOfPixelsWithDifferences] after running the filter.  264: [region != RegionType()], where the
    default region has index and size zero; 268-284: the baseline is then cropped to the region of the test image (not to [region]);
    itk::ExtractImageFilter throws if that is not inside. *)
Definition ULONG_MAX : Z := 18446744073709551615.
Definition eqzs (a b : list Z) : bool := if list_eq_dec Z.eq_dec a b then true else false.
Fixpoint inside (start size start' size' : list Z) : bool :=
  match start, size, start', size' with
  | a :: st, n :: sz, a' :: st', n' :: sz' => (a' <=? a) && (a + n <=? a' + n') && inside st sz st' sz'
  | [], [], [], [] => true
  | _, _, _, _ => false
  end.
Definition default_region (region : list Z * list Z) : bool := forallb (Z.eqb 0) (fst region) && forallb (Z.eqb 0) (snd region).
Definition CompareImage (diff : filter -> image -> image -> Z) (test baseline : image)
  (intensity : spec_float) (numberOfPixels radius : Z) (region : list Z * list Z) : res Z :=
  let f := Filter radius intensity false in
  status <-- (if negb (default_region region) then
                if inside (istart test) (isize test) (istart baseline) (isize baseline)
                then Ok (Some (diff f (Image (istart test) (isize test) (ipix baseline)) test))
                else Throw ExnRuntime
              else if negb (eqzs (isize baseline) (isize test)) then Ok None
              else if eqzs (istart baseline) (istart test) then Ok (Some (diff f baseline test))
              else Throw ExnRuntime) ;;
  Ok (match status with
      | None => ULONG_MAX
      | Some status => if status <? numberOfPixels then 0 else status - numberOfPixels
      end).

(** * RegressionTestImage, itktfCompareVisitor.cxx 65-140
    A file as the reader sees it; spacing and origin are arrays of [double] compared with [==] element by element. *)
Record imagefile := ImageFile { g_image : image; g_spacing : list spec_float; g_origin : list spec_float }.
Fixpoint eqfs (a b : list spec_float) : bool :=
  match a, b with
  | x :: a', y :: b' => SFeqb x y && eqfs a' b'
  | [], [] => true
  | _, _ => false
  end.
Record tolerances := Tolerances { t_intensity : spec_float; t_pixels : Z; t_radius : Z }.
(** an exception of CompareImage is not caught here *)
Definition RegressionTestImage (diff : filter -> image -> image -> Z) (read : str -> option imagefile)
  (testFile baselineFile : str) (tol : tolerances) : res Z :=
  match read baselineFile with
  | None => Ok 1000
  | Some b =>
      match read testFile with
      | None => Ok 1000
      | Some t =>
          if negb (eqzs (isize (g_image b)) (isize (g_image t))) then Ok 1
          else if negb (eqfs (g_spacing b) (g_spacing t)) then Ok 1
          else if negb (eqfs (g_origin b) (g_origin b)) then Ok 1
          else status <-- CompareImage diff (g_image t) (g_image b) (t_intensity tol) (t_pixels tol) (t_radius tol) ([], []) ;;
               Ok (if t_pixels tol <? status then 1 else 0)
      end
  end.
(** 35-63: the verdict for two file measurements of type image/itk *)
Definition image_verdict (diff : filter -> image -> image -> Z) (read : str -> option imagefile)
  (tol : tolerances) (baseline m : mf) : res bool :=
  r <-- RegressionTestImage diff read (ffile m) (ffile baseline) tol ;; Ok (r =? 0).

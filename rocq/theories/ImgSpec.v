(** Specification of the image comparison, independent of the model: regions, distances of indices, the threshold rule, and what it
    means for a pixel to differ.  Arithmetic is binary64 (Coq's SpecFloat). *)
From Coq Require Import Floats.SpecFloat Permutation.
From Verif Require Import Base Str MeasModel ImgModel.
Local Open Scope Z_scope.

(** index [j] lies in the region *)
Definition in_region (start size : list Z) (j : index) : Prop :=
  length start = length size /\ length j = length start /\
  forall k a n x, nth_error start k = Some a -> nth_error size k = Some n -> nth_error j k = Some x -> a <= x < a + n.
Definition in_image (im : image) (j : index) : Prop := in_region (istart im) (isize im) j.
(** every coordinate differs by at most [r] *)
Definition near (r : Z) (i j : index) : Prop :=
  length i = length j /\ forall k x y, nth_error i k = Some x -> nth_error j k = Some y -> Z.abs (x - y) <= r.
(** the neighbourhood of [i] sticks out of the image *)
Definition at_boundary (im : image) (r : Z) (i : index) : Prop :=
  exists j, length j = length i /\ near r i j /\ ~ in_image im j.

(** squares are compared, in binary64 *)
Definition difference (a b : spec_float) : spec_float := SFsub 53 1024 a b.
Definition square (d : spec_float) : spec_float := SFmul 53 1024 d d.
Definition above (thr d : spec_float) : Prop := SFltb (square thr) (square d) = true.
Definition tolerated (thr d : spec_float) : Prop := SFleb (square d) (square thr) = true.

(** the pixel [i] of the valid image has no acceptable counterpart in the test image *)
Definition differs (thr : spec_float) (r : Z) (valid test : image) (i : index) : Prop :=
  above thr (difference (ipix valid i) (ipix test i)) /\
  forall j, in_image test j -> near r i j -> ~ tolerated thr (difference (ipix valid i) (ipix test j)).
(** a pixel that the comparison reports; with the boundary ignored only those whose neighbourhood is inside *)
Definition reported (f : filter) (valid test : image) (i : index) : Prop :=
  in_image valid i /\ differs (f_threshold f) (f_radius f) valid test i /\
  (f_ignore_boundary f = true -> ~ at_boundary test (f_radius f) i).

(** [n] is the number of indices with the property *)
Definition how_many (P : index -> Prop) (n : Z) : Prop :=
  exists l, NoDup l /\ (forall i, In i l <-> P i) /\ n = Z.of_nat (length l).

(** two images a filter accepts: same dimension and region *)
Definition comparable (valid test : image) : Prop :=
  istart test = istart valid /\ isize test = isize valid /\ length (istart valid) = length (isize valid).
(** what ITK provides: every pixel of the region belongs to exactly one face of exactly one thread, and a face is marked if its
    neighbourhoods stick out of the image *)
Definition well_split (f : filter) (valid test : image) (threads : list (list face)) : Prop :=
  Permutation (flat_map snd (concat threads)) (pixels valid) /\
  forall faces fc i, In faces threads -> In fc faces -> In i (snd fc) -> (fst fc = true <-> at_boundary test (f_radius f) i).

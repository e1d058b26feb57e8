(** Specification of the image comparison for any pixel type, independent of the model: what it means for a pixel to differ. *)
From Coq Require Import Floats.SpecFloat.
From Verif Require Import Base Str MeasModel ImgModel ImgSpec PixModel.
Local Open Scope Z_scope.

Section Spec.
Variable T : pixeltype.
(** distance of two pixel values, squared *)
Definition distance2 (a b : p_in T) : spec_float := p_norm2 T (p_sub T a b).
Definition q_differs (thr : spec_float) (r : Z) (valid test : pimage T) (i : index) : Prop :=
  SFltb (square thr) (distance2 (q_pix T valid i) (q_pix T test i)) = true /\
  forall j, in_image (shape T test) j -> near r i j -> SFleb (distance2 (q_pix T valid i) (q_pix T test j)) (square thr) = false.
Definition q_reported (f : filter) (valid test : pimage T) (i : index) : Prop :=
  in_image (shape T valid) i /\ q_differs (f_threshold f) (f_radius f) valid test i /\
  (f_ignore_boundary f = true -> ~ at_boundary (shape T test) (f_radius f) i).
Definition q_comparable (valid test : pimage T) : Prop := comparable (shape T valid) (shape T test).
Definition q_split (f : filter) (valid test : pimage T) (threads : list (list face)) : Prop := well_split f (shape T valid) (shape T test) threads.

(** the places of the test image in the order in which they are looked at: the pixel itself, then the neighbourhood (first coordinate
    fastest, coordinates outside moved to the border) *)
Definition order_of_search (test : pimage T) (r : Z) (i : index) : list index :=
  i :: map (fun off => clamp_to (q_start T test) (q_size T test) (shift i off))
           (box (map (fun _ => - r) (q_start T test)) (map (fun _ => 2 * r + 1) (q_start T test))).
(** [d] is the first of the smallest differences in that order *)
Definition first_closest (r : Z) (valid test : pimage T) (i : index) (d : p_real T) : Prop :=
  exists before j after, order_of_search test r i = before ++ j :: after /\ d = p_sub T (q_pix T valid i) (q_pix T test j) /\
    (forall k, In k before -> SFltb (p_norm2 T d) (distance2 (q_pix T valid i) (q_pix T test k)) = true \/
                              distance2 (q_pix T valid i) (q_pix T test k) = S754_nan) /\
    (forall k, In k after -> SFltb (distance2 (q_pix T valid i) (q_pix T test k)) (p_norm2 T d) = false).
End Spec.

(** Model of the image comparison for any pixel type: the template itk::tf::DifferenceImageFilter,
    /repo/itktf/itktfDifferenceImageFilter.{h,txx}, and Regression::CompareImage, /repo/itktf/itktfRegression.h 241-307.

    ImgModel is the same for pixels of type double.  Environment and simplifications are those of ImgModel, except that the pixel
    types are arbitrary and that storing a difference that the output pixel type cannot represent is undefined behaviour. *)
From Coq Require Import Floats.SpecFloat.
From Verif Require Import Base Str Dec MeasModel ImgModel.
Local Open Scope Z_scope.

(** What the template uses of its pixel types.  All ITK real types have [double] as ScalarRealType.
    - [p_sub c x]: [static_cast<RealType>(c) - x], txx 153, 170;
    - [p_norm2]: [Math::SquaredTwoNorm], h 44-71;
    - [p_cast]: [static_cast<OutputPixelType>(minimumDifference)], txx 189, [None]: the value is out of range, undefined behaviour;
    - [p_zero]: [Math::ZeroValue], h 29-42. *)
Record pixeltype := PixelType {
  p_in : Type; p_real : Type; p_out : Type;
  p_sub : p_in -> p_in -> p_real; p_norm2 : p_real -> spec_float; p_cast : p_real -> option p_out; p_zero : p_in -> p_out }.

(** integer types with the values [lo .. hi], input and output type being the same; the difference is a [double]; casting it drops the fraction *)
Definition truncate (d : spec_float) : option Z :=
  match d with
  | S754_zero _ => Some 0
  | S754_finite s m e => Some (cond_Zopp s (if 0 <=? e then Zpos m * 2 ^ e else Zpos m / 2 ^ (- e)))
  | _ => None
  end.
Definition to_integer (lo hi : Z) (d : spec_float) : option Z :=
  match truncate d with Some z => if (lo <=? z) && (z <=? hi) then Some z else None | None => None end.
Definition integer_type (lo hi : Z) : pixeltype :=
  PixelType Z spec_float Z (fun c x => sub64 (of_int64 c) (of_int64 x)) SquaredTwoNorm (to_integer lo hi) (fun _ => 0).
Definition unsigned_char : pixeltype := integer_type 0 255.
Definition signed_short : pixeltype := integer_type (-32768) 32767.
(** [double]: the instance of ImgModel *)
Definition double_type : pixeltype := PixelType spec_float spec_float spec_float sub64 SquaredTwoNorm Some (fun _ => zero64).
(** vectors of doubles (itk::Vector, itk::VariableLengthVector; complex numbers have two components), h 44-71: the sum of the squares *)
Definition vector_norm2 (v : list spec_float) : spec_float := fold_left (fun s x => add64 s (mul64 x x)) v zero64.
Definition vector_sub (a b : list spec_float) : list spec_float := map (fun p => sub64 (fst p) (snd p)) (combine a b).
Definition vector_type : pixeltype :=
  PixelType (list spec_float) (list spec_float) (list spec_float) vector_sub vector_norm2 Some (map (fun _ => zero64)).

Section Filter.
Variable T : pixeltype.
Record pimage := PImage { q_start : list Z; q_size : list Z; q_pix : index -> p_in T }.
(** the region of an image *)
Definition shape (im : pimage) : image := Image (q_start im) (q_size im) (fun _ => zero64).
Definition q_neighbourhood (im : pimage) (r : Z) (i : index) : list (p_in T) :=
  map (fun off => q_pix im (clamp_to (q_start im) (q_size im) (shift i off)))
      (box (map (fun _ => - r) (q_start im)) (map (fun _ => 2 * r + 1) (q_start im))).

(** txx 163-182 *)
Fixpoint q_search (t2 : spec_float) (c : p_in T) (nb : list (p_in T)) (minimumDifference : p_real T) (minimumMagnitude2 : spec_float)
  : p_real T * spec_float :=
  match nb with
  | [] => (minimumDifference, minimumMagnitude2)
  | x :: nb' =>
      let difference := p_sub T c x in
      let magnitude2 := p_norm2 T difference in
      let '(d, m) := if SFltb magnitude2 minimumMagnitude2 then (difference, magnitude2)
                     else (minimumDifference, minimumMagnitude2) in
      if SFleb m t2 then (d, m) else q_search t2 c nb' d m
  end.
(** txx 150-185 *)
Definition q_closest (thr : spec_float) (c center : p_in T) (nb : list (p_in T)) : p_real T * spec_float :=
  let t2 := mul64 thr thr in
  let d := p_sub T c center in
  let m := p_norm2 T d in
  if SFltb t2 m then q_search t2 c nb d m else (d, m).

(** accesses to memory as in ImgModel; [QBad]: the cast is undefined *)
Inductive qact :=
| QOut (i : index) (v : p_out T) | QBad
| QLoadSum (t : nat) | QStoreSum (t : nat) (v : spec_float)
| QLoadCount (t : nat) | QStoreCount (t : nat).
Record qmem := QMem { q_out : index -> option (p_out T);
                      q_sum : nat -> spec_float; q_count : nat -> Z;
                      q_rsum : nat -> spec_float; q_rcount : nat -> Z }.
Definition q_exec1 (s : qmem) (a : qact) : qmem :=
  match a with
  | QOut i v => QMem (updi (q_out s) i (Some v)) (q_sum s) (q_count s) (q_rsum s) (q_rcount s)
  | QBad => s
  | QLoadSum t => QMem (q_out s) (q_sum s) (q_count s) (updn (q_rsum s) t (q_sum s t)) (q_rcount s)
  | QStoreSum t v => QMem (q_out s) (updn (q_sum s) t (add64 (q_rsum s t) v)) (q_count s) (q_rsum s) (q_rcount s)
  | QLoadCount t => QMem (q_out s) (q_sum s) (q_count s) (q_rsum s) (updn (q_rcount s) t (q_count s t))
  | QStoreCount t => QMem (q_out s) (q_sum s) (updn (q_count s) t (q_rcount s t + 1)) (q_rsum s) (q_rcount s)
  end.
Definition q_exec (s : qmem) (l : list qact) : qmem := fold_left q_exec1 l s.
Definition is_bad (a : qact) : bool := match a with QBad => true | _ => false end.

(** txx 146-199: one pixel *)
Definition q_pixel (f : filter) (valid test : pimage) (t : nat) (i : index) : list qact :=
  let c := q_pix valid i in
  let '(d, m) := q_closest (f_threshold f) c (q_pix test i) (q_neighbourhood test (f_radius f) i) in
  if SFltb (mul64 (f_threshold f) (f_threshold f)) m
  then [match p_cast T d with Some v => QOut i v | None => QBad end; QLoadSum t; QStoreSum t (sqrt64 m); QLoadCount t; QStoreCount t]
  else [QOut i (p_zero T c)].
(** txx 138-212; the zero of a skipped face is that of its first pixel, 203-204 *)
Definition q_face (f : filter) (valid test : pimage) (t : nat) (fc : face) : list qact :=
  if negb (fst fc) || negb (f_ignore_boundary f)
  then flat_map (q_pixel f valid test t) (snd fc)
  else match snd fc with [] => [] | i0 :: _ => map (fun i => QOut i (p_zero T (q_pix valid i0))) (snd fc) end.
Definition q_thread (f : filter) (valid test : pimage) (faces : list face) (t : nat) : list qact :=
  flat_map (q_face f valid test t) faces.
Definition q_programs (f : filter) (valid test : pimage) (threads : list (list face)) : list (list qact) :=
  map (fun p => q_thread f valid test (snd p) (fst p)) (combine (seq 0 (length threads)) threads).
(** txx 98-112 *)
Definition q_before : qmem := QMem (fun _ => None) (fun _ => zero64) (fun _ => 0) (fun _ => zero64) (fun _ => 0).
Record qresult := QResult { q_image : index -> option (p_out T); q_total : spec_float; q_number : Z; q_mean : spec_float }.
(** txx 216-236 *)
Definition q_after (n : nat) (np : Z) (s : qmem) : qresult :=
  let total := fold_left add64 (map (q_sum s) (seq 0 n)) zero64 in
  QResult (q_out s) total (fold_left Z.add (map (q_count s) (seq 0 n)) 0) (div64 total (of_int64 np)).
(** a run with the given split of the region and the given schedule *)
Definition q_run (f : filter) (valid test : pimage) (threads : list (list face)) (schedule : list qact) (r : res qresult) : Prop :=
  interleaving (q_programs f valid test threads) schedule /\
  r = if existsb is_bad schedule then UB
      else Ok (q_after (length threads) (Z.of_nat (length (pixels (shape valid)))) (q_exec q_before schedule)).

(** itktfRegression.h 249-307; [diff]: running the filter and asking for the number of pixels *)
Definition q_CompareImage (diff : filter -> pimage -> pimage -> res Z) (test baseline : pimage)
  (intensity : spec_float) (numberOfPixels radius : Z) (region : list Z * list Z) : res Z :=
  let f := Filter radius intensity false in
  status <-- (if negb (default_region region) then
                if inside (q_start test) (q_size test) (q_start baseline) (q_size baseline)
                then s <-- diff f (PImage (q_start test) (q_size test) (q_pix baseline)) test ;; Ok (Some s)
                else Throw ExnRuntime
              else if negb (eqzs (q_size baseline) (q_size test)) then Ok None
              else if eqzs (q_start baseline) (q_start test) then s <-- diff f baseline test ;; Ok (Some s)
              else Throw ExnRuntime) ;;
  Ok (match status with
      | None => ULONG_MAX
      | Some status => if status <? numberOfPixels then 0 else status - numberOfPixels
      end).
End Filter.

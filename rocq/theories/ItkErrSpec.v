(** What the ITK driver says on the standard error, spelled out (specification for C84).  [msg]: ErrModel; [itkerr], the texts of ITK: ItkErrModel. *)
From Coq Require Import Floats.SpecFloat.
From Verif Require Import Base Str PathModel MeasModel RegModel ArgFacts RegSpec ImgModel ItkModel ItkSpec ItkRunProps ErrModel ErrSpec ItkErrModel.

(** * One picture of a differing image *)
(** the place can be written: a file one may write, or none where one can be made *)
Definition place (e : env) (f : store) (path : str) : Prop :=
  exists k, slot e path = Some k /\ ((exists r b, f k = Some (FFile r true b)) \/ f k = None /\ e_cancreate e (cstr path) = true).
Definition line_of (text : option str) : str := match text with Some t => t ++ [nl] | None => [] end.
Inductive rescaling (r : itkerr) (im : image) (path : str) : list msg -> Prop :=
| rescaled : r_rescale r im = None -> rescaling r im path []
| not_rescaled text : r_rescale r im = Some text -> rescaling r im path [Written ($"Error during rescale of " ++ path ++ [nl] ++ line_of text)].
Inductive storing (r : itkerr) (ie : ienv) (f : store) (im : image) (path : str) : list msg -> Prop :=
| picture_stored : i_png ie im <> None -> place (i_env ie) f path -> storing r ie f im path []
| picture_lost : i_png ie im = None \/ ~ place (i_env ie) f path ->
    storing r ie f im path [Written ($"Error during exctraction and writing of " ++ path ++ [nl] ++ line_of (r_write r f im path))].
Definition drawing (r : itkerr) (ie : ienv) (f : store) (im : image) (path : str) (l : list msg) : Prop :=
  exists l1 l2, rescaling r im path l1 /\ storing r ie f im path l2 /\ l = l1 ++ l2.

(** * One image measurement, with the partner it has in the baseline, and the files of that time *)
Inductive image_remarks (r : itkerr) (ie : ienv) (dirs : list str) (tol : tolerances) (f : store) (file name : str) : option meas -> list msg -> Prop :=
| ir_alone p : (forall b, p = Some b -> mname b <> name \/ mtype b <> itk_type) -> image_remarks r ie dirs tol f file name p []
| ir_baseline b g : mname b = name -> mtype b = itk_type -> found (i_env ie) dirs f b (MF (Mf name true itk_type file)) = MF g ->
    read_image ie f (ffile g) = None ->
    image_remarks r ie dirs tol f file name (Some b) [Written ($"Exception detected while reading " ++ cstr (ffile g) ++ $" : " ++ r_read r f (ffile g))]
| ir_test b g bi : mname b = name -> mtype b = itk_type -> found (i_env ie) dirs f b (MF (Mf name true itk_type file)) = MF g ->
    read_image ie f (ffile g) = Some bi -> read_image ie f file = None ->
    image_remarks r ie dirs tol f file name (Some b) [Written ($"Exception detected while reading " ++ cstr file ++ $" : " ++ r_read r f file ++ [nl])]
| ir_read b g bi ti : mname b = name -> mtype b = itk_type -> found (i_env ie) dirs f b (MF (Mf name true itk_type file)) = MF g ->
    read_image ie f (ffile g) = Some bi -> read_image ie f file = Some ti ->
    (image_verdict (i_diff ie) (read_image ie f) tol g (Mf name true itk_type file) = Ok false -> forall hb ht, read_info ie f (ffile g) = Some hb -> read_info ie f file = Some ht -> h_size hb <> h_size ht) ->
    image_remarks r ie dirs tol f file name (Some b) []
| ir_pictures b g bi ti hb ht p1 p2 p3 l1 l2 l3 : mname b = name -> mtype b = itk_type -> found (i_env ie) dirs f b (MF (Mf name true itk_type file)) = MF g ->
    read_image ie f (ffile g) = Some bi -> read_image ie f file = Some ti ->
    image_verdict (i_diff ie) (read_image ie f) tol g (Mf name true itk_type file) = Ok false ->
    read_info ie f (ffile g) = Some hb -> read_info ie f file = Some ht -> h_size hb = h_size ht ->
    Append (i_output ie) (Tail file ++ $".diff.png") = Ok p1 -> Append (i_output ie) (Tail file ++ $".base.png") = Ok p2 -> Append (i_output ie) (Tail file ++ $".test.png") = Ok p3 ->
    let diff := i_diff_image ie (Filter (t_radius tol) (t_intensity tol) false) (g_image bi) (g_image ti) in
    let f1 := with_picture ie diff p1 f in let f2 := with_picture ie (g_image bi) p2 f1 in
    drawing r ie f diff p1 l1 -> drawing r ie f1 (g_image bi) p2 l2 -> drawing r ie f2 (g_image ti) p3 l3 ->
    image_remarks r ie dirs tol f file name (Some b) (l1 ++ l2 ++ l3).
(** one measurement: C77 for those of the base class *)
Definition iremarks_on (r : itkerr) (ie : ienv) (dirs : list str) (partner : option meas) (mo : imoment) (l : list msg) : Prop :=
  match mo_call mo with
  | BaseCall c => remarks_on (r_dir r) (i_env ie) dirs partner (c, mo_rel mo, mo_files mo) l
  | ImageCall file name => image_remarks r ie dirs (mo_tol mo) (mo_files mo) file name partner l
  end.
Inductive iremarks (r : itkerr) (ie : ienv) (dirs : list str) : list meas -> list imoment -> list msg -> Prop :=
| iremarks_end bs : iremarks r ie dirs bs [] []
| iremarks_next bs mo ms l ls : iremarks_on r ie dirs (hd_error bs) mo l -> iremarks r ie dirs (tl bs) ms ls -> iremarks r ie dirs bs (mo :: ms) (l ++ ls).

(** * The arguments of itktfImageCompare *)
(** what is said about the argument that ends it *)
Inductive objection (ie : ienv) : list str -> str -> Prop :=
| no_double : objection ie [$"--intensityTolerance"] ($"Expected double to follow --intensityTolerance" ++ [nl])
| wrong_double v l : i_double ie v = None -> objection ie ($"--intensityTolerance" :: v :: l) ($"Expected double to follow --intensityTolerance but got " ++ [chr 34] ++ v ++ [chr 34] ++ [nl])
| no_uint a : a = $"--numberOfPixelTolerance" \/ a = $"--radiusTolerance" -> objection ie [a] ($"Expected unsigned int to follow " ++ a ++ [nl])
| wrong_uint a v l : a = $"--numberOfPixelTolerance" \/ a = $"--radiusTolerance" -> scan_uint v = None ->
    objection ie (a :: v :: l) ($"Expected unsigned int to follow " ++ a ++ $" but got " ++ [chr 34] ++ v ++ [chr 34] ++ [nl])
| not_known a l : (exists t, a = "-"%char :: t) -> a <> $"--intensityTolerance" -> a <> $"--numberOfPixelTolerance" -> a <> $"--radiusTolerance" ->
    objection ie (a :: l) ($"Unknown argument: " ++ [chr 34] ++ a ++ [chr 34] ++ [nl]).

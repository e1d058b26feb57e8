(** Property C55: tests on the ITK driver. *)
From Coq Require Import Floats.SpecFloat.
From Verif Require Import Base Str Dec PathModel PathFacts MeasModel MeasFacts VisitModel XmlText XmlModel ReadModel ReadFacts ReadBack ReadProps RegModel ArgFacts ArgProps RegSpec RegFacts RegStart RegMain RegProps RegProps2 ImgModel ItkModel ItkSpec ItkSim ItkRun ItkMain.

(** * Runs *)
(** A comparing run.  The measurements [ms] and the values they return [rs] are those of the test run from the state after the start;
    each is compared with the baseline measurement at its position: images as in C49 with the image tolerances in force, all else as
    on the base class.  The last call may have raised an exception instead of returning: an image that differs but cannot be
    reported counts as a mismatch before that. *)
Theorem C55_compare_status : forall ie f test a0 opts rest inf s' z, let e := i_env ie in let argv := a0 :: flat opts ++ rest in
  command_line e f opts rest -> input_of opts = Some inf -> itk_Main ie test argv (new_itk_test ie f) = (s', Ok z) ->
  let dirs := dirs_of opts ++ [i_baselines ie] in
  match started e f (output_of e f opts) dirs inf with
  | Some (o, f1, baseline) =>
      exists ms rs ns x out extra,
        iunfolds ie argv o default_tol no_tolerance 0 f1 (expected_of opts) (test (a0 :: rest)) ms rs ns x out /\
        rs = iresults ie dirs baseline (firstn (length rs) ms) /\
        match nth_error ms (length rs) with
        | Some mo => exists b i, out = Throw i /\ nth_error baseline (length rs) = Some b /\ raises ie dirs b mo i extra
        | None => extra = 0%Z
        end /\
        z = status out x (imismatches ie dirs baseline (firstn (length rs) ms) + extra)
  | None => if (-1 =? expected_of opts)%Z then (0 <= z <= 1)%Z else z = (-1)%Z
  end.
Proof. intros ie f test a0 opts rest inf s' z. exact (compare_in ie f [i_baselines ie] test a0 opts rest inf s' z). Qed.
Print Assumptions C55_compare_status.
(** The document a test records: header, its measurements, the footer unless it raised an exception.  What the test says goes to
    standard output: if that is also where the measurements go, it is mixed with them. *)
Theorem C55_recorded_document : forall ie f test a0 opts rest o f1, let e := i_env ie in let argv := a0 :: flat opts ++ rest in let p := test (a0 :: rest) in
  command_line e f opts rest -> input_of opts = None -> opened e f (output_of e f opts) = Some (o, f1) -> ileaves_alone e argv 0 o p ->
  exists s', itk_Main ie test argv (new_itk_test ie f) = (s', Ok (record_status (iends (e_sc e) argv 0 p) (iexpects (e_sc e) argv 0 (expected_of opts) p))) /\
    let foot := match iends (e_sc e) argv 0 p with Ok _ => footer | _ => [] end in
    match o with
    | Some _ => written o s' = header e ++ concat (map (fun c => print_of (imeas ie false c) ++ [nl]) (made (script (e_sc e) argv 0 p))) ++ foot /\
                s_stdout s' = said (script (e_sc e) argv 0 p)
    | None => s_stdout s' = header e ++ concat (map (fun a => match a with Made c => print_of (imeas ie false c) ++ [nl] | Said t => t end)
                                                 (script (e_sc e) argv 0 p)) ++ foot
    end.
Proof.
  intros ie f test a0 opts rest o f1 e argv p Hc Hi Ho Hl.
  destruct (record_in ie f [i_baselines ie] test a0 opts rest o f1 Hc Hi Ho Hl) as (s' & M & W & S). fold e argv p in M, W, S.
  exists s'. split; [exact M|]. cbv zeta.
  destruct o as [k|].
  - split; [|apply S; discriminate]. change (written (Some k) s') with (written_to (Some k) s'). rewrite W. do 2 f_equal.
    clear. generalize (script (e_sc e) argv 0 p). intros l. induction l as [|[t|c] l IH]; [reflexivity|exact IH|]. cbn. f_equal. exact IH.
  - change (s_stdout s') with (written_to None s'). rewrite W. do 2 f_equal. rewrite flat_map_concat_map. f_equal.
Qed.
Print Assumptions C55_recorded_document.
(** A test without image measurements behaves as on the base class with the directory of the baselines appended to the search
    path, apart from standard output. *)
Theorem C55_plain_tests : forall ie f test test' argv, (forall args, plain (e_sc (i_env ie)) argv 0 (test args) (test' args)) ->
  let '(s1, r1) := itk_Main ie test argv (new_itk_test ie f) in
  let '(s2, r2) := Main (i_env ie) test' argv (set_path (new_test f) [i_baselines ie]) in
  r1 = r2 /\ s1 = set_stdout s2 (s_stdout s1).
Proof.
  intros ie f test test' argv H. rewrite Main_is_with.
  assert (S : simM (Main_with (i_env ie) (fun args => irun ie argv (test args) no_tolerance 0%Z) argv) (Main_with (i_env ie) (fun args => run (i_env ie) (test' args)) argv)).
  { apply sim_Main. intros args. apply sim_run. apply H. }
  destruct (S _ _ (sim_refl (new_itk_test ie f))) as [S1 R]. unfold itk_Main. change (set_path (new_test f) [i_baselines ie]) with (new_itk_test ie f).
  destruct (Main_with (i_env ie) (fun args => irun ie argv (test args) no_tolerance 0%Z) argv (new_itk_test ie f)) as [s1 r1].
  destruct (Main_with (i_env ie) (fun args => run (i_env ie) (test' args)) argv (new_itk_test ie f)) as [s2 r2]. cbn [fst snd] in *. split; [exact R|exact S1].
Qed.
Print Assumptions C55_plain_tests.

(** * The report of a differing image *)
Definition print_line (m : meas) : str := print_of m ++ [nl].
(** the two lines for an attribute that differs *)
Definition pair_lines (same : bool) (label n : str) (b t : str) : str :=
  if same then [] else print_line (status_text ($"Baseline " ++ label ++ n) b) ++ print_line (status_text ($"Test " ++ label ++ n) t).
Definition attribute_lines (ie : ienv) (n : str) (b t : info) : str :=
  pair_lines (eqfs (h_spacing b) (h_spacing t)) ($"Spacing ") n (i_show_vector ie (h_spacing b)) (i_show_vector ie (h_spacing t)) ++
  pair_lines (eqfs (h_origin b) (h_origin t)) ($"Origin ") n (i_show_vector ie (h_origin b)) (i_show_vector ie (h_origin t)) ++
  pair_lines (eqs (h_pixel b) (h_pixel t)) ($"PixelType ") n (h_pixel b) (h_pixel t) ++
  pair_lines (eqs (h_component b) (h_component t)) ($"ComponentType ") n (h_component b) (h_component t) ++
  (if (h_components b =? h_components t)%Z then [] else
     print_line (status_int ($"Baseline Number Of Components " ++ n) (h_components b)) ++ print_line (status_int ($"Test Number Of Components " ++ n) (h_components t))).
(** a picture: what ITK prints of the slice, and the file measurement *)
Definition picture_lines (ie : ienv) (n : str) (im : image) (p : str) : str :=
  i_show_slice ie im ++ print_line (MF (Mf ($"Difference " ++ n) true ($"image/png") p)).
Definition with_picture (ie : ienv) (im : image) (p : str) (f : store) : store :=
  match i_png ie im with Some b => write_file (i_env ie) f p b | None => f end.
Definition error_line (ie : ienv) (n : str) (count : Z) : str :=
  print_line (MD (double_SetValue (e_io (i_env ie)) (SetAttributeName (new_dm CDouble) ($"ImageError " ++ n)) (of_int64 count))).
Definition comparing_line (b t : str) : str :=
  $"Comparing test image: " ++ quote ++ cstr t ++ quote ++ $" to baseline image: " ++ quote ++ cstr b ++ quote ++ [nl].
(** an image measurement that finds the baseline image file [g] and differs; [s0]: the state with the mismatch counted and
    the baseline measurement used up *)
Definition differs (ie : ienv) (tol : tolerances) (file name : str) (s : rst) (g : mf) (s0 : rst) : Prop :=
  exists k b rest, s_is s = Some k /\ s_input s = b :: rest /\ mname b = name /\ mtype b = itk_type /\
    found (i_env ie) (s_path s) (s_files s) b (MF (Mf name true itk_type file)) = MF g /\
    image_verdict (i_diff ie) (read_image ie (s_files s)) tol g (Mf name true itk_type file) = Ok false /\
    s0 = set_unmatched (set_input s rest) (s_unmatched s + 1).

Lemma say_eq t s : say t s = (set_stdout s (s_stdout s ++ t), Ok tt). Proof. reflexivity. Qed.
Lemma say_meas_eq m s : say_meas m s = (set_stdout s (s_stdout s ++ print_line m), Ok tt).
Proof. unfold say_meas, mbind, mlift. rewrite print_print_of. reflexivity. Qed.
Lemma report_eq same a b s : report same a b s = (set_stdout s (s_stdout s ++ if same then [] else print_line a ++ print_line b), Ok tt).
Proof.
  unfold report. destruct same; [rewrite app_nil_r; destruct s; reflexivity|]. unfold mbind. rewrite say_meas_eq. rewrite say_meas_eq.
  cbn [s_stdout set_stdout]. rewrite <- app_assoc. reflexivity.
Qed.
Lemma thing_eq ie im p n s : ImageThing ie im p n s = (set_files (set_stdout s (s_stdout s ++ picture_lines ie n im p)) (with_picture ie im p (s_files s)), Ok tt).
Proof.
  unfold ImageThing, with_picture, picture_lines. unfold mbind at 1. rewrite say_eq. unfold mbind.
  destruct (i_png ie im) as [b|]; unfold modify, mret; rewrite say_meas_eq; cbn [s_stdout set_stdout set_files s_files]; rewrite <- app_assoc; destruct s; reflexivity.
Qed.
Lemma differing_call ie tol file name s g s0 : differs ie tol file name s g s0 ->
  MeasurementInsightFileImage ie tol file name s =
    (_ <- DifferenceTestImage ie tol g (Mf name true itk_type file) ;; mret 0%Z) (set_stdout s0 (s_stdout s ++ comparing_line (ffile g) file)).
Proof.
  intros (k & b & rest & Hi & Hin & Hn & Ht & Hf & Hv & ->). unfold MeasurementInsightFileImage, GetCompareMode. unfold mbind at 1.
  rewrite (compare_mode_open (i_env ie) s k Hi). cbv iota. set (t := Mf name true itk_type file) in *. change (file_meas true itk_type file name) with (MF t).
  unfold itk_CompareMeasurement. unfold mbind at 1. unfold gets at 1. rewrite Hin. cbv iota. unfold mbind at 1. unfold modify at 1. cbv iota.
  change (mname (MF t)) with name. change (mtype (MF t)) with itk_type. rewrite Hn, Ht, !eqs_refl. cbn [andb].
  unfold mbind at 1. rewrite locate_found. cbv iota. change (s_path (set_input s rest)) with (s_path s). change (s_files (set_input s rest)) with (s_files s). rewrite Hf.
  unfold mbind at 1. unfold gets at 1. rewrite visitor_plain. cbv iota.
  unfold mbind at 1. unfold itk_Compare. change (eqs (ftype t) itk_type) with true. cbv iota. unfold mbind at 1. rewrite say_eq.
  unfold mbind at 1. unfold gets at 1. cbn [s_files set_stdout set_input]. rewrite Hv. unfold mbind, mlift, mret. cbv iota.
  unfold itk_Difference. change (eqs (ftype t) itk_type) with true. cbv iota. unfold mbind, modify. cbv iota. reflexivity.
Qed.

(** Different sizes: two lines on standard output, no pictures; the call returns 0. *)
Theorem C55_report_of_sizes : forall ie tol file name s g s0 t b, differs ie tol file name s g s0 ->
  read_info ie (s_files s) file = Some t -> read_info ie (s_files s) (ffile g) = Some b -> h_size b <> h_size t ->
  MeasurementInsightFileImage ie tol file name s =
   (set_stdout s0 (s_stdout s ++ comparing_line (ffile g) file ++
      print_line (status_text ($"Baseline Size " ++ name) (i_show_size ie (h_size b))) ++
      print_line (status_text ($"Test ImageSize " ++ name) (i_show_size ie (h_size t)))), Ok 0%Z).
Proof.
  intros ie tol file name s g s0 t b D Ht Hb Hs. rewrite (differing_call _ _ _ _ _ _ _ D).
  destruct D as (k & b0 & rest & _ & _ & _ & _ & _ & _ & ->). unfold mbind at 1. unfold DifferenceTestImage. unfold mbind at 1. unfold gets at 1. unfold mbind at 1. unfold gets at 1.
  cbn [s_files set_stdout set_unmatched set_input ffile fname]. rewrite Ht, Hb. unfold eqzs. destruct (list_eq_dec Z.eq_dec (h_size b) (h_size t)) as [E|_]; [contradiction|]. cbn [negb].
  rewrite report_eq. unfold mret. cbn [s_stdout set_stdout]. rewrite <- !app_assoc. reflexivity.
Qed.
Print Assumptions C55_report_of_sizes.
(** Equal sizes: a pair of lines for each attribute that differs, the number of differing pixels, and three pictures. *)
Theorem C55_report_of_pixels : forall ie tol file name s g s0 t b ti bi p1 p2 p3, differs ie tol file name s g s0 ->
  read_info ie (s_files s) file = Some t -> read_info ie (s_files s) (ffile g) = Some b -> h_size b = h_size t ->
  read_image ie (s_files s) file = Some ti -> read_image ie (s_files s) (ffile g) = Some bi ->
  Append (i_output ie) (Tail file ++ $".diff.png") = Ok p1 -> Append (i_output ie) (Tail file ++ $".base.png") = Ok p2 ->
  Append (i_output ie) (Tail file ++ $".test.png") = Ok p3 ->
  let filter := Filter (t_radius tol) (t_intensity tol) false in
  let diff := i_diff_image ie filter (g_image bi) (g_image ti) in
  MeasurementInsightFileImage ie tol file name s =
   (set_files (set_stdout s0 (s_stdout s ++ comparing_line (ffile g) file ++ attribute_lines ie name b t ++
      error_line ie name (i_diff ie filter (g_image bi) (g_image ti)) ++
      picture_lines ie name diff p1 ++ picture_lines ie name (g_image bi) p2 ++ picture_lines ie name (g_image ti) p3))
     (with_picture ie (g_image ti) p3 (with_picture ie (g_image bi) p2 (with_picture ie diff p1 (s_files s)))), Ok 0%Z).
Proof.
  intros ie tol file name s g s0 t b ti bi p1 p2 p3 D Ht Hb Hs Hti Hbi H1 H2 H3 filter diff. rewrite (differing_call _ _ _ _ _ _ _ D).
  destruct D as (k & b0 & rest & _ & _ & _ & _ & _ & _ & ->). unfold mbind at 1. unfold DifferenceTestImage. unfold mbind at 1. unfold gets at 1. unfold mbind at 1. unfold gets at 1.
  cbn [s_files set_stdout set_unmatched set_input ffile fname]. rewrite Ht, Hb. unfold eqzs. destruct (list_eq_dec Z.eq_dec (h_size b) (h_size t)) as [_|N]; [|contradiction]. cbn [negb].
  unfold attribute_lines, pair_lines.
  unfold mbind at 1. rewrite report_eq. unfold mbind at 1. rewrite report_eq. unfold mbind at 1. rewrite report_eq.
  unfold mbind at 1. rewrite report_eq. unfold mbind at 1. rewrite report_eq.
  unfold mbind at 1. unfold gets at 1. unfold mbind at 1. unfold gets at 1. cbn [s_files set_stdout set_unmatched set_input s_stdout]. rewrite Hti, Hbi.
  fold filter. unfold mbind at 1. rewrite say_meas_eq. rewrite H1, H2, H3. unfold mbind, mlift. rewrite !thing_eq. unfold mret.
  cbn [s_files set_stdout set_unmatched set_input s_stdout set_files]. fold diff. unfold error_line. rewrite <- !app_assoc. reflexivity.
Qed.
Print Assumptions C55_report_of_pixels.
(** An image that cannot be read: the mismatch is counted, then an exception. *)
Theorem C55_unreadable_image : forall ie tol file name s g s0, differs ie tol file name s g s0 ->
  read_info ie (s_files s) file = None \/ read_info ie (s_files s) (ffile g) = None ->
  MeasurementInsightFileImage ie tol file name s = (set_stdout s0 (s_stdout s ++ comparing_line (ffile g) file), Throw ExnRuntime).
Proof.
  intros ie tol file name s g s0 D H. rewrite (differing_call _ _ _ _ _ _ _ D).
  destruct D as (k & b0 & rest & _ & _ & _ & _ & _ & _ & ->). unfold mbind at 1. unfold DifferenceTestImage. unfold mbind at 1. unfold gets at 1. unfold mbind at 1. unfold gets at 1.
  cbn [s_files set_stdout set_unmatched set_input ffile fname]. destruct H as [H|H]; rewrite H; [|destruct (read_info _ _ file)]; reflexivity.
Qed.
Print Assumptions C55_unreadable_image.

(** The baseline is read from the directories of the search path, which is never empty here: a baseline that is only in the current
    directory is accepted on the command line but not read. *)
Theorem C55_baseline_must_be_in_directory : forall ie f test a0 opts rest inf o f1 s' z, let e := i_env ie in
  command_line e f opts rest -> input_of opts = Some inf -> opened e f (output_of e f opts) = Some (o, f1) ->
  (forall d r, In d (dirs_of opts ++ [i_baselines ie]) -> Append d inf = Ok r -> node_at e f1 r = None) ->
  itk_Main ie test (a0 :: flat opts ++ rest) (new_itk_test ie f) = (s', Ok z) ->
  is_file e f inf = true /\ if (-1 =? expected_of opts)%Z then (0 <= z <= 1)%Z else z = (-1)%Z.
Proof.
  intros ie f test a0 opts rest inf o f1 s' z e Hc Hi Ho Hnone M. split.
  - destruct Hc as [Hc _]. unfold input_of in Hi. clear -Hc Hi.
    assert (G : forall d, last_value (map Some (values ($"-I") opts)) d = Some inf -> d = Some inf \/ is_file e f inf = true).
    { revert Hc. clear. induction 1 as [|[k v] l Hk _ IH]; intros d; [cbn; auto|]. unfold values in *. cbn [List.filter fst].
      destruct (eqs_spec k ($"-I")) as [->|N]; [|apply IH]. cbn [map last_value snd]. intros E. destruct (IH _ E) as [E'|E']; [|auto].
      injection E' as ->. destruct Hk as (_ & Hk & _). destruct (Hk eq_refl) as [F _]. auto. }
    destruct (G None Hi) as [E|E]; [discriminate|exact E].
  - pose proof (input_of_nonempty e f opts inf (proj1 Hc) Hi) as Hn.
    assert (D : dirs_of opts ++ [i_baselines ie] <> []) by (destruct (dirs_of opts); discriminate).
    destruct (search_none e f1 inf _ Hnone D Hn) as (c & p & S & N).
    assert (St : started e f (output_of e f opts) (dirs_of opts ++ [i_baselines ie]) inf = None).
    { unfold started. rewrite Ho. unfold baseline_path. rewrite S. unfold contents. rewrite N. reflexivity. }
    pose proof (C55_compare_status ie f test a0 opts rest inf s' z Hc Hi M) as C. cbv zeta in C. fold e in C. rewrite St in C. exact C.
Qed.
Print Assumptions C55_baseline_must_be_in_directory.

(** * Example: images of one pixel, whose file is one byte *)
Definition ex_pixel (b : str) : spec_float := of_int64 (match b with c :: _ => Z.of_nat (code c) | [] => 0 end)%Z.
Definition ex_image (b : str) : image := Image [0; 0]%Z [1; 1]%Z (fun _ => ex_pixel b).
Definition ex_itk : ienv := IEnv ex_env
  (fun _ b => match b with [] => None | _ => Some (Info [1; 1]%Z [of_int64 1; of_int64 1] [of_int64 0; of_int64 0] ($"scalar") ($"double") 1%Z) end)
  (fun _ b => match b with [] => None | _ => Some (ImageFile (ex_image b) [of_int64 1; of_int64 1] [of_int64 0; of_int64 0]) end)
  (fun _ v t => if SFeqb (ipix v [0; 0]%Z) (ipix t [0; 0]%Z) then 0 else 1)%Z (fun _ _ t => t) (fun _ => $"[1, 1]") (fun _ => $"[0, 0]") (fun _ => $"slice")
  (fun im => Some (match ipix im [0; 0]%Z with S754_finite _ m _ => print_int (Zpos m) | _ => [] end)) (fun _ => None) ($"out") ($"base").
Definition ex_xml : str :=
  $"<output><DartMeasurementFile name=" ++ quote ++ $"one" ++ quote ++ $" type=" ++ quote ++ $"image/itk" ++ quote ++ $">x.mha</DartMeasurementFile>" ++
  $"<DartMeasurementFile name=" ++ quote ++ $"two" ++ quote ++ $" type=" ++ quote ++ $"image/itk" ++ quote ++ $">x.mha</DartMeasurementFile></output>".
Definition ex_image_files : store := fun k =>
  if eqs k ($"b.xml") then Some (FFile true true ex_xml) else if eqs k ($"base/b.xml") then Some (FFile true true ex_xml) else if eqs k ($"base/x.mha") then Some (FFile true true ($"a")) else
  if eqs k ($"one/x.mha") then Some (FFile true true ($"c")) else if eqs k ($"two/x.mha") then Some (FFile true true ($"e")) else
  if eqs k ($"same/x.mha") then Some (FFile true true ($"a")) else None.
Definition two_images (p q : str) : list str -> iprog := fun _ => IImage p ($"one") (fun _ => IImage q ($"two") (fun _ => IReturn 0%Z)).
Definition outcome {A} (x : rst * res A) : res A := snd x.
Example C55_example :
  outcome (itk_Main ex_itk (two_images ($"same/x.mha") ($"same/x.mha")) [$"prog"; $"-I"; $"b.xml"] (new_itk_test ex_itk ex_image_files)) = Ok 0%Z /\
  outcome (itk_Main ex_itk (two_images ($"same/x.mha") ($"two/x.mha")) [$"prog"; $"-I"; $"b.xml"] (new_itk_test ex_itk ex_image_files)) = Ok 1%Z /\
  outcome (itk_Main ex_itk (two_images ($"none/x.mha") ($"same/x.mha")) [$"prog"; $"-I"; $"b.xml"] (new_itk_test ex_itk ex_image_files)) = Ok (-1)%Z.
Proof. repeat split; vm_compute; reflexivity. Qed.

(** The pictures are named after the last component of the measured file: those of one image replace those of another. *)
Theorem C55_pictures_kept_refuted : ~ (forall ie f test argv s' z, itk_Main ie test argv (new_itk_test ie f) = (s', Ok z) ->
  forall p q n m t, test = (fun _ => IImage p n (fun _ => IImage q m (fun _ => IReturn 0%Z))) -> p <> q -> z = 2%Z ->
  read_image ie f p = Some t -> forall b out, i_png ie (g_image t) = Some b -> Append (i_output ie) (Tail p ++ $".test.png") = Ok out ->
  contents (i_env ie) (s_files s') out = Some b).
Proof.
  intros H.
  remember (itk_Main ex_itk (two_images ($"one/x.mha") ($"two/x.mha")) [$"prog"; $"-I"; $"b.xml"] (new_itk_test ex_itk ex_image_files)) as x eqn:X.
  assert (E : outcome x = Ok 2%Z) by (subst x; vm_compute; reflexivity).
  assert (B : contents ex_env (s_files (fst x)) ($"out/x.mha.test.png") = i_png ex_itk (ex_image ($"e"))) by (subst x; vm_compute; reflexivity).
  destruct x as [s' r]. unfold outcome in E. cbn [snd] in E. subst r. cbn [fst] in B. symmetry in X.
  destruct (i_png ex_itk (ex_image ($"c"))) as [b|] eqn:P; [|vm_compute in P; discriminate P].
  assert (C : contents ex_env (s_files s') ($"out/x.mha.test.png") = Some b).
  { apply (H ex_itk ex_image_files _ _ s' 2%Z X ($"one/x.mha") ($"two/x.mha") ($"one") ($"two")
             (ImageFile (ex_image ($"c")) [of_int64 1; of_int64 1] [of_int64 0; of_int64 0])); try reflexivity; [discriminate|exact P]. }
  rewrite C, <- P in B. vm_compute in B. discriminate B.
Qed.
Print Assumptions C55_pictures_kept_refuted.
(** A baseline in the current directory only. *)
Example C55_example_directory : let f := (fun k => if eqs k ($"base/b.xml") then None else ex_image_files k) in
  outcome (itk_Main ex_itk (two_images ($"same/x.mha") ($"same/x.mha")) [$"prog"; $"-I"; $"b.xml"] (new_itk_test ex_itk f)) = Ok (-1)%Z.
Proof. vm_compute; reflexivity. Qed.
(** A call whose image differs. *)
Example C55_example_differs : exists g s0,
  differs ex_itk no_tolerance ($"one/x.mha") ($"one") 
    (set_input (set_is (new_itk_test ex_itk ex_image_files) (Some ($"b.xml"))) [MF (Mf ($"one") true itk_type ($"x.mha"))]) g s0 /\ ffile g = $"base/x.mha".
Proof. do 2 eexists. split; [do 3 eexists; repeat split; vm_compute; reflexivity|vm_compute; reflexivity]. Qed.

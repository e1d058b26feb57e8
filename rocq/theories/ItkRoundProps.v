(** Property C57: recording and then comparing, with images. *)
From Coq Require Import Floats.SpecFloat.
From Verif Require Import Base Str Dec PathModel PathFacts MeasModel MeasFacts MeasFacts2 MeasProps XmlText XmlModel ReadModel ReadFacts ReadBack ReadProps RegModel ArgFacts ArgProps RegSpec RegFacts RegStart RegMain RegProps RegProps2 RegRound ImgModel ImgSpec ImgPixel ImgBox ImgMore ImgProps ItkModel ItkSpec ItkSim ItkRun ItkMain ItkRunProps ItkRound.
Local Open Scope Z_scope.

(** The test records to a file; then it is run again, perhaps elsewhere and with other options, against that document.  If it retraces
    its steps and each image agrees with the file of the recorded name in the directories of the second run, the status is that of the
    recording run; one line per image comparison is printed besides what the test prints, and no file changes except
    those the test writes. *)
Theorem C57_record_then_compare : forall ie f test a0 rest opts k f1 s1 z v ie' f' opts' inf o' f2 f3 text,
  let e := i_env ie in let argv := a0 :: flat opts ++ rest in let p := test (a0 :: rest) in
  let e' := i_env ie' in let argv' := a0 :: flat opts' ++ rest in let dirs := dirs_of opts' ++ [i_baselines ie'] in
  (* the recording run *)
  command_line e f opts rest -> input_of opts = None -> opened e f (output_of e f opts) = Some (Some k, f1) ->
  ileaves_alone e argv 0 (Some k) p -> iends (e_sc e) argv 0 p = Ok v ->
  Forall storable (map (imeas ie false) (made (script (e_sc e) argv 0 p))) -> comment_safe (e_host e) -> comment_safe (e_time e) ->
  itk_Main ie test argv (new_itk_test ie f) = (s1, Ok z) ->
  (* the comparing run *)
  itk_library ie' -> e_io e' = e_io e ->
  command_line e' f' opts' rest -> input_of opts' = Some inf -> expected_of opts' = expected_of opts ->
  opened e' f' (output_of e' f' opts') = Some (o', f2) ->
  contents e' f2 (baseline_path e' f2 dirs inf) = Some (written (Some k) s1) ->
  retraces ie' dirs (e_sc e) argv argv' 0 default_tol no_tolerance f2 p p f3 text ->
  exists s2, itk_Main ie' test argv' (new_itk_test ie' f') = (s2, Ok z) /\ s_stdout s2 = text /\ s_files s2 = f3.
Proof.
  intros ie f test a0 rest opts k f1 s1 z v ie' f' opts' inf o' f2 f3 text e argv p e' argv' dirs Hc Hi Ho Hl He Hs Hh Ht Hm L Hio Hc' Hi' Hx Ho' Hb Hr.
  destruct (C55_recorded_document ie f test a0 opts rest (Some k) f1 Hc Hi Ho Hl) as (s1' & M & W & _). fold e argv p in M, W.
  assert (E1 : (s1', Ok (record_status (iends (e_sc e) argv 0 p) (iexpects (e_sc e) argv 0 (expected_of opts) p))) = (s1, Ok z)) by congruence.
  injection E1 as -> Ez. rewrite He in W, Ez. cbn [record_status] in Ez. rewrite W in Hb.
  assert (EL : concat (map (fun c => print_of (imeas ie false c) ++ [nl]) (made (script (e_sc e) argv 0 p))) = lines_of (map (imeas ie false) (made (script (e_sc e) argv 0 p)))).
  { unfold lines_of. generalize (made (script (e_sc e) argv 0 p)). intros l. induction l as [|c l IH]; [reflexivity|]. cbn [map concat flat_map]. rewrite IH. reflexivity. }
  rewrite EL in Hb. rewrite <- Ez, <- Hx.
  eapply (retrace_main ie' ie f' [i_baselines ie'] test a0 opts' rest inf o' f2 _ p (e_sc e) argv f3 text v L (eq_sym Hio) Hc' Hi' Ho' Hb); [|exact Hr|exact He].
  apply read_recorded; assumption.
Qed.
Print Assumptions C57_record_then_compare.

(** * Tests that write their images under generated names *)
(** a test that makes images [l] (file contents, measurement name) one after the other *)
Fixpoint make_images (l : list (str * str)) : iprog :=
  match l with [] => IReturn 0 | (bytes, name) :: l' => InsightImage bytes name (fun _ => make_images l') end.
(** the image of a file has numbers, and spacing and origin without NaN *)
Definition ordinary (g : imagefile) : Prop := doubles (g_image g) /\ ~ In S754_nan (g_spacing g) /\ ~ In S754_nan (g_origin g).
(** The file [n]-th recorded is in the first search directory with the contents the second run produces, and the second run
    can write its own file, which is not one of the baselines. *)
Fixpoint images_in_place (ie : ienv) (dir : str) (f : store) (sc0 : bool) (args0 args : list str) (n : Z) (l : list (str * str)) : Prop :=
  match l with
  | [] => True
  | (bytes, _) :: l' =>
      (exists name0 name base j i g w,
         GenerateFileName sc0 args0 n ($"mha") [] = Ok name0 /\ GenerateFileName (e_sc (i_env ie)) args n ($"mha") [] = Ok name /\
         Append dir (Tail name0) = Ok base /\ slot (i_env ie) base = Some j /\ f j = Some (FFile true w bytes) /\
         slot (i_env ie) name = Some i /\ ((f i = None /\ e_cancreate (i_env ie) (cstr name) = true) \/ exists old, f i = Some (FFile true true old)) /\
         i_decode ie base bytes = Some g /\ i_decode ie name bytes = Some g /\ ordinary g) /\
      images_in_place ie dir f sc0 args0 args (n + 1) l'
  end.
(** the identities of the files written and of the baselines *)
Fixpoint named_files (e : env) (pre : str -> res str) (sc : bool) (args : list str) (n : Z) (l : list (str * str)) : list (option str) :=
  match l with
  | [] => []
  | _ :: l' => match GenerateFileName sc args n ($"mha") [] with
               | Ok name => match pre name with Ok p => slot e p | _ => None end
               | _ => None
               end :: named_files e pre sc args (n + 1) l'
  end.
Definition baseline_files (ie : ienv) (dir : str) (sc0 : bool) (args0 : list str) := named_files (i_env ie) (fun n => Append dir (Tail n)) sc0 args0.
Definition test_files (ie : ienv) (args : list str) := named_files (i_env ie) (fun n => Ok n) (e_sc (i_env ie)) args.

Lemma found_first e f dir dirs t base j r w b : Append dir t = Ok base -> base <> [] -> slot e base = Some j -> f j = Some (FFile r w b) -> baseline_path e f (dir :: dirs) t = base.
Proof.
  intros A N S F. unfold baseline_path, SearchPathList. cbn [PathModel.search_loop]. rewrite A. cbn [bind].
  assert (I : is_file e f base = true) by (unfold is_file, node_at; rewrite S, F; reflexivity). rewrite I.
  destruct base; [contradiction|reflexivity].
Qed.
Lemma slot_some_nonempty e p j : slot e p = Some j -> p <> [].
Proof. intros H ->. discriminate H. Qed.
Lemma equal_values_self l : ~ In S754_nan l -> equal_values l l.
Proof.
  intros H. split; [reflexivity|]. intros k x y A B. assert (x = y) by congruence. subst y.
  apply nth_error_In in A. destruct x as [[|]|[|]| |s m q]; try reflexivity; [contradiction|]. unfold SFeqb. rewrite fin_cmp. cbv zeta. rewrite Z.compare_refl, Pos.compare_refl. destruct s; reflexivity.
Qed.
Lemma same_bytes_agree ie f tol base file bytes g : itk_library ie -> sensible tol -> valid_binary 53 1024 (t_intensity tol) = true ->
  contents (i_env ie) f base = Some bytes -> contents (i_env ie) f file = Some bytes -> i_decode ie base bytes = Some g -> i_decode ie file bytes = Some g ->
  ordinary g -> images_agree ie f tol base file.
Proof.
  intros [L1 L2] [T1 T2] Vt Cb Cf Db Df (O1 & O2 & O3). exists g, g. unfold read_image. rewrite Cb, Cf.
  split; [exact Db|]. split; [exact Df|]. split; [reflexivity|]. split; [apply equal_values_self; exact O2|]. split; [exact O3|].
  destruct (L2 _ _ _ Db) as (F1 & F2 & F3).
  assert (Hc : comparable (g_image g) (g_image g)) by (split; [reflexivity|]; split; [reflexivity|]; rewrite F1, map_length; reflexivity).
  exists 0. split; [|lia].
  rewrite <- (C47_identical (i_diff ie) (Filter (t_radius tol) (t_intensity tol) false) (g_image g) (g_image g) L1 Hc T1 O1 Vt (fun _ _ => eq_refl)).
  apply runs_count; assumption.
Qed.
Lemma write_there e f name i bytes : slot e name = Some i -> ((f i = None /\ e_cancreate e (cstr name) = true) \/ exists old, f i = Some (FFile true true old)) ->
  write_file e f name bytes = upd f i (Some (FFile true true bytes)).
Proof. intros S [[F C]|[old F]]; unfold write_file; rewrite S, F; [rewrite C|]; reflexivity. Qed.

Lemma in_place_write ie dir sc0 args0 args l : forall n f i bytes, images_in_place ie dir f sc0 args0 args n l ->
  ~ In (Some i) (baseline_files ie dir sc0 args0 n l) -> images_in_place ie dir (upd f i (Some (FFile true true bytes))) sc0 args0 args n l.
Proof.
  induction l as [|[b0 nm] l IH]; intros n f i bytes H N; [exact I|]. cbn [images_in_place] in *. destruct H as [H R].
  unfold baseline_files in *. cbn [named_files] in N.
  split; [|apply IH; [exact R|intros X; apply N; right; exact X]]. clear IH R.
  destruct H as (name0 & name & base & j & i' & g & w & G0 & G & A & Sb & Fb & Sn & Fn & D1 & D2 & O).
  rewrite G0, A, Sb in N. assert (NE : j <> i) by (intros ->; apply N; left; reflexivity).
  exists name0, name, base, j, i', g, w. unfold upd. destruct (eqs_spec j i) as [E|_]; [contradiction|].
  repeat split; try assumption; try apply O.
  destruct (eqs_spec i' i) as [->|_]; [right; eexists; reflexivity|exact Fn].
Qed.
Lemma images_retrace ie dir dirs sc0 args0 args t tol : itk_library ie -> sensible tol -> valid_binary 53 1024 (t_intensity tol) = true -> forall l n f,
  images_in_place ie dir f sc0 args0 args n l ->
  (forall i, In (Some i) (test_files ie args n l) -> ~ In (Some i) (baseline_files ie dir sc0 args0 n l)) ->
  exists f' text, retraces ie (dir :: dirs) sc0 args0 args n t tol f (make_images l) (make_images l) f' text.
Proof.
  intros L T Vt. induction l as [|[bytes nm] l IH]; intros n f H D; [do 2 eexists; constructor|].
  cbn [images_in_place] in H. destruct H as [(name0 & name & base & j & i & g & w & G0 & G & A & Sb & Fb & Sn & Fn & D1 & D2 & O) R].
  unfold baseline_files, test_files in *. cbn [named_files] in D. rewrite G0, G, A, Sb, Sn in D.
  assert (NE : j <> i) by (intros ->; apply (D i); left; reflexivity).
  assert (NI : ~ In (Some i) (named_files (i_env ie) (fun n => Append dir (Tail n)) sc0 args0 (n + 1) l)) by (intros X; apply (D i); [left; reflexivity|right; exact X]).
  pose proof (write_there (i_env ie) f name i bytes Sn Fn) as W. set (f1 := upd f i (Some (FFile true true bytes))) in *.
  destruct (IH (n + 1)%Z f1) as (f' & text & IH').
  { apply in_place_write; assumption. }
  { intros x X Y. apply (D x); right; assumption. }
  assert (Fb1 : f1 j = Some (FFile true w bytes)) by (unfold f1, upd; destruct (eqs_spec j i) as [E|_]; [contradiction|exact Fb]).
  assert (BP : baseline_path (i_env ie) f1 (dir :: dirs) (Tail name0) = base) by (eapply found_first; eauto using slot_some_nonempty).
  exists f', (compare_line (baseline_path (i_env ie) f1 (dir :: dirs) (Tail name0)) name ++ text). cbn [make_images]. unfold InsightImage.
  eapply rt_generate; [exact G0|exact G|]. apply rt_write. rewrite W. apply rt_image; [exact T| |exact IH'].
  rewrite BP. apply (same_bytes_agree ie f1 tol base name bytes g L T Vt); try assumption.
  - unfold contents, node_at. rewrite Sb, Fb1. reflexivity.
  - unfold contents, node_at. rewrite Sn. unfold f1, upd. rewrite eqs_refl. reflexivity.
Qed.

(** A test that makes images: if the files of the recording run are copied to the first search directory of the comparing run, which
    makes the same images, the comparing run succeeds — provided that none of the files it writes is a baseline file. *)
Theorem C57_images_recorded : forall ie f test a0 rest opts k f1 s1 z ie' f' opts' inf o' f2 l dir dirs,
  let e := i_env ie in let argv := a0 :: flat opts ++ rest in let e' := i_env ie' in let argv' := a0 :: flat opts' ++ rest in
  test (a0 :: rest) = make_images l ->
  command_line e f opts rest -> input_of opts = None -> opened e f (output_of e f opts) = Some (Some k, f1) ->
  ileaves_alone e argv 0 (Some k) (make_images l) ->
  Forall storable (map (imeas ie false) (made (script (e_sc e) argv 0 (make_images l)))) -> comment_safe (e_host e) -> comment_safe (e_time e) ->
  itk_Main ie test argv (new_itk_test ie f) = (s1, Ok z) ->
  itk_library ie' -> e_io e' = e_io e ->
  command_line e' f' opts' rest -> input_of opts' = Some inf -> expected_of opts' = expected_of opts ->
  opened e' f' (output_of e' f' opts') = Some (o', f2) -> dirs_of opts' ++ [i_baselines ie'] = dir :: dirs ->
  contents e' f2 (baseline_path e' f2 (dir :: dirs) inf) = Some (written (Some k) s1) ->
  images_in_place ie' dir f2 (e_sc e) argv argv' 0 l ->
  (forall i, In (Some i) (test_files ie' argv' 0 l) -> ~ In (Some i) (baseline_files ie' dir (e_sc e) argv 0 l)) ->
  exists s2, itk_Main ie' test argv' (new_itk_test ie' f') = (s2, Ok z).
Proof.
  intros ie f test a0 rest opts k f1 s1 z ie' f' opts' inf o' f2 l dir dirs e argv e' argv' Ep Hc Hi Ho Hl Hs Hh Ht Hm L Hio Hc' Hi' Hx Ho' Hd Hb Hp Hn.
  destruct (images_retrace ie' dir dirs (e_sc e) argv argv' default_tol no_tolerance L) with (l := l) (n := 0) (f := f2) as (f3 & text & R);
    [split; cbn; lia|reflexivity|exact Hp|exact Hn|].
  assert (He : exists v, iends (e_sc e) argv 0 (make_images l) = Ok v).
  { generalize 0. clear. induction l as [|[b n] l IH]; intros i; [eexists; reflexivity|]. exact (IH (i + 1)). }
  destruct He as [v He]. rewrite <- Ep in *.
  destruct (C57_record_then_compare ie f test a0 rest opts k f1 s1 z v ie' f' opts' inf o' f2 f3 text Hc Hi Ho Hl He Hs Hh Ht Hm L Hio Hc' Hi' Hx Ho') as (s2 & M & _).
  - fold e'. rewrite Hd. exact Hb.
  - rewrite Hd. exact R.
  - exists s2. exact M.
Qed.
Print Assumptions C57_images_recorded.

(** * An overwritten baseline *)
(** If the comparing run writes its image over the baseline image, the comparison succeeds whatever the image is. *)
Theorem C57_overwritten_baseline_agrees : forall ie f tol base file i bytes g, itk_library ie -> sensible tol -> valid_binary 53 1024 (t_intensity tol) = true ->
  slot (i_env ie) file = Some i -> slot (i_env ie) base = Some i -> (exists old, f i = Some (FFile true true old)) ->
  i_decode ie base bytes = Some g -> i_decode ie file bytes = Some g -> ordinary g ->
  images_agree ie (write_file (i_env ie) f file bytes) tol base file.
Proof.
  intros ie f tol base file i bytes g L T V Sf Sb F D1 D2 O. rewrite (write_there (i_env ie) f file i bytes Sf (or_intror F)).
  assert (U : upd f i (Some (FFile true true bytes)) i = Some (FFile true true bytes)) by (unfold upd; rewrite eqs_refl; reflexivity).
  apply (same_bytes_agree ie _ tol base file bytes g L T V); try assumption; unfold contents, node_at; [rewrite Sb|rewrite Sf]; rewrite U; reflexivity.
Qed.
Print Assumptions C57_overwritten_baseline_agrees.
(** * Examples *)
(** The library of C55's example (images of one pixel), with a filter that counts as in C45. *)
Definition rt_itk : ienv := IEnv ex_env (i_header ex_itk) (i_decode ex_itk) some_diff (i_diff_image ex_itk)
  (i_show_size ex_itk) (i_show_vector ex_itk) (i_show_slice ex_itk) (i_png ex_itk) (i_double ex_itk) ($"out") ($"base").
Lemma rt_library : itk_library rt_itk.
Proof.
  split; [exact some_diff_runs|]. intros name [|c bytes] g H; [discriminate|].
  change (Some (ImageFile (ex_image (c :: bytes)) [of_int64 1; of_int64 1] [of_int64 0; of_int64 0]) = Some g) in H.
  assert (E : g = ImageFile (ex_image (c :: bytes)) [of_int64 1; of_int64 1] [of_int64 0; of_int64 0]) by congruence.
  subst g. repeat split.
Qed.
Definition makes (l : list (str * str)) : list str -> iprog := fun _ => make_images l.
Local Notation rt_record := (itk_Main rt_itk (makes [($"a", $"first"); ($"b", $"second")]) [$"prog"; $"-O"; $"rec.xml"] (new_itk_test rt_itk (fun _ => None))).
Definition rt_document : str := match contents ex_env (s_files (fst rt_record)) ($"rec.xml") with Some b => b | None => [] end.

Definition rt_files : store := fun k =>
  if eqs k ($"rec.xml") then Some (FFile true true rt_document) else if eqs k ($"base/rec.xml") then Some (FFile true false rt_document) else
  if eqs k ($"base/prog_a6a5_1.mha") then Some (FFile true false ($"a")) else if eqs k ($"base/prog_a6a5_2.mha") then Some (FFile true false ($"b")) else None.
Local Notation rt_compare l := (itk_Main rt_itk (makes l) [$"prog"; $"-I"; $"rec.xml"] (new_itk_test rt_itk rt_files)).
(** the hypotheses of C57_images_recorded are met *)
Example C57_example : exists s2, rt_compare [($"a", $"first"); ($"b", $"second")] = (s2, Ok 0).
Proof.
  assert (R : exists s1, rt_record = (s1, Ok 0)) by (eexists; vm_compute; reflexivity). destruct R as [s1 R].
  assert (W : written (Some ($"rec.xml")) s1 = rt_document) by (replace s1 with (fst rt_record) by (rewrite R; reflexivity); vm_compute; reflexivity).
  apply (C57_images_recorded rt_itk (fun _ => None) (makes [($"a", $"first"); ($"b", $"second")]) ($"prog") [] [($"-O", $"rec.xml")] ($"rec.xml")
     (upd (fun _ => None) ($"rec.xml") (Some (FFile true true []))) s1 0
     rt_itk rt_files [($"-I", $"rec.xml")] ($"rec.xml") None rt_files [($"a", $"first"); ($"b", $"second")] ($"base") []).
  - reflexivity.
  - split; [|exact I]. repeat constructor; cbn; auto 6; discriminate.
  - reflexivity.
  - reflexivity.
  - cbn. repeat split; right; vm_compute; discriminate.
  - repeat constructor; vm_compute; intuition discriminate.
  - split; [reflexivity|]. intros a b E. apply (f_equal (fun l => existsb (fun c => eqc c "-") l)) in E. rewrite !existsb_app in E. cbn in E. rewrite orb_true_r in E. discriminate.
  - split; [reflexivity|]. intros a b E. apply (f_equal (fun l => existsb (fun c => eqc c "-") l)) in E. rewrite !existsb_app in E. cbn in E. rewrite orb_true_r in E. discriminate.
  - exact R.
  - exact rt_library.
  - reflexivity.
  - split; [|exact I]. constructor; [|constructor]. split; [vm_compute; auto 6|]. split; [intros _; split; vm_compute; reflexivity|intros E; discriminate E].
  - reflexivity.
  - reflexivity.
  - reflexivity.
  - reflexivity.
  - rewrite W. vm_compute. reflexivity.
  - cbn [images_in_place]. split; [|split; [|exact I]].
    + exists ($"prog_a6a5_1.mha"), ($"prog_a6a9_1.mha"), ($"base/prog_a6a5_1.mha"), ($"base/prog_a6a5_1.mha"), ($"prog_a6a9_1.mha"),
        (ImageFile (ex_image ($"a")) [of_int64 1; of_int64 1] [of_int64 0; of_int64 0]), false.
      split; [vm_compute; reflexivity|]. split; [vm_compute; reflexivity|]. split; [vm_compute; reflexivity|]. split; [vm_compute; reflexivity|].
      split; [vm_compute; reflexivity|]. split; [vm_compute; reflexivity|]. split; [left; split; vm_compute; reflexivity|].
      split; [reflexivity|]. split; [reflexivity|]. split; [intros ? _; vm_compute; reflexivity|]. split; vm_compute; intuition discriminate.
    + exists ($"prog_a6a5_2.mha"), ($"prog_a6a9_2.mha"), ($"base/prog_a6a5_2.mha"), ($"base/prog_a6a5_2.mha"), ($"prog_a6a9_2.mha"),
        (ImageFile (ex_image ($"b")) [of_int64 1; of_int64 1] [of_int64 0; of_int64 0]), false.
      split; [vm_compute; reflexivity|]. split; [vm_compute; reflexivity|]. split; [vm_compute; reflexivity|]. split; [vm_compute; reflexivity|].
      split; [vm_compute; reflexivity|]. split; [vm_compute; reflexivity|]. split; [left; split; vm_compute; reflexivity|].
      split; [reflexivity|]. split; [reflexivity|]. split; [intros ? _; vm_compute; reflexivity|]. split; vm_compute; intuition discriminate.
  - intros i Hi Hj. vm_compute in Hi, Hj. intuition congruence.
Qed.
(** an image that differs is detected *)
Example C57_example_differs : outcome (rt_compare [($"a", $"first"); ($"c", $"second")]) = Ok 1.
Proof. vm_compute. reflexivity. Qed.

(** * A changed image that goes unnoticed *)
(** One would expect: if a test that makes one image is recorded, and then run again against the recorded document, in the directory
    with the recorded files, making an image that differs, it fails.  But the two command lines can have the same hash (C50), so that
    the second run writes over the recorded image before comparing; when the program is in the directory of the baselines, as here,
    that is the file it compares with. *)
Local Notation over_first := (itk_Main rt_itk (makes [($"a", $"n")]) [$"base/prog"; $"-O"; $"c99.xml"] (new_itk_test rt_itk (fun _ => None))).
Definition over_files : store := fun k => let d := match contents ex_env (s_files (fst over_first)) ($"c99.xml") with Some b => b | None => [] end in
  if eqs k ($"base46.xml") then Some (FFile true true d) else if eqs k ($"base/base46.xml") then Some (FFile true true d) else s_files (fst over_first) k.
Local Notation over_second := (itk_Main rt_itk (makes [($"z", $"n")]) [$"base/prog"; $"-I"; $"base46.xml"] (new_itk_test rt_itk over_files)).
Theorem C57_changed_image_detected_refuted : ~ (forall ie f a b n a0 out s inf base d f2 s' z ga gb k,
  itk_library ie ->
  itk_Main ie (makes [(a, n)]) [a0; $"-O"; out] (new_itk_test ie f) = (s, Ok 0) ->
  contents (i_env ie) (s_files s) out = Some d ->
  (forall k x, s_files s k = Some x -> f2 k = Some x) -> contents (i_env ie) f2 inf = Some d ->
  Append (i_baselines ie) inf = Ok base -> contents (i_env ie) f2 base = Some d ->
  (forall name, i_decode ie name a = Some ga /\ i_decode ie name b = Some gb) ->
  how_many (reported (Filter (t_radius no_tolerance) (t_intensity no_tolerance) false) (g_image ga) (g_image gb)) k -> 0 < k ->
  itk_Main ie (makes [(b, n)]) [a0; $"-I"; inf] (new_itk_test ie f2) = (s', Ok z) -> z <> 0).
Proof.
  intros H.
  assert (R1 : snd over_first = Ok 0) by (vm_compute; reflexivity). assert (R2 : snd over_second = Ok 0) by (vm_compute; reflexivity).
  assert (D : exists d, contents ex_env (s_files (fst over_first)) ($"c99.xml") = Some d) by (eexists; vm_compute; reflexivity).
  destruct D as [d D].
  assert (F2 : forall k x, s_files (fst over_first) k = Some x -> over_files k = Some x).
  { intros k x Hx. unfold over_files. destruct (eqs_spec k ($"base46.xml")) as [->|_]; [vm_compute in Hx; discriminate Hx|].
    destruct (eqs_spec k ($"base/base46.xml")) as [->|_]; [vm_compute in Hx; discriminate Hx|exact Hx]. }
  assert (D1 : contents ex_env over_files ($"base46.xml") = Some d) by (rewrite <- D; vm_compute; reflexivity).
  assert (D2 : contents ex_env over_files ($"base/base46.xml") = Some d) by (rewrite <- D; vm_compute; reflexivity).
  destruct over_first as [s r] eqn:E1.
  destruct over_second as [s' r'] eqn:E2.
  cbn [fst snd] in *. subst r r'.
  apply (H rt_itk (fun _ => None) ($"a") ($"z") ($"n") ($"base/prog") ($"c99.xml") s ($"base46.xml") ($"base/base46.xml") d over_files s' 0
    (ImageFile (ex_image ($"a")) [of_int64 1; of_int64 1] [of_int64 0; of_int64 0]) (ImageFile (ex_image ($"z")) [of_int64 1; of_int64 1] [of_int64 0; of_int64 0])
    (some_diff (Filter (t_radius no_tolerance) (t_intensity no_tolerance) false) (ex_image ($"a")) (ex_image ($"z"))) rt_library E1 D F2 D1 eq_refl D2).
  - intros name. split; reflexivity.
  - apply runs_count; [exact some_diff_runs|repeat split|cbn; lia].
  - vm_compute. reflexivity.
  - exact E2.
  - reflexivity.
Qed.
Print Assumptions C57_changed_image_detected_refuted.

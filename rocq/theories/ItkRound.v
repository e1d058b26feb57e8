(** Recording and then comparing with images: vocabulary, and the steps of the second run. *)
From Coq Require Import Floats.SpecFloat.
From Verif Require Import Base Str Dec PathModel PathFacts MeasModel MeasFacts MeasFacts2 MeasProps XmlText XmlModel ReadModel ReadFacts ReadBack ReadProps RegModel ArgFacts ArgProps RegSpec RegFacts RegStart RegMain RegProps RegProps2 RegRound ImgModel ImgSpec ImgMore ImgProps ItkModel ItkSpec ItkSim ItkRun ItkMain.
Local Open Scope Z_scope.

(** The image in [file] agrees with the one in [base], within the tolerances (C49). *)
Definition images_agree (ie : ienv) (f : store) (tol : tolerances) (base file : str) : Prop :=
  exists b t, read_image ie f base = Some b /\ read_image ie f file = Some t /\
    isize (g_image b) = isize (g_image t) /\ equal_values (g_spacing b) (g_spacing t) /\ ~ In S754_nan (g_origin b) /\
    exists n, how_many (reported (Filter (t_radius tol) (t_intensity tol) false) (g_image b) (g_image t)) n /\ n <= 2 * t_pixels tol.
Definition sensible (tol : tolerances) : Prop := 0 <= t_radius tol /\ 0 <= t_pixels tol.
(** what the environment provides: the filter counts as in C45, image files are read as in C49 *)
Definition itk_library (ie : ienv) : Prop :=
  runs_filter (i_diff ie) /\ forall name bytes g, i_decode ie name bytes = Some g -> file_image g.

(** The line printed for every image comparison. *)
Definition compare_line (base file : str) : str :=
  $"Comparing test image: " ++ quote ++ cstr file ++ quote ++ $" to baseline image: " ++ quote ++ cstr base ++ quote ++ [nl].

(** The test, doing [p0] while recording with the command line [args0] on a machine with characters [sc0], does [p] while comparing
    with the command line [args] on the machine [ie]: the same measurements, each giving the value recorded; but generated
    file names, what is printed, the image tolerances and the files written may differ.
    [n]: names generated so far; [t], [tol], [f]: tolerances and files when comparing; [f']: the files left; [text]: what is
    printed while comparing.  Measurements return 0 when recording and 1 when they match. *)
Inductive retraces (ie : ienv) (dirs : list str) (sc0 : bool) (args0 args : list str)
  : Z -> spec_float -> tolerances -> store -> iprog -> iprog -> store -> str -> Prop :=
| rt_return n t tol f z : retraces ie dirs sc0 args0 args n t tol f (IReturn z) (IReturn z) f []
| rt_raise n t tol f x : retraces ie dirs sc0 args0 args n t tol f (IRaise x) (IRaise x) f []
| rt_call n t tol f c k0 k f' text : reproducible (i_env ie) dirs t f c ->
    retraces ie dirs sc0 args0 args n t tol f (k0 0) (k 1) f' text ->
    retraces ie dirs sc0 args0 args n t tol f (ICall c k0) (ICall c k) f' text
| rt_image n t tol f file0 file name k0 k f' text :
    let base := baseline_path (i_env ie) f dirs (Tail file0) in
    sensible tol -> images_agree ie f tol base file ->
    retraces ie dirs sc0 args0 args n t tol f (k0 0) (k 1) f' text ->
    retraces ie dirs sc0 args0 args n t tol f (IImage file0 name k0) (IImage file name k) f' (compare_line base file ++ text)
| rt_tolerance n t tol f tol0 tol1 p0 p f' text : retraces ie dirs sc0 args0 args n t tol1 f p0 p f' text ->
    retraces ie dirs sc0 args0 args n t tol f (ITolerance tol0 p0) (ITolerance tol1 p) f' text
| rt_generate n t tol f ext root ext0 root0 name0 name k0 k f' text :
    GenerateFileName sc0 args0 n ext0 root0 = Ok name0 -> GenerateFileName (e_sc (i_env ie)) args n ext root = Ok name ->
    retraces ie dirs sc0 args0 args (n + 1) t tol f (k0 name0) (k name) f' text ->
    retraces ie dirs sc0 args0 args n t tol f (IGenerate ext0 root0 k0) (IGenerate ext root k) f' text
| rt_say n t tol f text0 text1 p0 p f' text : retraces ie dirs sc0 args0 args n t tol f p0 p f' text ->
    retraces ie dirs sc0 args0 args n t tol f (ISay text0 p0) (ISay text1 p) f' (text1 ++ text)
| rt_relative n t tol f t0 t1 p0 p f' text : retraces ie dirs sc0 args0 args n t1 tol f p0 p f' text ->
    retraces ie dirs sc0 args0 args n t tol f (IRelativeTolerance t0 p0) (IRelativeTolerance t1 p) f' text
| rt_expected n t tol f x p0 p f' text : retraces ie dirs sc0 args0 args n t tol f p0 p f' text ->
    retraces ie dirs sc0 args0 args n t tol f (IExpectedReturn x p0) (IExpectedReturn x p) f' text
| rt_write n t tol f path0 bytes0 path bytes p0 p f' text : retraces ie dirs sc0 args0 args n t tol (write_file (i_env ie) f path bytes) p0 p f' text ->
    retraces ie dirs sc0 args0 args n t tol f (IWriteFile path0 bytes0 p0) (IWriteFile path bytes p) f' text.

Lemma image_match ie tol file0 file name s k rest : itk_library ie -> sensible tol -> s_is s = Some k -> s_input s = MF (Mf name true itk_type (Tail file0)) :: rest ->
  images_agree ie (s_files s) tol (baseline_path (i_env ie) (s_files s) (s_path s) (Tail file0)) file ->
  MeasurementInsightFileImage ie tol file name s =
    (set_stdout (set_input s rest) (s_stdout s ++ compare_line (baseline_path (i_env ie) (s_files s) (s_path s) (Tail file0)) file), Ok 1).
Proof.
  intros [L1 L2] [T1 T2] Hi Hs H. unfold MeasurementInsightFileImage, GetCompareMode. unfold mbind at 1. rewrite (compare_mode_open (i_env ie) s k Hi). cbv iota.
  change (file_meas true itk_type file name) with (MF (Mf name true itk_type file)). set (m := Mf name true itk_type file).
  unfold itk_CompareMeasurement. unfold mbind at 1. unfold gets at 1. rewrite Hs. cbv iota. unfold mbind at 1. unfold modify at 1. cbv iota.
  set (b := Mf name true itk_type (Tail file0)).
  assert (K : eqs (mname (MF b)) (mname (MF m)) && eqs (mtype (MF b)) (mtype (MF m)) = true) by (cbn; rewrite !eqs_refl; reflexivity).
  rewrite K. unfold mbind at 1. rewrite locate_found. cbv iota. change (s_path (set_input s rest)) with (s_path s).
  change (s_files (set_input s rest)) with (s_files s).
  set (base := baseline_path (i_env ie) (s_files s) (s_path s) (Tail file0)) in *.
  assert (F : found (i_env ie) (s_path s) (s_files s) (MF b) (MF m) = MF (Mf name true itk_type base)).
  { unfold found, b, base, baseline_path. cbn [ffile fname fesc ftype]. rewrite tail_tail. destruct (SearchPathList _ _ _) as [[|c p]| | | |]; reflexivity. }
  rewrite F. unfold mbind at 1. unfold gets at 1. rewrite visitor_plain. cbv iota. unfold itk_Compare.
  assert (Y : eqs (ftype m) itk_type = true) by apply eqs_refl. rewrite Y.
  destruct (C49_accepted (i_diff ie) (read_image ie (s_files s)) tol (Mf name true itk_type base) m L1 T1 T2) as (v & V & Hv).
  { intros nm g. unfold read_image. destruct (contents _ _ nm) as [bytes|]; [apply L2|discriminate]. }
  assert (v = true) by (apply Hv; exact H). subst v.
  unfold mbind, say, modify, gets, mlift, mret. cbv iota. cbn [s_files set_stdout set_input s_stdout]. rewrite V. reflexivity.
Qed.

Lemma retrace_run ie dirs io sc0 args0 args n t tol f p0 p f' text : itk_library ie -> e_io (i_env ie) = io -> retraces ie dirs sc0 args0 args n t tol f p0 p f' text ->
  forall ie0 s k, e_io (i_env ie0) = io -> s_is s = Some k -> s_path s = dirs -> s_tol s = t -> s_files s = f ->
  s_input s = map stored (map (imeas ie0 false) (made (script sc0 args0 n p0))) ->
  exists s', irun ie args p tol n s = (s', iends sc0 args0 n p0) /\ frame s s' /\ s_files s' = f' /\ s_stdout s' = s_stdout s ++ text /\
    s_unmatched s' = s_unmatched s /\ s_expected s' = iexpects sc0 args0 n (s_expected s) p0.
Proof.
  intros L Eio H. induction H as [n t tol f z|n t tol f x|n t tol f c k0 k f' text R H IH|n t tol f file0 file name k0 k f' text base T A H IH
    |n t tol f tol0 tol1 p0 p f' text H IH|n t tol f ext root ext0 root0 name0 name k0 k f' text G0 G H IH|n t tol f text0 text1 p0 p f' text H IH
    |n t tol f t0 t1 p0 p f' text H IH|n t tol f x p0 p f' text H IH|n t tol f path0 bytes0 path bytes p0 p f' text H IH];
    intros ie0 s ki E0 Hi Hp Ht Hf Hs; cbn [irun iends iexpects script made flat_map map app] in *.
  - exists s. rewrite app_nil_r. repeat split. exact Hf.
  - exists s. rewrite app_nil_r. repeat split. exact Hf.
  - unfold mbind. rewrite itk_measure_base.
    assert (Hs' : s_input s = stored (meas_of (e_io (i_env ie)) false c) :: map stored (map (imeas ie0 false) (made (script sc0 args0 n (k0 0))))).
    { rewrite Hs. cbn [imeas]. rewrite E0, Eio. reflexivity. }
    rewrite (repeat_measure (i_env ie) c s ki _ Hi Hs') by (rewrite Hp, Ht, Hf; exact R).
    exact (IH ie0 (set_input s _) ki E0 Hi Hp Ht Hf eq_refl).
  - unfold mbind. assert (Hb : base = baseline_path (i_env ie) (s_files s) (s_path s) (Tail file0)) by (rewrite Hf, Hp; reflexivity).
    rewrite (image_match ie tol file0 file name s ki _ L T Hi Hs) by (rewrite <- Hb, Hf; exact A). rewrite <- Hb.
    destruct (IH ie0 (set_stdout (set_input s (map stored (map (imeas ie0 false) (made (script sc0 args0 n (k0 0)))))) (s_stdout s ++ compare_line base file)) ki E0 Hi Hp Ht Hf eq_refl)
      as (s' & Er & F & Q1 & Q2 & Q3 & Q4).
    exists s'. split; [exact Er|]. split; [exact F|]. split; [exact Q1|]. split; [rewrite Q2; cbn [s_stdout set_stdout]; rewrite <- app_assoc; reflexivity|]. split; [exact Q3|exact Q4].
  - exact (IH ie0 s ki E0 Hi Hp Ht Hf Hs).
  - rewrite G0 in *. unfold mbind, mlift. rewrite G. exact (IH ie0 s ki E0 Hi Hp Ht Hf Hs).
  - unfold mbind, say, modify. destruct (IH ie0 (set_stdout s (s_stdout s ++ text1)) ki E0 Hi Hp Ht Hf Hs) as (s' & Er & F & Q1 & Q2 & Q3 & Q4).
    exists s'. split; [exact Er|]. split; [exact F|]. split; [exact Q1|]. split; [rewrite Q2; cbn [s_stdout set_stdout]; rewrite <- app_assoc; reflexivity|]. split; [exact Q3|exact Q4].
  - exact (IH ie0 (set_tol s t1) ki E0 Hi Hp eq_refl Hf Hs).
  - exact (IH ie0 (set_expected s x) ki E0 Hi Hp Ht Hf Hs).
  - refine (IH ie0 (set_files s (write_file (i_env ie) (s_files s) path bytes)) ki E0 Hi Hp Ht _ Hs). cbn. rewrite Hf. reflexivity.
Qed.

(** the second run against a document that reads as what the test recorded *)
Lemma retrace_main ie ie0 f dirs0 test a0 opts rest inf o f1 b p0 sc0 args0 f' text k :
  let e := i_env ie in let argv := a0 :: flat opts ++ rest in let dirs := dirs_of opts ++ dirs0 in
  itk_library ie -> e_io (i_env ie0) = e_io e ->
  command_line e f opts rest -> input_of opts = Some inf -> opened e f (output_of e f opts) = Some (o, f1) ->
  contents e f1 (baseline_path e f1 dirs inf) = Some b ->
  ReadXMLInput (e_asserts e) (e_ext e) b = Ok (map stored (map (imeas ie0 false) (made (script sc0 args0 0 p0)))) ->
  retraces ie dirs sc0 args0 argv 0 default_tol no_tolerance f1 p0 (test (a0 :: rest)) f' text -> iends sc0 args0 0 p0 = Ok k ->
  exists s', Main_with e (itk_body ie test argv) argv (fresh f dirs0) =
      (s', Ok (if (k =? iexpects sc0 args0 0 (expected_of opts) p0) then 0 else k)) /\
    s_stdout s' = text /\ s_files s' = f'.
Proof.
  intros e argv dirs L Eio Hc Hi Ho Hb Hx Hr He. pose proof (input_of_nonempty e f opts inf (proj1 Hc) Hi) as Hn.
  rewrite Main_with_unfold. change (set_unmatched (fresh f dirs0) (s_unmatched (fresh f dirs0) + 1)) with (set_unmatched (fresh f dirs0) 1).
  unfold argv at 2. rewrite (main_with_launch e _ f dirs0 a0 opts rest Hc). set (s0 := launched_in e f dirs0 opts).
  pose proof (begin_compare e s0 inf eq_refl eq_refl) as B.
  assert (Hin : s_in s0 = inf) by (cbn; rewrite Hi; reflexivity). specialize (B Hin Hn).
  change (s_files s0) with f in B. change (s_out s0) with (output_of e f opts) in B.
  change (s_path s0) with dirs in B. cbv zeta in B. rewrite Ho in B.
  set (s1 := set_os (set_files s0 f1) o) in *. set (q := baseline_path e f1 dirs inf) in *.
  assert (Er : can_open e f1 q = true).
  { revert Hb. unfold contents, can_open. destruct (node_at e f1 q) as [[[|] w b0|]|]; try discriminate. reflexivity. }
  rewrite Er in B. destruct (readable_contents e f1 q Er) as (i & Ek & [(r & w & b' & Eb & Ec & Ef)|(r & w & x & Eb & Ec)]); [|congruence].
  assert (b' = b) by congruence. subst b'.
  unfold mbind. rewrite B, Ek. unfold read_input. cbn [set_is s_is]. change (s_files (set_is s1 (Some i))) with f1. rewrite Eb, Hx.
  cbv iota. set (s2 := set_input (set_is s1 (Some i)) _).
  destruct (retrace_run ie dirs (e_io e) sc0 args0 argv 0 default_tol no_tolerance f1 p0 (test (a0 :: rest)) f' text L eq_refl Hr ie0 s2 i Eio eq_refl eq_refl eq_refl eq_refl eq_refl)
    as (s3 & Erun & F & Hf & Hso & Hu & Hexp).
  assert (K : keeps f1 (s_files s3)).
  { assert (X : (exists z, iends sc0 args0 0 p0 = Ok z) \/ (exists i, iends sc0 args0 0 p0 = Throw i)) by eauto.
    destruct (irun_compare ie argv (test (a0 :: rest)) no_tolerance 0 s2 s3 _ i eq_refl Erun X) as (? & ? & ? & _ & _ & _ & _ & K). exact K. }
  destruct F as (F1 & F2 & F3 & F4 & F5).
  unfold itk_body. rewrite Erun, He. unfold ends_with.
  assert (Hi3 : s_is s3 = Some i) by (rewrite F5; reflexivity).
  unfold EndMeasurement, GetCompareMode, mbind. rewrite (compare_mode_open e s3 i Hi3). unfold modify. cbv iota.
  set (s4 := set_unmatched _ _).
  assert (C4 : compare_mode e s4 = Ok true).
  { rewrite (compare_mode_closed e s4 inf eq_refl); [|change (s_in s4) with (s_in s3); rewrite F1; exact Hin|exact Hn].
    change (s_path s4) with (s_path s3). rewrite F3. change (s_files s4) with (s_files s3). f_equal.
    apply (keeps_baseline e f1); [exact K|]. unfold readable_file. change (s_path s2) with dirs. fold q. rewrite Ef, (file_can_open _ _ _ Ef), Er. reflexivity. }
  unfold finish_with. rewrite C4. cbn [bind]. change (s_expected s4) with (s_expected s3).
  assert (U : s_unmatched s4 = 0%Z) by (change (s_unmatched s4) with (s_unmatched s3 - 1)%Z; rewrite Hu; reflexivity).
  rewrite U, Hexp. change (s_expected s2) with (expected_of opts).
  destruct (k =? _)%Z; cbn [negb]; (exists s4; split; [reflexivity|]; split; [exact Hso|exact Hf]).
Qed.

(** Property C87: tests on the ITK driver that use the whole protected interface. *)
From Coq Require Import Floats.SpecFloat.
From Verif Require Import Base Str Dec PathModel PathFacts MeasModel MeasFacts DiffModel VisitModel XmlModel ReadModel ReadFacts ReadBack RegModel ArgFacts ArgProps RegSpec RegFacts RegStart RegMain RegProps RegProps2 LineSpec LineProps ReportSpec ImgModel ItkModel ItkSim ItkMain ItkRunProps ApiModel ApiSpec ApiFacts ApiRun FullModel FullSpec FullFacts FullProps ReuseProps ItkErrProps ItkTellProps FullItkModel FullItkSpec FullItkFacts.
Import RegModel ItkModel FullSpec.
Local Open Scope Z_scope.

Lemma begin_started_in e f dirs0 opts rest inf o f1 baseline : command_line e f opts rest -> input_of opts = Some inf ->
  let dirs := dirs_of opts ++ dirs0 in started e f (output_of e f opts) dirs inf = Some (o, f1, baseline) ->
  exists k, BeginMeasurement e (launched_in e f dirs0 opts) = (Rst f1 [] baseline inf (output_of e f opts) dirs o (Some k) default_tol 1 (expected_of opts), Ok tt).
Proof.
  intros Hc Hi dirs Hs. pose proof (input_of_nonempty e f opts inf (proj1 Hc) Hi) as Hn. unfold started in Hs.
  set (s0 := launched_in e f dirs0 opts). pose proof (begin_compare e s0 inf eq_refl eq_refl) as B.
  assert (Hin : s_in s0 = inf) by (cbn; rewrite Hi; reflexivity). specialize (B Hin Hn).
  change (s_files s0) with f in B. change (s_out s0) with (output_of e f opts) in B. change (s_path s0) with dirs in B. cbv zeta in B.
  destruct (opened e f (output_of e f opts)) as [[o1 f2]|] eqn:Eo; [|discriminate].
  set (s1 := set_os (set_files s0 f2) o1) in *. set (q := baseline_path e f2 dirs inf) in *.
  destruct (can_open e f2 q) eqn:Er.
  2:{ assert (Ec : contents e f2 q = None).
      { revert Er. unfold can_open, contents. destruct (node_at e f2 q) as [[[|] w b|]|]; auto; discriminate. }
      rewrite Ec in Hs. discriminate. }
  destruct (readable_contents e f2 q Er) as (k & Ek & [(r & w & b & Eb & Ec & Ef)|(r & w & x & Eb & Ec)]); rewrite Ec in Hs; [|discriminate].
  rewrite B, Ek. unfold read_input. cbn [set_is s_is]. change (s_files (set_is s1 (Some k))) with f2. rewrite Eb.
  destruct (ReadXMLInput (e_asserts e) (e_ext e) b) as [l|i| | |]; try discriminate. injection Hs as -> -> ->.
  exists k. unfold s1, s0, launched_in, launched, set_input, set_is, set_os, set_files, set_path. cbn. rewrite Hi. reflexivity.
Qed.

(** C87.  Against a baseline, Main returns, and leaves the files and the screen, exactly as the course of the test says.
    [o]: the output file; [f1]: the files when it has been opened; [baseline]: the elements read. *)
Theorem C87_comparison : forall ie f test a0 opts rest inf o f1 baseline, let e := i_env ie in let dirs := dirs_of opts ++ [i_baselines ie] in
  command_line e f opts rest -> input_of opts = Some inf -> started e f (output_of e f opts) dirs inf = Some (o, f1, baseline) ->
  forall z files screen,
  (exists s', full_itk_Main ie test (a0 :: flat opts ++ rest) (new_itk_test ie f) = (s', Ok z) /\ s_files s' = files /\ s_stdout s' = screen) <->
  exists n l a out,
    does ie (a0 :: flat opts ++ rest) o true no_tolerance 0 (At default_tol f1 dirs (expected_of opts) inf (output_of e f opts)) (test (a0 :: rest)) baseline n l a out /\
    files = at_files a /\ screen = on_stdout o l /\
    z = outcome_status out (at_expected a) n (names_baseline e files (at_dirs a) (at_in a)) true.
Proof.
  intros ie f test a0 opts rest inf o f1 baseline e dirs Hc Hi Hs z files screen. unfold full_itk_Main. rewrite Main_with_unfold.
  change (set_unmatched (new_itk_test ie f) (s_unmatched (new_itk_test ie f) + 1)) with (set_unmatched (fresh f [i_baselines ie]) 1). rewrite (ItkMain.main_with_launch e _ f [i_baselines ie] a0 opts rest Hc).
  destruct (begin_started_in e f [i_baselines ie] opts rest inf o f1 baseline Hc Hi Hs) as [k B]. unfold mbind. rewrite B.
  set (s1 := Rst _ _ _ _ _ _ _ _ _ _ _). rewrite (xrun_at ie (a0 :: flat opts ++ rest) (test (a0 :: rest)) s1 eq_refl z files screen). unfold s1.
  cbn [s_os is_open at_of s_is s_tol s_files s_path s_expected s_in s_out s_input s_stdout comparing orb app].
  assert (C : forall out, closing out true = []) by (intros [v|x| | |]; reflexivity).
  split; intros (n & l & a & out & P & F & X & Z); exists n, l, a, out; cbv zeta in *; (split; [exact P|]); rewrite C in *; rewrite ?on_stdout_app, ?on_out in *.
  - split; [exact F|]. split; [|exact Z]. rewrite X. destruct o; cbn; rewrite app_nil_r; reflexivity.
  - split; [exact F|]. split; [|exact Z]. rewrite X. destruct o; cbn; rewrite app_nil_r; reflexivity.
Qed.
Print Assumptions C87_comparison.
(** Without a baseline the text of the test stands between the first lines and the last line; the latter is missing after an exception, or if a baseline
    can be found at the end under the name the test has set. *)
Theorem C87_recording : forall ie f test a0 opts rest o f1, let e := i_env ie in let dirs := dirs_of opts ++ [i_baselines ie] in
  command_line e f opts rest -> input_of opts = None -> opened e f (output_of e f opts) = Some (o, f1) ->
  let top := first_lines (e_host e) (e_time e) in
  forall z files screen,
  (exists s', full_itk_Main ie test (a0 :: flat opts ++ rest) (new_itk_test ie f) = (s', Ok z) /\ s_files s' = files /\ s_stdout s' = screen) <->
  exists n l a out,
    does ie (a0 :: flat opts ++ rest) o false no_tolerance 0 (At default_tol (appended o top f1) dirs (expected_of opts) [] (output_of e f opts)) (test (a0 :: rest)) [] n l a out /\
    let comparing_now := names_baseline e (at_files a) (at_dirs a) (at_in a) in
    let bottom := closing out comparing_now in
    files = appended o bottom (at_files a) /\ screen = on_stdout o ((Out, top) :: l ++ [(Out, bottom)]) /\
    z = outcome_status out (at_expected a) n (names_baseline e files (at_dirs a) (at_in a)) comparing_now.
Proof.
  intros ie f test a0 opts rest o f1 e dirs Hc Hi Ho top z files screen. unfold full_itk_Main. rewrite Main_with_unfold.
  change (set_unmatched (new_itk_test ie f) (s_unmatched (new_itk_test ie f) + 1)) with (set_unmatched (fresh f [i_baselines ie]) 1). rewrite (ItkMain.main_with_launch e _ f [i_baselines ie] a0 opts rest Hc).
  set (sl := launched_in e f [i_baselines ie] opts).
  assert (Hin : s_in sl = []) by (cbn; rewrite Hi; reflexivity).
  pose proof (begin_record e sl eq_refl eq_refl Hin) as B.
  change (s_files sl) with f in B. change (s_out sl) with (output_of e f opts) in B. rewrite Ho in B.
  unfold mbind. rewrite B. set (s0 := set_os (set_files sl f1) o). change (header e) with top.
  destruct (print_text_spec top s0) as (A & I & U & O & R & X). change (print_text top s0) with (put_text top s0) in *. set (s1 := put_text top s0) in *.
  assert (U1 : s_unmatched s1 = 1%Z) by (rewrite U; reflexivity). rewrite (xrun_at ie (a0 :: flat opts ++ rest) (test (a0 :: rest)) s1 U1 z files screen).
  assert (Hopen : is_open s1 = false) by (unfold is_open; rewrite R; reflexivity).
  rewrite A, I, O, X, Hopen. change (s_os s0) with o. change (s_input s0) with (@nil meas). change (s_stdout s0) with (@nil ascii).
  assert (W : wrote o top (at_of s0) = At default_tol (appended o top f1) dirs (expected_of opts) [] (output_of e f opts)).
  { unfold wrote, at_of. cbn [s0 sl launched_in launched set_os set_files set_path s_tol s_files s_path s_expected s_in s_out at_tol at_files at_dirs at_expected at_in at_out]. rewrite Hi. reflexivity. }
  rewrite W. cbn [app].
  assert (Q : forall l b, on_stdout o ((Out, top) :: l ++ [(Out, b)]) = (match o with Some _ => [] | None => top end) ++ on_stdout o (l ++ [(Out, b)])).
  { intros l b. change ((Out, top) :: l ++ [(Out, b)]) with ([(Out, top)] ++ (l ++ [(Out, b)])). rewrite on_stdout_app, on_out. reflexivity. }
  split; intros (n & l & a & out & P & F & S & Z); exists n, l, a, out; cbv zeta in *; (split; [exact P|]); cbn [comparing orb] in *; (split; [exact F|]); (split; [|exact Z]); rewrite S; [symmetry|]; apply Q.
Qed.
Print Assumptions C87_recording.
(** The course of a test is determined. *)
Theorem C87_determined : forall ie args o reading tol count a p bs n l a' out n2 l2 a2 out2,
  does ie args o reading tol count a p bs n l a' out -> does ie args o reading tol count a p bs n2 l2 a2 out2 -> n2 = n /\ l2 = l /\ a2 = a' /\ out2 = out.
Proof. intros. eapply does_det; eassumption. Qed.
Print Assumptions C87_determined.

(** The tests of ItkModel are such tests: exceptions are not caught. *)
Fixpoint as_whole (p : iprog) : xprog :=
  match p with
  | IReturn z => XReturn z
  | IRaise x => XRaise x
  | ICall c k => XMeasure c (fun r => match r with inl z => as_whole (k z) | inr x => XRaise x end)
  | IImage f n k => XImage f n (fun r => match r with inl z => as_whole (k z) | inr x => XRaise x end)
  | ITolerance t k => XImageTolerance t (as_whole k)
  | IGenerate ext root k => XGenerate ext root (fun n => as_whole (k n))
  | ISay t k => XSay t (as_whole k)
  | IRelativeTolerance t k => XSetRelativeTolerance t (as_whole k)
  | IExpectedReturn z k => XSetExpectedReturn z (as_whole k)
  | IWriteFile path b k => XWriteFile path b (as_whole k)
  end.
Theorem C87_generalises : forall ie test argv s, full_itk_Main ie (fun args => as_whole (test args)) argv s = itk_Main ie test argv s.
Proof.
  intros ie test argv s.
  assert (G : forall p tol n s, xrun ie argv (as_whole p) tol n s = irun ie argv p tol n s).
  { clear. induction p as [z|x|c k IH|f m k IH|t k IH|ext root k IH|t k IH|t k IH|z k IH|path b k IH]; intros tol n s; cbn [as_whole xrun irun]; unfold mbind, modify, mlift; cbv iota; auto.
    - unfold caught. destruct (itk_Measure ie tol c s) as [s1 [z|x| | |]]; cbv iota; auto.
    - unfold caught. destruct (MeasurementInsightFileImage ie tol f m s) as [s1 [z|x| | |]]; cbv iota; auto.
    - destruct (GenerateFileName _ _ _ _ _) as [v|x| | |]; auto.
    - rewrite say_eq. cbv iota. auto. }
  unfold full_itk_Main, itk_Main. rewrite !Main_with_unfold. f_equal. unfold main_body_with, mbind.
  destruct (ParseAndRemoveArguments (i_env ie) _ argv _) as [s2 [[argc l]|i| | |]]; auto.
  destruct (BeginMeasurement (i_env ie) s2) as [s3 [[]|i| | |]]; auto.
Qed.
Print Assumptions C87_generalises.
(** A test of the plain driver that compares no image files behaves the same on the ITK driver. *)
Fixpoint no_images (p : fprog) : Prop :=
  match p with
  | FReturn _ | FRaise _ => True
  | FMeasure c k => forall r, no_images (k r)
  | FCompare m tolerant k => image_object m = false /\ forall r m', no_images (k r m')
  | FPrint _ k | FSetRelativeTolerance _ k | FSetExpectedReturn _ k | FSetInFileName _ k | FSetOutFileName _ k | FSetInFileSearchPath _ k | FPrependInFileSearchPath _ k | FWriteFile _ _ k => no_images k
  | FLook k => forall v, no_images (k v)
  end.
Fixpoint on_itk (p : fprog) : xprog :=
  match p with
  | FReturn z => XReturn z
  | FRaise x => XRaise x
  | FMeasure c k => XMeasure c (fun r => on_itk (k r))
  | FCompare m tolerant k => XCompare m tolerant (fun r m' => on_itk (k r m'))
  | FPrint t k => XPrint t (on_itk k)
  | FSetRelativeTolerance t k => XSetRelativeTolerance t (on_itk k)
  | FSetExpectedReturn z k => XSetExpectedReturn z (on_itk k)
  | FSetInFileName n k => XSetInFileName n (on_itk k)
  | FSetOutFileName n k => XSetOutFileName n (on_itk k)
  | FSetInFileSearchPath l k => XSetInFileSearchPath l (on_itk k)
  | FPrependInFileSearchPath d k => XPrependInFileSearchPath d (on_itk k)
  | FWriteFile path b k => XWriteFile path b (on_itk k)
  | FLook k => XLook (fun v => on_itk (k v))
  end.
Theorem C87_same_without_images : forall ie test argv s, (forall args, no_images (test args)) ->
  full_itk_Main ie (fun args => on_itk (test args)) argv s = full_Main (i_env ie) test argv s.
Proof.
  intros ie test argv s Hn.
  assert (G : forall p tol n, no_images p -> forall s, xrun ie argv (on_itk p) tol n s = frun (i_env ie) p s).
  { clear. induction p as [z|x|c k IH|m tolerant k IH|t k IH|t k IH|z k IH|i k IH|i k IH|l k IH|d k IH|path b k IH|k IH]; intros tol n Hn s; cbn [on_itk xrun frun]; cbn [no_images] in Hn; unfold mbind, modify; cbv iota; auto.
    - unfold caught. rewrite itk_measure_base. destruct (Measure (i_env ie) c s) as [s1 [z|x| | |]]; cbv iota; auto.
    - destruct Hn as [Ho Hn]. unfold gets. cbv iota. unfold caught. destruct (no_image ie tol m tolerant s) as [E1 E2]; [rewrite Ho; discriminate|]. rewrite E1, E2.
      destruct (CompareMeasurement (i_env ie) m tolerant s) as [s1 [z|x| | |]]; cbv iota; auto.
    - rewrite print_out_eq. cbv iota. auto.
    - destruct (look_at (i_env ie) s) as [s1 [v|x| | |]]; auto. }
  unfold full_itk_Main, full_Main. rewrite !Main_with_unfold. f_equal. unfold main_body_with, mbind.
  destruct (ParseAndRemoveArguments (i_env ie) _ argv _) as [s2 [[argc l]|i| | |]]; auto.
  destruct (BeginMeasurement (i_env ie) s2) as [s3 [[]|i| | |]]; auto.
Qed.
Print Assumptions C87_same_without_images.
(** MeasurementInsightFileImage is what a derived class can write with GetCompareMode, CompareMeasurement and GetOutStream. *)
Theorem C87_by_hand : forall ie args tol count file name k s,
  xrun ie args (XLook (fun v => if v_compare v then XCompare (MF (Mf name true itk_type file)) false (fun r _ => k r)
                                else XPrint (element FILE name itk_type (Tail file) ++ [nl]) (k (inl 0)))) tol count s =
  xrun ie args (XImage file name k) tol count s.
Proof.
  intros ie args tol count file name k s. cbn [xrun]. unfold mbind at 1. unfold look_at. rewrite mode_at. cbn [bind v_compare].
  transitivity ((r <- caught (MeasurementInsightFileImage ie tol file name) ;; xrun ie args (k r) tol count) s); [|reflexivity].
  unfold mbind at 1. unfold caught. rewrite itk_image_at.
  destruct (comparing (i_env ie) (is_open s) (at_of s)); [reflexivity|]. cbn [xrun]. unfold mbind. rewrite print_out_eq. reflexivity.
Qed.
Print Assumptions C87_by_hand.

(** For the cases below: the baseline of ItkRunProps with two images, [base/x.mha] each time. *)
Local Notation run_of p := (full_itk_Main ex_itk (fun _ => p) ($"prog" :: flat c84_opts ++ []) (new_itk_test ex_itk ex_image_files)).
Local Notation caught_to z k := (fun r : Z + exn => match r with inl _ => k | inr _ => XReturn z end).
(** An image that cannot be read is one mismatch, and the exception still reaches the test: one that catches it goes on with the mismatch counted.  (An exception of the
    comparison of a string or a file is not counted: C71_caught_exception_refuted.) *)
Theorem C87_unreadable_counted : forall ie tol o a b g name esc file tolerant r n c f after, let m := MF (Mf name esc itk_type file) in
  same_kind b m = true -> found (i_env ie) (at_dirs a) (at_files a) b (MF (Mf name true itk_type file)) = MF g ->
  read_image ie (at_files a) file = None -> read_info ie (at_files a) file = None ->
  weighed ie tol o a (Some b) m tolerant r n c f after -> r = inr ExnRuntime /\ n = 1 /\ c = (Std, comparing_line (ffile g) file) /\ f = at_files a /\ after = m.
Proof.
  intros ie tol o a b g name esc file tolerant r n c f after m K Fg Ri Rh W.
  assert (V : image_verdict (i_diff ie) (read_image ie (at_files a)) tol g (Mf name true itk_type file) = Ok false).
  { unfold image_verdict, RegressionTestImage. cbn [ffile]. rewrite Ri. destruct (read_image ie (at_files a) (ffile g)); reflexivity. }
  inversion W as [p1 m1 t1 r1 n1 x1 a1 N J|b1 name1 esc1 file1 t1 x r1 n1 c1 f1 m1 K1 T A]; subst.
  - exfalso. rewrite (N eq_refl b eq_refl) in K. discriminate.
  - unfold same_kind in K. apply andb_true_iff in K. destruct K as [K2 K3]. apply eqs_true in K2, K3. cbn in K2, K3.
    inversion T; subst; try (match goal with B : forall b', Some b = Some b' -> _ |- _ => destruct (B b eq_refl) as [B'|B']; exfalso; apply B'; first [reflexivity|assumption|congruence] end);
      match goal with B : found _ _ _ _ _ = MF ?h |- _ => rewrite Fg in B; injection B as <- end; try congruence.
    destruct r as [v|i]; cbn [answers] in A; [discriminate|]. injection A as <-. repeat split; reflexivity.
Qed.
Print Assumptions C87_unreadable_counted.
Example C87_caught_unreadable :
  snd (run_of (XImage ($"none/x.mha") ($"one") (fun r => match r with inl _ => XReturn 9 | inr _ => XReturn 0 end))) = Ok 1.
Proof. vm_compute. reflexivity. Qed.
(** CompareMeasurement applied to an image object: a different image answers 0, the same one and one without partner answer 1 (tfRegressionTest.h 202-205 says the opposite). *)
Theorem C87_compare_value_refuted :
  let answer_for file name := XCompare (MF (Mf name true itk_type file)) false (fun r _ => match r with inl z => XReturn (10 + z) | inr _ => XReturn 0 end) in
  snd (run_of (answer_for ($"same/x.mha") ($"one"))) = Ok 11 /\ snd (run_of (answer_for ($"two/x.mha") ($"one"))) = Ok 10 /\ snd (run_of (answer_for ($"same/x.mha") ($"three"))) = Ok 11.
Proof. repeat split; vm_compute; reflexivity. Qed.
Print Assumptions C87_compare_value_refuted.
(** A file that is no image compared by hand with the type of images is compared as one, and a text file with another type is not. *)
Theorem C87_type_decides_refuted : exists file, contents ex_env ex_image_files file <> None /\
  snd (run_of (XCompare (MF (Mf ($"one") true ($"text/plain") file)) false (fun r _ => XReturn 0))) = Ok 1 /\
  snd (run_of (XCompare (MF (Mf ($"one") true itk_type file)) false (fun r _ => XReturn 0))) = Ok 0.
Proof. exists ($"same/x.mha"). split; [vm_compute; discriminate|]. split; vm_compute; reflexivity. Qed.
Print Assumptions C87_type_decides_refuted.

(** A run with everything. *)
Local Notation whole_example :=
  (XPrint ($"<!-- begin -->" ++ [nl])
  (XGenerate ($"mha") ($"two") (fun n =>
  (XWriteFile ($"two/x.mha") ($"e")
  (XCompare (MF (Mf ($"one") true itk_type ($"none.mha"))) false (fun r m =>
   XImageTolerance (Tolerances (S754_zero false) 0 2)
  (XImage ($"two/x.mha") ($"two") (fun r2 =>
   XMeasure (TextString ($"y") ($"p")) (fun r3 =>
   XSay (mname m ++ [nl])
  (XPrependInFileSearchPath ($"elsewhere")
  (XLook (fun v => XSay (concat (v_path v) ++ [nl])
   (XReturn (match r, r2, r3 with inr _, inl 0, inl 1 => 0 | _, _, _ => 99 end)))))))))))))).
Example C87_case : snd (run_of whole_example) = Ok 3.
Proof. vm_compute. reflexivity. Qed.
Example C87_screen : exists rest, s_stdout (fst (run_of whole_example)) = $"<!-- begin -->" ++ [nl] ++ rest.
Proof. eexists. vm_compute. reflexivity. Qed.
(** the hypotheses *)
Local Notation two_baselines := [MF (Mf ($"one") true itk_type ($"x.mha")); MF (Mf ($"two") true itk_type ($"x.mha"))].
Example C87_comparison_met := C87_comparison ex_itk ex_image_files (fun _ => whole_example) ($"prog") c84_opts [] ($"b.xml") None ex_image_files two_baselines (c84_line [] I) eq_refl eq_refl.
Lemma c87_course : exists n l a out,
  does ex_itk ($"prog" :: flat c84_opts ++ []) None true no_tolerance 0 (At default_tol ex_image_files [$"base"] 0 ($"b.xml") []) whole_example two_baselines n l a out.
Proof.
  destruct (proj1 (C87_comparison_met 3 _ _) (ex_intro _ (fst (run_of whole_example)) (conj (pair_fst _ _ ltac:(vm_compute; reflexivity)) (conj eq_refl eq_refl)))) as (n & l & a & out & D & _). eauto.
Qed.
Example C87_determined_met : exists n l a out, forall n2 l2 a2 out2,
  does ex_itk ($"prog" :: flat c84_opts ++ []) None true no_tolerance 0 (At default_tol ex_image_files [$"base"] 0 ($"b.xml") []) whole_example two_baselines n2 l2 a2 out2 -> n2 = n /\ l2 = l /\ a2 = a /\ out2 = out.
Proof. destruct c87_course as (n & l & a & out & D). exists n, l, a, out. intros n2 l2 a2 out2. exact (C87_determined _ _ _ _ _ _ _ _ _ _ _ _ _ _ _ _ _ D). Qed.
Local Notation none_object := (MF (Mf ($"one") true itk_type ($"none.mha"))).
Example C87_unreadable_counted_met := C87_unreadable_counted ex_itk no_tolerance None (At default_tol ex_image_files [$"base"] 0 ($"b.xml") []) (MF (Mf ($"one") true itk_type ($"x.mha")))
  (Mf ($"one") true itk_type ($"base/x.mha")) ($"one") true ($"none.mha") false (inr ExnRuntime) 1 (Std, comparing_line ($"base/x.mha") ($"none.mha")) ex_image_files none_object
  eq_refl ltac:(vm_compute; reflexivity) eq_refl eq_refl
  (weighed_image ex_itk no_tolerance None (At default_tol ex_image_files [$"base"] 0 ($"b.xml") []) (MF (Mf ($"one") true itk_type ($"x.mha"))) ($"one") true ($"none.mha") false (Throw ExnRuntime) (inr ExnRuntime) 1 _ _ eq_refl
    (im_no_header ex_itk [$"base"] None no_tolerance ex_image_files ($"none.mha") ($"one") (MF (Mf ($"one") true itk_type ($"x.mha"))) (Mf ($"one") true itk_type ($"base/x.mha")) eq_refl eq_refl
      ltac:(vm_compute; reflexivity) ltac:(vm_compute; reflexivity) (or_intror eq_refl)) eq_refl).
Example C87_same_without_images_met := C87_same_without_images ex_itk (fun _ => full_example) ($"prog" :: flat c84_opts ++ []) (new_itk_test ex_itk ex_image_files)
  ltac:(intros args; cbn; repeat split; intros; repeat split; exact I).
Example C87_recording_met := C87_recording ex_itk (fun _ => None) (fun _ => whole_example) ($"prog") [($"-O", $"rec.xml")] [] (Some ($"rec.xml")) (upd (fun _ => None) ($"rec.xml") (Some (FFile true true [])))
  ltac:(split; [|exact I]; constructor; [|constructor]; split; [cbn; auto|]; split; intros E; discriminate E) eq_refl eq_refl.

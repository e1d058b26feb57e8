(** C90 for the ITK driver. *)
From Coq Require Import Floats.SpecFloat.
From Verif Require Import Base Str Dec PathModel PathFacts MeasModel MeasFacts MeasFacts2 MeasProps DiffModel VisitModel DiffSpec DiffProps XmlModel ReadModel ReadFacts ReadBack RegModel ArgFacts ArgProps RegSpec RegFacts RegStart RegMain RegProps ImgModel ItkModel ItkSim ItkSpec ItkRun ItkMain ItkRunProps ErrRun RetSpec RetFacts.
Import RegModel ItkSim ItkMain.
Local Open Scope Z_scope.

(** every base class call the test can make, against every measurement of the baseline that has its name and type; images need nothing *)
Fixpoint images_can_be_compared (e : env) (baseline : list meas) (p : iprog) : Prop :=
  match p with
  | ICall c k => (forall b, In b baseline -> same_kind b (meas_of (e_io e) true c) = true -> harmless e b c) /\ forall r, images_can_be_compared e baseline (k r)
  | IImage _ _ k => forall r, images_can_be_compared e baseline (k r)
  | IGenerate _ _ k => forall n, images_can_be_compared e baseline (k n)
  | ITolerance _ k | ISay _ k | IRelativeTolerance _ k | IExpectedReturn _ k | IWriteFile _ _ k => images_can_be_compared e baseline k
  | IReturn _ | IRaise _ => True
  end.

Lemma CompareImage_normal diff t b i n r g : normal (CompareImage diff t b i n r g).
Proof.
  unfold CompareImage, normal. destruct (negb (default_region g)).
  - destruct (inside _ _ _ _); cbn [bind]; [left|right]; eexists; reflexivity.
  - destruct (negb _); cbn [bind]; [left; eexists; reflexivity|]. destruct (eqzs _ _); cbn [bind]; [left|right]; eexists; reflexivity.
Qed.
Lemma image_verdict_normal diff read tol b m : normal (image_verdict diff read tol b m).
Proof.
  unfold image_verdict, RegressionTestImage. destruct (read (ffile b)) as [x|]; cbn [bind]; [|left; eexists; reflexivity].
  destruct (read (ffile m)) as [y|]; cbn [bind]; [|left; eexists; reflexivity].
  destruct (negb (eqzs _ _)); [left; eexists; reflexivity|]. destruct (negb (eqfs (g_spacing x) _)); [left; eexists; reflexivity|]. destruct (negb (eqfs _ _)); [left; eexists; reflexivity|].
  destruct (CompareImage_normal diff (g_image y) (g_image x) (t_intensity tol) (t_pixels tol) (t_radius tol) ([], [])) as [[z ->]|[z ->]]; cbn [bind]; [left|right]; eexists; reflexivity.
Qed.
Lemma image_returns ie tol file name s s' r : itk_CompareMeasurement ie tol (file_meas true itk_type file name) false s = (s', r) -> normal r.
Proof.
  set (t := Mf name true itk_type file). change (file_meas true itk_type file name) with (MF t).
  unfold itk_CompareMeasurement. unfold mbind at 1. unfold gets at 1. cbv iota. destruct (s_input s) as [|b bs] eqn:Ein.
  - unfold mbind, UnmatchedMeasurement, modify, mret. cbv iota. unfold mbind. rewrite put_meas_eq. intros H. injection H as _ <-. left. eexists. reflexivity.
  - unfold mbind at 1. unfold modify at 1. cbv iota. set (s0 := set_input s bs).
    destruct (eqs (mname b) (mname (MF t)) && eqs (mtype b) (mtype (MF t))) eqn:Ek.
    2:{ unfold mbind, UnmatchedMeasurement, modify, mret. cbv iota. unfold mbind. rewrite put_meas_eq. intros H. injection H as _ <-. left. eexists. reflexivity. }
    unfold mbind at 1. rewrite locate_found. cbv iota. unfold mbind at 1. unfold gets at 1. cbv iota.
    destruct b as [d|g0].
    { exfalso. apply andb_prop in Ek. destruct Ek as [_ Ek]. apply eqs_true in Ek. cbn [mtype t ftype] in Ek. destruct (dcls d); cbn in Ek; discriminate Ek. }
    assert (G : exists g, found (i_env ie) (s_path s0) (s_files s0) (MF g0) (MF t) = MF g).
    { unfold found. destruct (SearchPathList _ _ _) as [[|c p]| | | |]; eauto. }
    destruct G as [g ->].
    assert (IC : forall c, itk_Compare ie tol c (MF g) (MF t) =
        (_ <- say ($"Comparing test image: " ++ quote ++ cstr (ffile t) ++ quote ++ $" to baseline image: " ++ quote ++ cstr (ffile g) ++ quote ++ [nl]) ;;
         out <- gets (fun s => image_verdict (i_diff ie) (read_image ie (s_files s)) tol g t) ;;
         v <- mlift out ;; mret (MF g, MF t, v))) by reflexivity.
    rewrite IC. set (text := $"Comparing test image: " ++ _). unfold mbind, say, modify, gets, mlift, mret.
    match goal with |- context [image_verdict ?a ?b ?c ?d ?e] => destruct (image_verdict_normal a b c d e) as [[v ->]|[i ->]] end.
    2:{ intros H. injection H as _ <-. right. eexists. reflexivity. }
    destruct v; [intros H; injection H as _ <-; left; eexists; reflexivity|].
    assert (DF : itk_Difference ie tol (MF t) (MF g) = (_ <- modify (fun s => set_unmatched s (s_unmatched s + 1)) ;; DifferenceTestImage ie tol g t)) by reflexivity.
    rewrite DF. unfold mbind, modify.
    match goal with |- context [DifferenceTestImage ie tol g t ?st] => destruct (difference_image ie tol g t st) as (s2 & r2 & -> & (_ & [[-> _]|[-> _]])) end;
      intros H; injection H as _ <-; [left|right]; eexists; reflexivity.
Qed.

Lemma images_tl e b bs p : images_can_be_compared e (b :: bs) p -> images_can_be_compared e bs p.
Proof.
  induction p as [z|x|c q IH|f nm q IH|t q IH|ext root q IH|t q IH|t q IH|z q IH|path y q IH]; cbn [images_can_be_compared]; auto.
  intros [A B]. split; [intros b0 Hb; exact (A b0 (or_intror Hb))|]. intros r. apply IH, B.
Qed.
Lemma irun_returns ie args : args <> [] -> forall p tol n s s' r k, s_is s = Some k -> Forall fresh_meas (s_input s) ->
  images_can_be_compared (i_env ie) (s_input s) p -> irun ie args p tol n s = (s', r) -> normal r.
Proof.
  intros Ha.
  assert (STEP : forall c (q : Z -> iprog) tol n s s' r k s1 r1,
    (forall z tol n s s' r k, s_is s = Some k -> Forall fresh_meas (s_input s) -> images_can_be_compared (i_env ie) (s_input s) (q z) -> irun ie args (q z) tol n s = (s', r) -> normal r) ->
    s_is s = Some k -> Forall fresh_meas (s_input s) -> (forall z, images_can_be_compared (i_env ie) (s_input s) (q z)) ->
    call_outcome ie tol c s s1 r1 -> normal r1 ->
    (match r1 with Ok a => irun ie args (q a) tol n s1 | Throw e => (s1, Throw e) | UB => (s1, UB) | Abort => (s1, Abort) | Hang => (s1, Hang) end) = (s', r) ->
    normal r).
  { intros c q tol n s s' r k s1 r1 IH Hi Hf Hq [A B] Nr H. destruct Nr as [[z ->]|[i ->]].
    - destruct (A z eq_refl) as (_ & _ & I1 & (F & _)). destruct F as (_ & _ & _ & _ & F5).
      refine (IH z tol n s1 s' r k _ _ _ H); [congruence| |]; rewrite I1.
      + destruct Hf; [constructor|assumption].
      + destruct (s_input s) as [|b bs]; [apply Hq|]. exact (images_tl _ b bs _ (Hq z)).
    - injection H as _ <-. right. eexists. reflexivity. }
  induction p as [z|x|c q IH|f nm q IH|t q IH|ext root q IH|t q IH|t q IH|z q IH|path y q IH]; intros tol n s s' r k Hi Hf Hc H; cbn [irun] in H; cbn [images_can_be_compared] in Hc.
  - unfold mret in H. injection H as _ <-. left. eexists. reflexivity.
  - unfold mlift in H. injection H as _ <-. right. eexists. reflexivity.
  - destruct Hc as [Hc Hk]. unfold mbind at 1 in H. unfold itk_Measure, GetCompareMode in H. unfold mbind at 1 in H. rewrite (compare_mode_open (i_env ie) s k Hi) in H. cbv iota in H.
    destruct (itk_CompareMeasurement ie tol (meas_of (e_io (i_env ie)) true c) (tolerant_of c) s) as [s1 r1] eqn:E.
    pose proof (base_outcome _ _ _ _ _ _ E) as O. rewrite itk_compare_base in E by apply other_meas.
    exact (STEP (BaseCall c) q tol n s s' r k s1 r1 IH Hi Hf Hk O (compare_returns _ _ _ _ _ Hf Hc E) H).
  - unfold mbind at 1 in H. unfold MeasurementInsightFileImage, GetCompareMode in H. unfold mbind at 1 in H. rewrite (compare_mode_open (i_env ie) s k Hi) in H. cbv iota in H.
    destruct (itk_CompareMeasurement ie tol (file_meas true itk_type f nm) false s) as [s1 r1] eqn:E.
    exact (STEP (ImageCall f nm) q tol n s s' r k s1 r1 IH Hi Hf Hc (image_outcome _ _ _ _ _ _ _ E) (image_returns _ _ _ _ _ _ _ E) H).
  - exact (IH t n s s' r k Hi Hf Hc H).
  - unfold mbind, mlift in H. assert (G : exists name, GenerateFileName (e_sc (i_env ie)) args n ext root = Ok name).
    { unfold GenerateFileName. destruct args; [contradiction|]. destruct root; [eexists; reflexivity|]. apply append_ok. }
    destruct G as [name G]. rewrite G in H. exact (IH name tol (n + 1) s s' r k Hi Hf (Hc name) H).
  - unfold mbind, say, modify in H. refine (IH tol n _ s' r k _ _ _ H); assumption.
  - unfold mbind, modify in H. refine (IH tol n _ s' r k _ _ _ H); assumption.
  - unfold mbind, modify in H. refine (IH tol n _ s' r k _ _ _ H); assumption.
  - unfold mbind, modify in H. refine (IH tol n _ s' r k _ _ _ H); assumption.
Qed.

Lemma ends_returns e s r : normal r -> exists s' z, ends_with e (s, r) = (s', Ok z).
Proof.
  assert (C : forall s, exists b, compare_mode e s = Ok b).
  { intros s0. destruct (s_is s0) as [k|] eqn:K; [rewrite (compare_mode_open e s0 k K)|rewrite (ApiRun.closed_mode e s0 K)]; eexists; reflexivity. }
  assert (F : forall ret s, exists s' z, finish_with e ret s = (s', Ok z)).
  { intros ret s0. unfold finish_with. destruct (negb _); [do 2 eexists; reflexivity|]. destruct (C s0) as [b ->]. do 2 eexists. reflexivity. }
  intros [[z ->]|[i ->]]; unfold ends_with; [|apply F]. unfold EndMeasurement, GetCompareMode, mbind. destruct (C s) as [b ->].
  destruct b; unfold modify, put; apply F.
Qed.

(** A comparing run of a test on the ITK driver ends, with the status that counts the mismatches, if its calls of the base class can be compared with the
    baseline: no pair of images, readable or not, of equal or different geometry, keeps it from ending. *)
Theorem C90_itk_run_returns : forall ie f test a0 opts rest inf o f1 baseline, let e := i_env ie in let argv := a0 :: flat opts ++ rest in
  let dirs := dirs_of opts ++ [i_baselines ie] in
  command_line e f opts rest -> input_of opts = Some inf ->
  started e f (output_of e f opts) dirs inf = Some (o, f1, baseline) ->
  images_can_be_compared e baseline (test (a0 :: rest)) ->
  exists s' z ms rs ns x out extra, itk_Main ie test argv (new_itk_test ie f) = (s', Ok z) /\
    iunfolds ie argv o default_tol no_tolerance 0 f1 (expected_of opts) (test (a0 :: rest)) ms rs ns x out /\
    z = status out x (imismatches ie dirs baseline (firstn (length rs) ms) + extra).
Proof.
  intros ie f test a0 opts rest inf o f1 baseline e argv dirs Hc Hi Hs Hb.
  assert (Hf : Forall fresh_meas baseline).
  { unfold started in Hs. destruct (opened e f (output_of e f opts)) as [[o1 f2]|]; [|discriminate].
    destruct (contents e f2 (baseline_path e f2 dirs inf)) as [bytes|]; [|discriminate].
    destruct (ReadXMLInput (e_asserts e) (e_ext e) bytes) as [l| | | |] eqn:R; try discriminate. injection Hs as _ _ <-.
    apply read_uncached in R. eapply Forall_impl; [|exact R]. intros [d|g] H; exact H. }
  assert (B : exists k s2, BeginMeasurement e (launched_in e f [i_baselines ie] opts) = (s2, Ok tt) /\ s_is s2 = Some k /\ s_input s2 = baseline).
  { pose proof (input_of_nonempty e f opts inf (proj1 Hc) Hi) as Hn. unfold started in Hs.
    pose proof (begin_compare e (launched_in e f [i_baselines ie] opts) inf eq_refl eq_refl) as B.
    assert (Hin : s_in (launched_in e f [i_baselines ie] opts) = inf) by (cbn; rewrite Hi; reflexivity). specialize (B Hin Hn).
    change (s_files (launched_in e f [i_baselines ie] opts)) with f in B. change (s_out (launched_in e f [i_baselines ie] opts)) with (output_of e f opts) in B.
    change (s_path (launched_in e f [i_baselines ie] opts)) with dirs in B. cbv zeta in B.
    destruct (opened e f (output_of e f opts)) as [[o1 f2]|] eqn:Eo; [|discriminate].
    set (s1 := set_os (set_files (launched_in e f [i_baselines ie] opts) f2) o1) in *. set (q := baseline_path e f2 dirs inf) in *.
    destruct (can_open e f2 q) eqn:Er.
    2:{ assert (Ec : contents e f2 q = None).
        { revert Er. unfold can_open, contents. destruct (node_at e f2 q) as [[[|] w b|]|]; auto; discriminate. }
        rewrite Ec in Hs. discriminate. }
    destruct (readable_contents e f2 q Er) as (k & Ek & [(r & w & b & Eb & Ec & Ef)|(r & w & x & Eb & Ec)]); rewrite Ec in Hs; [|discriminate].
    rewrite B, Ek. unfold read_input. cbn [set_is s_is]. change (s_files (set_is s1 (Some k))) with f2. rewrite Eb.
    destruct (ReadXMLInput (e_asserts e) (e_ext e) b) as [l|i| | |]; try discriminate. injection Hs as -> -> ->.
    exists k. eexists. split; [reflexivity|]. split; reflexivity. }
  destruct B as (k & s2 & B & Hk & Hin).
  destruct (irun ie argv (test (a0 :: rest)) no_tolerance 0 s2) as [s3 r] eqn:R.
  assert (N : normal r).
  { refine (irun_returns ie argv _ (test (a0 :: rest)) no_tolerance 0 s2 s3 r k Hk _ _ R); [discriminate| |]; rewrite Hin; assumption. }
  assert (M : exists s' z, itk_Main ie test argv (new_itk_test ie f) = (s', Ok z)).
  { unfold itk_Main, argv. rewrite Main_with_unfold. change (new_itk_test ie f) with (fresh f [i_baselines ie]).
    change (set_unmatched (fresh f [i_baselines ie]) (s_unmatched (fresh f [i_baselines ie]) + 1)) with (set_unmatched (fresh f [i_baselines ie]) 1).
    fold e. rewrite (main_with_launch e _ f [i_baselines ie] a0 opts rest Hc). unfold mbind. rewrite B. fold argv. rewrite R. apply ends_returns, N. }
  destruct M as (s' & z & E). pose proof (C55_compare_status ie f test a0 opts rest inf s' z Hc Hi E) as H. cbv zeta in H. fold e dirs in H. rewrite Hs in H.
  destruct H as (ms & rs & ns & x & out & extra & W & _ & _ & Z). exists s', z, ms, rs, ns, x, out, extra. auto.
Qed.
Print Assumptions C90_itk_run_returns.

(** images that agree, differ, and cannot be read *)
Local Notation image_base := [MF (Mf ($"one") true itk_type ($"x.mha")); MF (Mf ($"two") true itk_type ($"x.mha"))].
Lemma line_images : command_line ex_env ex_image_files [($"-I", $"b.xml")] [].
Proof. split; [|exact Logic.I]. repeat apply Forall_cons; try apply Forall_nil. split; [cbn; auto 6|split; intros H; vm_compute in H |- *; try discriminate H; auto]. Qed.
Lemma images_can a b args : images_can_be_compared ex_env image_base (two_images a b args).
Proof. intros r r'. exact Logic.I. Qed.
Example C90_itk_run_returns_met a b := C90_itk_run_returns ex_itk ex_image_files (two_images a b) ($"prog") [($"-I", $"b.xml")] [] ($"b.xml") None ex_image_files image_base
  line_images eq_refl ltac:(vm_compute; reflexivity) (images_can a b _).

(** C83: everything a comparing run of the ITK driver prints and writes. *)
From Coq Require Import Floats.SpecFloat.
From Verif Require Import Base Str Dec PathModel PathFacts MeasModel MeasFacts DiffModel VisitModel XmlText XmlModel ReadModel ReadFacts ReadBack ReadProps NoThrow RegModel ArgFacts ArgProps RegSpec RegFacts RegStart RegMain RegProps RegProps2 LineSpec LineProps ReportSpec ReportProps ImgModel ImgSpec ImgMore ImgProps ItkModel ItkSpec ItkSim ItkRun ItkMain ItkRunProps ReuseProps CasesRead.
Local Open Scope Z_scope.

(** * Vocabulary *)
(** A text printed: to standard output, or to the output of the measurements (a file if there is one, else standard output too). *)
Inductive dest := Std | Out.
Definition piece := (dest * str)%type.
Definition on_stdout (o : option str) (l : list piece) : str :=
  flat_map (fun a : piece => match a with (Std, t) => t | (Out, t) => match o with None => t | Some _ => [] end end) l.
Definition on_output (l : list piece) : str := flat_map (fun a : piece => match a with (Std, _) => [] | (Out, t) => t end) l.
(** the files after [text] went to the output *)
Definition into (o : option str) (text : str) (f : store) : store :=
  match o, text with
  | Some k, _ :: _ => match f k with Some (FFile r w b) => upd f k (Some (FFile r w (b ++ text))) | _ => f end
  | _, _ => f
  end.
(** An image measurement: its partner in the baseline, what is printed, the files afterwards, the mismatches counted, the result. *)
Inductive image_told (ie : ienv) (dirs : list str) (o : option str) (tol : tolerances) (f : store) (file name : str) : option meas -> piece -> store -> Z -> res Z -> Prop :=
| im_alone p : (forall b, p = Some b -> mname b <> name \/ mtype b <> itk_type) -> let text := element FILE ($"Unmatched " ++ name) itk_type file ++ [nl] in
    image_told ie dirs o tol f file name p (Out, text) (into o text f) 1 (Ok 1)
| im_same b g : mname b = name -> mtype b = itk_type -> found (i_env ie) dirs f b (MF (Mf name true itk_type file)) = MF g ->
    image_verdict (i_diff ie) (read_image ie f) tol g (Mf name true itk_type file) = Ok true ->
    image_told ie dirs o tol f file name (Some b) (Std, comparing_line (ffile g) file) f 0 (Ok 1)
| im_sizes b g hb ht : mname b = name -> mtype b = itk_type -> found (i_env ie) dirs f b (MF (Mf name true itk_type file)) = MF g ->
    image_verdict (i_diff ie) (read_image ie f) tol g (Mf name true itk_type file) = Ok false ->
    read_info ie f (ffile g) = Some hb -> read_info ie f file = Some ht -> h_size hb <> h_size ht ->
    image_told ie dirs o tol f file name (Some b)
      (Std, comparing_line (ffile g) file ++ print_line (status_text ($"Baseline Size " ++ name) (i_show_size ie (h_size hb))) ++
            print_line (status_text ($"Test ImageSize " ++ name) (i_show_size ie (h_size ht)))) f 1 (Ok 0)
| im_pixels b g hb ht bi ti p1 p2 p3 : mname b = name -> mtype b = itk_type -> found (i_env ie) dirs f b (MF (Mf name true itk_type file)) = MF g ->
    image_verdict (i_diff ie) (read_image ie f) tol g (Mf name true itk_type file) = Ok false ->
    read_info ie f (ffile g) = Some hb -> read_info ie f file = Some ht -> h_size hb = h_size ht ->
    read_image ie f (ffile g) = Some bi -> read_image ie f file = Some ti ->
    Append (i_output ie) (Tail file ++ $".diff.png") = Ok p1 -> Append (i_output ie) (Tail file ++ $".base.png") = Ok p2 -> Append (i_output ie) (Tail file ++ $".test.png") = Ok p3 ->
    let filter := Filter (t_radius tol) (t_intensity tol) false in let diff := i_diff_image ie filter (g_image bi) (g_image ti) in
    image_told ie dirs o tol f file name (Some b)
      (Std, comparing_line (ffile g) file ++ attribute_lines ie name hb ht ++ error_line ie name (i_diff ie filter (g_image bi) (g_image ti)) ++
            picture_lines ie name diff p1 ++ picture_lines ie name (g_image bi) p2 ++ picture_lines ie name (g_image ti) p3)
      (with_picture ie (g_image ti) p3 (with_picture ie (g_image bi) p2 (with_picture ie diff p1 f))) 1 (Ok 0)
| im_no_header b g : mname b = name -> mtype b = itk_type -> found (i_env ie) dirs f b (MF (Mf name true itk_type file)) = MF g ->
    image_verdict (i_diff ie) (read_image ie f) tol g (Mf name true itk_type file) = Ok false ->
    read_info ie f (ffile g) = None \/ read_info ie f file = None ->
    image_told ie dirs o tol f file name (Some b) (Std, comparing_line (ffile g) file) f 1 (Throw ExnRuntime)
| im_no_image b g hb ht : mname b = name -> mtype b = itk_type -> found (i_env ie) dirs f b (MF (Mf name true itk_type file)) = MF g ->
    image_verdict (i_diff ie) (read_image ie f) tol g (Mf name true itk_type file) = Ok false ->
    read_info ie f (ffile g) = Some hb -> read_info ie f file = Some ht -> h_size hb = h_size ht ->
    read_image ie f (ffile g) = None \/ read_image ie f file = None ->
    image_told ie dirs o tol f file name (Some b) (Std, comparing_line (ffile g) file ++ attribute_lines ie name hb ht) f 1 (Throw ExnRuntime)
| im_error b g i : mname b = name -> mtype b = itk_type -> found (i_env ie) dirs f b (MF (Mf name true itk_type file)) = MF g ->
    image_verdict (i_diff ie) (read_image ie f) tol g (Mf name true itk_type file) = Throw i ->
    image_told ie dirs o tol f file name (Some b) (Std, comparing_line (ffile g) file) f 0 (Throw i).
(** A test compared with the measurements [bs]: relative tolerance, image tolerances, names generated so far, files, expected return value; what is printed, the files left,
    the mismatches, the expected value at the end, and how it ends.  The report on a measurement that is no image is the one of C66. *)
Inductive tells (ie : ienv) (args dirs : list str) (o : option str)
  : spec_float -> tolerances -> Z -> store -> Z -> list meas -> iprog -> list piece -> store -> Z -> Z -> res Z -> Prop :=
| te_return t tol n f x bs z : tells ie args dirs o t tol n f x bs (IReturn z) [] f 0 x (Ok z)
| te_raise t tol n f x bs i : tells ie args dirs o t tol n f x bs (IRaise i) [] f 0 x (Throw i)
| te_call t tol n f x bs c k text r l f' u x' out : let mo := (c, t, f) in
    (forall b, hd_error bs = Some b -> kind_of_moment (i_env ie) b mo = true -> exists v, verdict (i_env ie) dirs b mo = Ok v) ->
    ReportSpec.report (i_env ie) dirs (hd_error bs) mo text -> [r] = results (i_env ie) dirs bs [mo] ->
    tells ie args dirs o t tol n (into o text f) x (tl bs) (k r) l f' u x' out ->
    tells ie args dirs o t tol n f x bs (ICall c k) ((Out, text) :: l) f' (mismatches (i_env ie) dirs bs [mo] + u) x' out
| te_call_stops t tol n f x bs b c k i : let mo := (c, t, f) in hd_error bs = Some b -> kind_of_moment (i_env ie) b mo = true -> verdict (i_env ie) dirs b mo = Throw i ->
    tells ie args dirs o t tol n f x bs (ICall c k) [] f 0 x (Throw i)
| te_image t tol n f x bs file name k a f1 v r l f' u x' out : image_told ie dirs o tol f file name (hd_error bs) a f1 v (Ok r) ->
    tells ie args dirs o t tol n f1 x (tl bs) (k r) l f' u x' out ->
    tells ie args dirs o t tol n f x bs (IImage file name k) (a :: l) f' (v + u) x' out
| te_image_stops t tol n f x bs file name k a f1 v i : image_told ie dirs o tol f file name (hd_error bs) a f1 v (Throw i) ->
    tells ie args dirs o t tol n f x bs (IImage file name k) [a] f1 v x (Throw i)
| te_tolerance t tol tol' n f x bs k l f' u x' out : tells ie args dirs o t tol' n f x bs k l f' u x' out ->
    tells ie args dirs o t tol n f x bs (ITolerance tol' k) l f' u x' out
| te_generate t tol n f x bs ext root name k l f' u x' out : GenerateFileName (e_sc (i_env ie)) args n ext root = Ok name ->
    tells ie args dirs o t tol (n + 1) f x bs (k name) l f' u x' out ->
    tells ie args dirs o t tol n f x bs (IGenerate ext root k) l f' u x' out
| te_say t tol n f x bs text k l f' u x' out : tells ie args dirs o t tol n f x bs k l f' u x' out ->
    tells ie args dirs o t tol n f x bs (ISay text k) ((Std, text) :: l) f' u x' out
| te_relative t t' tol n f x bs k l f' u x' out : tells ie args dirs o t' tol n f x bs k l f' u x' out ->
    tells ie args dirs o t tol n f x bs (IRelativeTolerance t' k) l f' u x' out
| te_expected t tol n f x x1 bs k l f' u x' out : tells ie args dirs o t tol n f x1 bs k l f' u x' out ->
    tells ie args dirs o t tol n f x bs (IExpectedReturn x1 k) l f' u x' out
| te_write t tol n f x bs path b k l f' u x' out : tells ie args dirs o t tol n (write_file (i_env ie) f path b) x bs k l f' u x' out ->
    tells ie args dirs o t tol n f x bs (IWriteFile path b k) l f' u x' out.

(** * One measurement *)
(** [s'] is [s] after this was printed *)
Definition emits (a : piece) (f : store) (s s' : rst) : Prop := s_files s' = f /\ s_stdout s' = s_stdout s ++ on_stdout (s_os s) [a].
Lemma put_emits t s : t <> [] -> s_files (put_text t s) = into (s_os s) t (s_files s) /\ s_stdout (put_text t s) = s_stdout s ++ on_stdout (s_os s) [(Out, t)].
Proof.
  intros N. unfold put_text, into, on_stdout. cbn [flat_map]. destruct t as [|c t]; [contradiction|]. destruct (s_os s) as [k|]; cbn [app].
  - destruct (s_files s k) as [[r w b|]|]; rewrite app_nil_r; split; reflexivity.
  - rewrite app_nil_r. split; reflexivity.
Qed.
Lemma compare_tells e c s s' r : Forall (fun b => mesc b = true) (s_input s) ->
  CompareMeasurement e (meas_of (e_io e) true c) (tolerant_of c) s = (s', r) ->
  (forall z, r = Ok z -> (forall b, hd_error (s_input s) = Some b -> kind_of_moment e b (c, s_tol s, s_files s) = true -> exists v, verdict e (s_path s) b (c, s_tol s, s_files s) = Ok v) /\ exists t, ReportSpec.report e (s_path s) (hd_error (s_input s)) (c, s_tol s, s_files s) t /\
     s_files s' = into (s_os s) t (s_files s) /\ s_stdout s' = s_stdout s ++ on_stdout (s_os s) [(Out, t)]) /\
  (forall i, r = Throw i -> s_files s' = s_files s /\ s_stdout s' = s_stdout s).
Proof.
  intros Hesc. unfold CompareMeasurement. unfold mbind at 1. unfold gets at 1. cbv iota.
  set (m := meas_of (e_io e) true c). set (mo := (c, s_tol s, s_files s)).
  assert (NE : forall a, a ++ [nl] <> []) by (intros [|? ?]; discriminate).
  assert (UM : forall s0, s_files s0 = s_files s -> s_stdout s0 = s_stdout s -> s_os s0 = s_os s -> exists s', UnmatchedMeasurement m s0 = (s', Ok tt) /\
     let t := ReportSpec.shown m ($"Unmatched " ++ mname m) ++ [nl] in s_files s' = into (s_os s) t (s_files s) /\ s_stdout s' = s_stdout s ++ on_stdout (s_os s) [(Out, t)]).
  { intros s0 F0 O0 R0. unfold UnmatchedMeasurement, mbind, modify. cbv iota. rewrite put_meas_eq, shown_print by apply meas_esc.
    set (s1 := set_unmatched s0 (s_unmatched s0 + 1)%Z). cbv zeta. set (t := ReportSpec.shown m ($"Unmatched " ++ mname m) ++ [nl]).
    destruct (put_emits t s1 (NE _)) as [A B]. eexists. split; [reflexivity|]. rewrite A, B. change (s_os s1) with (s_os s0). change (s_files s1) with (s_files s0). change (s_stdout s1) with (s_stdout s0).
    rewrite F0, O0, R0. split; reflexivity. }
  destruct (s_input s) as [|b bs] eqn:Ein.
  - unfold mbind. destruct (UM s eq_refl eq_refl eq_refl) as (s1 & E & O & R1). rewrite E. unfold mret. intros H. injection H as <- <-.
    split; [|discriminate]. intros z _. split; [discriminate|]. eexists. split; [|split; [exact O|exact R1]]. apply report_alone. discriminate.
  - inversion Hesc as [|? ? Hb _]; subst. unfold mbind at 1. unfold modify at 1. cbv iota.
    set (s0 := set_input s bs). cbv zeta. cbn [hd_error].
    destruct (eqs (mname b) (mname m) && eqs (mtype b) (mtype m)) eqn:Ek.
    + assert (SK : kind_of_moment e b mo = true) by exact Ek.
      unfold mbind at 1. rewrite locate_found. cbv iota. change (s_path s0) with (s_path s). change (s_files s0) with (s_files s).
      unfold mbind at 1. unfold gets at 1. cbv iota. change (s_files s0) with (s_files s). unfold visitor. change (s_tol s0) with (s_tol s).
      set (b1 := found e (s_path s) (s_files s) b m).
      set (cv := if tolerant_of c then SetTolerance new_cmp (s_tol s) else new_cmp).
      destruct (Compare (e_sc e) (sources e (s_files s)) (e_io e) cv b1 m) as [[b2 m2] v] eqn:Ec.
      assert (SV : same_value e (s_path s) b mo = match v with Ok true => true | _ => false end).
      { unfold same_value, verdict, mo. fold m. fold b1. fold cv. rewrite Ec. reflexivity. }
      assert (VD : forall v', v = Ok v' -> forall b0, Some b = Some b0 -> kind_of_moment e b0 mo = true -> exists v, verdict e (s_path s) b0 mo = Ok v).
      { intros v' -> b0 E0 _. injection E0 as <-. exists v'. unfold verdict, mo. fold m. fold b1. fold cv. rewrite Ec. reflexivity. }
      destruct (compare_stored _ _ _ _ _ _ _ _ _ Ec) as [St1 St2].
      unfold mbind at 1, mlift at 1. destruct v as [v|x| | |]; cbv iota; intros H.
      * destruct v.
        { unfold mret in H. injection H as <- <-. split; [|discriminate]. intros z _. split; [exact (VD _ eq_refl)|]. exists [].
          split; [apply report_same; assumption|]. unfold into, on_stdout. cbn [flat_map]. split; [destruct (s_os s); reflexivity|].
          assert (E : (match s_os s with Some _ => [] | None => [] end ++ [] : str) = []) by (destruct (s_os s); reflexivity). rewrite E, app_nil_r. reflexivity. }
        { unfold DifferenceMeasurement, mbind, modify, mlift, put, mret in H.
          set (s1 := set_unmatched s0 (s_unmatched s0 + 1)%Z) in *.
          rewrite <- difference_stored, St1, St2, difference_stored in H. unfold m in H. rewrite difference_text in H by (apply found_esc, Hb). fold m in H.
          destruct (plain_text c) as [text|] eqn:Ep.
          - assert (Eb : b1 = b).
            { unfold b1, found. destruct b as [d|g]; [reflexivity|]. assert (exists d, m = MD d) as [d ->]; [|reflexivity].
              unfold m. destruct c; try discriminate Ep. eexists. reflexivity. }
            rewrite Eb in H. destruct (Diff _ _ _ (mcontent b) text) as [d|x| | |] eqn:Ed; cbn [bind] in H; cbv iota in H; unfold modify in H;
              injection H as <- <-; try (split; discriminate).
            + split; [|discriminate]. intros z _. split; [exact (VD _ eq_refl)|]. set (t := element DATA ($"Difference " ++ mname m) ($"text/plain") d ++ [nl]).
              destruct (put_emits t s1 (NE _)) as [A B]. exists t. split; [|split; [exact A|exact B]].
              exact (report_text e (s_path s) b c _ _ text d SK SV Ep Ed).
            + exfalso. exact (Diff_raises_nothing _ _ _ _ _ _ Ed).
          - cbv iota in H. unfold modify in H. injection H as <- <-. split; [|discriminate]. intros z _. split; [exact (VD _ eq_refl)|]. set (t := ReportSpec.shown m ($"Test " ++ mname m) ++ [nl] ++ ReportSpec.shown b1 ($"Baseline " ++ mname b1) ++ [nl]).
            assert (Nt : t <> []) by (unfold t; intros E; apply app_eq_nil in E as [_ E]; discriminate E).
            destruct (put_emits t s1 Nt) as [A B]. exists t. split; [|split; [exact A|exact B]].
            unfold t, b1. rewrite (proj1 (found_kind e (s_path s) (s_files s) b m)). exact (report_values e (s_path s) b c _ _ SK SV Ep). }
      * injection H as <- <-. split; [discriminate|]. intros i _. split; reflexivity.
      * injection H as <- <-. split; discriminate.
      * injection H as <- <-. split; discriminate.
      * injection H as <- <-. split; discriminate.
    + assert (SK : kind_of_moment e b mo = false) by exact Ek.
      unfold mbind. destruct (UM s0 eq_refl eq_refl eq_refl) as (s1 & E & O & R1). rewrite E. unfold mret. intros H. injection H as <- <-.
      split; [|discriminate]. intros z _. split; [intros b0 Hb0 K0; injection Hb0 as <-; congruence|]. eexists. split; [|split; [exact O|exact R1]]. apply report_alone. intros b0 Hb0. injection Hb0 as <-. exact SK.
Qed.
Lemma attribute_report ie tol g m s ht hb : read_info ie (s_files s) (ffile m) = Some ht -> read_info ie (s_files s) (ffile g) = Some hb -> h_size hb = h_size ht ->
  read_image ie (s_files s) (ffile g) = None \/ read_image ie (s_files s) (ffile m) = None ->
  DifferenceTestImage ie tol g m s = (set_stdout s (s_stdout s ++ attribute_lines ie (fname m) hb ht), Throw ExnRuntime).
Proof.
  intros Ht Hb Hs Hn. unfold DifferenceTestImage. unfold mbind at 1. unfold gets at 1. unfold mbind at 1. unfold gets at 1. rewrite Ht, Hb.
  unfold eqzs. destruct (list_eq_dec Z.eq_dec (h_size hb) (h_size ht)) as [_|N]; [|contradiction]. cbn [negb]. unfold attribute_lines, pair_lines.
  unfold mbind at 1. rewrite report_eq. unfold mbind at 1. rewrite report_eq. unfold mbind at 1. rewrite report_eq.
  unfold mbind at 1. rewrite report_eq. unfold mbind at 1. rewrite report_eq.
  unfold mbind at 1. unfold gets at 1. unfold mbind at 1. unfold gets at 1. cbn [s_files set_stdout s_stdout].
  destruct Hn as [-> | ->]; [destruct (read_image ie (s_files s) (ffile m))|]; unfold mlift; rewrite <- !app_assoc; reflexivity.
Qed.
Lemma image_tells ie tol file name s s' r ki : s_is s = Some ki -> MeasurementInsightFileImage ie tol file name s = (s', r) ->
  ((exists z, r = Ok z) \/ (exists i, r = Throw i)) ->
  exists a f' v, image_told ie (s_path s) (s_os s) tol (s_files s) file name (hd_error (s_input s)) a f' v r /\
    s_files s' = f' /\ s_stdout s' = s_stdout s ++ on_stdout (s_os s) [a] /\ s_unmatched s' = s_unmatched s + v /\
    s_input s' = tl (s_input s) /\ frame s s' /\ s_tol s' = s_tol s /\ s_expected s' = s_expected s.
Proof.
  intros Hi H Ho. set (m := Mf name true itk_type file).
  assert (UM : forall s0, frame s s0 -> s_files s0 = s_files s -> s_stdout s0 = s_stdout s -> s_unmatched s0 = s_unmatched s -> s_input s0 = tl (s_input s) -> s_tol s0 = s_tol s -> s_expected s0 = s_expected s ->
     exists s', UnmatchedMeasurement (MF m) s0 = (s', Ok tt) /\
     let t := element FILE ($"Unmatched " ++ name) itk_type file ++ [nl] in s_files s' = into (s_os s) t (s_files s) /\ s_stdout s' = s_stdout s ++ on_stdout (s_os s) [(Out, t)] /\
     s_unmatched s' = s_unmatched s + 1 /\ s_input s' = tl (s_input s) /\ frame s s' /\ s_tol s' = s_tol s /\ s_expected s' = s_expected s).
  { intros s0 Fr F0 O0 U0 I0 T0 X0. unfold UnmatchedMeasurement, mbind, modify. cbv iota. rewrite put_meas_eq, (shown_print (MF m)) by reflexivity.
    set (s1 := set_unmatched s0 (s_unmatched s0 + 1)%Z). cbv zeta. change (ReportSpec.shown (MF m) ($"Unmatched " ++ mname (MF m))) with (element FILE ($"Unmatched " ++ name) itk_type file).
    set (t := element FILE ($"Unmatched " ++ name) itk_type file ++ [nl]).
    assert (Nt : t <> []) by (unfold t; intros E; apply app_eq_nil in E as [_ E]; discriminate E).
    destruct (put_emits t s1 Nt) as [A B]. destruct (put_text_any t s1) as (F & I1 & T1 & U1 & X1 & _). eexists. split; [reflexivity|].
    rewrite A, B, I1, T1, U1, X1. assert (Os : s_os s1 = s_os s) by apply Fr. rewrite Os. change (s_files s1) with (s_files s0). change (s_stdout s1) with (s_stdout s0). rewrite F0, O0.
    split; [reflexivity|]. split; [reflexivity|]. split; [cbn; rewrite U0; reflexivity|]. split; [exact I0|]. split; [|split; [exact T0|exact X0]].
    eapply frame_trans; [exact Fr|]. exact F. }
  destruct (s_input s) as [|b bs] eqn:Ein.
  { unfold MeasurementInsightFileImage, GetCompareMode in H. unfold mbind at 1 in H. rewrite (compare_mode_open (i_env ie) s ki Hi) in H. cbv iota in H.
    change (file_meas true itk_type file name) with (MF m) in H. unfold itk_CompareMeasurement in H. unfold mbind at 1 in H. unfold gets at 1 in H. rewrite Ein in H. cbv iota in H.
    destruct (UM s) as (s1 & E & A); try reflexivity; [apply frame_refl|exact Ein|]. unfold mbind in H. rewrite E in H. unfold mret in H. injection H as <- <-.
    eexists _, _, _. split; [apply im_alone; discriminate|]. exact A. }
  destruct (eqs (mname b) name && eqs (mtype b) itk_type) eqn:Ek.
  2:{ unfold MeasurementInsightFileImage, GetCompareMode in H. unfold mbind at 1 in H. rewrite (compare_mode_open (i_env ie) s ki Hi) in H. cbv iota in H.
    change (file_meas true itk_type file name) with (MF m) in H. unfold itk_CompareMeasurement in H. unfold mbind at 1 in H. unfold gets at 1 in H. rewrite Ein in H. cbv iota in H.
    unfold mbind at 1 in H. unfold modify at 1 in H. cbv iota in H. change (mname (MF m)) with name in H. change (mtype (MF m)) with itk_type in H. rewrite Ek in H.
    destruct (UM (set_input s bs)) as (s1 & E & A); try reflexivity; [repeat split|]. unfold mbind in H. rewrite E in H. unfold mret in H. injection H as <- <-.
    eexists _, _, _. split; [apply im_alone|exact A]. intros b0 E0. injection E0 as <-. apply andb_false_iff in Ek as [Ek|Ek]; apply eqs_false in Ek; auto. }
  apply andb_true_iff in Ek as [Kn Kt]. apply eqs_true in Kn, Kt. cbn [hd_error tl].
  destruct b as [d|g0]; [exfalso; cbn in Kt; destruct (dcls d); discriminate Kt|].
  assert (Fg : exists g, found (i_env ie) (s_path s) (s_files s) (MF g0) (MF m) = MF g).
  { unfold found. destruct (SearchPathList _ _ _) as [[|c p]| | | |]; eexists; reflexivity. }
  destruct Fg as [g Fg].
  assert (ST : forall t, on_stdout (s_os s) [(Std, t)] = t) by (intros t; unfold on_stdout; cbn; apply app_nil_r).
  destruct (image_verdict (i_diff ie) (read_image ie (s_files s)) tol g m) as [[|]|i| | |] eqn:Ev.
  - unfold MeasurementInsightFileImage, GetCompareMode in H. unfold mbind at 1 in H. rewrite (compare_mode_open (i_env ie) s ki Hi) in H. cbv iota in H.
    change (file_meas true itk_type file name) with (MF m) in H. unfold itk_CompareMeasurement in H. unfold mbind at 1 in H. unfold gets at 1 in H. rewrite Ein in H. cbv iota in H.
    unfold mbind at 1 in H. unfold modify at 1 in H. cbv iota in H. change (mname (MF m)) with name in H. change (mtype (MF m)) with itk_type in H. rewrite Kn, Kt, !eqs_refl in H. cbn [andb] in H.
    unfold mbind at 1 in H. rewrite locate_found in H. cbv iota in H. change (s_path (set_input s bs)) with (s_path s) in H. change (s_files (set_input s bs)) with (s_files s) in H. rewrite Fg in H.
    unfold mbind at 1 in H. unfold gets at 1 in H. rewrite visitor_plain in H. cbv iota in H. unfold mbind at 1 in H. unfold itk_Compare in H. change (eqs (ftype m) itk_type) with true in H. cbv iota in H.
    unfold mbind at 1 in H. rewrite say_eq in H. unfold mbind at 1 in H. unfold gets at 1 in H. cbn [s_files set_stdout set_input] in H. rewrite Ev in H. unfold mbind, mlift, mret in H. cbv iota in H. injection H as <- <-.
    eexists _, _, _. split; [eapply im_same; eassumption|]. rewrite ST. cbn. split; [reflexivity|]. split; [reflexivity|]. split; [lia|]. repeat split.
  - set (s0 := set_unmatched (set_input s bs) (s_unmatched s + 1)).
    assert (D : differs ie tol file name s g s0) by (exists ki, (MF g0), bs; auto 10).
    destruct (read_info ie (s_files s) (ffile g)) as [hb|] eqn:Hb.
    2:{ rewrite (C55_unreadable_image ie tol file name s g s0 D (or_intror Hb)) in H. injection H as <- <-.
        eexists _, _, _. split; [eapply im_no_header; try eassumption; left; exact Hb|]. rewrite ST. repeat split. }
    destruct (read_info ie (s_files s) file) as [ht|] eqn:Ht.
    2:{ rewrite (C55_unreadable_image ie tol file name s g s0 D (or_introl Ht)) in H. injection H as <- <-.
        eexists _, _, _. split; [eapply im_no_header; try eassumption; right; exact Ht|]. rewrite ST. repeat split. }
    destruct (list_eq_dec Z.eq_dec (h_size hb) (h_size ht)) as [Es|Es].
    2:{ rewrite (C55_report_of_sizes ie tol file name s g s0 ht hb D Ht Hb Es) in H. injection H as <- <-.
        eexists _, _, _. split; [eapply im_sizes; eassumption|]. rewrite ST. repeat split. }
    assert (NI : read_image ie (s_files s) (ffile g) = None \/ read_image ie (s_files s) file = None -> 
       (s', r) = (set_stdout s0 (s_stdout s ++ comparing_line (ffile g) file ++ attribute_lines ie name hb ht), Throw ExnRuntime)).
    { intros N. rewrite <- H, (differing_call _ _ _ _ _ _ _ D). unfold mbind at 1. rewrite (attribute_report ie tol g (Mf name true itk_type file) _ ht hb); try assumption.
      cbn [fname s_stdout set_stdout]. rewrite <- app_assoc. reflexivity. }
    destruct (read_image ie (s_files s) (ffile g)) as [bi|] eqn:Hbi.
    2:{ specialize (NI (or_introl eq_refl)). injection NI as -> ->. eexists _, _, _. split; [eapply im_no_image; try eassumption; left; exact Hbi|]. rewrite ST. repeat split. }
    destruct (read_image ie (s_files s) file) as [ti|] eqn:Hti.
    2:{ specialize (NI (or_intror eq_refl)). injection NI as -> ->. eexists _, _, _. split; [eapply im_no_image; try eassumption; right; exact Hti|]. rewrite ST. repeat split. }
    destruct (append_ok (i_output ie) (Tail file ++ $".diff.png")) as [p1 P1]. destruct (append_ok (i_output ie) (Tail file ++ $".base.png")) as [p2 P2].
    destruct (append_ok (i_output ie) (Tail file ++ $".test.png")) as [p3 P3].
    rewrite (C55_report_of_pixels ie tol file name s g s0 ht hb ti bi p1 p2 p3 D Ht Hb Es Hti Hbi P1 P2 P3) in H. injection H as <- <-.
    eexists _, _, _. split; [eapply im_pixels; eassumption|]. rewrite ST. repeat split.
  - unfold MeasurementInsightFileImage, GetCompareMode in H. unfold mbind at 1 in H. rewrite (compare_mode_open (i_env ie) s ki Hi) in H. cbv iota in H.
    change (file_meas true itk_type file name) with (MF m) in H. unfold itk_CompareMeasurement in H. unfold mbind at 1 in H. unfold gets at 1 in H. rewrite Ein in H. cbv iota in H.
    unfold mbind at 1 in H. unfold modify at 1 in H. cbv iota in H. change (mname (MF m)) with name in H. change (mtype (MF m)) with itk_type in H. rewrite Kn, Kt, !eqs_refl in H. cbn [andb] in H.
    unfold mbind at 1 in H. rewrite locate_found in H. cbv iota in H. change (s_path (set_input s bs)) with (s_path s) in H. change (s_files (set_input s bs)) with (s_files s) in H. rewrite Fg in H.
    unfold mbind at 1 in H. unfold gets at 1 in H. rewrite visitor_plain in H. cbv iota in H. unfold mbind at 1 in H. unfold itk_Compare in H. change (eqs (ftype m) itk_type) with true in H. cbv iota in H.
    unfold mbind at 1 in H. rewrite say_eq in H. unfold mbind at 1 in H. unfold gets at 1 in H. cbn [s_files set_stdout set_input] in H. rewrite Ev in H. unfold mbind, mlift, mret in H. cbv iota in H. injection H as <- <-.
    eexists _, _, _. split; [eapply im_error; eassumption|]. rewrite ST. cbn. split; [reflexivity|]. split; [reflexivity|]. split; [lia|]. repeat split.
  - unfold MeasurementInsightFileImage, GetCompareMode in H. unfold mbind at 1 in H. rewrite (compare_mode_open (i_env ie) s ki Hi) in H. cbv iota in H.
    change (file_meas true itk_type file name) with (MF m) in H. unfold itk_CompareMeasurement in H. unfold mbind at 1 in H. unfold gets at 1 in H. rewrite Ein in H. cbv iota in H.
    unfold mbind at 1 in H. unfold modify at 1 in H. cbv iota in H. change (mname (MF m)) with name in H. change (mtype (MF m)) with itk_type in H. rewrite Kn, Kt, !eqs_refl in H. cbn [andb] in H.
    unfold mbind at 1 in H. rewrite locate_found in H. cbv iota in H. change (s_path (set_input s bs)) with (s_path s) in H. change (s_files (set_input s bs)) with (s_files s) in H. rewrite Fg in H.
    unfold mbind at 1 in H. unfold gets at 1 in H. rewrite visitor_plain in H. cbv iota in H. unfold mbind at 1 in H. unfold itk_Compare in H. change (eqs (ftype m) itk_type) with true in H. cbv iota in H.
    unfold mbind at 1 in H. rewrite say_eq in H. unfold mbind at 1 in H. unfold gets at 1 in H. cbn [s_files set_stdout set_input] in H. rewrite Ev in H. unfold mbind, mlift, mret in H. cbv iota in H. injection H as <- <-.
    destruct Ho as [[z Z]|[z Z]]; discriminate Z.
  - unfold MeasurementInsightFileImage, GetCompareMode in H. unfold mbind at 1 in H. rewrite (compare_mode_open (i_env ie) s ki Hi) in H. cbv iota in H.
    change (file_meas true itk_type file name) with (MF m) in H. unfold itk_CompareMeasurement in H. unfold mbind at 1 in H. unfold gets at 1 in H. rewrite Ein in H. cbv iota in H.
    unfold mbind at 1 in H. unfold modify at 1 in H. cbv iota in H. change (mname (MF m)) with name in H. change (mtype (MF m)) with itk_type in H. rewrite Kn, Kt, !eqs_refl in H. cbn [andb] in H.
    unfold mbind at 1 in H. rewrite locate_found in H. cbv iota in H. change (s_path (set_input s bs)) with (s_path s) in H. change (s_files (set_input s bs)) with (s_files s) in H. rewrite Fg in H.
    unfold mbind at 1 in H. unfold gets at 1 in H. rewrite visitor_plain in H. cbv iota in H. unfold mbind at 1 in H. unfold itk_Compare in H. change (eqs (ftype m) itk_type) with true in H. cbv iota in H.
    unfold mbind at 1 in H. rewrite say_eq in H. unfold mbind at 1 in H. unfold gets at 1 in H. cbn [s_files set_stdout set_input] in H. rewrite Ev in H. unfold mbind, mlift, mret in H. cbv iota in H. injection H as <- <-.
    destruct Ho as [[z Z]|[z Z]]; discriminate Z.
  - unfold MeasurementInsightFileImage, GetCompareMode in H. unfold mbind at 1 in H. rewrite (compare_mode_open (i_env ie) s ki Hi) in H. cbv iota in H.
    change (file_meas true itk_type file name) with (MF m) in H. unfold itk_CompareMeasurement in H. unfold mbind at 1 in H. unfold gets at 1 in H. rewrite Ein in H. cbv iota in H.
    unfold mbind at 1 in H. unfold modify at 1 in H. cbv iota in H. change (mname (MF m)) with name in H. change (mtype (MF m)) with itk_type in H. rewrite Kn, Kt, !eqs_refl in H. cbn [andb] in H.
    unfold mbind at 1 in H. rewrite locate_found in H. cbv iota in H. change (s_path (set_input s bs)) with (s_path s) in H. change (s_files (set_input s bs)) with (s_files s) in H. rewrite Fg in H.
    unfold mbind at 1 in H. unfold gets at 1 in H. rewrite visitor_plain in H. cbv iota in H. unfold mbind at 1 in H. unfold itk_Compare in H. change (eqs (ftype m) itk_type) with true in H. cbv iota in H.
    unfold mbind at 1 in H. rewrite say_eq in H. unfold mbind at 1 in H. unfold gets at 1 in H. cbn [s_files set_stdout set_input] in H. rewrite Ev in H. unfold mbind, mlift, mret in H. cbv iota in H. injection H as <- <-.
    destruct Ho as [[z Z]|[z Z]]; discriminate Z.
Qed.
(** * The test *)
Definition told (ie : ienv) (args : list str) (p : iprog) (tol : tolerances) (n : Z) (s s' : rst) (out : res Z) : Prop :=
  exists l u, tells ie args (s_path s) (s_os s) (s_tol s) tol n (s_files s) (s_expected s) (s_input s) p l (s_files s') u (s_expected s') out /\
    s_stdout s' = s_stdout s ++ on_stdout (s_os s) l /\ s_unmatched s' = s_unmatched s + u.
Lemma itell_run ie args p : forall tol n s s' out ki, s_is s = Some ki -> Forall (fun b => mesc b = true) (s_input s) -> irun ie args p tol n s = (s', out) ->
  (exists z, out = Ok z) \/ (exists i, out = Throw i) -> told ie args p tol n s s' out.
Proof.
  assert (OS : forall o (a : piece) l, on_stdout o (a :: l) = on_stdout o [a] ++ on_stdout o l) by (intros; unfold on_stdout; cbn [flat_map]; rewrite app_nil_r; reflexivity).
  assert (TL : forall s, Forall (fun b => mesc b = true) (s_input s) -> Forall (fun b => mesc b = true) (tl (s_input s))).
  { intros s H. destruct (s_input s); [exact H|]. inversion H; assumption. }
  induction p as [z|x|c q IH|f nm q IH|t q IH|ext root q IH|t q IH|t q IH|z q IH|path b q IH]; intros tol n s s' out ki Hi He H Ho; cbn [irun] in H.
  - unfold mret in H. injection H as <- <-. exists [], 0. split; [constructor|]. cbn. rewrite app_nil_r. split; [reflexivity|lia].
  - unfold mlift in H. injection H as <- <-. exists [], 0. split; [constructor|]. cbn. rewrite app_nil_r. split; [reflexivity|lia].
  - unfold mbind at 1 in H. rewrite itk_measure_base in H. unfold Measure, GetCompareMode in H. unfold mbind at 1 in H. rewrite (compare_mode_open (i_env ie) s ki Hi) in H. cbv iota in H.
    destruct (CompareMeasurement (i_env ie) (meas_of (e_io (i_env ie)) true c) (tolerant_of c) s) as [s1 r] eqn:E.
    destruct (compare_one _ _ _ _ _ E) as [A B]. destruct (compare_tells _ _ _ _ _ He E) as [A' B']. destruct r as [z|i| | |].
    + destruct (A z eq_refl) as (Rz & U & I & F & T & X & _). destruct (A' z eq_refl) as (Vd & text & Rp & Fs & So). clear A B A' B'.
      destruct F as (F1 & F2 & F3 & F4 & F5). assert (Hi1 : s_is s1 = Some ki) by congruence.
      assert (He1 : Forall (fun b => mesc b = true) (s_input s1)) by (rewrite I; apply TL, He).
      destruct (IH z tol n s1 s' out ki Hi1 He1 H Ho) as (l & u & W & S1 & U1). rewrite F3, F4, T, X, I, Fs in W. rewrite F4 in S1.
      exists ((Out, text) :: l), (mismatches (i_env ie) (s_path s) (s_input s) [(c, s_tol s, s_files s)] + u).
      split; [eapply te_call; eassumption|]. rewrite S1, So, (OS _ _ l), app_assoc. split; [reflexivity|]. rewrite U1, U. lia.
    + injection H as <- <-. destruct (B i eq_refl) as ((b & B1 & B2 & B3) & U & F & T & X & _). destruct (B' i eq_refl) as [Fs So]. clear A B A' B'.
      exists [], 0. rewrite X, Fs, So, U. split; [|cbn; rewrite app_nil_r; split; [reflexivity|lia]].
      eapply te_call_stops; [|exact B2|exact B3]. destruct (s_input s); exact B1.
    + injection H as <- <-. destruct Ho as [[? ?]|[? ?]]; discriminate.
    + injection H as <- <-. destruct Ho as [[? ?]|[? ?]]; discriminate.
    + injection H as <- <-. destruct Ho as [[? ?]|[? ?]]; discriminate.
  - unfold mbind at 1 in H. destruct (MeasurementInsightFileImage ie tol f nm s) as [s1 r] eqn:E.
    assert (Hr : (exists z, r = Ok z) \/ (exists i, r = Throw i)).
    { destruct r; eauto; injection H as <- <-; destruct Ho as [[? ?]|[? ?]]; discriminate. }
    destruct (image_tells ie tol f nm s s1 r ki Hi E Hr) as (a & f' & v & It & Fs & So & U & I & F & T & X). destruct F as (F1 & F2 & F3 & F4 & F5). destruct Hr as [[z ->]|[i ->]].
    + assert (Hi1 : s_is s1 = Some ki) by congruence.
      assert (He1 : Forall (fun b => mesc b = true) (s_input s1)) by (rewrite I; apply TL, He).
      destruct (IH z tol n s1 s' out ki Hi1 He1 H Ho) as (l & u & W & S1 & U1). rewrite F3, F4, T, X, I, Fs in W. rewrite F4 in S1.
      exists (a :: l), (v + u). split; [eapply te_image; eassumption|]. rewrite S1, So, (OS _ _ l), app_assoc. split; [reflexivity|]. rewrite U1, U. lia.
    + injection H as <- <-. exists [a], v. rewrite X, Fs. split; [eapply te_image_stops; exact It|]. split; assumption.
  - destruct (IH t n s s' out ki Hi He H Ho) as (l & u & W & S1 & U1). exists l, u. split; [constructor; exact W|]. split; assumption.
  - unfold mbind, mlift in H. destruct (GenerateFileName (e_sc (i_env ie)) args n ext root) as [name|x| | |] eqn:E.
    + destruct (IH name tol (n + 1) s s' out ki Hi He H Ho) as (l & u & W & S1 & U1). exists l, u. split; [eapply te_generate; eassumption|]. split; assumption.
    + exfalso. unfold GenerateFileName in E. destruct args; [discriminate|]. destruct root; [discriminate|].
      match type of E with Append ?a ?b = _ => destruct (append_ok a b) as [r Er]; rewrite Er in E; discriminate end.
    + injection H as <- <-. destruct Ho as [[? ?]|[? ?]]; discriminate.
    + injection H as <- <-. destruct Ho as [[? ?]|[? ?]]; discriminate.
    + injection H as <- <-. destruct Ho as [[? ?]|[? ?]]; discriminate.
  - unfold mbind, say, modify in H. destruct (IH tol n (set_stdout s (s_stdout s ++ t)) s' out ki Hi He H Ho) as (l & u & W & S1 & U1).
    exists ((Std, t) :: l), u. split; [constructor; exact W|]. split; [|exact U1]. rewrite S1, (OS _ _ l). cbn. rewrite app_nil_r, <- app_assoc. reflexivity.
  - unfold mbind, modify in H. destruct (IH tol n (set_tol s t) s' out ki Hi He H Ho) as (l & u & W & S1 & U1). exists l, u. split; [constructor; exact W|]. split; assumption.
  - unfold mbind, modify in H. destruct (IH tol n (set_expected s z) s' out ki Hi He H Ho) as (l & u & W & S1 & U1). exists l, u. split; [econstructor; exact W|]. split; assumption.
  - unfold mbind, modify in H. destruct (IH tol n (set_files s (write_file (i_env ie) (s_files s) path b)) s' out ki Hi He H Ho) as (l & u & W & S1 & U1). exists l, u. split; [constructor; exact W|]. split; assumption.
Qed.
(** * The run *)
Lemma main_with_end e body f dirs0 a0 opts rest inf s' z o f1 baseline : command_line e f opts rest -> input_of opts = Some inf ->
  started e f (output_of e f opts) (dirs_of opts ++ dirs0) inf = Some (o, f1, baseline) ->
  Main_with e body (a0 :: flat opts ++ rest) (fresh f dirs0) = (s', Ok z) ->
  Forall (fun b => mesc b = true) baseline /\
  exists k s3 out, body (a0 :: rest) (comparing e f dirs0 opts o f1 k baseline) = (s3, out) /\
    ((exists v, out = Ok v) \/ (exists i, out = Throw i)) /\
    (frame (comparing e f dirs0 opts o f1 k baseline) s3 -> keeps f1 (s_files s3) ->
     z = status out (s_expected s3) (s_unmatched s3 - 1) /\ s_files s' = s_files s3 /\ s_stdout s' = s_stdout s3).
Proof.
  intros Hc Hi Hs H. pose proof (input_of_nonempty e f opts inf (proj1 Hc) Hi) as Hn.
  rewrite Main_with_unfold in H. change (set_unmatched (fresh f dirs0) (s_unmatched (fresh f dirs0) + 1)) with (set_unmatched (fresh f dirs0) 1) in H.
  rewrite (main_with_launch e body f dirs0 a0 opts rest Hc) in H. revert H. unfold started in Hs. revert Hs. set (dirs := dirs_of opts ++ dirs0).
  set (s0 := launched_in e f dirs0 opts). pose proof (begin_compare e s0 inf eq_refl eq_refl) as B.
  assert (Hin : s_in s0 = inf) by (cbn; rewrite Hi; reflexivity). specialize (B Hin Hn).
  change (s_files s0) with f in B. change (s_out s0) with (output_of e f opts) in B.
  change (s_path s0) with dirs in B. cbv zeta in B.
  destruct (opened e f (output_of e f opts)) as [[o' f1']|] eqn:Eo; [|discriminate]. 
  set (s1 := set_os (set_files s0 f1') o') in *. set (q := baseline_path e f1' dirs inf) in *.
  destruct (can_open e f1' q) eqn:Er.
  2:{ assert (Ec : contents e f1' q = None).
      { revert Er. unfold can_open, contents. destruct (node_at e f1' q) as [[[|] w b|]|]; auto; discriminate. }
      rewrite Ec. discriminate. }
  destruct (RegMain.readable_contents e f1' q Er) as (k & Ek & [(r & w & b & Eb & Ec & Ef)|(r & w & x & Eb & Ec)]); rewrite Ec; [|discriminate].
  destruct (ReadXMLInput (e_asserts e) (e_ext e) b) as [bl|i| | |] eqn:Erd; try discriminate. intros Hs. injection Hs as -> -> ->.
  unfold mbind. rewrite B, Ek. unfold read_input. cbn [set_is s_is]. change (s_files (set_is s1 (Some k))) with f1. rewrite Eb, Erd.
  cbv iota. change (set_input (set_is s1 (Some k)) baseline) with (comparing e f dirs0 opts o f1 k baseline).
  set (s2 := comparing e f dirs0 opts o f1 k baseline). intros H.
  split; [eapply read_esc; exact Erd|].
  destruct (body (a0 :: rest) s2) as [s3 out] eqn:Erun. exists k, s3, out. split; [exact Erun|].
  assert (Hout : (exists z, out = Ok z) \/ (exists i, out = Throw i)).
  { destruct out as [v|i| | |]; try (discriminate H); eauto. }
  split; [exact Hout|]. intros F K. unfold ends_with in H.
  assert (Hfin : forall s4, s_is s4 = None -> s_in s4 = inf -> s_path s4 = dirs -> s_files s4 = s_files s3 -> compare_mode e s4 = Ok true).
  { intros s4 A1 A2 A3 A4. rewrite (compare_mode_closed e s4 inf A1 A2 Hn), A3, A4. f_equal.
    apply (keeps_baseline e f1); [exact K|]. unfold readable_file. fold q. rewrite Ef, (file_can_open _ _ _ Ef), Er. reflexivity. }
  destruct F as (F1 & F2 & F3 & F4 & F5).
  assert (Hi3 : s_is s3 = Some k) by (rewrite F5; reflexivity).
  destruct Hout as [[v ->]|[i ->]].
  - unfold EndMeasurement, GetCompareMode, mbind in H. rewrite (compare_mode_open e s3 k Hi3) in H. unfold modify in H. cbv iota in H.
    unfold finish_with in H. cbn [set_unmatched set_is set_os set_input s_expected s_unmatched] in H. unfold status.
    destruct (v =? s_expected s3)%Z; cbn [negb] in H.
    + rewrite Hfin in H.
      * cbn [bind] in H. injection H as <- <-. repeat split.
      * reflexivity.
      * change (s_in s3 = inf). rewrite F1. exact Hin.
      * change (s_path s3 = dirs). rewrite F3. reflexivity.
      * reflexivity.
    + injection H as <- <-. repeat split.
  - unfold finish_with in H. unfold status. destruct (-1 =? s_expected s3)%Z; cbn [negb] in H.
    + rewrite (compare_mode_open e s3 k Hi3) in H. cbn [bind] in H. injection H as <- <-. repeat split. lia.
    + injection H as <- <-. repeat split.
Qed.
(** For every command line, baseline, test and store: the run prints what [tells] says, leaves those files, and returns that status. *)
Theorem C83_transcript : forall ie f test a0 opts rest inf o f1 baseline s' z, let e := i_env ie in let argv := a0 :: flat opts ++ rest in let dirs := dirs_of opts ++ [i_baselines ie] in
  command_line e f opts rest -> input_of opts = Some inf -> started e f (output_of e f opts) dirs inf = Some (o, f1, baseline) ->
  itk_Main ie test argv (new_itk_test ie f) = (s', Ok z) ->
  exists l u x out, tells ie argv dirs o default_tol no_tolerance 0 f1 (expected_of opts) baseline (test (a0 :: rest)) l (s_files s') u x out /\
    s_stdout s' = on_stdout o l /\ z = status out x u.
Proof.
  intros ie f test a0 opts rest inf o f1 baseline s' z e argv dirs Hc Hi Hs H.
  destruct (main_with_end e (itk_body ie test argv) f [i_baselines ie] a0 opts rest inf s' z o f1 baseline Hc Hi Hs H) as (He & k & s3 & out & E & Ho & G).
  set (s2 := comparing e f [i_baselines ie] opts o f1 k baseline) in *.
  destruct (irun_compare ie argv (test (a0 :: rest)) no_tolerance 0%Z s2 s3 out k eq_refl E Ho) as (ms & rs & ns & _ & _ & _ & F & K).
  destruct (itell_run ie argv (test (a0 :: rest)) no_tolerance 0 s2 s3 out k eq_refl He E Ho) as (l & u & W & So & U).
  destruct (G F K) as (-> & Fs & Ss). exists l, u, (s_expected s3), out. rewrite Fs, Ss, So. split; [exact W|]. split; [reflexivity|].
  rewrite U. f_equal. change (s_unmatched s2) with 1. lia.
Qed.
Print Assumptions C83_transcript.
(** One account only. *)
Theorem C83_image_determined : forall ie dirs o tol f file name p a f1 v r a' f1' v' r',
  image_told ie dirs o tol f file name p a f1 v r -> image_told ie dirs o tol f file name p a' f1' v' r' -> a = a' /\ f1 = f1' /\ v = v' /\ r = r'.
Proof.
  intros ie dirs o tol f file name p a f1 v r a' f1' v' r' H H'.
  inversion H; subst; clear H; inversion H'; subst; clear H';
    try match goal with A : forall b, Some ?c = Some b -> _ |- _ => destruct (A c eq_refl); congruence end;
    repeat match goal with A : found ?x ?y ?z ?c ?d = MF ?g, B : found ?x ?y ?z ?c ?d = MF ?h |- _ => rewrite A in B; injection B as <- end;
    repeat match goal with A : ?x = Some ?c, B : ?x = Some ?d |- _ => rewrite A in B; injection B as <- end;
    repeat match goal with A : ?x = Ok ?c, B : ?x = Ok ?d |- _ => first [constr_eq c d; fail 1 | discriminate (eq_trans (eq_sym A) B) | rewrite A in B; injection B as <-] end;
    repeat match goal with A : ?x = None \/ ?y = None |- _ => destruct A end;
    try congruence; repeat split; congruence.
Qed.
Print Assumptions C83_image_determined.
Theorem C83_determined : forall ie args dirs o t tol n f x bs p l f1 u x1 out l' f1' u' x1' out',
  tells ie args dirs o t tol n f x bs p l f1 u x1 out -> tells ie args dirs o t tol n f x bs p l' f1' u' x1' out' ->
  l = l' /\ f1 = f1' /\ u = u' /\ x1 = x1' /\ out = out'.
Proof.
  intros ie args dirs o t tol n f x bs p l f1 u x1 out l' f1' u' x1' out' H. revert l' f1' u' x1' out'.
  induction H; intros l2 f2 u2 x2 out2 HH; inversion HH; subst; try (repeat split; reflexivity).
  - match goal with A : ReportSpec.report _ _ _ _ text, B : ReportSpec.report _ _ _ _ text0 |- _ => pose proof (C66_report_determined _ _ _ _ _ _ A B) as <- end.
    match goal with A : [r] = _, B : [r0] = _ |- _ => pose proof (eq_trans A (eq_sym B)) as Er; injection Er as <- end.
    match goal with A : tells _ _ _ _ _ _ _ _ _ _ _ ?l2 _ _ _ _, IH : forall l' f1' u' x1' out', tells _ _ _ _ _ _ _ _ _ _ _ l' _ _ _ _ -> _ |- _ => destruct (IH _ _ _ _ _ A) as (-> & -> & -> & -> & ->) end.
    repeat split; reflexivity.
  - exfalso. match goal with A : forall b, _ -> _ -> exists v, _, B : hd_error bs = Some ?b, C : kind_of_moment _ _ _ = true |- _ => destruct (A b B C) as [v V]; unfold mo, mo0 in *; congruence end.
  - exfalso. match goal with A : forall b, _ -> _ -> exists v, _, B : hd_error bs = Some ?b, C : kind_of_moment _ ?b _ = true |- _ => destruct (A b B C) as [v V]; unfold mo, mo0 in *; congruence end.
  - unfold mo, mo0 in *. assert (b0 = b) by congruence. subst b0. repeat split; congruence.
  - match goal with A : image_told _ _ _ _ _ _ _ _ ?a _ _ _, B : image_told _ _ _ _ _ _ _ _ ?b _ _ _ |- ?a :: _ = ?b :: _ /\ _ => destruct (C83_image_determined _ _ _ _ _ _ _ _ _ _ _ _ _ _ _ _ A B) as (E1 & E2 & E3 & Er) end.
    injection Er as <-. subst.
    match goal with A : tells _ _ _ _ _ _ _ _ _ _ _ ?l2 _ _ _ _, IH : forall l' f1' u' x1' out', tells _ _ _ _ _ _ _ _ _ _ _ l' _ _ _ _ -> _ |- _ => destruct (IH _ _ _ _ _ A) as (-> & -> & -> & -> & ->) end.
    repeat split; reflexivity.
  - exfalso. match goal with A : image_told _ _ _ _ _ _ _ _ _ _ _ (Ok _), B : image_told _ _ _ _ _ _ _ _ _ _ _ (Throw _) |- _ => destruct (C83_image_determined _ _ _ _ _ _ _ _ _ _ _ _ _ _ _ _ A B) as (_ & _ & _ & Er) end. discriminate Er.
  - exfalso. match goal with A : image_told _ _ _ _ _ _ _ _ _ _ _ (Ok _), B : image_told _ _ _ _ _ _ _ _ _ _ _ (Throw _) |- _ => destruct (C83_image_determined _ _ _ _ _ _ _ _ _ _ _ _ _ _ _ _ A B) as (_ & _ & _ & Er) end. discriminate Er.
  - match goal with A : image_told _ _ _ _ _ _ _ _ ?a _ _ _, B : image_told _ _ _ _ _ _ _ _ ?b _ _ _ |- [?a] = [?b] /\ _ => destruct (C83_image_determined _ _ _ _ _ _ _ _ _ _ _ _ _ _ _ _ A B) as (E1 & E2 & E3 & Er) end.
    injection Er as <-. subst. repeat split; reflexivity.
  - match goal with A : tells _ _ _ _ _ _ _ _ _ _ _ ?l2 _ _ _ _, IH : forall l' f1' u' x1' out', tells _ _ _ _ _ _ _ _ _ _ _ l' _ _ _ _ -> _ |- _ => destruct (IH _ _ _ _ _ A) as (-> & -> & -> & -> & ->) end. repeat split; reflexivity.
  - match goal with A : GenerateFileName _ _ _ _ _ = Ok ?x, B : GenerateFileName _ _ _ _ _ = Ok ?y |- _ => rewrite A in B; apply Ok_inj in B; subst end.
    match goal with A : tells _ _ _ _ _ _ _ _ _ _ _ ?l2 _ _ _ _, IH : forall l' f1' u' x1' out', tells _ _ _ _ _ _ _ _ _ _ _ l' _ _ _ _ -> _ |- _ => destruct (IH _ _ _ _ _ A) as (-> & -> & -> & -> & ->) end. repeat split; reflexivity.
  - match goal with A : tells _ _ _ _ _ _ _ _ _ _ _ ?l2 _ _ _ _, IH : forall l' f1' u' x1' out', tells _ _ _ _ _ _ _ _ _ _ _ l' _ _ _ _ -> _ |- _ => destruct (IH _ _ _ _ _ A) as (-> & -> & -> & -> & ->) end. repeat split; reflexivity.
  - match goal with A : tells _ _ _ _ _ _ _ _ _ _ _ ?l2 _ _ _ _, IH : forall l' f1' u' x1' out', tells _ _ _ _ _ _ _ _ _ _ _ l' _ _ _ _ -> _ |- _ => destruct (IH _ _ _ _ _ A) as (-> & -> & -> & -> & ->) end. repeat split; reflexivity.
  - match goal with A : tells _ _ _ _ _ _ _ _ _ _ _ ?l2 _ _ _ _, IH : forall l' f1' u' x1' out', tells _ _ _ _ _ _ _ _ _ _ _ l' _ _ _ _ -> _ |- _ => destruct (IH _ _ _ _ _ A) as (-> & -> & -> & -> & ->) end. repeat split; reflexivity.
  - match goal with A : tells _ _ _ _ _ _ _ _ _ _ _ ?l2 _ _ _ _, IH : forall l' f1' u' x1' out', tells _ _ _ _ _ _ _ _ _ _ _ l' _ _ _ _ -> _ |- _ => destruct (IH _ _ _ _ _ A) as (-> & -> & -> & -> & ->) end. repeat split; reflexivity.
Qed.
Print Assumptions C83_determined.
(** * The output file *)
(** The test, whatever its measurements return, never writes to the file [k], and neither do the pictures of its images. *)
Fixpoint keeps_off (ie : ienv) (args : list str) (n : Z) (k : str) (p : iprog) : Prop :=
  match p with
  | IReturn _ | IRaise _ => True
  | ICall _ q => forall r, keeps_off ie args n k (q r)
  | IImage file _ q => ~ picture_of ie file k /\ forall r, keeps_off ie args n k (q r)
  | IGenerate ext root q => forall name, GenerateFileName (e_sc (i_env ie)) args n ext root = Ok name -> keeps_off ie args (n + 1) k (q name)
  | IWriteFile path _ q => slot (i_env ie) path <> Some k /\ keeps_off ie args n k q
  | ISay _ q | ITolerance _ q | IRelativeTolerance _ q | IExpectedReturn _ q => keeps_off ie args n k q
  end.
Lemma write_other e f p b k : slot e p <> Some k -> write_file e f p b k = f k.
Proof.
  intros N. unfold write_file. destruct (slot e p) as [j|]; [|reflexivity]. assert (J : k <> j) by congruence.
  assert (U : forall v, upd f j v k = f k) by (intros v; unfold upd; destruct (eqs_spec k j); [contradiction|reflexivity]).
  destruct (f j) as [[r [|] c|]|]; try reflexivity; [apply U|]. destruct (e_cancreate e _); [apply U|reflexivity].
Qed.
Lemma picture_other ie im file ext p f k : ~ picture_of ie file k -> In ext pictures -> Append (i_output ie) (Tail file ++ ext) = Ok p -> with_picture ie im p f k = f k.
Proof.
  intros N I A. unfold with_picture. destruct (i_png ie im); [|reflexivity]. apply write_other. intros E. apply N. exists ext, p. auto.
Qed.
Lemma into_file k text f r w b : f k = Some (FFile r w b) -> into (Some k) text f k = Some (FFile r w (b ++ text)).
Proof.
  intros E. unfold into. destruct text as [|c t]; [rewrite app_nil_r; exact E|]. rewrite E. unfold upd. rewrite eqs_refl. reflexivity.
Qed.
Lemma tells_file ie args dirs o t tol n f x bs p l f1 u x1 out k : tells ie args dirs o t tol n f x bs p l f1 u x1 out -> o = Some k -> keeps_off ie args n k p ->
  forall r w b, f k = Some (FFile r w b) -> f1 k = Some (FFile r w (b ++ on_output l)).
Proof.
  assert (IM : forall o tol f file name p a f1 v r, image_told ie dirs o tol f file name p a f1 v r -> o = Some k -> ~ picture_of ie file k ->
    forall r w b, f k = Some (FFile r w b) -> f1 k = Some (FFile r w (b ++ on_output [a]))).
  { intros o0 tol0 f0 file name p0 a f2 v r0 H -> N r w b E. destruct H; cbn [on_output flat_map]; rewrite ?app_nil_r; try exact E; [apply into_file; exact E|].
    rewrite (picture_other ie _ file ($".test.png")), (picture_other ie _ file ($".base.png")), (picture_other ie _ file ($".diff.png"));
      first [exact E | exact N | assumption | unfold pictures; cbn [In]; tauto]. }
  assert (OA : forall (a : piece) l b, b ++ on_output (a :: l) = (b ++ on_output [a]) ++ on_output l).
  { intros a l0 b. unfold on_output. cbn [flat_map]. rewrite app_nil_r, app_assoc. reflexivity. }
  assert (ON : on_output [] = []) by reflexivity.
  induction 1; intros Ho K r0 w0 b0 E; cbn [keeps_off] in K; try (rewrite ON, app_nil_r; exact E); try (apply IHtells; assumption).
  - rewrite OA. apply IHtells; [exact Ho|apply K|]. subst o. cbn [on_output flat_map]. rewrite app_nil_r. apply into_file. exact E.
  - rewrite OA. apply IHtells; [exact Ho|apply K|]. eapply IM; [eassumption|exact Ho|apply K|exact E].
  - eapply IM; [eassumption|exact Ho|apply K|exact E].
  - apply IHtells; auto.
  - apply IHtells; [exact Ho|apply K|]. rewrite write_other by apply K. exact E.
Qed.
(** The output file, which starts empty, has the reports on the measurements, and nothing of what goes to standard output. *)
Theorem C83_output_file : forall ie f test a0 opts rest inf k f1 baseline s' z, let e := i_env ie in let argv := a0 :: flat opts ++ rest in let dirs := dirs_of opts ++ [i_baselines ie] in
  command_line e f opts rest -> input_of opts = Some inf -> started e f (output_of e f opts) dirs inf = Some (Some k, f1, baseline) ->
  keeps_off ie argv 0 k (test (a0 :: rest)) -> itk_Main ie test argv (new_itk_test ie f) = (s', Ok z) ->
  exists l u x out r, tells ie argv dirs (Some k) default_tol no_tolerance 0 f1 (expected_of opts) baseline (test (a0 :: rest)) l (s_files s') u x out /\
    s_files s' k = Some (FFile r true (on_output l)) /\ s_stdout s' = flat_map (fun a : piece => match a with (Std, t) => t | (Out, _) => [] end) l.
Proof.
  intros ie f test a0 opts rest inf k f1 baseline s' z e argv dirs Hc Hi Hs Hk H.
  destruct (C83_transcript ie f test a0 opts rest inf (Some k) f1 baseline s' z Hc Hi Hs H) as (l & u & x & out & W & So & _). fold e in W. fold argv in W. fold dirs in W.
  assert (E1 : exists r, f1 k = Some (FFile r true [])).
  { unfold started in Hs. destruct (opened e f (output_of e f opts)) as [[o' f1']|] eqn:Eo; [|discriminate].
    assert (E : o' = Some k /\ f1' = f1). { destruct (contents _ _ _); [|discriminate]. destruct (ReadXMLInput _ _ _); try discriminate. injection Hs as -> -> _. auto. }
    destruct E as [-> ->]. unfold opened in Eo. destruct (output_of e f opts) as [|c t]; [discriminate|]. destruct (slot e (c :: t)) as [j|]; [|discriminate].
    destruct (f j) as [[r [|] b|]|]; try discriminate.
    - injection Eo as -> <-. exists r. unfold upd. rewrite eqs_refl. reflexivity.
    - destruct (e_cancreate _ _); [|discriminate]. injection Eo as -> <-. exists true. unfold upd. rewrite eqs_refl. reflexivity. }
  destruct E1 as [r E1]. exists l, u, x, out, r. split; [exact W|]. split; [|exact So].
  exact (tells_file _ _ _ _ _ _ _ _ _ _ _ _ _ _ _ _ k W eq_refl Hk r true [] E1).
Qed.
Print Assumptions C83_output_file.
(** What is reported about images with a partner goes to standard output, also when there is an output file: that one can stay empty though the test fails. *)
Theorem C83_failures_in_output_file_refuted : exists ie f test argv s' k r, itk_Main ie test argv (new_itk_test ie f) = (s', Ok 1) /\ In k argv /\ s_files s' k = Some (FFile r true []).
Proof.
  exists ex_itk, ex_image_files, (two_images ($"same/x.mha") ($"two/x.mha")), [$"prog"; $"-I"; $"b.xml"; $"-O"; $"o.xml"].
  set (r := itk_Main _ _ _ _). exists (fst r), ($"o.xml"), true. split; [rewrite (surjective_pairing r) at 1; f_equal; vm_compute; reflexivity|].
  split; [cbn [In]; tauto|]. vm_compute. reflexivity.
Qed.
Print Assumptions C83_failures_in_output_file_refuted.

(** * Cases *)
(** An image that agrees, one that differs, a text without a partner; with output to a file, and to standard output. *)
Definition c83_test : list str -> iprog := fun _ => ISay ($"hello" ++ [nl])
  (IImage ($"same/x.mha") ($"one") (fun _ => IImage ($"two/x.mha") ($"two") (fun r => ICall (TextString ($"a<b") ($"late")) (fun q => IReturn (r + q - 1))))).
Lemma c83_line : command_line ex_env ex_image_files [($"-I", $"b.xml"); ($"-O", $"o.xml")] [].
Proof. line. Qed.
Local Notation c83_run := (itk_Main ex_itk c83_test [$"prog"; $"-I"; $"b.xml"; $"-O"; $"o.xml"] (new_itk_test ex_itk ex_image_files)).
Definition c83_opened : store := upd ex_image_files ($"o.xml") (Some (FFile true true [])).
Example C83_transcript_met := C83_transcript ex_itk ex_image_files c83_test ($"prog") [($"-I", $"b.xml"); ($"-O", $"o.xml")] [] ($"b.xml") (Some ($"o.xml")) c83_opened
  [MF (Mf ($"one") true itk_type ($"x.mha")); MF (Mf ($"two") true itk_type ($"x.mha"))] (fst c83_run) 2 c83_line eq_refl eq_refl (pair_fst _ _ ltac:(vm_compute; reflexivity)).
Example C83_output_file_met : keeps_off ex_itk [$"prog"; $"-I"; $"b.xml"; $"-O"; $"o.xml"] 0 ($"o.xml") (c83_test [$"prog"]).
Proof.
  cbn [c83_test keeps_off].
  assert (P : forall file, Tail file = $"x.mha" -> ~ picture_of ex_itk file ($"o.xml")).
  { intros file T (ext & p & I & A & S). rewrite T in A. destruct I as [<-|[<-|[<-|[]]]]; vm_compute in A; apply Ok_inj in A; subst p; vm_compute in S; discriminate S. }
  split; [apply P; vm_compute; reflexivity|]. intros _. split; [apply P; vm_compute; reflexivity|]. intros ? ?. exact I.
Qed.
Example C83_shown : (exists r, s_files (fst c83_run) ($"o.xml") = Some (FFile r true ($"<DartMeasurement name=" ++ quote ++ $"Unmatched late" ++ quote ++ $" type=" ++ quote ++ $"text/string" ++ quote ++ $">a&lt;b</DartMeasurement>" ++ [nl]))) /\
  (let first := $"hello" ++ [nl] ++ comparing_line ($"base/x.mha") ($"same/x.mha") ++ comparing_line ($"base/x.mha") ($"two/x.mha") ++ $"<DartMeasurement" in
   firstn (length first) (s_stdout (fst c83_run)) = first).
Proof. split; [exists true; vm_compute; reflexivity|]. vm_compute. reflexivity. Qed.

(** What a run of the ITK driver says. *)
From Coq Require Import Floats.SpecFloat Permutation.
From Verif Require Import Base Str Dec B64Model PathModel PathFacts MeasModel MeasFacts DiffModel VisitModel XmlText XmlModel ReadModel ReadFacts ReadBack ElemProps RegModel ArgFacts ArgProps RegSpec RegFacts RegStart RegMain HeapFacts HeapXml ImgModel ItkModel ItkSpec ItkSim ItkRun ItkMain ItkRunProps ErrModel ErrFacts ErrSpec ErrReader ErrRun ErrProps ItkErrModel ItkErrSpec ItkErrFacts.

Lemma xbind_ext {A B} (m m' : X A) (k k' : A -> X B) : (forall x, m x = m' x) -> (forall a x, k a x = k' a x) -> forall x, xbind m k x = xbind m' k' x.
Proof. intros H K x. unfold xbind. rewrite H. destruct (m' x) as [x1 []]; auto. Qed.
Lemma x_itk_compare_base r ie tol m t : other_type m -> forall x, x_itk_CompareMeasurement r ie tol m t x = x_Compare (r_dir r) (i_env ie) m t x.
Proof.
  intros Hm x. unfold x_itk_CompareMeasurement, x_Compare. apply xbind_ext; [reflexivity|]. clear x. intros [|b rest] x; [reflexivity|].
  apply xbind_ext; [reflexivity|]. clear x. intros _ x. destruct (eqs _ _ && eqs _ _); [|reflexivity].
  apply xbind_ext; [reflexivity|]. clear x. intros b1 [s err w].
  assert (E : forall c, x_itk_Compare r ie tol c b1 m =
     (_ <! ErrModel.say (fun s => compare_says (r_dir r) (e_sc (i_env ie)) (sources (i_env ie) (s_files s)) c b1 m) ;;
      out <! quiet (gets (fun s => Compare (e_sc (i_env ie)) (sources (i_env ie) (s_files s)) (e_io (i_env ie)) c b1 m)) ;;
      let '(baseline, m, v) := out in same <! quiet (mlift v) ;; xret (baseline, m, same))).
  { intros c. unfold x_itk_Compare. destruct b1 as [d|g], m as [d'|g']; try reflexivity. cbn [other_type] in Hm. rewrite Hm. reflexivity. }
  unfold xbind at 1. unfold quiet at 1, gets at 1. cbn [x_s x_err x_what]. rewrite E. unfold xbind, ErrModel.say, quiet, gets. cbn [x_s x_err x_what].
  pose proof (other_compare (e_sc (i_env ie)) (sources (i_env ie) (s_files s)) (e_io (i_env ie)) (visitor s t) b1 m Hm) as O.
  destruct (Compare _ _ _ _ b1 m) as [[b2 m2] v]. cbn [fst snd] in O. unfold mlift, xret. cbn [x_s x_err x_what]. destruct v as [[|]| | | |]; try reflexivity.
  assert (D : x_itk_Difference r ie tol m2 b2 = quiet (DifferenceMeasurement (i_env ie) m2 b2)).
  { unfold x_itk_Difference. destruct b2 as [d|g], m2 as [d'|g']; try reflexivity. cbn [other_type] in O. rewrite O. reflexivity. }
  rewrite D. reflexivity.
Qed.

(** * Pictures *)
Lemma can_write_spec e f p : can_write e f p = true <-> place e f p.
Proof.
  unfold can_write, place. destruct (slot e p) as [k|].
  - split.
    + intros H. exists k. split; [reflexivity|]. destruct (f k) as [[rr w b|]|]; [subst w; eauto|discriminate|auto].
    + intros (k' & E & H). injection E as <-. destruct H as [(rr & b & ->)|[-> H]]; auto.
  - split; [discriminate|]. intros (k & E & _). discriminate E.
Qed.
Lemma drawn r ie f im p : drawing r ie f im p (rescale_says r im p ++ write_says r ie f im p).
Proof.
  exists (rescale_says r im p), (write_says r ie f im p). split; [|split; [|reflexivity]].
  - unfold rescale_says. destruct (r_rescale r im) as [text|] eqn:E; [|constructor; exact E]. exact (not_rescaled r im p text E).
  - unfold write_says. destruct (i_png ie im) as [b|] eqn:E; [destruct (can_write (i_env ie) f p) eqn:C|].
    + apply picture_stored; [congruence|apply can_write_spec; exact C].
    + apply picture_lost. right. intros H. apply can_write_spec in H. congruence.
    + apply picture_lost. auto.
Qed.
Lemma x_thing_eq r ie im p n s err w : x_ImageThing r ie im p n (Xst s err w) =
  (Xst (set_files (set_stdout s (s_stdout s ++ picture_lines ie n im p)) (with_picture ie im p (s_files s))) (err ++ rescale_says r im p ++ write_says r ie (s_files s) im p) w, Ok tt).
Proof.
  pose proof (fo_base _ _ (follows_ImageThing r ie im p n) (Xst s err w)) as F. cbn [x_s] in F. rewrite thing_eq in F.
  assert (G : exists s1 o, x_ImageThing r ie im p n (Xst s err w) = (Xst s1 (err ++ rescale_says r im p ++ write_says r ie (s_files s) im p) w, o)).
  { unfold x_ImageThing. unfold xbind at 1. unfold quiet at 1. rewrite say_eq. cbv iota beta. cbn [x_s x_err x_what]. unfold xbind at 1. unfold ErrModel.say at 1. cbn [x_s x_err x_what]. cbv iota beta.
    unfold xbind at 1. unfold ErrModel.say at 1. cbn [x_s x_err x_what]. cbv iota beta. rewrite <- app_assoc. cbn [s_files set_stdout]. unfold xbind, quiet. cbn [x_s x_err x_what].
    destruct (i_png ie im) as [b|]; unfold modify, mret; cbn [x_s x_err x_what]; rewrite say_meas_eq; do 2 eexists; reflexivity. }
  destruct G as (s1 & o & G). rewrite G in *. cbn [fst snd x_s] in F. apply pair_equal_spec in F. destruct F as [-> <-]. reflexivity.
Qed.

(** * One image *)
Lemma x_difference r ie tol g m s err w x' out : x_DifferenceTestImage r ie tol g m (Xst s err w) = (x', out) ->
  x_what x' = w /\ exists l, x_err x' = err ++ l /\
    ((l = [] /\ forall hb ht bi ti, read_info ie (s_files s) (ffile g) = Some hb -> read_info ie (s_files s) (ffile m) = Some ht ->
        read_image ie (s_files s) (ffile g) = Some bi -> read_image ie (s_files s) (ffile m) = Some ti -> h_size hb <> h_size ht) \/
     exists hb ht bi ti p1 p2 p3, read_info ie (s_files s) (ffile g) = Some hb /\ read_info ie (s_files s) (ffile m) = Some ht /\ h_size hb = h_size ht /\
        read_image ie (s_files s) (ffile g) = Some bi /\ read_image ie (s_files s) (ffile m) = Some ti /\
        Append (i_output ie) (Tail (ffile m) ++ $".diff.png") = Ok p1 /\ Append (i_output ie) (Tail (ffile m) ++ $".base.png") = Ok p2 /\ Append (i_output ie) (Tail (ffile m) ++ $".test.png") = Ok p3 /\
        let diff := i_diff_image ie (Filter (t_radius tol) (t_intensity tol) false) (g_image bi) (g_image ti) in
        let f1 := with_picture ie diff p1 (s_files s) in let f2 := with_picture ie (g_image bi) p2 f1 in
        exists l1 l2 l3, drawing r ie (s_files s) diff p1 l1 /\ drawing r ie f1 (g_image bi) p2 l2 /\ drawing r ie f2 (g_image ti) p3 l3 /\ l = l1 ++ l2 ++ l3).
Proof.
  unfold x_DifferenceTestImage. unfold xbind at 1. unfold quiet at 1, gets at 1. cbn [x_s x_err x_what]. unfold xbind at 1. unfold quiet at 1, gets at 1. cbn [x_s x_err x_what].
  destruct (read_info ie (s_files s) (ffile m)) as [ht|] eqn:Et; [destruct (read_info ie (s_files s) (ffile g)) as [hb|] eqn:Eb|].
  2,3: (unfold quiet, mlift; intros H; injection H as <- <-; cbn [x_what x_err]; split; [reflexivity|]; exists []; rewrite app_nil_r; split; [reflexivity|]; left; split; [reflexivity|]; discriminate).
  cbv zeta. unfold eqzs. destruct (list_eq_dec Z.eq_dec (h_size hb) (h_size ht)) as [Es|Es]; cbn [negb].
  2:{ unfold quiet. rewrite report_eq. intros H. injection H as <- <-. cbn [x_what x_err]. split; [reflexivity|]. exists []. rewrite app_nil_r. split; [reflexivity|]. left. split; [reflexivity|]. intros ? ? ? ? A B _ _. injection A as <-. injection B as <-. exact Es. }
  do 5 (unfold xbind at 1; unfold quiet at 1; cbn [x_s x_err x_what]; rewrite report_eq; cbv iota beta).
  unfold xbind at 1. unfold quiet at 1, gets at 1. cbn [x_s x_err x_what]. unfold xbind at 1. unfold quiet at 1, gets at 1. cbn [x_s x_err x_what s_files set_stdout].
  destruct (read_image ie (s_files s) (ffile m)) as [ti|] eqn:Ei; [destruct (read_image ie (s_files s) (ffile g)) as [bi|] eqn:Ej|].
  2,3: (unfold quiet, mlift; intros H; injection H as <- <-; cbn [x_what x_err]; split; [reflexivity|]; exists []; rewrite app_nil_r; split; [reflexivity|]; left; split; [reflexivity|]; discriminate).
  unfold xbind at 1. unfold quiet at 1. cbn [x_s x_err x_what]. rewrite say_meas_eq. cbv iota beta.
  destruct (append_ok (i_output ie) (Tail (ffile m) ++ $".diff.png")) as [p1 E1]. destruct (append_ok (i_output ie) (Tail (ffile m) ++ $".base.png")) as [p2 E2]. destruct (append_ok (i_output ie) (Tail (ffile m) ++ $".test.png")) as [p3 E3].
  rewrite E1, E2, E3. unfold xbind at 1. unfold quiet at 1, mlift at 1. cbn [x_s x_err x_what]. unfold xbind at 1. rewrite x_thing_eq. cbv iota beta.
  unfold xbind at 1. unfold quiet at 1, mlift at 1. cbn [x_s x_err x_what]. unfold xbind at 1. rewrite x_thing_eq. cbv iota beta.
  unfold xbind at 1. unfold quiet at 1, mlift at 1. cbn [x_s x_err x_what]. rewrite x_thing_eq. cbn [s_files set_files set_stdout]. intros H. injection H as <- <-. cbn [x_what x_err]. split; [reflexivity|].
  eexists. split; [rewrite <- !app_assoc; reflexivity|]. right. exists hb, ht, bi, ti, p1, p2, p3. do 8 (split; [assumption || reflexivity|]).
  eexists _, _, _. split; [apply drawn|]. split; [apply drawn|]. split; [apply drawn|]. rewrite <- !app_assoc. reflexivity.
Qed.
Lemma x_image_compare r ie tol file name x x' out : x_itk_CompareMeasurement r ie tol (file_meas true itk_type file name) false x = (x', out) ->
  x_what x' = x_what x /\ exists l, x_err x' = x_err x ++ l /\ image_remarks r ie (s_path (x_s x)) tol (s_files (x_s x)) file name (hd_error (s_input (x_s x))) l.
Proof.
  destruct x as [s err w]. cbn [x_s x_err x_what]. set (m := Mf name true itk_type file). change (file_meas true itk_type file name) with (MF m).
  unfold x_itk_CompareMeasurement. unfold xbind at 1. unfold quiet at 1, gets at 1. cbn [x_s x_err x_what].
  assert (UM : forall (x0 x1 : xst) r1, (_ <! quiet (UnmatchedMeasurement (MF m));; xret 1%Z) x0 = (x1, r1) -> x_what x1 = x_what x0 /\ x_err x1 = x_err x0).
  { intros x0 x1 r1. unfold xbind, quiet, xret. destruct (UnmatchedMeasurement (MF m) (x_s x0)) as [s1 [u| | | |]]; intros H; injection H as <- _; split; reflexivity. }
  destruct (s_input s) as [|b bs] eqn:Ein.
  { intros H. apply UM in H. cbn [x_err x_what] in H. destruct H as [A B]. split; [exact A|]. exists []. split; [rewrite B, app_nil_r; reflexivity|]. apply ir_alone. discriminate. }
  unfold xbind at 1. unfold quiet at 1, modify at 1. cbv iota beta. cbn [x_s x_err x_what hd_error]. change (mname (MF m)) with name. change (mtype (MF m)) with itk_type.
  destruct (eqs (mname b) name && eqs (mtype b) itk_type) eqn:Ek.
  2:{ intros H. apply UM in H. cbn [x_err x_what] in H. destruct H as [A B]. split; [exact A|]. exists []. split; [rewrite B, app_nil_r; reflexivity|]. apply ir_alone.
      intros b0 E0. injection E0 as <-. apply andb_false_iff in Ek as [Ek|Ek]; apply eqs_false in Ek; auto. }
  apply andb_true_iff in Ek as [Kn Kt]. apply eqs_true in Kn, Kt.
  destruct b as [d|g0]; [exfalso; cbn in Kt; destruct (dcls d); discriminate Kt|].
  assert (Fg : exists g, found (i_env ie) (s_path s) (s_files s) (MF g0) (MF m) = MF g).
  { unfold found. destruct (SearchPathList _ _ _) as [[|c p]| | | |]; eexists; reflexivity. }
  destruct Fg as [g Fg].
  unfold xbind at 1. unfold quiet at 1. cbn [x_s x_err x_what]. rewrite locate_found. cbv iota beta. change (s_path (set_input s bs)) with (s_path s). change (s_files (set_input s bs)) with (s_files s). rewrite Fg.
  unfold xbind at 1. unfold quiet at 1, gets at 1. cbn [x_s x_err x_what]. set (c := visitor _ false). clearbody c. unfold xbind at 1. unfold x_itk_Compare. change (eqs (ftype m) itk_type) with true. cbv zeta iota.
  unfold xbind at 1. unfold quiet at 1. rewrite say_eq. cbn [x_s x_err x_what]. cbv iota beta. unfold xbind at 1. unfold ErrModel.say at 1. cbn [x_s x_err x_what]. cbv iota beta. cbn [s_files set_stdout set_input].
  unfold xbind at 1. unfold quiet at 1, gets at 1. cbn [x_s x_err x_what]. cbv iota beta. cbn [s_files set_stdout set_input]. unfold xbind at 1. unfold quiet at 1, mlift at 1. cbn [x_s x_err x_what].
  change (ffile m) with file. fold m.
  assert (G0 : (image_verdict (i_diff ie) (read_image ie (s_files s)) tol g m <> Ok false -> image_remarks r ie (s_path s) tol (s_files s) file name (Some (MF g0)) (image_says r ie (s_files s) g m))).
  { intros NV. unfold image_says. change (ffile m) with file. destruct (read_image ie (s_files s) (ffile g)) as [bi|] eqn:Eb.
    - destruct (read_image ie (s_files s) file) as [ti|] eqn:Et.
      + eapply ir_read; try eassumption. intros H. contradiction.
      + eapply ir_test; eassumption.
    - eapply ir_baseline; eassumption. }
  assert (Q : forall s1 e1 v, v <> Ok false -> image_verdict (i_diff ie) (read_image ie (s_files s)) tol g m = v -> (Xst s1 (err ++ image_says r ie (s_files s) g m) w, e1) = (x', out) ->
     x_what x' = w /\ exists l, x_err x' = err ++ l /\ image_remarks r ie (s_path s) tol (s_files s) file name (Some (MF g0)) l).
  { intros s1 e1 v N Ev H. injection H as <- <-. cbn [x_what x_err]. split; [reflexivity|]. eexists. split; [reflexivity|]. apply G0. congruence. }
  destruct (image_verdict (i_diff ie) (read_image ie (s_files s)) tol g m) as [[|]|i| | |] eqn:Ev; cbv iota beta; unfold xret; cbv iota beta;
    try (intros H; refine (Q _ _ _ _ eq_refl H); discriminate).
  unfold xbind at 1. unfold x_itk_Difference. change (eqs (ftype m) itk_type) with true. cbv iota. unfold xbind at 1. unfold quiet at 1, modify at 1. cbn [x_s x_err x_what]. cbv iota beta.
  match goal with |- context [x_DifferenceTestImage r ie tol g m ?x0] => destruct (x_DifferenceTestImage r ie tol g m x0) as [x1 o1] eqn:Ed end.
  apply x_difference in Ed. cbn [s_files set_unmatched set_stdout set_input] in Ed. change (ffile m) with file in Ed. destruct Ed as (W1 & l & L1 & C).
  intros H. assert (K : x' = x1) by (destruct o1; injection H as <- _; reflexivity). subst x'. clear H. split; [exact W1|]. exists (image_says r ie (s_files s) g m ++ l). split; [rewrite L1, app_assoc; reflexivity|].
  unfold image_says. change (ffile m) with file.
  destruct C as [[-> C]|(hb & ht & bi & ti & p1 & p2 & p3 & A1 & A2 & A3 & A4 & A5 & A6 & A7 & A8 & l1 & l2 & l3 & D1 & D2 & D3 & ->)].
  - rewrite app_nil_r. destruct (read_image ie (s_files s) (ffile g)) as [bi|] eqn:Eb.
    + destruct (read_image ie (s_files s) file) as [ti|] eqn:Et.
      * eapply ir_read; try eassumption. intros _ hb ht B1 B2. exact (C hb ht bi ti B1 B2 eq_refl eq_refl).
      * eapply ir_test; eassumption.
    + eapply ir_baseline; eassumption.
  - rewrite A4, A5. cbn [app]. eapply ir_pictures; eassumption.
Qed.

(** * The test *)
Definition x_outcome (r : itkerr) (ie : ienv) (args : list str) (p : iprog) (tol : tolerances) (n : Z) (x x' : xst) (out : res Z) : Prop :=
  let s := x_s x in let s' := x_s x' in
  exists ms rs ns ls, iunfolds ie args (s_os s) (s_tol s) tol n (s_files s) (s_expected s) p ms rs ns (s_expected s') out /\
    rs = iresults ie (s_path s) (s_input s) (firstn (length rs) ms) /\
    (exists extra, s_unmatched s' = (s_unmatched s + imismatches ie (s_path s) (s_input s) (firstn (length rs) ms) + extra)%Z /\
      match nth_error ms (length rs) with
      | Some mo => exists b i, out = Throw i /\ nth_error (s_input s) (length rs) = Some b /\ raises ie (s_path s) b mo i extra
      | None => extra = 0%Z
      end) /\
    frame s s' /\ keeps (s_files s) (s_files s') /\
    iremarks r ie (s_path s) (s_input s) ms ls /\ x_err x' = x_err x ++ ls /\ x_what x' = x_what x.
Lemma x_call_says r ie tol c x x' out k : s_is (x_s x) = Some k -> Forall uncached (s_input (x_s x)) ->
  (match c with BaseCall c => x_itk_Measure r ie tol c | ImageCall f nm => x_MeasurementInsightFileImage r ie tol f nm end) x = (x', out) ->
  call_outcome ie tol c (x_s x) (x_s x') out /\ x_what x' = x_what x /\
  exists l, x_err x' = x_err x ++ l /\ iremarks_on r ie (s_path (x_s x)) (hd_error (s_input (x_s x))) (IMoment c (s_tol (x_s x)) tol (s_files (x_s x))) l.
Proof.
  intros Hi He H. destruct c as [c|f nm].
  - unfold x_itk_Measure in H. unfold xbind at 1 in H. unfold quiet at 1, GetCompareMode at 1 in H. rewrite (compare_mode_open (i_env ie) (x_s x) k Hi) in H. cbv iota beta in H.
    set (x0 := Xst (x_s x) (x_err x) (x_what x)) in H.
    pose proof (fo_base _ _ (follows_itk_CompareMeasurement r ie tol (meas_of (e_io (i_env ie)) true c) (tolerant_of c)) x0) as E. rewrite H in E. cbn [fst snd] in E. change (x_s x0) with (x_s x) in E.
    split; [exact (base_outcome _ _ _ _ _ _ E)|]. rewrite (x_itk_compare_base r ie tol _ _ (other_meas _ _ _)) in H.
    exact (x_Compare_says (r_dir r) (i_env ie) c x0 x' out He H).
  - unfold x_MeasurementInsightFileImage in H. unfold xbind at 1 in H. unfold quiet at 1, GetCompareMode at 1 in H. rewrite (compare_mode_open (i_env ie) (x_s x) k Hi) in H. cbv iota beta in H.
    set (x0 := Xst (x_s x) (x_err x) (x_what x)) in H.
    pose proof (fo_base _ _ (follows_itk_CompareMeasurement r ie tol (file_meas true itk_type f nm) false) x0) as E. rewrite H in E. cbn [fst snd] in E. change (x_s x0) with (x_s x) in E.
    split; [exact (image_outcome _ _ _ _ _ _ _ E)|]. exact (x_image_compare r ie tol f nm x0 x' out H).
Qed.
Lemma x_irun_compare r ie args p : forall tol n x x' out k, s_is (x_s x) = Some k -> Forall uncached (s_input (x_s x)) -> x_irun r ie args p tol n x = (x', out) ->
  (exists z, out = Ok z) \/ (exists i, out = Throw i) -> x_outcome r ie args p tol n x x' out.
Proof.
  assert (STEP : forall c (q : Z -> iprog) tol n x x' out k,
    (forall z tol n x x' out k, s_is (x_s x) = Some k -> Forall uncached (s_input (x_s x)) -> x_irun r ie args (q z) tol n x = (x', out) -> (exists z, out = Ok z) \/ (exists i, out = Throw i) -> x_outcome r ie args (q z) tol n x x' out) ->
    s_is (x_s x) = Some k -> Forall uncached (s_input (x_s x)) ->
    (z <! (match c with BaseCall c => x_itk_Measure r ie tol c | ImageCall f nm => x_MeasurementInsightFileImage r ie tol f nm end) ;; x_irun r ie args (q z) tol n) x = (x', out) ->
    (exists z, out = Ok z) \/ (exists i, out = Throw i) ->
    x_outcome r ie args (match c with BaseCall c => ICall c q | ImageCall f nm => IImage f nm q end) tol n x x' out).
  { intros c q tol n x x' out k IH Hi He H Ho. unfold xbind in H.
    match type of H with context [match ?e with _ => _ end] => destruct e as [x1 o1] eqn:E end.
    destruct (x_call_says r ie tol c x x1 o1 k Hi He E) as ([A B] & W1 & l & L1 & R1). destruct o1 as [z|i| | |].
    - destruct (A z eq_refl) as (Rz & U & I & (F & T & X & G & K)). clear A B. pose proof F as (F1 & F2 & F3 & F4 & F5).
      assert (Hi1 : s_is (x_s x1) = Some k) by congruence.
      assert (He1 : Forall uncached (s_input (x_s x1))) by (rewrite I; destruct He; cbn; auto).
      destruct (IH z tol n x1 x' out k Hi1 He1 H Ho) as (ms & rs & ns & ls & W & Rs & (ex & Ue & St) & Fs & Ks & Rm & L2 & W2).
      exists (IMoment c (s_tol (x_s x)) tol (s_files (x_s x)) :: ms), (z :: rs), ns, (l ++ ls).
      rewrite F4, T, X in W. split.
      { destruct c as [c|f nm]; [eapply iu_call|eapply iu_image]; eassumption. }
      cbn [length firstn nth_error]. rewrite F3, I in *. cbn [iresults imismatches] in *.
      split; [congruence|]. split.
      { exists ex. split; [lia|]. destruct (nth_error ms (length rs)) as [mo|]; [|exact St].
        destruct St as (b & i & S1 & S2 & S3). exists b, i. rewrite nth_error_tl in S2. auto. }
      split; [eapply frame_trans; eassumption|]. split; [eapply keeps_trans; eassumption|]. split; [constructor; assumption|]. split; [rewrite L2, L1, app_assoc; reflexivity|congruence].
    - injection H as <- <-. destruct (B i eq_refl) as (b & m & B1 & B2 & U & (F & T & X & G & K)). clear A B.
      exists [IMoment c (s_tol (x_s x)) tol (s_files (x_s x))], [], [], (l ++ []). rewrite X. split; [destruct c; constructor|]. cbn [length firstn iresults imismatches nth_error].
      split; [reflexivity|]. split; [exists m; split; [lia|]; exists b, i; auto|]. split; [exact F|]. split; [exact K|]. split; [constructor; [exact R1|constructor]|]. rewrite app_nil_r. split; assumption.
    - injection H as <- <-. destruct Ho as [[? ?]|[? ?]]; discriminate.
    - injection H as <- <-. destruct Ho as [[? ?]|[? ?]]; discriminate.
    - injection H as <- <-. destruct Ho as [[? ?]|[? ?]]; discriminate. }
  assert (KEEP : forall p q tol tol' n n' x s1 x' out (nm : list str), x_outcome r ie args q tol' n' (Xst s1 (x_err x) (x_what x)) x' out ->
     s_os s1 = s_os (x_s x) -> s_path s1 = s_path (x_s x) -> s_input s1 = s_input (x_s x) -> s_unmatched s1 = s_unmatched (x_s x) -> frame (x_s x) s1 -> keeps (s_files (x_s x)) (s_files s1) ->
     (forall ms rs ns x' out, iunfolds ie args (s_os (x_s x)) (s_tol s1) tol' n' (s_files s1) (s_expected s1) q ms rs ns x' out ->
        iunfolds ie args (s_os (x_s x)) (s_tol (x_s x)) tol n (s_files (x_s x)) (s_expected (x_s x)) p ms rs (nm ++ ns) x' out) ->
     x_outcome r ie args p tol n x x' out).
  { intros p0 q tol tol' n n' x s1 x' out nm (ms & rs & ns & ls & W & Rs & St & Fs & Ks & Rm & L & Wh) E1 E2 E3 E4 F K H. cbn [x_s x_err x_what] in *.
    exists ms, rs, (nm ++ ns), ls. rewrite E1 in W. rewrite E2, E3, ?E4 in *. split; [apply H; exact W|]. split; [exact Rs|]. split; [exact St|].
    split; [eapply frame_trans; eassumption|]. split; [eapply keeps_trans; eassumption|]. split; [exact Rm|]. split; assumption. }
  induction p as [z|i|c q IH|f nm q IH|t q IH|ext root q IH|t q IH|t q IH|z q IH|path b q IH]; intros tol n x x' out ki Hi He H Ho; cbn [x_irun] in H.
  - unfold xret in H. injection H as <- <-. exists [], [], [], []. split; [constructor|]. cbn. split; [reflexivity|]. split; [exists 0%Z; split; [lia|reflexivity]|].
    split; [apply frame_refl|]. split; [apply keeps_refl|]. split; [constructor|]. rewrite app_nil_r. split; reflexivity.
  - unfold quiet, mlift in H. injection H as <- <-. exists [], [], [], []. split; [constructor|]. cbn. split; [reflexivity|]. split; [exists 0%Z; split; [lia|reflexivity]|].
    split; [apply frame_refl|]. split; [apply keeps_refl|]. split; [constructor|]. rewrite app_nil_r. split; reflexivity.
  - exact (STEP (BaseCall c) q tol n x x' out ki IH Hi He H Ho).
  - exact (STEP (ImageCall f nm) q tol n x x' out ki IH Hi He H Ho).
  - destruct x as [s err w]. refine (KEEP _ q tol t n n (Xst s err w) s x' out [] (IH t n (Xst s err w) x' out ki Hi He H Ho) _ _ _ _ _ _ _); try reflexivity; [apply frame_refl|apply keeps_refl|].
    intros. constructor. assumption.
  - unfold xbind, quiet, mlift in H. destruct (GenerateFileName (e_sc (i_env ie)) args n ext root) as [name|y| | |] eqn:E.
    + refine (KEEP _ (q name) tol tol n (n + 1)%Z x (x_s x) x' out [name] (IH name tol (n + 1)%Z (Xst (x_s x) (x_err x) (x_what x)) x' out ki Hi He H Ho) _ _ _ _ _ _ _); try reflexivity; [apply frame_refl|apply keeps_refl|].
      intros. eapply iu_generate; eassumption.
    + exfalso. unfold GenerateFileName in E. destruct args; [discriminate|]. destruct root; [discriminate|].
      match type of E with Append ?a ?b = _ => destruct (append_ok a b) as [r' Er]; rewrite Er in E; discriminate end.
    + injection H as <- <-. destruct Ho as [[? ?]|[? ?]]; discriminate.
    + injection H as <- <-. destruct Ho as [[? ?]|[? ?]]; discriminate.
    + injection H as <- <-. destruct Ho as [[? ?]|[? ?]]; discriminate.
  - unfold xbind, quiet, ItkModel.say, modify in H. refine (KEEP _ q tol tol n n x _ x' out [] (IH tol n _ x' out ki _ _ H Ho) _ _ _ _ _ _ _); try reflexivity; [exact Hi|exact He|repeat split|apply keeps_refl|].
    intros. constructor. assumption.
  - unfold xbind, quiet, modify in H. refine (KEEP _ q tol tol n n x _ x' out [] (IH tol n _ x' out ki _ _ H Ho) _ _ _ _ _ _ _); try reflexivity; [exact Hi|exact He|repeat split|apply keeps_refl|].
    intros. constructor. assumption.
  - unfold xbind, quiet, modify in H. refine (KEEP _ q tol tol n n x _ x' out [] (IH tol n _ x' out ki _ _ H Ho) _ _ _ _ _ _ _); try reflexivity; [exact Hi|exact He|repeat split|apply keeps_refl|].
    intros. constructor. assumption.
  - unfold xbind, quiet, modify in H. refine (KEEP _ q tol tol n n x _ x' out [] (IH tol n _ x' out ki _ _ H Ho) _ _ _ _ _ _ _); try reflexivity; [exact Hi|exact He|repeat split|apply keeps_write|].
    intros. constructor. assumption.
Qed.

(** a recording test says nothing *)
Lemma x_irun_record r ie args p : forall tol n x, s_is (x_s x) = None -> s_in (x_s x) = [] ->
  exists s', x_irun r ie args p tol n x = (Xst s' (x_err x) (x_what x), iends (e_sc (i_env ie)) args n p).
Proof.
  assert (REC : forall m (k : Z -> X Z) x, s_is (x_s x) = None -> s_in (x_s x) = [] ->
     exists s', (z <! (_ <! quiet (put_meas m) ;; xret 0%Z) ;; k z) x = k 0%Z (Xst s' (x_err x) (x_what x)) /\ s_is s' = None /\ s_in s' = []).
  { intros m k [s err w] Hi Hn. unfold xbind, quiet, xret. cbn [x_s x_err x_what] in *. rewrite put_meas_eq. cbv iota beta. eexists. split; [reflexivity|].
    destruct (put_text_any (print_of m ++ [nl]) s) as ((F1 & F2 & F3 & F4 & F5) & _). split; congruence. }
  induction p as [z|i|c q IH|f nm q IH|t q IH|ext root q IH|t q IH|t q IH|z q IH|path b q IH]; intros tol n x Hi Hn; cbn [x_irun iends].
  - destruct x. eexists. reflexivity.
  - eexists. reflexivity.
  - unfold x_itk_Measure. match goal with |- exists s', xbind (xbind (quiet (GetCompareMode _)) ?k) ?h x = _ => assert (E : xbind (xbind (quiet (GetCompareMode (i_env ie))) k) h x = (z <! (_ <! quiet (put_meas (meas_of (e_io (i_env ie)) false c)) ;; xret 0%Z) ;; x_irun r ie args (q z) tol n) x) end.
    { unfold xbind at 1 2. unfold quiet at 1, GetCompareMode. rewrite (record_mode (i_env ie) (x_s x) Hi Hn). cbv iota beta. destruct x. reflexivity. }
    rewrite E. destruct (REC (meas_of (e_io (i_env ie)) false c) (fun z => x_irun r ie args (q z) tol n) x Hi Hn) as (s1 & -> & Hi1 & Hn1).
    exact (IH 0%Z tol n (Xst s1 (x_err x) (x_what x)) Hi1 Hn1).
  - unfold x_MeasurementInsightFileImage. match goal with |- exists s', xbind (xbind (quiet (GetCompareMode _)) ?k) ?h x = _ => assert (E : xbind (xbind (quiet (GetCompareMode (i_env ie))) k) h x = (z <! (_ <! quiet (put_meas (file_meas false itk_type f nm)) ;; xret 0%Z) ;; x_irun r ie args (q z) tol n) x) end.
    { unfold xbind at 1 2. unfold quiet at 1, GetCompareMode. rewrite (record_mode (i_env ie) (x_s x) Hi Hn). cbv iota beta. destruct x. reflexivity. }
    rewrite E. destruct (REC (file_meas false itk_type f nm) (fun z => x_irun r ie args (q z) tol n) x Hi Hn) as (s1 & -> & Hi1 & Hn1).
    exact (IH 0%Z tol n (Xst s1 (x_err x) (x_what x)) Hi1 Hn1).
  - apply IH; assumption.
  - unfold xbind, quiet, mlift. destruct (GenerateFileName (e_sc (i_env ie)) args n ext root) as [name|y| | |]; try (eexists; reflexivity).
    exact (IH name tol (n + 1)%Z (Xst (x_s x) (x_err x) (x_what x)) Hi Hn).
  - exact (IH tol n (Xst (set_stdout (x_s x) (s_stdout (x_s x) ++ t)) (x_err x) (x_what x)) Hi Hn).
  - exact (IH tol n (Xst (set_tol (x_s x) t) (x_err x) (x_what x)) Hi Hn).
  - exact (IH tol n (Xst (set_expected (x_s x) z) (x_err x) (x_what x)) Hi Hn).
  - exact (IH tol n (Xst (set_files (x_s x) (write_file (i_env ie) (s_files (x_s x)) path b)) (x_err x) (x_what x)) Hi Hn).
Qed.

(** * Start *)
Lemma x_launch_in e f dirs0 a0 opts rest w : command_line e f opts rest ->
  exists argc argv, x_Parse e (S (length (a0 :: flat opts ++ rest))) (a0 :: flat opts ++ rest) (Xst (set_unmatched (fresh f dirs0) 1) [] w)
    = (Xst (launched_in e f dirs0 opts) (refusals e f opts) w, Ok (argc, argv)) /\ firstn argc argv = a0 :: rest.
Proof.
  intros H. destruct (launch_in e f dirs0 a0 opts rest H) as (argc & argv & E & F). destruct H as [H1 H2].
  set (fuel := S (length (a0 :: flat opts ++ rest))) in *.
  pose proof (fo_base _ _ (follows_Parse e fuel (a0 :: flat opts ++ rest)) (Xst (set_unmatched (fresh f dirs0) 1) [] w)) as B. cbn [x_s] in B. rewrite E in B.
  assert (G : exists s r, x_Parse e fuel (a0 :: flat opts ++ rest) (Xst (set_unmatched (fresh f dirs0) 1) [] w) = (Xst s (refusals e f opts) w, r)).
  { unfold x_Parse. destruct (x_parse_prefix e a0 rest opts (fuel - length opts) [] None None (set_unmatched (fresh f dirs0) 1) [] w H1) as (tail' & P & E').
    assert (Hf : length opts < fuel) by (unfold fuel; cbn [length]; rewrite app_length, flat_length; lia).
    replace (length opts + (fuel - length opts)) with fuel in E' by lia. rewrite app_nil_r in E'.
    destruct (fuel - length opts) as [|f'] eqn:Ef; [lia|]. rewrite x_parse_stop in E' by exact H2.
    unfold xbind at 1. replace (length (a0 :: flat opts ++ rest)) with (1 + 2 * length opts + length rest) by (cbn [length]; rewrite app_length, flat_length; lia).
    rewrite E'. cbv iota beta. unfold xbind, quiet, modify, xret. cbn [x_s x_err x_what app]. do 2 eexists. reflexivity. }
  destruct G as (s & r & G). rewrite G in *. cbn [fst snd x_s] in B. apply pair_equal_spec in B. destruct B as [<- <-]. exists argc, argv. split; [reflexivity|exact F].
Qed.
Lemma x_with_launch e body f dirs0 a0 opts rest w : command_line e f opts rest ->
  x_body_with e body (a0 :: flat opts ++ rest) (Xst (set_unmatched (fresh f dirs0) 1) [] w) =
  (_ <! x_Begin e ;; body (a0 :: rest)) (Xst (launched_in e f dirs0 opts) (refusals e f opts) w).
Proof.
  intros H. destruct (x_launch_in e f dirs0 a0 opts rest w H) as (argc & argv & E & F). unfold x_body_with. unfold xbind at 1. rewrite E.
  cbv beta iota. rewrite F. reflexivity.
Qed.
Lemma x_begin_at e s err inf : s_os s = None -> s_is s = None -> s_in s = inf -> inf <> [] ->
  match opened e (s_files s) (s_out s) with
  | None => x_Begin e (Xst s err None) = (Xst s err (Some (between' ($"unable to open output file ") (s_out s))), Throw ExnRuntime)
  | Some (o, f1) =>
      let s1 := set_os (set_files s f1) o in
      let q := baseline_path e f1 (s_path s) inf in
      if can_open e f1 q then x_Begin e (Xst s err None) = x_read_input e (Xst (set_is s1 (slot e q)) err None)
      else x_Begin e (Xst s err None) = (Xst s1 err (Some (between' ($"unable to open input file ") inf)), Throw ExnRuntime)
  end.
Proof.
  intros Hos His Hin Hn. remember (x_Begin e (Xst s err None)) as bm eqn:Eb. unfold x_Begin in Eb. unfold xbind at 1 in Eb. unfold throwing at 1 in Eb. cbn [x_s x_err x_what] in Eb. rewrite (open_output_spec e s Hos) in Eb.
  destruct (opened e (s_files s) (s_out s)) as [[o f1]|]; [|exact Eb]. cbv iota beta in Eb. cbv zeta.
  set (s1 := set_os (set_files s f1) o) in *.
  assert (Hin1 : s_in s1 = inf) by exact Hin.
  assert (Q : open_input e s1 = if can_open e f1 (baseline_path e f1 (s_path s) inf)
     then (set_is s1 (slot e (baseline_path e f1 (s_path s) inf)), Ok tt) else (s1, Throw ExnRuntime)).
  { unfold open_input. rewrite Hin1.
    destruct (baseline_path_search e s1 inf) as (p & E & B). change (s_files s1) with f1 in *. change (s_path s1) with (s_path s) in *.
    destruct inf as [|c r] eqn:Einf; [contradiction|]. rewrite E. cbv zeta. rewrite <- B.
    destruct (can_open e f1 (baseline_path e f1 (s_path s) (c :: r))); [reflexivity|]. f_equal. destruct s. cbn in His. subst. reflexivity. }
  unfold xbind at 1 in Eb. unfold throwing at 1 in Eb. cbn [x_s x_err x_what] in Eb. rewrite Q, Hin1 in Eb. destruct (can_open e f1 (baseline_path e f1 (s_path s) inf)) eqn:R.
  - unfold xbind, quiet, GetCompareMode in Eb. cbn [x_s x_err x_what] in Eb. destruct (readable_slot _ _ _ R) as (k & K & _). rewrite K in *.
    rewrite (compare_mode_open e (set_is s1 (Some k)) k eq_refl) in Eb. exact Eb.
  - exact Eb.
Qed.

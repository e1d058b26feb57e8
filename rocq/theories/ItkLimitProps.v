(** C81: the ITK driver on an output stream that fails. *)
From Coq Require Import Floats.SpecFloat.
From Verif Require Import Base Str Dec PathModel PathFacts MeasModel MeasFacts DiffModel VisitModel XmlModel ReadModel ReadBack RegModel ArgFacts ArgProps RegSpec RegFacts RegStart RegMain RegProps RegProps2 RegRound FileProps ImgModel ImgProps ItkModel ItkSpec ItkSim ItkMain ItkRunProps ItkRoundProps CutProps ReuseProps CutItkProps LimitModel LimitProps ItkLimitModel.

(** * Specification *)
(** the test does not itself write the output file, whatever the measurements return *)
Fixpoint iwrites_others (e : env) (args : list str) (n : Z) (o : option str) (p : iprog) : Prop :=
  match p with
  | IReturn _ | IRaise _ => True
  | ICall _ k | IImage _ _ k => forall r, iwrites_others e args n o (k r)
  | IGenerate ext root k => forall name, GenerateFileName (e_sc e) args n ext root = Ok name -> iwrites_others e args (n + 1) o (k name)
  | IWriteFile path _ k => not_output e o path /\ iwrites_others e args n o k
  | ISay _ k | ITolerance _ k | IRelativeTolerance _ k | IExpectedReturn _ k => iwrites_others e args n o k
  end.
(** it does not measure the output file, and no picture of an image measured is the output file *)
Definition pictures_apart (ie : ienv) (o : option str) (file : str) : Prop :=
  forall ext q, In ext [$".diff.png"; $".base.png"; $".test.png"] -> Append (i_output ie) (Tail file ++ ext) = Ok q -> not_output (i_env ie) o q.
Fixpoint imeasures_others (ie : ienv) (args : list str) (n : Z) (o : option str) (p : iprog) : Prop :=
  match p with
  | IReturn _ | IRaise _ => True
  | ICall c k => (forall f, LimitProps.file_of c = Some f -> not_output (i_env ie) o f) /\ forall r, imeasures_others ie args n o (k r)
  | IImage f _ k => not_output (i_env ie) o f /\ pictures_apart ie o f /\ forall r, imeasures_others ie args n o (k r)
  | IGenerate ext root k => forall name, GenerateFileName (e_sc (i_env ie)) args n ext root = Ok name -> imeasures_others ie args (n + 1) o (k name)
  | IWriteFile _ _ k | ISay _ k | ITolerance _ k | IRelativeTolerance _ k | IExpectedReturn _ k => imeasures_others ie args n o k
  end.

Section ItkLimit.
Variables (ie : ienv) (o : option str) (n0 : nat).
Local Notation e := (i_env ie).
Local Notation rel := (rel o n0).
Local Notation mimics := (mimics o n0).
Local Notation guarded := (guarded e o).
Lemma not_output_slot path : not_output e o path -> slot e path = None \/ slot e path <> o.
Proof. unfold not_output. destruct o as [k|]; intros H; [right; exact H|]. destruct (slot e path); [right; discriminate|left; reflexivity]. Qed.
Lemma mimics_say P text : stable P -> mimics P P (say text) (lsay text).
Proof.
  intros St s p R O HP. unfold lsay. assert (OP : s_os (fst p) = o) by (rewrite <- O; apply R). rewrite OP. destruct o as [k|] eqn:Eo.
  - unfold say, modify, lift. cbn [fst snd set_stdout]. split; [|split; [reflexivity|split; [exact O|revert HP; apply St; reflexivity]]].
    destruct R as (A & F & C). split; [exact A|]. split; [exact F|]. unfold cut_output in *. destruct C as (C0 & C). cbn [fst snd set_stdout s_stdout s_files]. rewrite C0. split; [reflexivity|exact C].
  - assert (E : say text s = put text s).
    { unfold say, put, modify, put_text. rewrite O. reflexivity. }
    rewrite E. refine (mimics_put_stable None n0 P text St s p _ O HP). exact R.
Qed.
Lemma mimics_say_meas P m : stable P -> mimics P P (say_meas m) (lsay_meas m).
Proof. intros H. unfold say_meas, lsay_meas. eapply mimics_bind; [apply mimics_lift|]. intros t. apply mimics_say, H. Qed.
Lemma mimics_report P same a b : stable P -> mimics P P (report same a b) (lreport same a b).
Proof. intros H. unfold report, lreport. destruct same; [apply mimics_ret|]. eapply mimics_bind; [apply mimics_say_meas, H|]. intros _. apply mimics_say_meas, H. Qed.
Lemma rel_read_image s p name : rel s p -> not_output e o name -> read_image ie (s_files (fst p)) name = read_image ie (s_files s) name.
Proof. intros R N. unfold read_image. rewrite (rel_contents e o n0 s p name R N). reflexivity. Qed.
Lemma rel_read_info s p name : rel s p -> not_output e o name -> read_info ie (s_files (fst p)) name = read_info ie (s_files s) name.
Proof. intros R N. unfold read_info. rewrite (rel_contents e o n0 s p name R N). reflexivity. Qed.
(** reading a value *)
Lemma mimics_gets {A B} (P Q : rst -> Prop) (r : rst -> A) (k : A -> M B) (h : A -> LM B) : (forall s p, rel s p -> P s -> r (fst p) = r s) ->
  (forall a, mimics P Q (k a) (h a)) -> mimics P Q (mbind (gets r) k) (lbind (lift (gets r)) h).
Proof.
  intros H K. eapply mimics_bind; [|exact K]. apply mimics_pure; [reflexivity|]. intros s p R HP. cbn. f_equal. apply H; assumption.
Qed.
Lemma mimics_thing P im file name : stable P -> not_output e o file -> mimics P P (ImageThing ie im file name) (il_ImageThing ie im file name).
Proof.
  intros St N. unfold ImageThing, il_ImageThing. eapply mimics_bind; [apply mimics_say, St|]. intros _. eapply mimics_bind with (Q := P).
  - destruct (i_png ie im); [apply mimics_write; [exact St|apply not_output_slot, N]|apply mimics_ret].
  - intros _. apply mimics_say_meas, St.
Qed.
Lemma mimics_picture P im ext m name : stable P -> In ext [$".diff.png"; $".base.png"; $".test.png"] -> pictures_apart ie o (ffile m) ->
  forall (k : unit -> M unit) (h : unit -> LM unit), (forall u, mimics P P (k u) (h u)) ->
  mimics P P (mbind (mlift (Append (i_output ie) (Tail (ffile m) ++ ext))) (fun p1 => mbind (ImageThing ie im p1 name) k))
             (lbind (lift (mlift (Append (i_output ie) (Tail (ffile m) ++ ext)))) (fun p1 => lbind (il_ImageThing ie im p1 name) h)).
Proof.
  intros St I Pa k h K. destruct (append_ok (i_output ie) (Tail (ffile m) ++ ext)) as [q Eq]. pose proof (Pa ext q I Eq) as N. rewrite Eq.
  apply (mimics_peek o n0 P P (fun _ => Ok q)); [reflexivity|]. intros s q' HP E. apply Ok_inj in E. subst q'.
  eapply mimics_weaken; [|intros s' ->; exact HP]. eapply mimics_bind; [apply mimics_thing; assumption|exact K].
Qed.
Lemma mimics_difference_image P tol b m : stable P -> not_output e o (ffile b) -> not_output e o (ffile m) -> pictures_apart ie o (ffile m) ->
  mimics P P (DifferenceTestImage ie tol b m) (il_DifferenceTestImage ie tol b m).
Proof.
  intros St Nb Nm Pa. unfold DifferenceTestImage, il_DifferenceTestImage.
  apply mimics_gets; [intros s p R _; apply rel_read_info; assumption|]. intros t. apply mimics_gets; [intros s p R _; apply rel_read_info; assumption|]. intros bi.
  destruct t as [t|]; [|apply mimics_lift]. destruct bi as [bi|]; [|apply mimics_lift]. destruct (negb (eqzs (h_size bi) (h_size t))); [apply mimics_report, St|].
  do 5 (eapply mimics_bind; [apply mimics_report, St|]; intros _).
  apply mimics_gets; [intros s p R _; apply rel_read_image; assumption|]. intros ti. apply mimics_gets; [intros s p R _; apply rel_read_image; assumption|]. intros gi.
  destruct ti as [ti|]; [|apply mimics_lift]. destruct gi as [gi|]; [|apply mimics_lift]. cbv zeta.
  eapply mimics_bind; [apply mimics_say_meas, St|]. intros _.
  apply mimics_picture; [exact St|cbn; auto|exact Pa|]. intros _.
  apply mimics_picture; [exact St|cbn; auto|exact Pa|]. intros _.
  destruct (append_ok (i_output ie) (Tail (ffile m) ++ $".test.png")) as [q Eq]. pose proof (Pa ($".test.png") q ltac:(cbn; auto) Eq) as N. rewrite Eq.
  apply (mimics_peek o n0 P P (fun _ => Ok q)); [reflexivity|]. intros s q' HP E. apply Ok_inj in E. subst q'.
  eapply mimics_weaken; [|intros s' ->; exact HP]. apply mimics_thing; assumption.
Qed.
Lemma verdict_ext (diff : filter -> image -> image -> Z) read read' tol b m : read (ffile b) = read' (ffile b) -> read (ffile m) = read' (ffile m) -> image_verdict diff read tol b m = image_verdict diff read' tol b m.
Proof. intros B M. unfold image_verdict, RegressionTestImage. rewrite B, M. reflexivity. Qed.
Lemma mimics_itk_compare P tol c b m : (forall g, b = MF g -> not_output e o (ffile g)) -> (forall g, m = MF g -> not_output e o (ffile g)) -> stable P ->
  mimics P P (itk_Compare ie tol c b m) (il_Compare ie tol c b m).
Proof.
  intros Hb Hm St.
  assert (PL : mimics P P (out <- gets (fun s => Compare (e_sc e) (sources e (s_files s)) (e_io e) c b m) ;; (let '(b, m, v) := out in same <- mlift v ;; mret (b, m, same)))
                          (lift (out <- gets (fun s => Compare (e_sc e) (sources e (s_files s)) (e_io e) c b m) ;; (let '(b, m, v) := out in same <- mlift v ;; mret (b, m, same))))).
  { apply mimics_pure.
    - intros s. unfold mbind, gets, mlift, mret. destruct (Compare _ _ _ _ _ _) as [[b' m'] v]. destruct v; reflexivity.
    - intros s p R _. unfold mbind, gets, mlift, mret.
      assert (E : Compare (e_sc e) (sources e (s_files (fst p))) (e_io e) c b m = Compare (e_sc e) (sources e (s_files s)) (e_io e) c b m).
      { apply Compare_ext. intros f [Hf|Hf]; rewrite !sources_at; apply (rel_sources e o n0); auto. }
      rewrite E. clear E. destruct (Compare _ _ _ _ _ _) as [[b' m'] v]. destruct v; reflexivity. }
  unfold itk_Compare, il_Compare. destruct b as [b|b]; [exact PL|]. destruct m as [m|m]; [exact PL|]. 
  destruct (eqs (ftype m) itk_type) eqn:E.
  - eapply mimics_bind; [apply mimics_say, St|]. intros _. apply mimics_gets.
    + intros s p R _. apply verdict_ext; apply rel_read_image; auto.
    + intros v. eapply mimics_bind; [apply mimics_lift|]. intros w. apply mimics_ret.
  - unfold itk_Compare. rewrite E. exact PL.
Qed.
(** the comparison gives back the files it got *)
Lemma Compare_keeps sc fs io c b m b' m' v : Compare sc fs io c b m = (b', m', v) -> forall g, (b' = MF g -> b = MF g) /\ (m' = MF g -> m = MF g).
Proof.
  assert (K : forall b m b' m' v, IsEqual sc fs b m = (b', m', v) -> forall g, (b' = MF g -> b = MF g) /\ (m' = MF g -> m = MF g)).
  { intros b0 m0 b1 m1 v0. unfold IsEqual. destruct b0 as [x|x], m0 as [y|y].
    - destruct (data_IsEqual sc x y) as [[x' y'] r]. intros E g. apply pair_equal_spec in E as [E _]. apply pair_equal_spec in E as [<- <-]. split; discriminate.
    - destruct (file_IsEqual_data sc fs y x) as [x' r]. intros E g. apply pair_equal_spec in E as [E _]. apply pair_equal_spec in E as [<- <-]. split; [discriminate|auto].
    - destruct (file_IsEqual_data sc fs x y) as [x' r]. intros E g. apply pair_equal_spec in E as [E _]. apply pair_equal_spec in E as [<- <-]. split; [auto|discriminate].
    - intros E g. apply pair_equal_spec in E as [E _]. apply pair_equal_spec in E as [<- <-]. auto. }
  unfold Compare. destruct (numeric_meas m); [|apply K]. destruct (numeric_meas b).
  - destruct (negb _); [|apply K]. intros E g. apply pair_equal_spec in E as [E _]. apply pair_equal_spec in E as [<- <-]. auto.
  - intros E g. apply pair_equal_spec in E as [E _]. apply pair_equal_spec in E as [<- <-]. auto.
Qed.
Lemma itk_Compare_keeps tol c b m s s' b' m' same : itk_Compare ie tol c b m s = (s', Ok (b', m', same)) -> forall g, (b' = MF g -> b = MF g) /\ (m' = MF g -> m = MF g).
Proof.
  assert (PL : (out <- gets (fun s => Compare (e_sc e) (sources e (s_files s)) (e_io e) c b m) ;; (let '(b, m, v) := out in same <- mlift v ;; mret (b, m, same))) s = (s', Ok (b', m', same)) ->
    forall g, (b' = MF g -> b = MF g) /\ (m' = MF g -> m = MF g)).
  { unfold mbind, gets, mlift, mret. destruct (Compare (e_sc e) (sources e (s_files s)) (e_io e) c b m) as [[b1 m1] v] eqn:E.
    destruct v; try discriminate. intros H. apply pair_equal_spec in H as [_ H]. apply Ok_inj in H. apply pair_equal_spec in H as [H _]. apply pair_equal_spec in H as [<- <-].
    exact (Compare_keeps _ _ _ _ _ _ _ _ _ E). }
  unfold itk_Compare. destruct b as [b|b]; [exact PL|]. destruct m as [m|m]; [exact PL|]. destruct (eqs (ftype m) itk_type); [|exact PL].
  unfold mbind, say, modify, gets, mlift, mret. destruct (image_verdict _ _ _ _ _); try discriminate. intros H. apply pair_equal_spec in H as [_ H]. apply Ok_inj in H.
  apply pair_equal_spec in H as [H _]. apply pair_equal_spec in H as [<- <-]. auto.
Qed.
Lemma mimics_bind_val {A B} (P Q S : rst -> Prop) (m : M A) (l : LM A) (k : A -> M B) (h : A -> LM B) :
  mimics P Q m l -> (forall s s' a, m s = (s', Ok a) -> mimics Q S (k a) (h a)) -> mimics P S (mbind m k) (lbind l h).
Proof.
  intros H K s p R O HP. destruct (H s p R O HP) as (R1 & E & O1 & Q1). unfold mbind, lbind. specialize (K s). destruct (m s) as [s1 r1]. destruct (l p) as [p1 r2]. cbn [fst snd] in *. subst r2.
  destruct r1 as [a| | | |]; try (cbn [fst snd]; auto). exact (K s1 a eq_refl s1 p1 R1 O1 Q1).
Qed.
Lemma mimics_itk_difference tol m b : (forall g, b = MF g -> not_output e o (ffile g)) -> (forall g, m = MF g -> not_output e o (ffile g)) ->
  (forall g, m = MF g -> eqs (ftype g) itk_type = true -> pictures_apart ie o (ffile g)) ->
  mimics guarded guarded (itk_Difference ie tol m b) (il_Difference ie tol m b).
Proof.
  intros Hb Hm Hp. pose proof (stable_guarded e o) as St. assert (D : mimics guarded guarded (DifferenceMeasurement e m b) (lDifference e m b)) by apply mimics_difference, St.
  unfold itk_Difference, il_Difference. destruct b as [b|b]; [exact D|]. destruct m as [m|m]; [exact D|]. destruct (eqs (ftype m) itk_type) eqn:E; [|exact D].
  eapply mimics_bind; [apply mimics_count, St|]. intros _. apply mimics_difference_image; auto.
Qed.
Lemma mimics_itk_compare_measurement tol m t : (forall g, m = MF g -> not_output e o (ffile g)) -> (forall g, m = MF g -> eqs (ftype g) itk_type = true -> pictures_apart ie o (ffile g)) ->
  mimics guarded guarded (itk_CompareMeasurement ie tol m t) (il_CompareMeasurement ie tol m t).
Proof.
  intros Hm Hp. unfold itk_CompareMeasurement, il_CompareMeasurement. pose proof (stable_guarded e o) as St.
  assert (U : forall P : rst -> Prop, (forall s, P s -> guarded s) -> mimics P guarded (_ <- UnmatchedMeasurement m ;; mret 1%Z) (_ <~ lUnmatched m ;; lret 1%Z)).
  { intros P W. eapply mimics_weaken; [|exact W]. eapply mimics_bind; [apply mimics_unmatched, St|]. intros _. apply mimics_ret. }
  apply (mimics_peek o n0 guarded guarded (fun s => Ok (s_input s))).
  { intros s p R _. f_equal. apply R. }
  intros s inp G E. apply Ok_inj in E. destruct inp as [|b rest].
  { apply U. intros s' ->. exact G. }
  apply mimics_bind with (Q := fun s => guarded s /\ names_others e o (s_path s) [b]).
  { apply mimics_modify; [apply rel_field; [intros; split; reflexivity|intros; cbn; repeat split; congruence]|reflexivity|].
    intros s' ->. unfold LimitProps.guarded in *. rewrite E in G. split; intros g H; apply G; [right; exact H|]. destruct H as [H|[]]. left. exact H. }
  intros _. destruct (eqs (mname b) (mname m) && eqs (mtype b) (mtype m)).
  2:{ apply U. intros s' H. apply H. }
  clear s G E. apply (mimics_peek o n0 _ guarded (fun s => locate e s b m)).
  { intros s p R _. unfold locate. destruct b as [|g]; [reflexivity|]. destruct m as [|g']; [reflexivity|]. rewrite (rel_search e o n0 s p _ R). reflexivity. }
  intros s b' [G N] L. pose proof (fun g => located e o s b m g N) as HL.
  eapply mimics_weaken with (P := guarded); [|intros s' ->; exact G].
  assert (Hb' : forall g, b' = MF g -> not_output e o (ffile g)) by (intros g ->; exact (HL g L)).
  apply mimics_gets.
  { intros s' p R _. unfold visitor. assert (T : s_tol (fst p) = s_tol s') by apply R. rewrite T. reflexivity. }
  intros c. eapply mimics_bind_val; [apply mimics_itk_compare; [exact Hb'|exact Hm|exact St]|].
  intros s1 s2 [[b2 m2] same] E. pose proof (itk_Compare_keeps _ _ _ _ _ _ _ _ _ E) as Kp. destruct same; [apply mimics_ret|].
  eapply mimics_bind; [apply mimics_itk_difference|intros _; apply mimics_ret].
  - intros g Eg. apply Hb', Kp, Eg.
  - intros g Eg. apply Hm, Kp, Eg.
  - intros g Eg. apply Hp, Kp, Eg.
Qed.
Lemma base_not_itk c g : meas_of (e_io e) true c = MF g -> eqs (ftype g) itk_type = false /\ LimitProps.file_of c = Some (ffile g).
Proof. destruct c; cbn [meas_of]; try discriminate; intros H; injection H as <-; split; reflexivity. Qed.
Lemma mimics_itk_measure tol c : (forall f, LimitProps.file_of c = Some f -> not_output e o f) -> mimics guarded guarded (itk_Measure ie tol c) (il_Measure ie tol c).
Proof.
  intros Hf. unfold itk_Measure, il_Measure. apply (mimics_peek o n0 guarded guarded (compare_mode e)); [intros s p R _; apply (rel_mode e o n0), R|].
  intros s [|] H E.
  - eapply mimics_weaken; [apply mimics_itk_compare_measurement|intros s' ->; exact H].
    + intros g Hg. apply Hf. apply (base_not_itk c g Hg).
    + intros g Hg Ht. destruct (base_not_itk c g Hg) as [F _]. rewrite F in Ht. discriminate Ht.
  - eapply mimics_bind with (Q := guarded); [eapply mimics_weaken; [apply mimics_put_meas, stable_guarded|]; intros s' ->; exact H|]. intros _. apply mimics_ret.
Qed.
Lemma mimics_itk_image tol f nm : not_output e o f -> pictures_apart ie o f -> mimics guarded guarded (MeasurementInsightFileImage ie tol f nm) (il_FileImage ie tol f nm).
Proof.
  intros Hf Hp. unfold MeasurementInsightFileImage, il_FileImage. apply (mimics_peek o n0 guarded guarded (compare_mode e)); [intros s p R _; apply (rel_mode e o n0), R|].
  intros s [|] H E.
  - eapply mimics_weaken; [apply mimics_itk_compare_measurement|intros s' ->; exact H]; unfold file_meas; intros g Hg; injection Hg as <-; [exact Hf|intros _; exact Hp].
  - eapply mimics_bind with (Q := guarded); [eapply mimics_weaken; [apply mimics_put_meas, stable_guarded|]; intros s' ->; exact H|]. intros _. apply mimics_ret.
Qed.
Lemma mimics_itk_quiet tol c : mimics quiet quiet (itk_Measure ie tol c) (il_Measure ie tol c).
Proof.
  unfold itk_Measure, il_Measure. apply (mimics_peek o n0 quiet quiet (compare_mode e)); [intros s p R _; apply (rel_mode e o n0), R|].
  intros s cm H E. rewrite (record_mode e s (proj1 H) (proj2 H)) in E. apply Ok_inj in E. subst cm.
  eapply mimics_bind with (Q := quiet); [eapply mimics_weaken; [apply mimics_put_meas, stable_quiet|]; intros s' ->; exact H|]. intros _. apply mimics_ret.
Qed.
Lemma mimics_image_quiet tol f nm : mimics quiet quiet (MeasurementInsightFileImage ie tol f nm) (il_FileImage ie tol f nm).
Proof.
  unfold MeasurementInsightFileImage, il_FileImage. apply (mimics_peek o n0 quiet quiet (compare_mode e)); [intros s p R _; apply (rel_mode e o n0), R|].
  intros s cm H E. rewrite (record_mode e s (proj1 H) (proj2 H)) in E. apply Ok_inj in E. subst cm.
  eapply mimics_bind with (Q := quiet); [eapply mimics_weaken; [apply mimics_put_meas, stable_quiet|]; intros s' ->; exact H|]. intros _. apply mimics_ret.
Qed.
(** the test *)
Lemma mimics_irun (P : rst -> Prop) (ok : Z -> iprog -> Prop) args : stable P ->
  (forall n c k, ok n (ICall c k) -> (forall tol, mimics P P (itk_Measure ie tol c) (il_Measure ie tol c)) /\ forall r, ok n (k r)) ->
  (forall n f nm k, ok n (IImage f nm k) -> (forall tol, mimics P P (MeasurementInsightFileImage ie tol f nm) (il_FileImage ie tol f nm)) /\ forall r, ok n (k r)) ->
  (forall n t k, ok n (ITolerance t k) -> ok n k) -> (forall n ext root k name, ok n (IGenerate ext root k) -> GenerateFileName (e_sc e) args n ext root = Ok name -> ok (n + 1)%Z (k name)) ->
  (forall n t k, ok n (ISay t k) -> ok n k) -> (forall n t k, ok n (IRelativeTolerance t k) -> ok n k) -> (forall n t k, ok n (IExpectedReturn t k) -> ok n k) ->
  (forall n path b k, ok n (IWriteFile path b k) -> not_output e o path /\ ok n k) ->
  forall p tol n, ok n p -> mimics P P (irun ie args p tol n) (ilrun ie args p tol n).
Proof.
  intros St C1 C2 C3 C4 C5 C6 C7 C8. induction p as [z|x|c k IH|f nm k IH|t k IH|ext root k IH|t k IH|t k IH|z k IH|path b k IH]; intros tol n H; cbn [irun ilrun].
  - apply mimics_ret.
  - apply mimics_lift.
  - destruct (C1 n c k H) as [A B]. eapply mimics_bind; [apply A|]. intros r. apply IH, B.
  - destruct (C2 n f nm k H) as [A B]. eapply mimics_bind; [apply A|]. intros r. apply IH, B.
  - apply IH. eapply C3. exact H.
  - destruct (GenerateFileName (e_sc e) args n ext root) as [name| | | |] eqn:E.
    + apply (mimics_peek o n0 P P (fun _ => Ok name)); [reflexivity|]. intros s q HP Eq. apply Ok_inj in Eq. subst q. eapply mimics_weaken; [|intros s' ->; exact HP].
      apply IH. eapply C4; eassumption.
    + intros s p R O HP. cbn. destruct p. auto.
    + intros s p R O HP. cbn. destruct p. auto.
    + intros s p R O HP. cbn. destruct p. auto.
    + intros s p R O HP. cbn. destruct p. auto.
  - eapply mimics_bind; [apply mimics_say, St|]. intros _. apply IH. eapply C5. exact H.
  - eapply mimics_bind with (Q := P); [apply mimics_modify; [apply rel_field; [intros; split; reflexivity|intros; cbn; repeat split; congruence]|reflexivity|intros s; apply St; reflexivity]|].
    intros _. apply IH. eapply C6. exact H.
  - eapply mimics_bind with (Q := P); [apply mimics_modify; [apply rel_field; [intros; split; reflexivity|intros; cbn; repeat split; congruence]|reflexivity|intros s; apply St; reflexivity]|].
    intros _. apply IH. eapply C7. exact H.
  - destruct (C8 n path b k H) as [A B]. eapply mimics_bind with (Q := P); [apply mimics_write; [exact St|apply not_output_slot, A]|]. intros _. apply IH, B.
Qed.
Lemma mimics_irun_quiet args p tol n : iwrites_others e args n o p -> mimics quiet quiet (irun ie args p tol n) (ilrun ie args p tol n).
Proof.
  apply (mimics_irun quiet (fun n p => iwrites_others e args n o p)); cbn [iwrites_others]; auto.
  - apply stable_quiet.
  - intros n' c k H. split; [intros; apply mimics_itk_quiet|exact H].
  - intros n' f nm k H. split; [intros; apply mimics_image_quiet|exact H].
Qed.
Lemma mimics_irun_guarded args p tol n : iwrites_others e args n o p -> imeasures_others ie args n o p -> mimics guarded guarded (irun ie args p tol n) (ilrun ie args p tol n).
Proof.
  intros H1 H2. apply (mimics_irun guarded (fun n p => iwrites_others e args n o p /\ imeasures_others ie args n o p)); cbn [iwrites_others imeasures_others]; auto; try (intros; tauto).
  - apply stable_guarded.
  - intros n' c k [A [B C]]. split; [intros; apply mimics_itk_measure, B|auto].
  - intros n' f nm k [A [B [C D]]]. split; [intros; apply mimics_itk_image; assumption|auto].
  - intros n' ext root k name [A B] E. auto.
Qed.
End ItkLimit.

(** * Start and end *)
Lemma il_launch ie f test a0 opts rest n : command_line (i_env ie) f opts rest ->
  il_main_body ie test (a0 :: flat opts ++ rest) (set_unmatched (new_itk_test ie f) 1, n) =
  (_ <~ lBegin (i_env ie) ;; ilrun ie (a0 :: flat opts ++ rest) (test (a0 :: rest)) no_tolerance 0%Z) (launched_in (i_env ie) f [i_baselines ie] opts, n).
Proof.
  intros H. destruct (launch_in (i_env ie) f [i_baselines ie] a0 opts rest H) as (argc & argv & E & F). unfold il_main_body. unfold lbind at 1, lift at 1. cbn [fst snd].
  change (set_unmatched (new_itk_test ie f) 1) with (set_unmatched (fresh f [i_baselines ie]) 1). rewrite E. cbv beta iota. rewrite F. reflexivity.
Qed.
Lemma rel_start_in e f dirs0 opts o f1 n : opened e f (output_of e f opts) = Some (o, f1) ->
  rel o n (set_os (set_files (launched_in e f dirs0 opts) f1) o) (set_os (set_files (launched_in e f dirs0 opts) f1) o, n).
Proof.
  intros H. pose proof (rel_start e f opts o f1 n H) as R. apply (rel_field o n (fun s => set_path s (dirs_of opts ++ dirs0))) in R; [exact R| |].
  - intros; split; reflexivity.
  - intros; cbn; repeat split; congruence.
Qed.

(** * C81 *)
(** Whatever number of bytes the output takes, a run of the ITK driver returns the value it returns when the output takes everything; the output is its beginning of that length, every other
    file, pictures of differences included (and, with an output file, standard output) is the same. *)
Theorem C81_full_disk : forall ie f test a0 rest opts o f1 n s1 r,
  let e := i_env ie in let argv := a0 :: flat opts ++ rest in let dirs := dirs_of opts ++ [i_baselines ie] in
  command_line e f opts rest -> opened e f (output_of e f opts) = Some (o, f1) -> iwrites_others e argv 0 o (test (a0 :: rest)) ->
  (forall inf l, input_of opts = Some inf -> started e f (output_of e f opts) dirs inf = Some (o, f1, l) ->
     imeasures_others ie argv 0 o (test (a0 :: rest)) /\ names_others e o dirs l) ->
  itk_Main ie test argv (new_itk_test ie f) = (s1, r) ->
  exists s2, limited_itk_Main ie test argv (new_itk_test ie f, n) = ((s2, n - length (written o s1)), r) /\
    written o s2 = firstn n (written o s1) /\ (forall k, o <> Some k -> s_files s2 k = s_files s1 k) /\ (o <> None -> s_stdout s2 = s_stdout s1).
Proof.
  intros ie f test a0 rest opts o f1 n s1 r e argv dirs Hc Ho L H E.
  unfold itk_Main in E. rewrite Main_with_unfold in E. unfold limited_itk_Main. change (set_unmatched (fst (new_itk_test ie f, n)) (s_unmatched (fst (new_itk_test ie f, n)) + 1)) with (set_unmatched (new_itk_test ie f) 1). cbn [snd].
  change (set_unmatched (new_itk_test ie f) (s_unmatched (new_itk_test ie f) + 1)) with (set_unmatched (fresh f [i_baselines ie]) 1) in E.
  unfold argv at 2 in E. rewrite (main_with_launch (i_env ie) _ f [i_baselines ie] a0 opts rest Hc) in E. unfold argv at 1. rewrite (il_launch ie f test a0 opts rest n Hc).
  fold e argv in E |- *. set (l0 := launched_in e f [i_baselines ie] opts) in *.
  pose proof (rel_start_in e f [i_baselines ie] opts o f1 n Ho) as R0. fold l0 in R0. set (s0 := set_os (set_files l0 f1) o) in *. assert (O0 : s_os s0 = o) by reflexivity.
  set (body := irun ie argv (test (a0 :: rest)) no_tolerance 0%Z) in *. set (lbody := ilrun ie argv (test (a0 :: rest)) no_tolerance 0%Z) in *.
  assert (B : exists s p x, (_ <- BeginMeasurement e ;; body) l0 = (s, x) /\ (_ <~ lBegin e ;; lbody) (l0, n) = (p, x) /\ rel o n s p /\ s_os s = o).
  { assert (K : forall m l P Q s p, @mimics o n Z P Q m l -> rel o n s p -> s_os s = o -> P s -> exists s' p' x, m s = (s', x) /\ l p = (p', x) /\ rel o n s' p' /\ s_os s' = o).
    { intros m l P Q s p M R O HP. destruct (M s p R O HP) as (R1 & E1 & O1 & _). destruct (m s) as [s' x]. destruct (l p) as [p' x']. cbn [fst snd] in *. subst x'. exists s', p', x. auto. }
    unfold mbind, lbind. destruct (input_of opts) as [inf|] eqn:Ei.
    - assert (Hin : s_in l0 = inf) by (cbn; rewrite Ei; reflexivity). pose proof (input_of_nonempty e f opts inf (proj1 Hc) Ei) as Hn.
      rewrite (lbegin_compare e l0 n inf eq_refl eq_refl Hin Hn). unfold lift. cbn [fst snd].
      pose proof (begin_compare e l0 inf eq_refl eq_refl Hin Hn) as B. change (s_files l0) with f in B. change (s_out l0) with (output_of e f opts) in B.
      change (s_path l0) with dirs in B. rewrite Ho in B. cbv zeta in B. fold s0 in B. specialize (H inf). unfold started in H. rewrite Ho in H.
      set (q := baseline_path e f1 dirs inf) in *. destruct (can_open e f1 q) eqn:Er; rewrite B; [|do 3 eexists; split; [reflexivity|split; [reflexivity|split; [exact R0|exact O0]]]].
      assert (R1 : forall v, rel o n (set_is s0 v) (set_is s0 v, n)) by (intros v; revert R0; apply (rel_field o n (fun s => set_is s v)); [intros; split; reflexivity|intros; cbn; repeat split; congruence]).
      unfold read_input. cbn [set_is s_is]. change (s_files (set_is s0 (slot e q))) with f1.
      destruct (RegMain.readable_contents e f1 q Er) as (k & Ek & [(r0 & w & b & Eb & Ec & Ef)|(r0 & w & x & Eb & Ec)]); rewrite Ek, Eb; [|do 3 eexists; split; [reflexivity|split; [reflexivity|split; [apply R1|exact O0]]]].
      rewrite Ec in H. destruct (ReadXMLInput (e_asserts e) (e_ext e) b) as [l| | | |]; try (do 3 eexists; split; [reflexivity|split; [reflexivity|split; [apply R1|exact O0]]]).
      destruct (H l eq_refl eq_refl) as [H1 H2]. eapply K; [exact (mimics_irun_guarded ie o n argv _ no_tolerance 0%Z L H1)| |exact O0|exact H2].
      generalize (R1 (Some k)). apply (rel_field o n (fun s => set_input s l)); [intros; split; reflexivity|intros; cbn; repeat split; congruence].
    - assert (Hin : s_in l0 = []) by (cbn; rewrite Ei; reflexivity).
      rewrite (begin_record e l0 eq_refl eq_refl Hin), (lbegin_record e l0 n eq_refl eq_refl Hin).
      change (s_files l0) with f. change (s_out l0) with (output_of e f opts). rewrite Ho. fold s0.
      destruct (mimics_put_stable o n quiet (header e) stable_quiet s0 (s0, n) R0 O0 (conj eq_refl Hin)) as (R1 & E1 & O1 & Q1). unfold put, modify in R1, O1, Q1. cbn [fst snd] in R1, O1, Q1.
      unfold lput in *. cbn [fst snd] in R1 |- *. eapply K; [exact (mimics_irun_quiet ie o n argv _ no_tolerance 0%Z L)|exact R1|exact O1|exact Q1]. }
  destruct B as (s & p & x & B1 & B2 & R & O). rewrite B1 in E. rewrite B2. destruct (end_to_end e o n s p x R O) as (s' & p' & X1 & X2 & R' & X3).
  assert (Y1 : s' = (s1, r)). { rewrite <- X1. rewrite <- E. destruct x; reflexivity. }
  assert (Y2 : forall T : (rst * nat) * res Z, T = p' -> exists s2, T = ((s2, n - length (written o s1)), r) /\ written o s2 = firstn n (written o s1) /\ (forall k, o <> Some k -> s_files s2 k = s_files s1 k) /\ (o <> None -> s_stdout s2 = s_stdout s1)).
  { intros T ->. rewrite Y1 in R', X3. clear X1 X2 Y1. destruct p' as [[s2 n'] r']. cbn [fst snd] in R', X3. subst r'. exists s2. destruct R' as (_ & F & C). unfold cut_output in C. unfold written. destruct o as [k|].
    - destruct C as (C0 & r0 & w & b & C1 & C2 & C3). cbn [fst snd] in C1, C2, C3. rewrite C1, C2, C3. split; [reflexivity|]. split; [reflexivity|]. split; [exact F|]. intros _. exact C0.
    - destruct C as [C0 C1]. cbn [fst snd] in C0, C1. rewrite C1. split; [reflexivity|]. split; [exact C0|]. split; [exact F|]. intros X. exfalso. apply X. reflexivity. }
  apply Y2. rewrite <- X2. destruct x; reflexivity.
Qed.
Print Assumptions C81_full_disk.

Lemma writes_leaves e args o p : forall n, iwrites_others e args n o p -> ileaves_alone e args n o p.
Proof.
  induction p as [z|x|c k IH|f nm k IH|t k IH|ext root k IH|t k IH|t k IH|z k IH|path b k IH]; intros n; cbn [iwrites_others ileaves_alone]; auto.
  - intros H. destruct (GenerateFileName (e_sc e) args n ext root) as [name| | | |]; auto.
  - intros [H1 H2]. split; [|auto]. unfold not_output in H1. destruct o as [k0|]; [right; exact H1|]. destruct (slot e path); [right; discriminate|left; reflexivity].
Qed.
(** A recording that is cut short by a full disk returns what it would return otherwise; it is noticed by the runs compared with that document, unless only the last newline is missing:
    they fail with -1 (with 1 if -1 is the expected value), make no measurement and print nothing; with assertions compiled in they may be aborted instead. *)
Theorem C81_noticed_later : forall ie f old a0 rest opts k f1 s1 z v n s n' z' ie' f' new a0' rest' opts' inf o' f2,
  let e := i_env ie in let argv := a0 :: flat opts ++ rest in let p := old (a0 :: rest) in
  let e' := i_env ie' in let argv' := a0' :: flat opts' ++ rest' in
  (* the recording run, with enough space and with little *)
  command_line e f opts rest -> input_of opts = None -> opened e f (output_of e f opts) = Some (Some k, f1) ->
  iwrites_others e argv 0 (Some k) p -> iends (e_sc e) argv 0 p = Ok v ->
  Forall storable (map (imeas ie false) (made (script (e_sc e) argv 0 p))) -> comment_safe (e_host e) -> comment_safe (e_time e) ->
  itk_Main ie old argv (new_itk_test ie f) = (s1, Ok z) -> n + 2 <= length (written (Some k) s1) ->
  limited_itk_Main ie old argv (new_itk_test ie f, n) = ((s, n'), Ok z') ->
  (* the comparing run *)
  command_line e' f' opts' rest' -> input_of opts' = Some inf -> opened e' f' (output_of e' f' opts') = Some (o', f2) ->
  contents e' f2 (baseline_path e' f2 (dirs_of opts' ++ [i_baselines ie']) inf) = Some (written (Some k) s) -> rejects_incomplete_declaration (e_ext e') ->
  z' = z /\ exists s2, (itk_Main ie' new argv' (new_itk_test ie' f') = (s2, Ok (if (-1 =? expected_of opts')%Z then 1%Z else (-1)%Z)) /\ s_files s2 = f2 /\ s_stdout s2 = []) \/
    (e_asserts e' = true /\ itk_Main ie' new argv' (new_itk_test ie' f') = (s2, Abort)).
Proof.
  intros ie f old a0 rest opts k f1 s1 z v n s n' z' ie' f' new a0' rest' opts' inf o' f2 e argv p e' argv' Hc Hi Ho Hl He Hs Hh Ht Hm Hn HL Hc' Hi' Ho' Hb Hr.
  destruct (C81_full_disk ie f old a0 rest opts (Some k) f1 n s1 (Ok z) Hc Ho Hl) as (s' & E & W & _).
  { intros i l X. rewrite Hi in X. discriminate X. }
  { exact Hm. }
  assert (Q : ((s, n'), Ok z') = ((s', n - length (written (Some k) s1)), Ok z)) by (rewrite <- HL, <- E; reflexivity).
  apply pair_equal_spec in Q as [Q1 Q2]. apply pair_equal_spec in Q1 as [-> ->]. apply Ok_inj in Q2. subst z'. split; [reflexivity|].
  refine (C80_cut_off_noticed ie f old a0 rest opts k f1 s1 z v (written (Some k) s') (skipn n (written (Some k) s1)) ie' f' new a0' rest' opts' inf o' f2
            Hc Hi Ho (writes_leaves _ _ _ _ _ Hl) He Hs Hh Ht Hm _ _ Hc' Hi' Ho' Hb Hr).
  - rewrite W. symmetry. apply firstn_skipn.
  - rewrite skipn_length. lia.
Qed.
Print Assumptions C81_noticed_later.

(** * Cases *)
(** a recording with space for 200 bytes *)
Local Notation c81_run := (itk_Main (c80_itk true) (c80_test false) c80_argv (new_itk_test (c80_itk true) (fun _ => None))).
Local Notation c81_limited n := (limited_itk_Main (c80_itk true) (c80_test false) c80_argv (new_itk_test (c80_itk true) (fun _ => None), n)).
Local Notation c81_left := (written (Some ($"b.xml")) (fst (fst (c81_limited 200)))).
Definition c81_opened : store := upd (fun _ => None) ($"b.xml") (Some (FFile true true [])).
Lemma c81_writes fails : iwrites_others (c70_env true) c80_argv 0 (Some ($"b.xml")) (c80_test fails [$"prog"]).
Proof.
  unfold c80_test, InsightImage. cbn [iwrites_others]. intros name E. apply Ok_inj in E. subst name. split; [vm_compute; discriminate|]. intros r r'. destruct fails; exact I.
Qed.
Example C81_full_disk_met := C81_full_disk (c80_itk true) (fun _ => None) (c80_test false) ($"prog") [] [($"-O", $"b.xml")] (Some ($"b.xml")) c81_opened 200 (fst c81_run) (Ok 0%Z)
  c80_record eq_refl (c81_writes false) (fun inf l X => ltac:(discriminate X)) (pair_fst c81_run (Ok 0%Z) ltac:(vm_compute; reflexivity)).
Lemma c81_limited_runs : c81_limited 200 = ((fst (fst (c81_limited 200)), 0), Ok 0%Z).
Proof.
  assert (A : snd (c81_limited 200) = Ok 0%Z) by (vm_compute; reflexivity). assert (B : snd (fst (c81_limited 200)) = 0) by (vm_compute; reflexivity).
  destruct (c81_limited 200) as [[x y] w]. cbn [fst snd] in *. subst. reflexivity.
Qed.
Example C81_noticed_later_met := C81_noticed_later (c80_itk true) (fun _ => None) (c80_test false) ($"prog") [] [($"-O", $"b.xml")] ($"b.xml") c81_opened (fst c81_run) 0%Z 0%Z 200 (fst (fst (c81_limited 200))) 0 0%Z
  (c80_itk true) (c80_file c81_left) (c80_test true) ($"prog") [] [($"-I", $"b.xml"); ($"-R", $"1")] ($"b.xml") None (c80_file c81_left)
  c80_record eq_refl eq_refl (c81_writes false) ltac:(vm_compute; reflexivity) (c80_storable false) c80_host c80_time (pair_fst c81_run (Ok 0%Z) ltac:(vm_compute; reflexivity))
  ltac:(apply Nat.leb_le; vm_compute; reflexivity) c81_limited_runs (c80_compare _) eq_refl eq_refl ltac:(vm_compute; reflexivity) c80_rejects.
(** a comparison that finds a different image, with standard output as the output: with no space the report is lost, the status and the three pictures stay *)
Local Notation c81_compare := (itk_Main ex_itk (two_images ($"same/x.mha") ($"two/x.mha")) [$"prog"; $"-I"; $"b.xml"] (new_itk_test ex_itk ex_image_files)).
Local Notation c81_silent := (limited_itk_Main ex_itk (two_images ($"same/x.mha") ($"two/x.mha")) [$"prog"; $"-I"; $"b.xml"] (new_itk_test ex_itk ex_image_files, 0)).
Lemma c81_command : command_line ex_env ex_image_files [($"-I", $"b.xml")] [].
Proof. split; [|exact I]. constructor; [|constructor]. split; [cbn; auto 6|]. split; intros E; [vm_compute; auto|discriminate E]. Qed.
Example C81_full_disk_met_compare := C81_full_disk ex_itk ex_image_files (two_images ($"same/x.mha") ($"two/x.mha")) ($"prog") [] [($"-I", $"b.xml")] None ex_image_files 0 (fst c81_compare) (Ok 1%Z)
  c81_command eq_refl (fun r r' => I) (fun inf l X Y => conj (conj I (conj (fun ext q _ _ => I) (fun r => conj I (conj (fun ext q _ _ => I) (fun r => I))))) (fun g _ => conj I (fun d p _ _ => I)))
  (pair_fst c81_compare (Ok 1%Z) ltac:(vm_compute; reflexivity)).
Example C81_case_compare :
  snd c81_compare = Ok 1%Z /\ snd c81_silent = Ok 1%Z /\ s_stdout (fst (fst c81_silent)) = [] /\ 100 < length (s_stdout (fst c81_compare)) /\
  (exists b, contents ex_env (s_files (fst (fst c81_silent))) ($"out/x.mha.diff.png") = Some b).
Proof.
  split; [vm_compute; reflexivity|]. split; [vm_compute; reflexivity|]. split; [vm_compute; reflexivity|]. split; [apply Nat.leb_le; vm_compute; reflexivity|].
  destruct (contents ex_env (s_files (fst (fst c81_silent))) ($"out/x.mha.diff.png")) eqn:E; [eauto|]. exfalso.
  assert (X : (match contents ex_env (s_files (fst (fst c81_silent))) ($"out/x.mha.diff.png") with Some _ => true | None => false end) = true) by (vm_compute; reflexivity).
  rewrite E in X. discriminate X.
Qed.
(** with an output file that takes nothing, what is printed besides stays *)
Example C81_case_file :
  let argv := [$"prog"; $"-I"; $"b.xml"; $"-O"; $"o.txt"] in
  let x := limited_itk_Main ex_itk (two_images ($"same/x.mha") ($"two/x.mha")) argv (new_itk_test ex_itk ex_image_files, 0) in
  snd x = Ok 1%Z /\ (100 <? length (s_stdout (fst (fst x)))) = true.
Proof. split; vm_compute; reflexivity. Qed.

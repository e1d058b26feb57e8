(** Which files a run of the ITK driver accesses. *)
From Coq Require Import Floats.SpecFloat.
From Verif Require Import Base Str Dec PathModel PathFacts MeasModel DiffModel VisitModel XmlModel ReadModel ReadFacts RegModel RegStart ArgFacts LimitProps ImgModel ItkModel ProcModel ProcFacts ProcNames.

(** the test may write, or measure (as an image), the file at [path]; [argv]: the command line, [n]: how many names were generated before *)
Fixpoint i_may_write (sc : bool) (argv : list str) (n : Z) (p : iprog) (path : str) : Prop :=
  match p with
  | IReturn _ | IRaise _ => False
  | ICall _ k | IImage _ _ k => exists r, i_may_write sc argv n (k r) path
  | IGenerate ext root k => exists name, GenerateFileName sc argv n ext root = Ok name /\ i_may_write sc argv (n + 1)%Z (k name) path
  | ITolerance _ k | ISay _ k | IRelativeTolerance _ k | IExpectedReturn _ k => i_may_write sc argv n k path
  | IWriteFile q _ k => path = q \/ i_may_write sc argv n k path
  end.
Fixpoint i_may_measure (sc : bool) (argv : list str) (n : Z) (p : iprog) (path : str) : Prop :=
  match p with
  | IReturn _ | IRaise _ => False
  | ICall c k => file_of c = Some path \/ exists r, i_may_measure sc argv n (k r) path
  | IImage f _ k => path = f \/ exists r, i_may_measure sc argv n (k r) path
  | IGenerate ext root k => exists name, GenerateFileName sc argv n ext root = Ok name /\ i_may_measure sc argv (n + 1)%Z (k name) path
  | ITolerance _ k | ISay _ k | IRelativeTolerance _ k | IExpectedReturn _ k | IWriteFile _ _ k => i_may_measure sc argv n k path
  end.
Fixpoint i_may_image (sc : bool) (argv : list str) (n : Z) (p : iprog) (path : str) : Prop :=
  match p with
  | IReturn _ | IRaise _ => False
  | ICall c k => exists r, i_may_image sc argv n (k r) path
  | IImage f _ k => path = f \/ exists r, i_may_image sc argv n (k r) path
  | IGenerate ext root k => exists name, GenerateFileName sc argv n ext root = Ok name /\ i_may_image sc argv (n + 1)%Z (k name) path
  | ITolerance _ k | ISay _ k | IRelativeTolerance _ k | IExpectedReturn _ k | IWriteFile _ _ k => i_may_image sc argv n k path
  end.
(** the images written for a difference: the file is named after the test image and lies in the output directory *)
Definition difference_files : list str := [$".diff.png"; $".base.png"; $".test.png"].
Definition itk_writes (ie : ienv) (test : list str -> iprog) (argv args : list str) (path : str) : Prop :=
  i_may_write (e_sc (i_env ie)) argv 0 (test args) path \/
  (exists v, gives (tl argv) ($"-I") v) /\
  exists image ext, i_may_image (e_sc (i_env ie)) argv 0 (test args) image /\ In ext difference_files /\ Append (i_output ie) (Tail image ++ ext) = Ok path.
Definition itk_measures (ie : ienv) (test : list str -> iprog) (argv args : list str) (path : str) : Prop := i_may_measure (e_sc (i_env ie)) argv 0 (test args) path.

Section ItkNames.
Variables (ie : ienv) (dirs : list str) (mw mm : list str -> str -> Prop) (a0 : str) (cmd : list str) (f0 : store).
Local Notation e := (i_env ie).
Local Notation reads := (reads e dirs mm a0 cmd f0).
Local Notation writes := (writes e mw a0 cmd).
Local Notation K := (K e dirs mw mm a0 cmd f0).
Local Notation J := (J e dirs mw a0 cmd f0).
Local Notation Jf := (Jf e dirs mw a0 cmd f0).
Local Notation tri := (tri e dirs mw mm a0 cmd f0).
Local Notation keeps := (keeps e dirs mw mm a0 cmd f0).
Local Notation loadable := (loadable e dirs mm a0 cmd f0).
Local Notation has_baseline := (has_baseline cmd).

Lemma keeps_pure {A} (m : M A) : (forall s, J s -> J (fst (m s))) -> keeps (pure m).
Proof. intros H. apply tri_pure. intros s f Hs. specialize (H s Hs). destruct (m s) as [s' [a| | | |]]; exact H. Qed.
Definition keep {A} (m : M A) : Prop := forall s, J s -> J (fst (m s)).
Lemma keep_bind {A B} (m : M A) (k : A -> M B) : keep m -> (forall a, keep (k a)) -> keep (mbind m k).
Proof. intros Hm Hk s Hs. specialize (Hm s Hs). unfold mbind. destruct (m s) as [s' [a| | | |]]; try exact Hm. exact (Hk a s' Hm). Qed.
Lemma keep_lift {A} (r : res A) : keep (mlift r).
Proof. intros s Hs. exact Hs. Qed.
Lemma keep_say t : keep (say t).
Proof. intros s Hs. destruct Hs. constructor; assumption. Qed.
Lemma keep_say_meas m : keep (say_meas m).
Proof. apply keep_bind; [apply keep_lift|]. intros p. apply keep_say. Qed.
Lemma keep_report b x y : keep (report b x y).
Proof. destruct b; [intros s Hs; exact Hs|]. apply keep_bind; [apply keep_say_meas|]. intros _. apply keep_say_meas. Qed.
Lemma keeps_look path : (forall k, slot e path = Some k -> reads k) -> keeps (look e path).
Proof. intros H. apply tri_look. intros s f k _ Ek. exact (H k Ek). Qed.
Lemma keeps_image name : (forall k, slot e name = Some k -> reads k) -> keeps (p_read_image ie name).
Proof. intros H. apply keeps_bind; [apply keeps_look, H|]. intros o. apply keeps_ret. Qed.
Lemma keeps_info name : (forall k, slot e name = Some k -> reads k) -> keeps (p_read_info ie name).
Proof. intros H. apply keeps_bind; [apply keeps_look, H|]. intros o. apply keeps_ret. Qed.
(** two measurements of image files: their images may be read and the difference images written *)
Definition pngs (g : mf) : Prop := forall ext path k, In ext difference_files -> Append (i_output ie) (Tail (ffile g) ++ ext) = Ok path -> slot e path = Some k -> writes k.
Definition images (b m : meas) : Prop := forall gb gm, b = MF gb -> m = MF gm -> eqs (ftype gm) itk_type = true -> loadable (MF gb) /\ loadable (MF gm) /\ pngs gm.
Lemma Compare_images c fs b m b' m' v : images b m -> Compare (e_sc e) fs (e_io e) c b m = (b', m', v) -> images b' m'.
Proof.
  intros H E. destruct b as [db|gb], m as [dm|gm].
  - intros x y Hx. assert (Q : exists d, b' = MD d); [|destruct Q as [d Q]; congruence]. revert E. cbn [Compare numeric_meas].
    assert (I : forall r, IsEqual (e_sc e) fs (MD db) (MD dm) = r -> exists d, fst (fst r) = MD d).
    { intros r <-. cbn [IsEqual]. destruct (data_IsEqual (e_sc e) db dm) as [[a0' b0'] r0]. exists a0'. reflexivity. }
    unfold Compare. destruct (numeric_meas (MD dm)).
    + destruct (numeric_meas (MD db)).
      * destruct (negb _); intros E; [apply pair_equal_spec in E; destruct E as [E _]; apply pair_equal_spec in E; destruct E as [<- _]; eauto|]. apply I in E. exact E.
      * intros E; apply pair_equal_spec in E; destruct E as [E _]; apply pair_equal_spec in E; destruct E as [<- _]; eauto.
    + intros E. apply I in E. exact E.
  - cbn [Compare numeric_meas IsEqual] in E. destruct (file_IsEqual_data (e_sc e) fs gm db) as [d r]. apply pair_equal_spec in E. destruct E as [E _]. apply pair_equal_spec in E. destruct E as [<- _]. intros x y Hx. discriminate Hx.
  - assert (Q : exists d, m' = MD d); [|destruct Q as [d Q]; intros x y Hx Hy; congruence]. revert E. unfold Compare. destruct (numeric_meas (MD dm)).
    + cbn [numeric_meas]. intros E; apply pair_equal_spec in E; destruct E as [E _]; apply pair_equal_spec in E; destruct E as [_ <-]; eauto.
    + cbn [IsEqual]. destruct (file_IsEqual_data (e_sc e) fs gb dm) as [d r]. intros E; apply pair_equal_spec in E; destruct E as [E _]; apply pair_equal_spec in E; destruct E as [_ <-]; eauto.
  - cbn [Compare numeric_meas IsEqual] in E. apply pair_equal_spec in E. destruct E as [E _]. apply pair_equal_spec in E. destruct E as [<- <-]. exact H.
Qed.
Lemma tri_itk_text c b m : loadable b -> loadable m -> images b m -> tri Jf (p_itk_text ie c b m) (fun x s _ => J s /\ images (fst (fst x)) (snd (fst x))) Jf.
Proof.
  intros Lb Lm H. apply tri_bind with (Q := fun _ => Jf); [apply keeps_load, Lb|]. intros sb. apply tri_bind with (Q := fun _ => Jf); [apply keeps_load, Lm|]. intros st.
  destruct (Compare (e_sc e) (of_two b m sb st) (e_io e) c b m) as [[b' m'] v] eqn:E. apply tri_bind with (Q := fun _ => Jf); [apply keeps_lift|]. intros same. apply tri_ret. intros s f Hs. split; [exact Hs|]. exact (Compare_images _ _ _ _ _ _ _ H E).
Qed.
Lemma tri_itk_Compare tol c b m : loadable b -> loadable m -> images b m -> tri Jf (p_itk_Compare ie tol c b m) (fun x s _ => J s /\ images (fst (fst x)) (snd (fst x))) Jf.
Proof.
  intros Lb Lm H. destruct b as [db|gb]; [apply tri_itk_text; assumption|]. destruct m as [dm|gm]; [apply tri_itk_text; assumption|]. unfold p_itk_Compare.
  destruct (eqs (ftype gm) itk_type) eqn:Et; [|apply tri_itk_text; assumption].
  apply tri_bind with (Q := fun _ => Jf); [apply keeps_pure, keep_say|]. intros _. apply tri_bind with (Q := fun _ => Jf); [apply keeps_image; exact Lb|]. intros ib.
  apply tri_bind with (Q := fun _ => Jf); [destruct ib; [apply keeps_image; exact Lm|apply keeps_ret]|]. intros it. apply tri_bind with (Q := fun _ => Jf); [apply keeps_lift|]. intros v. apply tri_ret. intros s f Hs. split; [exact Hs|exact H].
Qed.
Lemma keeps_thing im file name : (forall k, slot e file = Some k -> writes k) -> keeps (p_ImageThing ie im file name).
Proof.
  intros W. apply keeps_bind; [apply keeps_pure, keep_say|]. intros _. apply keeps_bind; [destruct (i_png ie im); [apply keeps_write, W|apply keeps_ret]|]. intros _. apply keeps_pure, keep_say_meas.
Qed.
Lemma keeps_difference_image tol b m : loadable (MF b) -> loadable (MF m) -> pngs m -> keeps (p_DifferenceTestImage ie tol b m).
Proof.
  intros Lb Lm W. apply keeps_bind; [apply keeps_info; exact Lm|]. intros t. apply keeps_bind; [apply keeps_info; exact Lb|]. intros b1. destruct t as [t|]; [|apply keeps_lift]. destruct b1 as [b1|]; [|apply keeps_lift]. cbv zeta.
  destruct (negb _); [apply keeps_pure, keep_report|]. do 5 (apply keeps_bind; [apply keeps_pure, keep_report|intros _]).
  apply keeps_bind; [apply keeps_image; exact Lm|]. intros ti. apply keeps_bind; [apply keeps_image; exact Lb|]. intros bi. destruct ti as [ti|]; [|apply keeps_lift]. destruct bi as [bi|]; [|apply keeps_lift].
  apply keeps_bind; [apply keeps_pure, keep_say_meas|]. intros _.
  assert (T : forall ext im (B : Type) (k : P B), In ext difference_files -> keeps k -> keeps (p1 <+ plift (Append (i_output ie) (Tail (ffile m) ++ ext)) ;; _ <+ p_ImageThing ie im p1 (fname m) ;; k)).
  { intros ext im B k Ie Kk. destruct (Append (i_output ie) (Tail (ffile m) ++ ext)) as [p1| | | |] eqn:Ea; try (intros s f Hs; split; [constructor|exact Hs]).
    intros s f Hs. revert s f Hs. change (keeps (_ <+ p_ImageThing ie im p1 (fname m) ;; k)). apply keeps_bind; [apply keeps_thing; intros k' Ek; exact (W ext p1 k' Ie Ea Ek)|]. intros _. exact Kk. }
  apply T; [left; reflexivity|]. apply T; [right; left; reflexivity|].
  destruct (Append (i_output ie) (Tail (ffile m) ++ $".test.png")) as [p1| | | |] eqn:Ea; try (intros s f Hs; split; [constructor|exact Hs]).
  change (keeps (p_ImageThing ie (g_image ti) p1 (fname m))). apply keeps_thing. intros k' Ek. refine (W _ p1 k' _ Ea Ek). right; right; left; reflexivity.
Qed.
Lemma keeps_itk_Difference tol m b : images b m -> keeps (p_itk_Difference ie tol m b).
Proof.
  intros H. destruct b as [d|b]; [apply keeps_Difference|]. destruct m as [d|t]; [apply keeps_Difference|]. unfold p_itk_Difference. destruct (eqs (ftype t) itk_type) eqn:Et; [|apply keeps_Difference].
  destruct (H b t eq_refl eq_refl Et) as (Lb & Lm & W). apply keeps_bind; [apply keeps_modify; intros s Hs; destruct Hs; constructor; assumption|]. intros _. apply keeps_difference_image; assumption.
Qed.
Lemma keeps_itk_CompareMeasurement tol m t : loadable m -> (forall g, m = MF g -> eqs (ftype g) itk_type = true -> pngs g) -> keeps (p_itk_CompareMeasurement ie tol m t).
Proof.
  intros Lm W. apply tri_bind with (Q := fun inp s _ => J s /\ s_input s = inp); [apply tri_pure; intros s f H; split; [exact H|reflexivity]|].
  intros [|b rest]; [eapply tri_pre; [|apply keeps_bind; [apply keeps_Unmatched|intros _; apply keeps_ret]]; intros s f H; exact (proj1 H)|].
  apply tri_bind with (Q := fun _ s _ => J s /\ forall g, b = MF g -> records e dirs cmd f0 g).
  - apply tri_pure. intros s f [H Ei]. split.
    + destruct H. constructor; try assumption. cbn. intros g Hg. apply j_input. rewrite Ei. right. exact Hg.
    + intros g ->. apply (j_input _ _ _ _ _ _ s H). rewrite Ei. left. reflexivity.
  - intros _. destruct (eqs (mname b) (mname m) && eqs (mtype b) (mtype m)).
    + intros s f [H Hb]. revert s f H. apply tri_bind with (Q := fun b' s _ => J s /\ loadable b') (Pre := Jf); [apply tri_locate; exact Hb|].
      intros b' s f [H Lb']. revert s f H. apply keeps_bind; [apply keeps_gets|]. intros c.
      eapply tri_bind; [apply tri_itk_Compare; [exact Lb'|exact Lm|]|].
      { intros gb gm -> -> Et. split; [exact Lb'|]. split; [exact Lm|]. exact (W gm eq_refl Et). }
      intros [[b2 m2] same] s f [H Im]. cbn [fst snd] in Im. revert s f H. destruct same; [apply keeps_ret|]. apply keeps_bind; [apply keeps_itk_Difference; exact Im|]. intros _. apply keeps_ret.
    + eapply tri_pre; [|apply keeps_bind; [apply keeps_Unmatched|intros _; apply keeps_ret]]. intros s f H. exact (proj1 H).
Qed.
Lemma keeps_itk_Measure tol c : (forall path, file_of c = Some path -> forall k, has_baseline -> slot e path = Some k -> reads k) -> keeps (p_itk_Measure ie tol c).
Proof.
  intros Hc. eapply tri_bind; [apply tri_mode|]. intros [|].
  - intros s f [H B]. specialize (B eq_refl). revert s f H. apply keeps_itk_CompareMeasurement.
    + destruct c; cbn; try exact I; intros k Ek; (eapply Hc; [reflexivity|exact B|exact Ek]).
    + intros g Eg Et. exfalso. destruct c; cbn [meas_of file_meas] in Eg; try discriminate Eg; injection Eg as <-; cbn [ftype] in Et; vm_compute in Et; discriminate Et.
  - eapply tri_pre; [|apply keeps_bind; [apply keeps_put_meas|intros _; apply keeps_ret]]. intros s f H. exact (proj1 H).
Qed.
Lemma keeps_InsightFileImage tol file n : (forall k, has_baseline -> slot e file = Some k -> reads k) ->
  (forall ext path k, has_baseline -> In ext difference_files -> Append (i_output ie) (Tail file ++ ext) = Ok path -> slot e path = Some k -> writes k) -> keeps (p_InsightFileImage ie tol file n).
Proof.
  intros Hr Hw. eapply tri_bind; [apply tri_mode|]. intros [|].
  - intros s f [H B]. specialize (B eq_refl). revert s f H. apply keeps_itk_CompareMeasurement.
    + intros k Ek. exact (Hr k B Ek).
    + intros g Eg _ ext path k Ie Ea Ek. injection Eg as <-. exact (Hw ext path k B Ie Ea Ek).
  - eapply tri_pre; [|apply keeps_bind; [apply keeps_put_meas|intros _; apply keeps_ret]]. intros s f H. exact (proj1 H).
Qed.
Lemma keeps_irun argv p : forall n,
  (forall path k, i_may_write (e_sc e) argv n p path -> slot e path = Some k -> writes k) ->
  (forall image ext path k, i_may_image (e_sc e) argv n p image -> has_baseline -> In ext difference_files -> Append (i_output ie) (Tail image ++ ext) = Ok path -> slot e path = Some k -> writes k) ->
  (forall path k, i_may_measure (e_sc e) argv n p path -> has_baseline -> slot e path = Some k -> reads k) -> forall tol, keeps (p_irun ie argv p tol n).
Proof.
  induction p as [z|x|c k IH|f nm k IH|t k IH|ext root k IH|t k IH|t k IH|z k IH|path b k IH]; intros n W I M tol; cbn [p_irun].
  - apply keeps_ret.
  - apply keeps_lift.
  - apply keeps_bind; [apply keeps_itk_Measure; intros path Hp k' B Ek; apply (M path k' (or_introl Hp) B Ek)|]. intros r. apply IH.
    + intros path k' H; apply W; exists r; exact H.
    + intros image ext path k' H; apply I; exists r; exact H.
    + intros path k' H; apply M; right; exists r; exact H.
  - apply keeps_bind; [apply keeps_InsightFileImage; [intros k' B Ek; apply (M f k' (or_introl eq_refl) B Ek)|intros ext path k' B Ie Ea Ek; exact (I f ext path k' (or_introl eq_refl) B Ie Ea Ek)]|]. intros r. apply IH.
    + intros path k' H; apply W; exists r; exact H.
    + intros image ext path k' H; apply I; right; exists r; exact H.
    + intros path k' H; apply M; right; exists r; exact H.
  - apply IH; assumption.
  - destruct (GenerateFileName (e_sc e) argv n ext root) as [name| | | |] eqn:Eg; try (intros s f0' Hs; split; [constructor|exact Hs]).
    change (keeps (p_irun ie argv (k name) tol (n + 1))). apply IH.
    + intros path k' H; apply W; exists name; auto.
    + intros image ext' path k' H; apply I; exists name; auto.
    + intros path k' H; apply M; exists name; auto.
  - apply keeps_bind; [apply keeps_pure, keep_say|]. intros _. apply IH; assumption.
  - apply keeps_bind; [apply keeps_modify; intros s H; destruct H; constructor; assumption|]. intros _. apply IH; assumption.
  - apply keeps_bind; [apply keeps_modify; intros s H; destruct H; constructor; assumption|]. intros _. apply IH; assumption.
  - apply keeps_bind; [apply keeps_write; intros k' Ek; exact (W path k' (or_introl eq_refl) Ek)|]. intros _. apply IH; [intros path' k' H; apply W; right; exact H|exact I|exact M].
Qed.
End ItkNames.
(** the drivers *)
Lemma plain_files e test a0 cmd f s : J e [] (fun args => may_write (test args)) a0 cmd f s ->
  Forall (K e [] (fun args => may_write (test args)) (fun args => may_measure (test args)) a0 cmd f) (touches (process e test (a0 :: cmd) s) f).
Proof.
  intros H. refine (process_files _ _ _ _ _ _ _ (fun args => p_run e (test args)) _ s H). intros rest R. apply keeps_run.
  - intros path k Hw Ek. exact (own_writes _ _ _ _ rest path k R Hw Ek).
  - intros path k Hm B Ek. exact (own_reads _ _ _ _ _ _ rest path k R Hm B Ek).
Qed.
Lemma itk_files ie test a0 cmd f s : J (i_env ie) [i_baselines ie] (itk_writes ie test (a0 :: cmd)) a0 cmd f s ->
  Forall (K (i_env ie) [i_baselines ie] (itk_writes ie test (a0 :: cmd)) (itk_measures ie test (a0 :: cmd)) a0 cmd f) (touches (itk_process ie test (a0 :: cmd) s) f).
Proof.
  intros H. refine (process_files _ _ _ _ _ _ _ (fun args => p_irun ie (a0 :: cmd) (test args) no_tolerance 0%Z) _ s H). intros rest R. apply keeps_irun.
  - intros path k Hw Ek. refine (own_writes _ _ _ _ rest path k R _ Ek). left. exact Hw.
  - intros image ext path k Hi (v & B) Ie Ea Ek. refine (own_writes _ _ _ _ rest path k R _ Ek). right. split; [exists v; exact B|]. exists image, ext. auto.
  - intros path k Hm B Ek. exact (own_reads _ _ _ _ _ _ rest path k R Hm B Ek).
Qed.

(** Without its messages the driver of ItkErrModel is the one of ItkModel. *)
From Coq Require Import Floats.SpecFloat.
From Verif Require Import Base Str Dec PathModel MeasModel DiffModel VisitModel XmlModel ReadModel RegModel RegFacts RegStart ImgModel ItkModel ItkSim ErrModel ErrFacts ErrRun ItkErrModel.

Lemma un_written l : Forall (fun m => exists t, m = Written t) l -> unexceptional l.
Proof. intros H w x I. rewrite Forall_forall in H. destruct (H _ I) as [t E]. discriminate E. Qed.
Lemma un_image r ie f b m : unexceptional (image_says r ie f b m).
Proof. unfold image_says, baseline_unreadable, test_unreadable. un. Qed.
Lemma un_rescale r im p : unexceptional (rescale_says r im p).
Proof. unfold rescale_says, with_text. un. Qed.
Lemma un_write r ie f im p : unexceptional (write_says r ie f im p).
Proof. unfold write_says, with_text. un. Qed.
Lemma follows_itk_Compare r ie tol c b m : follows (x_itk_Compare r ie tol c b m) (itk_Compare ie tol c b m).
Proof.
  assert (B : follows (_ <! say (fun s => compare_says (r_dir r) (e_sc (i_env ie)) (sources (i_env ie) (s_files s)) c b m) ;;
      out <! quiet (gets (fun s => Compare (e_sc (i_env ie)) (sources (i_env ie) (s_files s)) (e_io (i_env ie)) c b m)) ;;
      let '(b, m, v) := out in same <! quiet (mlift v) ;; xret (b, m, same))
     (out <- gets (fun s => Compare (e_sc (i_env ie)) (sources (i_env ie) (s_files s)) (e_io (i_env ie)) c b m) ;;
        let '(b, m, v) := out in same <- mlift v ;; mret (b, m, same))).
  { apply follows_say; [intros s; apply un_compare|]. intros _. apply follows_bind; [apply follows_quiet|]. intros [[b1 m1] v]. fol. }
  unfold x_itk_Compare, itk_Compare. destruct b as [d|g]; [exact B|]. destruct m as [d|h]; [exact B|]. destruct (eqs (ftype h) itk_type); [|exact B].
  apply follows_bind; [apply follows_quiet|]. intros _. apply follows_say; [intros s; apply un_image|]. intros _. fol.
Qed.
Lemma follows_ImageThing r ie im p n : follows (x_ImageThing r ie im p n) (ImageThing ie im p n).
Proof.
  unfold x_ImageThing, ImageThing. apply follows_bind; [apply follows_quiet|]. intros _. apply follows_say; [intros s; apply un_rescale|]. intros _.
  apply follows_say; [intros s; apply un_write|]. intros _. fol.
Qed.
Lemma follows_DifferenceTestImage r ie tol b m : follows (x_DifferenceTestImage r ie tol b m) (DifferenceTestImage ie tol b m).
Proof.
  unfold x_DifferenceTestImage, DifferenceTestImage. apply follows_bind; [apply follows_quiet|]. intros [ht|]; apply follows_bind; try apply follows_quiet; intros [hb|]; try apply follows_quiet.
  cbv zeta. destruct (negb _); [apply follows_quiet|]. do 5 (apply follows_bind; [apply follows_quiet|]; intros _).
  apply follows_bind; [apply follows_quiet|]. intros [ti|]; apply follows_bind; try apply follows_quiet; intros [bi|]; try apply follows_quiet.
  apply follows_bind; [apply follows_quiet|]; intros _.
  apply follows_bind; [apply follows_quiet|]; intros p1. apply follows_bind; [apply follows_ImageThing|]; intros _.
  apply follows_bind; [apply follows_quiet|]; intros p2. apply follows_bind; [apply follows_ImageThing|]; intros _.
  apply follows_bind; [apply follows_quiet|]; intros p3. apply follows_ImageThing.
Qed.
Lemma follows_itk_Difference r ie tol m b : follows (x_itk_Difference r ie tol m b) (itk_Difference ie tol m b).
Proof.
  unfold x_itk_Difference, itk_Difference. destruct b as [d|g]; [apply follows_quiet|]. destruct m as [d|h]; [apply follows_quiet|]. destruct (eqs (ftype h) itk_type); [|apply follows_quiet].
  apply follows_bind; [apply follows_quiet|]; intros _. apply follows_DifferenceTestImage.
Qed.
Lemma follows_itk_CompareMeasurement r ie tol m t : follows (x_itk_CompareMeasurement r ie tol m t) (itk_CompareMeasurement ie tol m t).
Proof.
  apply follows_bind; [apply follows_quiet|]. intros [|b rest]; [fol|]. apply follows_bind; [apply follows_quiet|]. intros ?. destruct (_ && _); [|fol].
  apply follows_bind; [apply follows_quiet|]. intros b'. apply follows_bind; [apply follows_quiet|]. intros c. apply follows_bind; [apply follows_itk_Compare|]. intros [[b1 m1] [|]]; [fol|].
  apply follows_bind; [apply follows_itk_Difference|]. intros _. fol.
Qed.
Lemma follows_itk_Measure r ie tol c : follows (x_itk_Measure r ie tol c) (itk_Measure ie tol c).
Proof. apply follows_bind; [apply follows_quiet|]. intros [|]; [apply follows_itk_CompareMeasurement|fol]. Qed.
Lemma follows_image r ie tol f n : follows (x_MeasurementInsightFileImage r ie tol f n) (MeasurementInsightFileImage ie tol f n).
Proof. apply follows_bind; [apply follows_quiet|]. intros [|]; [apply follows_itk_CompareMeasurement|fol]. Qed.
Lemma follows_irun r ie args p : forall tol n, follows (x_irun r ie args p tol n) (irun ie args p tol n).
Proof.
  induction p as [z|x|c k IH|f nm k IH|t k IH|ext root k IH|t k IH|t k IH|z k IH|path b k IH]; intros tol n; cbn [x_irun irun];
    try (apply follows_bind; [apply follows_quiet|intros ?; apply IH]); try apply IH.
  - apply follows_ret.
  - apply follows_quiet.
  - apply follows_bind; [apply follows_itk_Measure|intros z; apply IH].
  - apply follows_bind; [apply follows_image|intros z; apply IH].
Qed.
Lemma follows_body_with e (xb : list str -> X Z) (b : list str -> M Z) argv : (forall args, follows (xb args) (b args)) -> follows (x_body_with e xb argv) (main_body_with e b argv).
Proof. intros H. apply follows_bind; [apply follows_Parse|]. intros [argc argv']. apply follows_bind; [apply follows_Begin|]. intros _. apply H. Qed.
Lemma follows_Main_with e (xb : list str -> X Z) (b : list str -> M Z) argv x : (forall args, follows (xb args) (b args)) ->
  Main_with e b argv (x_s x) = (x_s (fst (x_Main_with e xb argv x)), snd (x_Main_with e xb argv x)).
Proof.
  intros H. unfold Main_with, x_Main_with. cbv zeta. set (x1 := Xst (set_unmatched (x_s x) (s_unmatched (x_s x) + 1)) (x_err x) None). change (set_unmatched (x_s x) (s_unmatched (x_s x) + 1)) with (x_s x1).
  rewrite (fo_base _ _ (follows_body_with e xb b argv H) x1). destruct (x_body_with e xb argv x1) as [x2 r]. cbn [fst snd]. destruct r as [ret| | | |]; try reflexivity.
  - rewrite (fo_base _ _ (follows_quiet (EndMeasurement e)) x2). destruct (quiet (EndMeasurement e) x2) as [x3 r]. cbn [fst snd]. destruct r as [u| | | |]; try reflexivity.
    + cbn [x_s]. destruct (negb _); reflexivity.
    + unfold ErrModel.report. cbn [x_s]. destruct (negb _); reflexivity.
  - unfold ErrModel.report. cbn [x_s]. destruct (negb _); reflexivity.
Qed.
Lemma x_Main_with_says e body argv x : let r := x_body_with e body argv (Xst (set_unmatched (x_s x) (s_unmatched (x_s x) + 1)) (x_err x) None) in
  x_err (fst (x_Main_with e body argv x)) = x_err (fst r) ++ match snd r with Throw i => [Caught (x_what (fst r)) i] | _ => [] end.
Proof.
  cbv zeta. unfold x_Main_with. destruct (x_body_with e body argv _) as [x1 [ret|i| | |]]; cbn [fst snd]; rewrite ?app_nil_r; try reflexivity.
  - destruct (end_calm e (x_s x1)) as [s' E]. unfold quiet. rewrite E. cbv iota beta. cbn [x_s x_err]. destruct (negb _); reflexivity.
  - cbn [ErrModel.report x_s]. destruct (negb _); reflexivity.
Qed.

(** * The tool *)
Lemma follows_image_loop r ie args0 args : forall tol tol0 n c, follows (x_image_loop r ie args tol n) (irun ie args0 (image_loop ie args tol n) tol0 c).
Proof.
  assert (F : forall m tol0 c, unexceptional [m] -> follows (_ <! say (fun _ => [m]) ;; xret 1%Z) (irun ie args0 (IReturn 1%Z) tol0 c)).
  { intros m tol0 c U. apply follows_say; [intros _; exact U|]. intros _. apply follows_ret. }
  assert (W : forall t, unexceptional [Written t]) by (intros t; apply says_one_un; discriminate).
  assert (IM : forall a tol n tol0 c rest, (forall tol tol0 n c, follows (x_image_loop r ie rest tol n) (irun ie args0 (image_loop ie rest tol n) tol0 c)) ->
     follows (_ <! x_MeasurementInsightFileImage r ie tol a ($"ImageFile" ++ print_int n) ;; x_image_loop r ie rest tol (n + 1)%Z)
       (irun ie args0 (ITolerance tol (IImage a ($"ImageFile" ++ print_int n) (fun _ => image_loop ie rest tol (n + 1)%Z))) tol0 c)).
  { intros a tol n tol0 c rest H. cbn [irun]. apply follows_bind; [apply follows_image|]. intros _. apply H. }
  remember (length args) as len eqn:L. revert args L. induction len as [len IH] using lt_wf_ind. intros args L tol tol0 n c.
  destruct args as [|a rest]; [apply follows_ret|]. cbn [length] in L.
  assert (R : forall tol tol0 n c, follows (x_image_loop r ie rest tol n) (irun ie args0 (image_loop ie rest tol n) tol0 c)).
  { intros. apply (IH (length rest)); [lia|reflexivity]. }
  assert (R2 : forall v rest', rest = v :: rest' -> forall tol tol0 n c, follows (x_image_loop r ie rest' tol n) (irun ie args0 (image_loop ie rest' tol n) tol0 c)).
  { intros v rest' -> **. apply (IH (length rest')); [cbn in L; lia|reflexivity]. }
  cbn [x_image_loop image_loop]. destruct a as [|ch a]; [apply IM, R|].
  destruct (eqc_spec ch "-") as [-> | N].
  2:{ assert (G : forall (A : Type) (u v : A), match ch with "-"%char => u | _ => v end = v) by (intros A u v; destruct ch as [[|] [|] [|] [|] [|] [|] [|] [|]]; try reflexivity; contradiction N; reflexivity).
      destruct ch as [[|] [|] [|] [|] [|] [|] [|] [|]]; try apply IM, R. contradiction N; reflexivity. }
  destruct (eqs _ ($"--intensityTolerance")).
  { destruct rest as [|v rest']; [apply F, W|]. destruct (i_double ie v); [apply (R2 v rest' eq_refl)|apply F, W]. }
  destruct (eqs _ ($"--numberOfPixelTolerance")).
  { destruct rest as [|v rest']; [apply F, W|]. destruct (scan_uint v); [apply (R2 v rest' eq_refl)|apply F, W]. }
  destruct (eqs _ ($"--radiusTolerance")).
  { destruct rest as [|v rest']; [apply F, W|]. destruct (scan_uint v); [apply (R2 v rest' eq_refl)|apply F, W]. }
  apply F, W.
Qed.
Lemma follows_tool r ie args0 args : follows (x_itktfImageCompare r ie args) (irun ie args0 (itktfImageCompare ie args) no_tolerance 0%Z).
Proof.
  unfold x_itktfImageCompare, itktfImageCompare. apply follows_say; [|intros _; apply follows_image_loop]. intros _. destruct args as [|a0 [|? ?]]; try apply unexceptional_nil. apply says_one_un. discriminate.
Qed.

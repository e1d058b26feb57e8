(** The process model of the ITK driver, run alone, is the driver of ItkModel. *)
From Coq Require Import Floats.SpecFloat.
From Verif Require Import Base Str Dec PathModel PathFacts MeasModel DiffModel VisitModel XmlModel ReadModel RegModel RegStart LimitProps ImgModel ItkModel ProcModel ProcFacts.

Lemma fileless_bind {A B} (m : M A) (k : A -> M B) : fileless m -> (forall a, fileless (k a)) -> fileless (mbind m k).
Proof.
  intros Hm Hk s f. destruct (Hm s f) as [E F]. unfold mbind. rewrite E. destruct (m s) as [s' r]. cbn [fst snd] in *. destruct r as [a| | | |]; cbn [fst snd]; try (split; [reflexivity|exact F]).
  destruct (Hk a s' f) as [E' F']. split; [exact E'|congruence].
Qed.
Lemma fileless_ret {A} (a : A) : fileless (mret a).
Proof. intros s f. split; reflexivity. Qed.
Lemma fileless_lift {A} (r : res A) : fileless (mlift r).
Proof. intros s f. split; reflexivity. Qed.
Lemma fileless_say t : fileless (say t).
Proof. apply fileless_modify; reflexivity. Qed.
Lemma fileless_say_meas m : fileless (say_meas m).
Proof. apply fileless_bind; [apply fileless_lift|]. intros p. apply fileless_say. Qed.
Lemma fileless_report b x y : fileless (report b x y).
Proof. destruct b; [apply fileless_ret|]. apply fileless_bind; [apply fileless_say_meas|]. intros _. apply fileless_say_meas. Qed.
Lemma readable_contents e f path : readable (node_at e f path) = contents e f path.
Proof. unfold contents, readable. destruct (node_at e f path) as [[[|] w b|]|]; reflexivity. Qed.
Lemma image_alone ie name s f : alone (p_read_image ie name s) f = (f, (s, Ok (read_image ie f name))).
Proof. unfold p_read_image, pbind. rewrite alone_then, look_alone. cbn [fst snd pret alone]. rewrite readable_contents. reflexivity. Qed.
Lemma info_alone ie name s f : alone (p_read_info ie name s) f = (f, (s, Ok (read_info ie f name))).
Proof. unfold p_read_info, pbind. rewrite alone_then, look_alone. cbn [fst snd pret alone]. rewrite readable_contents. reflexivity. Qed.
Lemma adequate_image ie name : adequate (p_read_image ie name) (gets (fun s => read_image ie (s_files s) name)).
Proof. apply (adequate_ext _ (asks (fun s => Ok (read_image ie (s_files s) name)))); [reflexivity|]. apply adequate_asks. intros s f. apply image_alone. Qed.
Lemma adequate_info ie name : adequate (p_read_info ie name) (gets (fun s => read_info ie (s_files s) name)).
Proof. apply (adequate_ext _ (asks (fun s => Ok (read_info ie (s_files s) name)))); [reflexivity|]. apply adequate_asks. intros s f. apply info_alone. Qed.
Lemma verdict_images ie f tol b t : image_verdict (i_diff ie) (read_image ie f) tol b t =
  itk_verdict ie tol (read_image ie f (ffile b)) (match read_image ie f (ffile b) with Some _ => read_image ie f (ffile t) | None => None end).
Proof. unfold itk_verdict, image_verdict, RegressionTestImage. cbn [ffile]. destruct (read_image ie f (ffile b)); reflexivity. Qed.
Lemma adequate_itk_text ie c b m : adequate (p_itk_text ie c b m)
  (out <- gets (fun s => Compare (e_sc (i_env ie)) (sources (i_env ie) (s_files s)) (e_io (i_env ie)) c b m) ;; let '(baseline, m, v) := out in same <- mlift v ;; mret (baseline, m, same)).
Proof.
  intros s f. unfold p_itk_text, pbind. rewrite alone_then, load_alone. cbn [fst snd]. rewrite alone_then, load_alone. cbn [fst snd]. unfold mbind, gets. change (s_files (set_files s f)) with f.
  match goal with |- context [Compare _ (of_two b m ?sb ?st)] => assert (E : Compare (e_sc (i_env ie)) (of_two b m sb st) (e_io (i_env ie)) c b m = Compare (e_sc (i_env ie)) (sources (i_env ie) f) (e_io (i_env ie)) c b m) end.
  { apply Compare_ext. intros g Hg. unfold of_two. destruct Hg as [->| ->].
    - rewrite eqs_refl. reflexivity.
    - rewrite eqs_refl. destruct b as [d|h]; [reflexivity|]. destruct (eqs_spec (cstr (ffile g)) (cstr (ffile h))) as [E|E]; [rewrite E|]; reflexivity. }
  rewrite E. clear E. destruct (Compare (e_sc (i_env ie)) (sources (i_env ie) f) (e_io (i_env ie)) c b m) as [[b2 m2] v].
  destruct v; cbn [plift pthen alone pret mret mlift fst snd]; rewrite files_back; reflexivity.
Qed.
Lemma adequate_itk_Compare ie tol c b m : adequate (p_itk_Compare ie tol c b m) (itk_Compare ie tol c b m).
Proof.
  destruct b as [d|b]; [apply adequate_itk_text|]. destruct m as [d|t]; [apply adequate_itk_text|]. unfold p_itk_Compare, itk_Compare. destruct (eqs (ftype t) itk_type); [|apply adequate_itk_text].
  apply adequate_bind; [apply adequate_pure, fileless_say|]. intros _ s f. unfold pbind. rewrite alone_then, image_alone. cbn [fst snd]. unfold mbind, gets. change (s_files (set_files s f)) with f. rewrite verdict_images.
  assert (E : alone ((match read_image ie f (ffile b) with Some _ => p_read_image ie (ffile t) | None => pret None end) s) f = (f, (s, Ok (match read_image ie f (ffile b) with Some _ => read_image ie f (ffile t) | None => None end)))) by (destruct (read_image ie f (ffile b)); [apply image_alone|reflexivity]).
  rewrite alone_then, E. cbn [fst snd]. rewrite alone_then. cbn [plift alone fst snd mlift]. destruct (itk_verdict ie tol _ _); cbn [alone pret mret fst snd]; rewrite files_back; reflexivity.
Qed.
Lemma adequate_thing ie im file name : adequate (p_ImageThing ie im file name) (ImageThing ie im file name).
Proof.
  apply adequate_bind; [apply adequate_pure, fileless_say|]. intros _. apply adequate_bind; [destruct (i_png ie im); [apply adequate_write|apply adequate_ret]|]. intros _. apply adequate_pure, fileless_say_meas.
Qed.
Lemma adequate_difference_image ie tol b m : adequate (p_DifferenceTestImage ie tol b m) (DifferenceTestImage ie tol b m).
Proof.
  apply adequate_bind; [apply adequate_info|]. intros t. apply adequate_bind; [apply adequate_info|]. intros b1. destruct t as [t|]; [|apply adequate_lift]. destruct b1 as [b1|]; [|apply adequate_lift]. cbv zeta.
  destruct (negb _); [apply adequate_pure, fileless_report|].
  do 5 (apply adequate_bind; [apply adequate_pure, fileless_report|intros _]). apply adequate_bind; [apply adequate_image|]. intros ti. apply adequate_bind; [apply adequate_image|]. intros bi.
  destruct ti as [ti|]; [|apply adequate_lift]. destruct bi as [bi|]; [|apply adequate_lift]. apply adequate_bind; [apply adequate_pure, fileless_say_meas|]. intros _.
  do 2 (apply adequate_bind; [apply adequate_lift|]; intros ?; apply adequate_bind; [apply adequate_thing|]; intros _). apply adequate_bind; [apply adequate_lift|]. intros p3. apply adequate_thing.
Qed.
Lemma fileless_counter (h : rst -> rst) : (forall s f, h (set_files s f) = set_files (h s) f) -> (forall s, s_files (h s) = s_files s) -> adequate (pure (modify h)) (modify h).
Proof. intros H1 H2. apply adequate_pure, fileless_modify; assumption. Qed.
Lemma adequate_itk_Difference ie tol m b : adequate (p_itk_Difference ie tol m b) (itk_Difference ie tol m b).
Proof.
  destruct b as [d|b]; [apply adequate_Difference|]. destruct m as [d|t]; [apply adequate_Difference|]. unfold p_itk_Difference, itk_Difference. destruct (eqs (ftype t) itk_type); [|apply adequate_Difference].
  apply adequate_bind; [apply fileless_counter; reflexivity|]. intros _. apply adequate_difference_image.
Qed.
Lemma adequate_itk_CompareMeasurement ie tol m t : adequate (p_itk_CompareMeasurement ie tol m t) (itk_CompareMeasurement ie tol m t).
Proof.
  apply adequate_bind; [apply adequate_pure, fileless_gets; reflexivity|]. intros [|b rest].
  { apply adequate_bind; [apply adequate_Unmatched|]. intros _. apply adequate_ret. }
  apply adequate_bind; [apply fileless_counter; reflexivity|]. intros _. destruct (eqs (mname b) (mname m) && eqs (mtype b) (mtype m)).
  2:{ apply adequate_bind; [apply adequate_Unmatched|]. intros _. apply adequate_ret. }
  apply adequate_bind; [apply adequate_locate|]. intros b'. apply adequate_bind; [apply adequate_pure, fileless_gets; reflexivity|]. intros c.
  apply adequate_bind; [apply adequate_itk_Compare|]. intros [[b2 m2] [|]]; [apply adequate_ret|]. apply adequate_bind; [apply adequate_itk_Difference|]. intros _. apply adequate_ret.
Qed.
Lemma adequate_itk_Measure ie tol c : adequate (p_itk_Measure ie tol c) (itk_Measure ie tol c).
Proof. apply adequate_bind; [apply adequate_mode|]. intros [|]; [apply adequate_itk_CompareMeasurement|]. apply adequate_bind; [apply adequate_put_meas|]. intros _. apply adequate_ret. Qed.
Lemma adequate_InsightFileImage ie tol f n : adequate (p_InsightFileImage ie tol f n) (MeasurementInsightFileImage ie tol f n).
Proof. apply adequate_bind; [apply adequate_mode|]. intros [|]; [apply adequate_itk_CompareMeasurement|]. apply adequate_bind; [apply adequate_put_meas|]. intros _. apply adequate_ret. Qed.
Lemma adequate_irun ie args p : forall tol count, adequate (p_irun ie args p tol count) (irun ie args p tol count).
Proof.
  induction p as [z|x|c k IH|f n k IH|t k IH|ext root k IH|t k IH|t k IH|z k IH|path b k IH]; intros tol count; cbn [p_irun irun].
  - apply adequate_ret.
  - apply adequate_lift.
  - apply adequate_bind; [apply adequate_itk_Measure|]. intros r. apply IH.
  - apply adequate_bind; [apply adequate_InsightFileImage|]. intros r. apply IH.
  - apply IH.
  - apply adequate_bind; [apply adequate_lift|]. intros r. apply IH.
  - apply adequate_bind; [apply adequate_pure, fileless_say|]. intros _. apply IH.
  - apply adequate_bind; [apply fileless_counter; reflexivity|]. intros _. apply IH.
  - apply adequate_bind; [apply fileless_counter; reflexivity|]. intros _. apply IH.
  - apply adequate_bind; [apply adequate_write|]. intros _. apply IH.
Qed.
Theorem itk_process_alone ie test argv : adequate (itk_process ie test argv) (itk_Main ie test argv).
Proof. apply process_with_alone. intros args. apply adequate_irun. Qed.

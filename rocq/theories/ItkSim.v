(** Tests without image measurements behave on the ITK driver as on the base class; what they write to standard output does not matter. *)
From Coq Require Import Floats.SpecFloat.
From Verif Require Import Base Str Dec PathModel MeasModel MeasFacts VisitModel XmlModel ReadModel ReadFacts ReadBack RegModel RegSpec RegFacts ImgModel ItkModel.

(** the same except for what is on standard output *)
Definition sim (a b : rst) : Prop := a = set_stdout b (s_stdout a).
Definition simX {A} (x y : rst * res A) : Prop := sim (fst x) (fst y) /\ snd x = snd y.
Definition simM {A} (m m' : M A) : Prop := forall s s', sim s s' -> simX (m s) (m' s').
Lemma sim_refl s : sim s s. Proof. destruct s. reflexivity. Qed.
Lemma sim_proj a b : sim a b ->
  s_files a = s_files b /\ s_input a = s_input b /\ s_in a = s_in b /\ s_out a = s_out b /\ s_path a = s_path b /\
  s_os a = s_os b /\ s_is a = s_is b /\ s_tol a = s_tol b /\ s_unmatched a = s_unmatched b /\ s_expected a = s_expected b.
Proof. intros H. rewrite H. repeat split. Qed.
Lemma sim_of a b : s_files a = s_files b -> s_input a = s_input b -> s_in a = s_in b -> s_out a = s_out b -> s_path a = s_path b ->
  s_os a = s_os b -> s_is a = s_is b -> s_tol a = s_tol b -> s_unmatched a = s_unmatched b -> s_expected a = s_expected b -> sim a b.
Proof. destruct a, b. cbn. intros. subst. reflexivity. Qed.
Ltac sims H := let P := fresh in pose proof (sim_proj _ _ H) as P; destruct P as (?Sf & ?Si & ?Sin & ?Sout & ?Spa & ?Sos & ?Sis & ?St & ?Su & ?Se).

Ltac simof S := sims S; apply sim_of; cbn; congruence.
Lemma sim_ret {A} (a : A) : simM (mret a) (mret a).
Proof. intros s s' H. split; [exact H|reflexivity]. Qed.
Lemma sim_lift {A} (r : res A) : simM (mlift r) (mlift r).
Proof. intros s s' H. split; [exact H|reflexivity]. Qed.
Lemma sim_bind {A B} (m m' : M A) (k k' : A -> M B) : simM m m' -> (forall a, simM (k a) (k' a)) -> simM (mbind m k) (mbind m' k').
Proof.
  intros Hm Hk s s' H. destruct (Hm s s' H) as [S R]. unfold mbind. destruct (m s) as [s1 r1]. destruct (m' s') as [s2 r2].
  cbn [fst snd] in S, R. subst r2. destruct r1; try (split; [exact S|reflexivity]). apply Hk. exact S.
Qed.
Lemma sim_gets {A} (f : rst -> A) : (forall s s', sim s s' -> f s = f s') -> simM (gets f) (gets f).
Proof. intros Hf s s' H. split; [exact H|]. cbn. rewrite (Hf s s' H). reflexivity. Qed.
Lemma sim_modify f : (forall s s', sim s s' -> sim (f s) (f s')) -> simM (modify f) (modify f).
Proof. intros Hf s s' H. split; [apply Hf; exact H|reflexivity]. Qed.
Lemma sim_pure {A} (g : rst -> res A) : (forall s s', sim s s' -> g s = g s') -> simM (fun s => (s, g s)) (fun s => (s, g s)).
Proof. intros Hg s s' H. split; [exact H|]. cbn. apply Hg. exact H. Qed.
Lemma sim_eq {A} (m m' n n' : M A) : (forall s, m s = n s) -> (forall s, m' s = n' s) -> simM n n' -> simM m m'.
Proof. intros E E' H s s' S. rewrite E, E'. apply H. exact S. Qed.
(** writing to standard output does nothing else *)
Lemma sim_say {B} t (m m' : M B) : simM m m' -> simM (_ <- say t ;; m) m'.
Proof. intros H s s' S. unfold mbind, say, modify. apply H. sims S. apply sim_of; cbn; assumption. Qed.

Lemma sim_put_text t s s' : sim s s' -> sim (put_text t s) (put_text t s').
Proof.
  intros S. sims S. unfold put_text. rewrite Sos, Sf. destruct (s_os s') as [k|].
  - destruct (s_files s' k) as [[r w b|]|]; try exact S. simof S.
  - simof S.
Qed.
Lemma sim_put t : simM (put t) (put t).
Proof. apply sim_modify. intros s s'. apply sim_put_text. Qed.
Lemma sim_put_meas m : simM (put_meas m) (put_meas m).
Proof. apply sim_bind; [apply sim_lift|]. intros p. apply sim_put. Qed.
Lemma sim_search e n s s' : sim s s' -> search e s n = search e s' n.
Proof. intros S. sims S. unfold search. rewrite Sf, Spa. reflexivity. Qed.
Lemma sim_compare_mode e s s' : sim s s' -> compare_mode e s = compare_mode e s'.
Proof. intros S. sims S. unfold compare_mode. rewrite Sis, Sin, Sf. destruct (s_is s'); [reflexivity|]. destruct (s_in s'); [reflexivity|]. rewrite (sim_search e _ _ _ S). reflexivity. Qed.
Lemma sim_cm e : simM (GetCompareMode e) (GetCompareMode e).
Proof. apply sim_pure. intros s s'. apply sim_compare_mode. Qed.
Ltac sim_field := let s := fresh in let s' := fresh in let S := fresh in intros s s' S; sims S; first [apply sim_of; cbn; congruence | cbn; congruence].

Lemma sim_unmatched m : simM (UnmatchedMeasurement m) (UnmatchedMeasurement m).
Proof. apply sim_bind; [apply sim_modify; sim_field|]. intros _. apply sim_put_meas. Qed.
Lemma sim_difference e m b : simM (DifferenceMeasurement e m b) (DifferenceMeasurement e m b).
Proof. apply sim_bind; [apply sim_modify; sim_field|]. intros _. apply sim_bind; [apply sim_lift|]. intros t. apply sim_put. Qed.
Lemma sim_compare e m t : simM (CompareMeasurement e m t) (CompareMeasurement e m t).
Proof.
  apply sim_bind; [apply sim_gets; sim_field|]. intros [|b rest].
  - apply sim_bind; [apply sim_unmatched|]. intros _. apply sim_ret.
  - apply sim_bind; [apply sim_modify; sim_field|]. intros _. destruct (eqs _ _ && eqs _ _).
    + apply sim_bind.
      { apply sim_pure. intros s s' S. unfold locate. destruct b; [reflexivity|]. destruct m; [reflexivity|]. rewrite (sim_search e _ _ _ S). reflexivity. }
      intros b1. apply sim_bind.
      { apply sim_gets. intros s s' S. sims S. unfold visitor. rewrite Sf, St. reflexivity. }
      intros [[b2 m2] v]. apply sim_bind; [apply sim_lift|]. intros [|]; [apply sim_ret|]. apply sim_bind; [apply sim_difference|]. intros _. apply sim_ret.
    + apply sim_bind; [apply sim_unmatched|]. intros _. apply sim_ret.
Qed.
Lemma sim_measure e c : simM (Measure e c) (Measure e c).
Proof. apply sim_bind; [apply sim_cm|]. intros [|]; [apply sim_compare|]. apply sim_bind; [apply sim_put_meas|]. intros _. apply sim_ret. Qed.

(** * Base measurements on the ITK driver *)
Definition other_type (m : meas) : Prop := match m with MD _ => True | MF t => eqs (ftype t) itk_type = false end.
Lemma other_meas io cm c : other_type (meas_of io cm c).
Proof. destruct c; cbn; trivial. Qed.
Lemma other_compare sc fs io c b m : other_type m -> other_type (snd (fst (Compare sc fs io c b m))).
Proof.
  intros H. assert (G : other_type (snd (fst (IsEqual sc fs b m)))).
  { unfold IsEqual. destruct b as [a|f], m as [d|g]; cbn [other_type] in *; [destruct (data_IsEqual sc a d) as [[? ?] ?]|destruct (file_IsEqual_data sc fs g a) as [? ?]|destruct (file_IsEqual_data sc fs f d) as [? ?]|]; exact H || exact I. }
  unfold Compare. destruct (numeric_meas m); [destruct (numeric_meas b); [destruct (negb _)|]|]; assumption.
Qed.
Lemma mbind_assoc {A B C} (m : M A) (k : A -> M B) (h : B -> M C) s : mbind (mbind m k) h s = mbind m (fun a => mbind (k a) h) s.
Proof. unfold mbind. destruct (m s) as [s1 []]; reflexivity. Qed.
Lemma mbind_ret {A B} (a : A) (k : A -> M B) s : mbind (mret a) k s = k a s.
Proof. reflexivity. Qed.
Lemma mbind_ext {A B} (m m' : M A) (k k' : A -> M B) : (forall s, m s = m' s) -> (forall a s, k a s = k' a s) -> forall s, mbind m k s = mbind m' k' s.
Proof. intros H K s. unfold mbind. rewrite H. destruct (m' s) as [s1 []]; auto. Qed.

Lemma itk_compare_base ie tol m t : other_type m -> forall s, itk_CompareMeasurement ie tol m t s = CompareMeasurement (i_env ie) m t s.
Proof.
  intros Hm s. unfold itk_CompareMeasurement, CompareMeasurement. apply mbind_ext; [reflexivity|]. clear s. intros [|b rest] s; [reflexivity|].
  apply mbind_ext; [reflexivity|]. clear s. intros _ s. destruct (eqs _ _ && eqs _ _); [|reflexivity].
  apply mbind_ext; [reflexivity|]. clear s. intros b1 s.
  assert (E : forall c, itk_Compare ie tol c b1 m =
     (out <- gets (fun s => Compare (e_sc (i_env ie)) (sources (i_env ie) (s_files s)) (e_io (i_env ie)) c b1 m) ;;
      let '(baseline, m, v) := out in same <- mlift v ;; mret (baseline, m, same))).
  { intros c. unfold itk_Compare. destruct b1 as [d|g], m as [d'|g']; try reflexivity. cbn [other_type] in Hm. rewrite Hm. reflexivity. }
  unfold mbind at 1. unfold gets at 1. rewrite E. unfold mbind. unfold gets.
  pose proof (other_compare (e_sc (i_env ie)) (sources (i_env ie) (s_files s)) (e_io (i_env ie)) (visitor s t) b1 m Hm) as O.
  destruct (Compare _ _ _ _ b1 m) as [[b2 m2] v]. cbn [fst snd] in O. unfold mlift, mret. destruct v as [[|]| | | |]; try reflexivity.
  assert (D : itk_Difference ie tol m2 b2 = DifferenceMeasurement (i_env ie) m2 b2).
  { unfold itk_Difference. destruct b2 as [d|g], m2 as [d'|g']; try reflexivity. cbn [other_type] in O. rewrite O. reflexivity. }
  rewrite D. reflexivity.
Qed.
Lemma itk_measure_base ie tol c s : itk_Measure ie tol c s = Measure (i_env ie) c s.
Proof.
  unfold itk_Measure, Measure. apply mbind_ext; [reflexivity|]. clear s. intros [|] s; [|reflexivity].
  apply itk_compare_base. apply other_meas.
Qed.

(** * Tests *)
(** [p], a test on the ITK driver with the given arguments and number of names generated so far, does what [q] does on the base
    class, besides writing to standard output, setting image tolerances and generating names *)
Inductive plain (sc : bool) (args : list str) : Z -> iprog -> prog -> Prop :=
| p_return n z : plain sc args n (IReturn z) (Return z)
| p_raise n x : plain sc args n (IRaise x) (Raise x)
| p_call n c k k' : (forall r, plain sc args n (k r) (k' r)) -> plain sc args n (ICall c k) (Call c k')
| p_tolerance n t k k' : plain sc args n k k' -> plain sc args n (ITolerance t k) k'
| p_generate n ext root name k k' : GenerateFileName sc args n ext root = Ok name -> plain sc args (n + 1) (k name) k' -> plain sc args n (IGenerate ext root k) k'
| p_say n t k k' : plain sc args n k k' -> plain sc args n (ISay t k) k'
| p_relative n t k k' : plain sc args n k k' -> plain sc args n (IRelativeTolerance t k) (SetRelativeTolerance t k')
| p_expected n z k k' : plain sc args n k k' -> plain sc args n (IExpectedReturn z k) (SetExpectedReturn z k')
| p_write n path b k k' : plain sc args n k k' -> plain sc args n (IWriteFile path b k) (WriteFile path b k').

Lemma sim_run ie args n p q : plain (e_sc (i_env ie)) args n p q -> forall tol, simM (irun ie args p tol n) (run (i_env ie) q).
Proof.
  induction 1 as [n z|n x|n c k k' _ IH|n t k k' _ IH|n ext root name k k' E _ IH|n t k k' _ IH|n t k k' _ IH|n z k k' _ IH|n path b k k' _ IH]; intros tol; cbn [irun run].
  - apply sim_ret.
  - apply sim_lift.
  - apply sim_bind; [|intros r; apply IH]. intros s s' S. rewrite itk_measure_base. apply sim_measure. exact S.
  - apply IH.
  - rewrite E. intros s s' S. unfold mbind, mlift. apply IH. exact S.
  - apply sim_say. apply IH.
  - apply sim_bind; [apply sim_modify; sim_field|]. intros _. apply IH.
  - apply sim_bind; [apply sim_modify; sim_field|]. intros _. apply IH.
  - apply sim_bind; [apply sim_modify; sim_field|]. intros _. apply IH.
Qed.

Lemma sim_parse_loop e fuel : forall argc argv inf outf, simM (parse_loop e fuel argc argv inf outf) (parse_loop e fuel argc argv inf outf).
Proof.
  induction fuel as [|fuel IH]; intros argc argv inf outf s s' S; cbn [parse_loop]; [split; [exact S|reflexivity]|].
  destruct (argc <=? 1); [split; [exact S|reflexivity]|]. revert s s' S.
  apply sim_bind; [apply sim_lift|]. intros a. cbv zeta.
  destruct (eqs a ($"-O")).
  { destruct (2 <? argc); [|apply IH]. apply sim_bind; [apply sim_lift|]. intros v. apply sim_bind; [apply sim_gets; sim_field|].
    intros ok. apply sim_bind; [apply sim_lift|]. intros l. apply IH. }
  destruct (eqs a ($"-I")).
  { destruct (2 <? argc); [|apply IH]. apply sim_bind; [apply sim_lift|]. intros v. apply sim_bind; [apply sim_gets; sim_field|].
    intros [|]; [|apply sim_lift]. apply sim_bind; [apply sim_lift|]. intros l. apply IH. }
  destruct (eqs a ($"-R")).
  { destruct (2 <? argc); [|apply IH]. apply sim_bind; [apply sim_lift|]. intros v. apply sim_bind; [apply sim_modify; sim_field|].
    intros _. apply sim_bind; [apply sim_lift|]. intros l. apply IH. }
  destruct (eqs a ($"-P")).
  { destruct (2 <? argc); [|apply IH]. apply sim_bind; [apply sim_lift|]. intros v. apply sim_bind; [apply sim_gets; sim_field|].
    intros [|]; [|apply sim_lift]. apply sim_bind; [apply sim_lift|]. intros l. apply sim_bind; [apply sim_modify; sim_field|]. intros _. apply IH. }
  apply sim_ret.
Qed.
Lemma sim_parse e fuel argv : simM (ParseAndRemoveArguments e fuel argv) (ParseAndRemoveArguments e fuel argv).
Proof.
  apply sim_bind; [apply sim_parse_loop|]. intros [[[argc l] inf] outf].
  apply sim_bind; [apply sim_modify; destruct inf; sim_field|]. intros _.
  apply sim_bind; [apply sim_modify; destruct outf; sim_field|]. intros _. apply sim_ret.
Qed.
Lemma sim_begin e : simM (BeginMeasurement e) (BeginMeasurement e).
Proof.
  apply sim_bind.
  { intros s s' S. sims S. unfold open_output. rewrite Sout, Sf. destruct (s_out s') as [|c l]; [split; [exact S|reflexivity]|].
    destruct (slot e (c :: l)) as [k|]; [|split; [simof S|reflexivity]]. destruct (s_files s' k) as [[r [|] b|r w x]|]; [| | |destruct (e_cancreate e _)];
    (split; [simof S|reflexivity]). }
  intros _. apply sim_bind.
  { intros s s' S. sims S. unfold open_input. rewrite Sin. destruct (s_in s') as [|c l]; [split; [exact S|reflexivity]|].
    rewrite (sim_search e _ _ _ S). destruct (search e s' (c :: l)) as [p| | | |]; try (split; [exact S|reflexivity]). rewrite Sf.
    destruct (can_open e _ _); (split; [simof S|reflexivity]). }
  intros _. apply sim_bind; [apply sim_cm|]. intros [|]; [|apply sim_put].
  intros s s' S. sims S. unfold read_input. rewrite Sis, Sf. destruct (s_is s') as [k|]; [|split; [exact S|reflexivity]].
  destruct (s_files s' k) as [[r w b|]|]; try (split; [exact S|reflexivity]).
  destruct (ReadXMLInput _ _ b) as [l| | | |]; try (split; [exact S|reflexivity]). split; [simof S|reflexivity].
Qed.
Lemma sim_end e : simM (EndMeasurement e) (EndMeasurement e).
Proof.
  apply sim_bind; [apply sim_cm|]. intros [|]; (apply sim_bind; [first [apply sim_modify; sim_field|apply sim_put]|]; intros _; apply sim_modify; sim_field).
Qed.

(** [RegModel.Main] is [Main_with] *)
Lemma Main_is_with e test argv s : Main e test argv s = Main_with e (fun args => run e (test args)) argv s.
Proof. reflexivity. Qed.
Definition finish_with (e : env) (ret : Z) (s : rst) : rst * res Z :=
  if negb (ret =? s_expected s)%Z then (s, Ok ret)
  else (s, cm <-- compare_mode e s ;; Ok (if (cm : bool) then s_unmatched s else 0%Z)).
Definition ends_with (e : env) (x : rst * res Z) : rst * res Z :=
  match x with
  | (s, Ok ret) =>
      match EndMeasurement e s with
      | (s, Ok _) => finish_with e ret (set_unmatched s (s_unmatched s - 1))
      | (s, Throw _) => finish_with e ret s
      | (s, UB) => (s, UB) | (s, Abort) => (s, Abort) | (s, Hang) => (s, Hang)
      end
  | (s, Throw _) => finish_with e (-1)%Z s
  | (s, UB) => (s, UB) | (s, Abort) => (s, Abort) | (s, Hang) => (s, Hang)
  end.
Lemma Main_with_unfold e body argv s : Main_with e body argv s = ends_with e (main_body_with e body argv (set_unmatched s (s_unmatched s + 1))).
Proof. reflexivity. Qed.
Lemma sim_finish e ret s s' : sim s s' -> simX (finish_with e ret s) (finish_with e ret s').
Proof.
  intros S. unfold finish_with. rewrite (sim_compare_mode e s s' S). sims S. rewrite Se, Su.
  destruct (negb _); split; try exact S; reflexivity.
Qed.
Lemma sim_Main e body body' argv : (forall args, simM (body args) (body' args)) -> simM (Main_with e body argv) (Main_with e body' argv).
Proof.
  intros Hb s s' S. rewrite !Main_with_unfold.
  assert (S1 : sim (set_unmatched s (s_unmatched s + 1)) (set_unmatched s' (s_unmatched s' + 1))) by (revert s s' S; sim_field).
  assert (B : simM (main_body_with e body argv) (main_body_with e body' argv)).
  { apply sim_bind; [apply sim_parse|]. intros [argc l]. apply sim_bind; [apply sim_begin|]. intros _. apply Hb. }
  destruct (B _ _ S1) as [S2 R2]. destruct (main_body_with e body argv _) as [s2 r2]. destruct (main_body_with e body' argv _) as [s2' r2'].
  cbn [fst snd] in S2, R2. subst r2'. unfold ends_with. destruct r2 as [ret|x| | |]; try (split; [exact S2|reflexivity]); [|apply sim_finish; exact S2].
  destruct (sim_end e _ _ S2) as [S3 R3]. destruct (EndMeasurement e s2) as [s3 r3]. destruct (EndMeasurement e s2') as [s3' r3'].
  cbn [fst snd] in S3, R3. subst r3'. destruct r3; try (split; [exact S3|reflexivity]); [|apply sim_finish; exact S3].
  apply sim_finish. revert s3 s3' S3. clear. sim_field.
Qed.

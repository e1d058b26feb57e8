(** Runs of tests that ask the driver and set its file names. *)
From Coq Require Import Floats.SpecFloat.
From Verif Require Import Base Str Dec PathModel PathFacts MeasModel MeasFacts VisitModel RegModel RegSpec RegFacts ItkModel ItkSim ApiModel.

Lemma mode_always e s : exists b, compare_mode e s = Ok b.
Proof.
  unfold compare_mode. destruct (s_is s); [eexists; reflexivity|]. destruct (s_in s) as [|c n] eqn:E; [eexists; reflexivity|].
  destruct (search_always e s (c :: n)) as [p Hp]. rewrite Hp. cbn [bind]. eexists. reflexivity.
Qed.
Lemma look_always e s : exists v, look_at e s = (s, Ok v).
Proof. unfold look_at. destruct (mode_always e s) as [b ->]. cbn [bind]. eexists. reflexivity. Qed.

(** * Only asking *)
Fixpoint only_asks (p : aprog) : Prop :=
  match p with
  | AReturn _ | ARaise _ => True
  | ACall _ k => forall r, only_asks (k r)
  | ASetRelativeTolerance _ k | ASetExpectedReturn _ k | AWriteFile _ _ k => only_asks k
  | ALook k => forall v, only_asks (k v)
  | ASetInFileName _ _ | ASetOutFileName _ _ => False
  end.
Lemma asks_as_if e p : only_asks p -> forall s, exists q, arun e p s = run e q s.
Proof.
  induction p as [z|x|c k IH|t k IH|z k IH|path b k IH|k IH|n k IH|n k IH]; intros Hp s; cbn [only_asks arun] in *; try contradiction.
  - exists (Return z). reflexivity.
  - exists (Raise x). reflexivity.
  - unfold mbind. destruct (Measure e c s) as [s1 r] eqn:E. destruct r as [a|i| | |].
    + destruct (IH a (Hp a) s1) as [q Hq]. exists (Call c (fun _ => q)). cbn [run]. unfold mbind. rewrite E. exact Hq.
    + exists (Call c (fun _ => Return 0%Z)). cbn [run]. unfold mbind. rewrite E. reflexivity.
    + exists (Call c (fun _ => Return 0%Z)). cbn [run]. unfold mbind. rewrite E. reflexivity.
    + exists (Call c (fun _ => Return 0%Z)). cbn [run]. unfold mbind. rewrite E. reflexivity.
    + exists (Call c (fun _ => Return 0%Z)). cbn [run]. unfold mbind. rewrite E. reflexivity.
  - destruct (IH Hp (set_tol s t)) as [q Hq]. exists (SetRelativeTolerance t q). exact Hq.
  - destruct (IH Hp (set_expected s z)) as [q Hq]. exists (SetExpectedReturn z q). exact Hq.
  - destruct (IH Hp (set_files s (write_file e (s_files s) path b))) as [q Hq]. exists (WriteFile path b q). exact Hq.
  - destruct (look_always e s) as [v Hv]. unfold mbind. rewrite Hv. apply IH, Hp.
Qed.
(** [Main] runs the body at most once *)
Lemma body_once {A} e (P : list str -> A -> Prop) (bodies : A -> list str -> M Z) (body : list str -> M Z) argv :
  (forall args s, exists a, bodies a args s = body args s /\ P args a) ->
  forall s, (exists a args, P args a /\ Main_with e body argv s = Main_with e (bodies a) argv s) \/
    (forall a, Main_with e body argv s = Main_with e (bodies a) argv s).
Proof.
  intros H s. rewrite Main_with_unfold. unfold main_body_with at 1.
  set (s1 := set_unmatched s (s_unmatched s + 1)).
  destruct (ParseAndRemoveArguments e (S (length argv)) argv s1) as [s2 r2] eqn:E2. unfold mbind at 1. rewrite E2.
  destruct r2 as [[argc l]|i| | |].
  - destruct (BeginMeasurement e s2) as [s3 r3] eqn:E3. unfold mbind at 1. rewrite E3.
    destruct r3 as [[]|i| | |].
    + left. destruct (H (firstn argc l) s3) as (a & Ha & HP). exists a, (firstn argc l). split; [exact HP|].
      rewrite Main_with_unfold. unfold main_body_with, mbind. fold s1. rewrite E2, E3, Ha. reflexivity.
    + right. intros a. rewrite Main_with_unfold. unfold main_body_with, mbind. fold s1. rewrite E2, E3. reflexivity.
    + right. intros a. rewrite Main_with_unfold. unfold main_body_with, mbind. fold s1. rewrite E2, E3. reflexivity.
    + right. intros a. rewrite Main_with_unfold. unfold main_body_with, mbind. fold s1. rewrite E2, E3. reflexivity.
    + right. intros a. rewrite Main_with_unfold. unfold main_body_with, mbind. fold s1. rewrite E2, E3. reflexivity.
  - right. intros a. rewrite Main_with_unfold. unfold main_body_with, mbind. fold s1. rewrite E2. reflexivity.
  - right. intros a. rewrite Main_with_unfold. unfold main_body_with, mbind. fold s1. rewrite E2. reflexivity.
  - right. intros a. rewrite Main_with_unfold. unfold main_body_with, mbind. fold s1. rewrite E2. reflexivity.
  - right. intros a. rewrite Main_with_unfold. unfold main_body_with, mbind. fold s1. rewrite E2. reflexivity.
Qed.

(** * Setting the names *)
(** the same except for the two file names *)
Definition named_as (a b : rst) : Prop := a = set_in (set_out b (s_out a)) (s_in a).
Definition namedX {A} (x y : rst * res A) : Prop := named_as (fst x) (fst y) /\ snd x = snd y.
Definition namedM {A} (m m' : M A) : Prop := forall s s', named_as s s' -> namedX (m s) (m' s').
Lemma named_refl s : named_as s s. Proof. destruct s. reflexivity. Qed.
Lemma named_proj a b : named_as a b ->
  s_files a = s_files b /\ s_stdout a = s_stdout b /\ s_input a = s_input b /\ s_path a = s_path b /\
  s_os a = s_os b /\ s_is a = s_is b /\ s_tol a = s_tol b /\ s_unmatched a = s_unmatched b /\ s_expected a = s_expected b.
Proof. intros H. rewrite H. repeat split. Qed.
Lemma named_of a b : s_files a = s_files b -> s_stdout a = s_stdout b -> s_input a = s_input b -> s_path a = s_path b ->
  s_os a = s_os b -> s_is a = s_is b -> s_tol a = s_tol b -> s_unmatched a = s_unmatched b -> s_expected a = s_expected b -> named_as a b.
Proof. destruct a, b. cbn. intros. subst. reflexivity. Qed.
Ltac nameds H := let P := fresh in pose proof (named_proj _ _ H) as P; destruct P as (?Nf & ?Nso & ?Ni & ?Npa & ?Nos & ?Nis & ?Nt & ?Nu & ?Ne).
Ltac named_field := let s := fresh in let s' := fresh in let S := fresh in intros s s' S; nameds S; first [apply named_of; cbn; congruence | cbn; congruence].
Lemma named_ret {A} (a : A) : namedM (mret a) (mret a).
Proof. intros s s' H. split; [exact H|reflexivity]. Qed.
Lemma named_lift {A} (r : res A) : namedM (mlift r) (mlift r).
Proof. intros s s' H. split; [exact H|reflexivity]. Qed.
Lemma named_bind {A B} (m m' : M A) (k k' : A -> M B) : namedM m m' -> (forall a, namedM (k a) (k' a)) -> namedM (mbind m k) (mbind m' k').
Proof.
  intros Hm Hk s s' H. destruct (Hm s s' H) as [S R]. unfold mbind. destruct (m s) as [s1 r1]. destruct (m' s') as [s2 r2].
  cbn [fst snd] in S, R. subst r2. destruct r1; try (split; [exact S|reflexivity]). apply Hk. exact S.
Qed.
Lemma named_gets {A} (f : rst -> A) : (forall s s', named_as s s' -> f s = f s') -> namedM (gets f) (gets f).
Proof. intros Hf s s' H. split; [exact H|]. cbn. rewrite (Hf s s' H). reflexivity. Qed.
Lemma named_modify f : (forall s s', named_as s s' -> named_as (f s) (f s')) -> namedM (modify f) (modify f).
Proof. intros Hf s s' H. split; [apply Hf; exact H|reflexivity]. Qed.
Lemma named_pure {A} (g : rst -> res A) : (forall s s', named_as s s' -> g s = g s') -> namedM (fun s => (s, g s)) (fun s => (s, g s)).
Proof. intros Hg s s' H. split; [exact H|]. cbn. apply Hg. exact H. Qed.
Lemma named_put t : namedM (put t) (put t).
Proof.
  apply named_modify. intros s s' S. nameds S. unfold put_text. rewrite Nos, Nf. destruct (s_os s') as [k|].
  - destruct (s_files s' k) as [[r w b|]|]; try exact S. nameds S. apply named_of; cbn; congruence.
  - nameds S. apply named_of; cbn; congruence.
Qed.
Lemma named_put_meas m : namedM (put_meas m) (put_meas m).
Proof. apply named_bind; [apply named_lift|]. intros p. apply named_put. Qed.
Lemma named_search e n s s' : named_as s s' -> search e s n = search e s' n.
Proof. intros S. nameds S. unfold search. rewrite Nf, Npa. reflexivity. Qed.
Lemma named_unmatched m : namedM (UnmatchedMeasurement m) (UnmatchedMeasurement m).
Proof. apply named_bind; [apply named_modify; named_field|]. intros _. apply named_put_meas. Qed.
Lemma named_difference e m b : namedM (DifferenceMeasurement e m b) (DifferenceMeasurement e m b).
Proof. apply named_bind; [apply named_modify; named_field|]. intros _. apply named_bind; [apply named_lift|]. intros t. apply named_put. Qed.
Lemma named_compare e m t : namedM (CompareMeasurement e m t) (CompareMeasurement e m t).
Proof.
  apply named_bind; [apply named_gets; named_field|]. intros [|b rest].
  - apply named_bind; [apply named_unmatched|]. intros _. apply named_ret.
  - apply named_bind; [apply named_modify; named_field|]. intros _. destruct (eqs _ _ && eqs _ _).
    + apply named_bind.
      { apply named_pure. intros s s' S. unfold locate. destruct b; [reflexivity|]. destruct m; [reflexivity|]. rewrite (named_search e _ _ _ S). reflexivity. }
      intros b1. apply named_bind.
      { apply named_gets. intros s s' S. nameds S. unfold visitor. rewrite Nf, Nt. reflexivity. }
      intros [[b2 m2] v]. apply named_bind; [apply named_lift|]. intros [|]; [apply named_ret|]. apply named_bind; [apply named_difference|]. intros _. apply named_ret.
    + apply named_bind; [apply named_unmatched|]. intros _. apply named_ret.
Qed.

(** * Setting the name of the output file *)
Definition out_as (a b : rst) : Prop := named_as a b /\ s_in a = s_in b.
Definition outX {A} (x y : rst * res A) : Prop := out_as (fst x) (fst y) /\ snd x = snd y.
Lemma out_refl s : out_as s s. Proof. split; [apply named_refl|reflexivity]. Qed.
Lemma out_mode e s s' : out_as s s' -> compare_mode e s = compare_mode e s'.
Proof.
  intros [S I]. unfold compare_mode. nameds S. rewrite Nis, I, Nf. destruct (s_is s'); [reflexivity|]. destruct (s_in s'); [reflexivity|].
  rewrite (named_search e _ _ _ S). reflexivity.
Qed.
(** nothing here sets the name of the baseline *)
Definition keeps_in {A} (m : M A) : Prop := forall s, s_in (fst (m s)) = s_in s.
Lemma keeps_in_bind {A B} (m : M A) (k : A -> M B) : keeps_in m -> (forall a, keeps_in (k a)) -> keeps_in (mbind m k).
Proof.
  intros H K s. unfold mbind. specialize (H s). destruct (m s) as [s1 r]. cbn [fst] in H.
  destruct r; cbn [fst]; try exact H. rewrite K. exact H.
Qed.
Lemma keeps_in_pure {A} (g : rst -> res A) : keeps_in (fun s => (s, g s)). Proof. intros s. reflexivity. Qed.
Lemma keeps_in_modify f : (forall s, s_in (f s) = s_in s) -> keeps_in (modify f). Proof. intros H s. exact (H s). Qed.
Lemma keeps_in_put t : keeps_in (put t).
Proof. apply keeps_in_modify. intros s. unfold put_text. destruct (s_os s); [|reflexivity]. destruct (s_files s _) as [[]|]; reflexivity. Qed.
Lemma keeps_in_put_meas m : keeps_in (put_meas m).
Proof. apply keeps_in_bind; [apply (keeps_in_pure (fun _ => Print m))|]. intros p. apply keeps_in_put. Qed.
Lemma keeps_in_unmatched m : keeps_in (UnmatchedMeasurement m).
Proof. apply keeps_in_bind; [apply keeps_in_modify; reflexivity|]. intros _. apply keeps_in_put_meas. Qed.
Lemma keeps_in_difference e m b : keeps_in (DifferenceMeasurement e m b).
Proof. apply keeps_in_bind; [apply keeps_in_modify; reflexivity|]. intros _. apply keeps_in_bind; [apply (keeps_in_pure (fun _ => _))|]. intros t. apply keeps_in_put. Qed.
Lemma keeps_in_compare e m t : keeps_in (CompareMeasurement e m t).
Proof.
  apply keeps_in_bind; [intros s; reflexivity|]. intros [|b rest].
  - apply keeps_in_bind; [apply keeps_in_unmatched|]. intros _ s. reflexivity.
  - apply keeps_in_bind; [apply keeps_in_modify; reflexivity|]. intros _. destruct (eqs _ _ && eqs _ _).
    + apply keeps_in_bind; [intros s; reflexivity|]. intros b1. apply keeps_in_bind; [intros s; reflexivity|].
      intros [[b2 m2] v]. apply keeps_in_bind; [intros s; reflexivity|]. intros [|]; [intros s; reflexivity|].
      apply keeps_in_bind; [apply keeps_in_difference|]. intros _ s. reflexivity.
    + apply keeps_in_bind; [apply keeps_in_unmatched|]. intros _ s. reflexivity.
Qed.
Lemma keeps_in_measure e c : keeps_in (Measure e c).
Proof.
  apply keeps_in_bind; [intros s; reflexivity|]. intros [|]; [apply keeps_in_compare|]. apply keeps_in_bind; [apply keeps_in_put_meas|].
  intros _ s. reflexivity.
Qed.
Lemma out_measure e c s s' : out_as s s' -> outX (Measure e c s) (Measure e c s').
Proof.
  intros S. assert (N : namedX (Measure e c s) (Measure e c s')).
  { destruct S as [S I]. unfold Measure. unfold mbind at 1 3. unfold GetCompareMode. rewrite (out_mode e s s' (conj S I)).
    destruct (compare_mode e s') as [[|]| | | |]; try (split; [exact S|reflexivity]).
    - apply named_compare. exact S.
    - revert s s' S I. intros s s' S _. revert s s' S. apply named_bind; [apply named_put_meas|]. intros _. apply named_ret. }
  destruct N as [N1 N2]. split; [|exact N2]. split; [exact N1|]. rewrite !keeps_in_measure. apply S.
Qed.
Fixpoint keeps_baseline_name (p : aprog) : Prop :=
  match p with
  | AReturn _ | ARaise _ => True
  | ACall _ k => forall r, keeps_baseline_name (k r)
  | ASetRelativeTolerance _ k | ASetExpectedReturn _ k | AWriteFile _ _ k | ASetOutFileName _ k => keeps_baseline_name k
  | ALook k => forall v, keeps_baseline_name (k v)
  | ASetInFileName _ _ => False
  end.
Lemma out_as_if e p : keeps_baseline_name p -> forall s s', out_as s s' -> exists q, outX (arun e p s) (run e q s').
Proof.
  induction p as [z|x|c k IH|t k IH|z k IH|path b k IH|k IH|n k IH|n k IH]; intros Hp s s' S; cbn [keeps_baseline_name arun] in *; try contradiction.
  - exists (Return z). split; [exact S|reflexivity].
  - exists (Raise x). split; [exact S|reflexivity].
  - unfold mbind. destruct (out_measure e c s s' S) as [S1 R1]. destruct (Measure e c s) as [s1 r] eqn:E. destruct (Measure e c s') as [s1' r'] eqn:E'.
    cbn [fst snd] in S1, R1. subst r'. destruct r as [a|i| | |].
    + destruct (IH a (Hp a) s1 s1' S1) as [q Hq]. exists (Call c (fun _ => q)). cbn [run]. unfold mbind. rewrite E'. exact Hq.
    + exists (Call c (fun _ => Return 0%Z)). cbn [run]. unfold mbind. rewrite E'. split; [exact S1|reflexivity].
    + exists (Call c (fun _ => Return 0%Z)). cbn [run]. unfold mbind. rewrite E'. split; [exact S1|reflexivity].
    + exists (Call c (fun _ => Return 0%Z)). cbn [run]. unfold mbind. rewrite E'. split; [exact S1|reflexivity].
    + exists (Call c (fun _ => Return 0%Z)). cbn [run]. unfold mbind. rewrite E'. split; [exact S1|reflexivity].
  - destruct (IH Hp (set_tol s t) (set_tol s' t)) as [q Hq]; [|exists (SetRelativeTolerance t q); exact Hq].
    destruct S as [S I]. split; [|exact I]. nameds S. apply named_of; cbn; congruence.
  - destruct (IH Hp (set_expected s z) (set_expected s' z)) as [q Hq]; [|exists (SetExpectedReturn z q); exact Hq].
    destruct S as [S I]. split; [|exact I]. nameds S. apply named_of; cbn; congruence.
  - destruct (IH Hp (set_files s (write_file e (s_files s) path b)) (set_files s' (write_file e (s_files s') path b))) as [q Hq]; [|exists (WriteFile path b q); exact Hq].
    destruct S as [S I]. split; [|exact I]. nameds S. apply named_of; cbn; congruence.
  - destruct (look_always e s) as [v Hv]. unfold mbind. rewrite Hv. apply IH; [apply Hp|exact S].
  - apply (IH Hp (set_out s n) s'). destruct S as [S I]. split; [|exact I]. nameds S. apply named_of; cbn; congruence.
Qed.
Lemma out_put t s s' : out_as s s' -> out_as (put_text t s) (put_text t s').
Proof.
  intros S. split; [exact (proj1 (named_put t s s' (proj1 S)))|].
  pose proof (keeps_in_put t s) as H. pose proof (keeps_in_put t s') as H'. cbn [put modify fst] in H, H'. rewrite H, H'. apply S.
Qed.
Lemma out_end e s s' : out_as s s' -> outX (EndMeasurement e s) (EndMeasurement e s').
Proof.
  intros S. unfold EndMeasurement, GetCompareMode, mbind. rewrite (out_mode e s s' S). destruct (compare_mode e s') as [[|]| | | |]; try (split; [exact S|reflexivity]).
  - unfold modify. split; [|reflexivity]. destruct S as [S I]. split; [|exact I]. nameds S. apply named_of; cbn; congruence.
  - unfold put, modify. split; [|reflexivity]. apply (out_put footer) in S. revert S. generalize (put_text footer s) (put_text footer s'). intros a b S. destruct S as [S I]. split; [|exact I]. nameds S. apply named_of; cbn; congruence.
Qed.
Lemma out_finish e r s s' : out_as s s' -> outX (finish_with e r s) (finish_with e r s').
Proof.
  intros S. unfold finish_with. rewrite (out_mode e s s' S). destruct S as [S I]. nameds S. rewrite Ne, Nu.
  destruct (negb _); (split; [split; [exact S|exact I]|reflexivity]).
Qed.
Lemma out_ends e x y : outX x y -> outX (ends_with e x) (ends_with e y).
Proof.
  destruct x as [s r], y as [s' r']. intros [S R]. cbn [fst snd] in S, R. subst r'. unfold ends_with.
  destruct r as [v|i| | |]; try (split; [exact S|reflexivity]); [|apply out_finish; exact S].
  destruct (out_end e s s' S) as [S1 R1]. destruct (EndMeasurement e s) as [s1 r1]. destruct (EndMeasurement e s') as [s1' r1']. cbn [fst snd] in S1, R1. subst r1'.
  destruct r1; try (split; [exact S1|reflexivity]); [|apply out_finish; exact S1].
  apply out_finish. destruct S1 as [S1 I]. split; [|exact I]. nameds S1. apply named_of; cbn; congruence.
Qed.

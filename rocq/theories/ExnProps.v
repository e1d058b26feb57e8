(** C88: which standard class the message about an exception names. *)
From Coq Require Import Floats.SpecFloat Relations.
From Verif Require Import Base Str Dec B64Model PathModel MeasModel DiffModel VisitModel XmlModel ReadModel RegModel ArgFacts ArgProps RegSpec RegMain RegProps ItkModel ItkSim ErrModel ErrSpec ErrProps ErrProps2 ExnModel ExnSpec.
Import RegModel ExnModel ExnSpec.

Scheme class_rect2 := Induction for class Sort Prop with bases_rect2 := Induction for bases Sort Prop.
Lemma subobjects_spec c : forall k p, In (k, p) (subobjects c) <-> subobject c k p.
Proof.
  induction c as [n bs IH| |public virtual c IHc others IHo] using class_rect2 with
    (P0 := fun bs => forall n k p, In (k, p) (under n bs) <-> exists public virtual c q k', direct bs public virtual c /\ subobject c k' q /\ k = below n virtual k' /\ p = q && public).
  - intros k p. cbn [subobjects]. split.
    + intros [H|H].
      * injection H as <- <-. constructor.
      * apply IH in H. destruct H as (public & virtual & c & q & [[|] k'] & D & S & -> & ->); cbn [below].
        -- eapply so_shared_below; eassumption.
        -- destruct virtual; [eapply so_shared|eapply so_own]; eassumption.
    + intros S. inversion S; subst.
      * left. reflexivity.
      * right. apply IH. do 5 eexists. split; [eassumption|]. split; [eassumption|]. split; reflexivity.
      * right. apply IH. do 5 eexists. split; [eassumption|]. split; [eassumption|]. split; reflexivity.
      * right. apply IH. do 5 eexists. split; [eassumption|]. split; [eassumption|]. split; reflexivity.
  - intros n k p. cbn. split; [contradiction|]. intros (? & ? & ? & ? & ? & D & _). exact D.
  - intros n k p. cbn [under direct]. rewrite in_app_iff, in_map_iff, IHo. split.
    + intros [([k' q] & E & H)|(pu & vi & c' & q & k' & D & S & -> & ->)].
      * cbn [fst snd] in E. injection E as <- <-. apply IHc in H. exists public, virtual, c, q, k'. auto.
      * exists pu, vi, c', q, k'. auto.
    + intros (pu & vi & c' & q & k' & [(<- & <- & <-)|D] & S & -> & ->).
      * left. exists (k', q). split; [reflexivity|]. apply IHc. exact S.
      * right. exists pu, vi, c', q, k'. auto.
Qed.
Lemma eq_path_spec a : forall b, eq_path a b = true <-> a = b.
Proof.
  induction a as [|x a IH]; intros [|y b]; cbn; split; intros H; try discriminate; try reflexivity.
  - apply andb_true_iff in H. destruct H as [H1 H2]. apply eqs_true in H1. apply IH in H2. congruence.
  - injection H as -> ->. rewrite eqs_refl. apply IH. reflexivity.
Qed.
Lemma eq_place_spec a b : eq_place a b = true <-> a = b.
Proof.
  unfold eq_place. rewrite andb_true_iff, eq_path_spec. destruct a as [x p], b as [y q]; cbn [fst snd]. split.
  - intros [H ->]. apply Bool.eqb_prop in H. congruence.
  - intros H. injection H as -> ->. split; [destruct y|]; reflexivity.
Qed.

(** [catch (E &)] takes exactly the objects of class [E] and of classes with the unambiguous public base [E]. *)
Theorem C88_takes : forall E c, takes E c = true <-> is_a c E.
Proof.
  intros E c. unfold takes, is_a. set (f := fun x : place * bool => eqs (class_of (fst x)) E).
  assert (F : forall k p, In (k, p) (List.filter f (subobjects c)) <-> subobject c k p /\ last (snd k) [] = E).
  { intros k p. rewrite filter_In, subobjects_spec. unfold f, class_of. cbn [fst]. split; intros [S L]; (split; [exact S|]); [apply eqs_true; exact L|subst E; apply eqs_refl]. }
  destruct (List.filter f (subobjects c)) as [|[k0 p0] l] eqn:Ef.
  - split; [discriminate|]. intros (k & S & L & _). exfalso. apply (F k true). auto.
  - rewrite andb_true_iff, forallb_forall, existsb_exists. split.
    + intros [A ([k p] & H & P)]. cbn [snd] in P. subst p. assert (K : forall k' p', In (k', p') ((k0, p0) :: l) -> k' = k0).
      { intros k' p' [I|I]; [injection I as -> ->; reflexivity|]. apply eq_place_spec. exact (A _ I). }
      rewrite (K _ _ H) in H. exists k0. apply F in H. destruct H as [S L]. split; [exact S|]. split; [exact L|].
      intros k' p' S' L'. apply (K k' p'). apply F. auto.
    + intros (k & S & L & U). assert (K : forall k' p', In (k', p') ((k0, p0) :: l) -> k' = k).
      { intros k' p' I. apply F in I. exact (U _ _ (proj1 I) (proj2 I)). }
      split.
      * intros [k' p'] I. apply eq_place_spec. cbn [fst]. rewrite (K k' p'), (K k0 p0); [reflexivity|apply in_eq|right; exact I].
      * exists (k, true). split; [apply F; auto|reflexivity].
Qed.
Print Assumptions C88_takes.

Fixpoint index (x : str) (l : list str) : nat := match l with [] => 0 | y :: l' => if eqs x y then 0 else S (index x l') end.
Lemma find_first f l y : find f l = Some y -> In y l /\ f y = true /\ forall x, In x l -> f x = true -> index y l <= index x l.
Proof.
  induction l as [|a l IH]; cbn [find]; [discriminate|]. destruct (f a) eqn:Fa.
  - intros H. injection H as ->. split; [apply in_eq|]. split; [exact Fa|]. intros x _ _. cbn. rewrite eqs_refl. lia.
  - intros H. destruct (IH H) as (I & Fy & M). split; [right; exact I|]. split; [exact Fy|]. intros x [->|Hx] Fx; [congruence|]. cbn [index].
    destruct (eqs y a) eqn:E1; [lia|]. destruct (eqs x a) eqn:E2; [apply eqs_true in E2; subst; congruence|]. specialize (M x Hx Fx). lia.
Qed.
Lemma derives_before D E : derives D E -> index D clauses < index E clauses.
Proof. induction 1 as [x y H|x y z _ IH1 _ IH2]; [destruct H; vm_compute; lia|lia]. Qed.
Lemma named_clauses E : named E <-> In E clauses.
Proof.
  split.
  - intros [->|[B H]]; [|destruct H]; vm_compute; tauto.
  - unfold clauses. cbn [In]. intros H. repeat destruct H as [<-|H]; try contradiction; try (right; eexists; constructor); left; reflexivity.
Qed.
(** The message of an exception names a standard class that it is, and none that is further up: whatever else the exception is among the named classes, that class is not derived from the one named. *)
Theorem C88_named_class : forall c w E, handler (Thrown c w) = Some E ->
  named E /\ is_a c E /\ forall D, named D -> is_a c D -> ~ derives D E.
Proof.
  intros c w E H. cbn [handler] in H. destruct (find_first _ _ _ H) as (I & T & M). split; [apply named_clauses; exact I|]. split; [apply C88_takes; exact T|].
  intros D N A Hd. apply derives_before in Hd. assert (index E clauses <= index D clauses) by (apply M; [apply named_clauses; exact N|apply C88_takes; exact A]). lia.
Qed.
Print Assumptions C88_named_class.
(** It is called unknown exactly if it is no named class. *)
Theorem C88_unknown : forall t, handler t = None <-> match t with Value => True | Thrown c _ => forall E, named E -> ~ is_a c E end.
Proof.
  intros [c w|]; cbn [handler]; [|tauto]. split.
  - intros H E N A. pose proof (find_none _ _ H E (proj1 (named_clauses E) N)) as F. apply C88_takes in A. congruence.
  - intros H. destruct (find (fun E => takes E c) clauses) as [E|] eqn:F; [|reflexivity]. exfalso. destruct (find_some _ _ F) as [I T]. apply (H E); [apply named_clauses; exact I|apply C88_takes; exact T].
Qed.
Print Assumptions C88_unknown.

(** * Single inheritance *)
Lemma sub_inv n virtual c k p : subobject (Class n (And true virtual c NoBase)) k p <-> (k = (false, [n]) /\ p = true) \/ exists k0, subobject c k0 p /\ k = below n virtual k0.
Proof.
  rewrite <- subobjects_spec. cbn [subobjects under]. rewrite app_nil_r. cbn [In]. rewrite in_map_iff. split.
  - intros [H|([k0 q] & H & I)]; [injection H as <- <-; auto|]. cbn [fst snd] in H. rewrite andb_true_r in H. injection H as <- <-. right. exists k0. split; [apply subobjects_spec; exact I|reflexivity].
  - intros [[-> ->]|(k0 & S & ->)]; [left; reflexivity|]. right. exists (k0, p). cbn [fst snd]. rewrite andb_true_r. split; [reflexivity|]. apply subobjects_spec. exact S.
Qed.
Lemma sub_root n k p : subobject (Class n NoBase) k p <-> k = (false, [n]) /\ p = true.
Proof. rewrite <- subobjects_spec. cbn. split; [intros [H|[]]; injection H as <- <-; auto|intros [-> ->]; auto]. Qed.
Lemma last_below n virtual k : snd k <> [] -> snd (below n virtual k) <> [] /\ last (snd (below n virtual k)) [] = last (snd k) [].
Proof. destruct k as [[|] l]; cbn [below snd]; [auto|]. intros H. destruct virtual; cbn [snd]; [auto|]. split; [discriminate|]. destruct l; [contradiction|reflexivity]. Qed.
Lemma line_in c ns : line_of c ns -> forall k p, subobject c k p -> p = true /\ snd k <> [] /\ In (last (snd k) []) ns.
Proof.
  induction 1 as [n|n virtual c ns L IH]; intros k p S.
  - apply sub_root in S. destruct S as [-> ->]. split; [reflexivity|]. split; [discriminate|apply in_eq].
  - apply sub_inv in S. destruct S as [[-> ->]|(k0 & S & ->)].
    + split; [reflexivity|]. split; [discriminate|apply in_eq].
    + destruct (IH _ _ S) as (P & N & I). destruct (last_below n virtual k0 N) as [N1 N2]. split; [exact P|]. split; [exact N1|]. rewrite N2. right. exact I.
Qed.
Lemma line_has c ns E : line_of c ns -> In E ns -> exists k, subobject c k true /\ last (snd k) [] = E.
Proof.
  induction 1 as [n|n virtual c ns L IH].
  - intros [<-|[]]. exists (false, [n]). split; [apply sub_root; auto|reflexivity].
  - intros [<-|I].
    + exists (false, [n]). split; [apply sub_inv; auto|reflexivity].
    + destruct (IH I) as (k & S & La). exists (below n virtual k). split; [apply sub_inv; right; eauto|]. destruct (line_in _ _ L _ _ S) as (_ & N & _). rewrite (proj2 (last_below n virtual k N)). exact La.
Qed.
Lemma line_one c ns : line_of c ns -> NoDup ns -> forall k p k' p', subobject c k p -> subobject c k' p' -> last (snd k) [] = last (snd k') [] -> k = k'.
Proof.
  induction 1 as [n|n virtual c ns L IH]; intros Hd k p k' p' S S' E.
  - apply sub_root in S, S'. destruct S as [-> _], S' as [-> _]. reflexivity.
  - inversion Hd as [|? ? N1 N2]; subst. apply sub_inv in S, S'. destruct S as [[-> _]|(k0 & S & ->)], S' as [[-> _]|(k0' & S' & ->)].
    + reflexivity.
    + exfalso. destruct (line_in _ _ L _ _ S') as (_ & N & I). rewrite (proj2 (last_below n virtual k0' N)) in E. cbn in E. apply N1. rewrite E. exact I.
    + exfalso. destruct (line_in _ _ L _ _ S) as (_ & N & I). rewrite (proj2 (last_below n virtual k0 N)) in E. cbn in E. apply N1. rewrite <- E. exact I.
    + destruct (line_in _ _ L _ _ S) as (_ & N & _). destruct (line_in _ _ L _ _ S') as (_ & N' & _).
      rewrite (proj2 (last_below n virtual k0 N)), (proj2 (last_below n virtual k0' N')) in E. rewrite (IH N2 _ _ _ _ S S' E). reflexivity.
Qed.
Lemma line_is_a c ns E : line_of c ns -> NoDup ns -> (is_a c E <-> In E ns).
Proof.
  intros L Hd. split.
  - intros (k & S & <- & _). apply (line_in _ _ L _ _ S).
  - intros I. destruct (line_has _ _ _ L I) as (k & S & La). exists k. split; [exact S|]. split; [exact La|]. intros k' p' S' La'. apply (line_one _ _ L Hd _ _ _ _ S' S). congruence.
Qed.
(** With single public inheritance the message names the nearest named class above (or the class itself), if named classes have the bases the standard gives them. *)
Theorem C88_nearest : forall c ns w E, line_of c ns -> NoDup ns -> standard_bases ns ->
  (handler (Thrown c w) = Some E <-> exists l1 l2, ns = l1 ++ E :: l2 /\ named E /\ forall D, In D l1 -> ~ named D).
Proof.
  assert (G : forall c ns w l1 E l2, line_of c ns -> NoDup ns -> standard_bases ns -> ns = l1 ++ E :: l2 -> named E -> (forall D, In D l1 -> ~ named D) -> handler (Thrown c w) = Some E).
  { intros c ns w l1 E l2 L Hd Hs Hn N Hl. destruct (handler (Thrown c w)) as [E'|] eqn:H.
    - destruct (C88_named_class _ _ _ H) as (N' & A' & M). apply (line_is_a c ns E' L Hd) in A'. rewrite Hn in A'. apply in_app_or in A'. destruct A' as [A'|[A'|A']].
      + contradiction (Hl _ A').
      + congruence.
      + exfalso. apply (M E N); [apply (line_is_a c ns E L Hd); rewrite Hn; apply in_elt|]. exact (Hs _ _ _ _ Hn N N' A').
    - exfalso. apply (proj1 (C88_unknown (Thrown c w)) H E N). apply (line_is_a c ns E L Hd). rewrite Hn. apply in_elt. }
  intros c ns w E L Hd Hs. split.
  - intros H. destruct (C88_named_class _ _ _ H) as (N & A & _). apply (line_is_a c ns E L Hd) in A.
    assert (F : exists D l1 l2, ns = l1 ++ D :: l2 /\ named D /\ forall D', In D' l1 -> ~ named D').
    { clear G H L Hd Hs. induction ns as [|n ns IH]; [contradiction|]. destruct (in_dec (list_eq_dec ascii_dec) n clauses) as [I|I].
      - exists n, [], ns. split; [reflexivity|]. split; [apply named_clauses; exact I|]. intros ? [].
      - destruct A as [->|A]; [exfalso; apply I, named_clauses; exact N|]. destruct (IH A) as (D & l1 & l2 & -> & N1 & N2). exists D, (n :: l1), l2. split; [reflexivity|]. split; [exact N1|].
        intros D' [<-|Hd']; [intros X; apply I, named_clauses; exact X|apply N2; exact Hd']. }
    destruct F as (D & l1 & l2 & F1 & F2 & F3). rewrite (G c ns w l1 D l2 L Hd Hs F1 F2 F3) in H. injection H as <-. eauto.
  - intros (l1 & l2 & F1 & F2 & F3). eapply G; eassumption.
Qed.
Print Assumptions C88_nearest.

(** * The driver *)
Definition text (parse other : str) (l : list msg) : str := concat (map (text_of parse other) l).
Lemma text_app parse other a b : text parse other (a ++ b) = text parse other a ++ text parse other b.
Proof. unfold text. rewrite map_app, concat_app. reflexivity. Qed.
Definition exception_class : class := Class ($"std::exception") NoBase.
Definition runtime_error_class : class := Class ($"std::runtime_error") (And true false exception_class NoBase).
(** The driver's own exceptions, as C77 prints them. *)
Theorem C88_own_exceptions : forall specs first what x parse other,
  entered specs first (Thrown runtime_error_class (Says what)) = (text_of parse other (Caught (Some what) x), true).
Proof. intros. reflexivity. Qed.
Print Assumptions C88_own_exceptions.
Lemma text_thrown specs first t parse said : entered specs first t = (said, true) -> text_of parse said (Caught None (kind_of t)) = said.
Proof.
  unfold entered, kind_of. destruct (handler t) as [E|]; [reflexivity|]. intros H. apply pair_equal_spec in H. destruct H as [<- _]. reflexivity.
Qed.
(** What a recording run writes on the standard error if its test ends with [t]. *)
Theorem C88_record_run : forall dir e f test a0 opts rest t specs first parse said, command_line e f opts rest -> input_of opts = None -> opened e f (output_of e f opts) <> None ->
  ends (test (a0 :: rest)) = Throw (kind_of t) -> entered specs first t = (said, true) ->
  text parse said (says dir e f test (a0 :: flat opts ++ rest)) = text parse said (refusals e f opts) ++ said.
Proof.
  intros dir e f test a0 opts rest t specs first parse said Hc Hi Ho He Ht. rewrite (C77_record_run dir e f test a0 opts rest Hc Hi). destruct (opened e f (output_of e f opts)) as [x|]; [|contradiction].
  rewrite He, text_app. f_equal. unfold text. cbn [map concat]. rewrite app_nil_r. exact (text_thrown _ _ _ _ _ Ht).
Qed.
Print Assumptions C88_record_run.
(** The same for a comparing run: it is the last thing it writes. *)
Theorem C88_compare_run : forall dir e f test a0 opts rest inf o f1 baseline bytes s' z t specs first parse said,
  command_line e f opts rest -> input_of opts = Some inf -> started e f (output_of e f opts) (dirs_of opts) inf = Some (o, f1, baseline) ->
  contents e f1 (baseline_path e f1 (dirs_of opts) inf) = Some bytes -> Main e test (a0 :: flat opts ++ rest) (new_test f) = (s', Ok z) -> entered specs first t = (said, true) ->
  exists ms rs x out faults ls,
    unfolds e o default_tol f1 (expected_of opts) (test (a0 :: rest)) ms rs x out /\
    reading (fst (expat (e_ext e) bytes)) faults /\ remarks dir e (dirs_of opts) baseline ms ls /\
    (out = Throw (kind_of t) -> text parse said (says dir e f test (a0 :: flat opts ++ rest)) = text parse said (refusals e f opts ++ faults ++ ls) ++ said).
Proof.
  intros dir e f test a0 opts rest inf o f1 baseline bytes s' z t specs first parse said Hc Hi Hs Hb Hm Ht.
  destruct (C77_compare_run dir e f test a0 opts rest inf o f1 baseline bytes s' z Hc Hi Hs Hb Hm) as (ms & rs & x & out & faults & ls & U & _ & _ & R & K & E).
  exists ms, rs, x, out, faults, ls. split; [exact U|]. split; [exact R|]. split; [exact K|]. intros ->. rewrite E.
  replace (refusals e f opts ++ faults ++ ls ++ [Caught None (kind_of t)]) with ((refusals e f opts ++ faults ++ ls) ++ [Caught None (kind_of t)]) by (rewrite <- !app_assoc; reflexivity).
  rewrite text_app. f_equal. unfold text. cbn [map concat]. rewrite app_nil_r. exact (text_thrown _ _ _ _ _ Ht).
Qed.
Print Assumptions C88_compare_run.
(** What is thrown makes no difference to the value returned, the files and the screen: the same test throwing something else. *)
Fixpoint throwing_instead (y : exn) (p : prog) : prog :=
  match p with
  | Return z => Return z
  | Raise _ => Raise y
  | Call c k => Call c (fun z => throwing_instead y (k z))
  | SetRelativeTolerance t k => SetRelativeTolerance t (throwing_instead y k)
  | SetExpectedReturn z k => SetExpectedReturn z (throwing_instead y k)
  | WriteFile path b k => WriteFile path b (throwing_instead y k)
  end.
Lemma instead_run e y p : forall s, fst (run e (throwing_instead y p) s) = fst (run e p s) /\
  (snd (run e (throwing_instead y p) s) = snd (run e p s) \/ exists x x', snd (run e (throwing_instead y p) s) = Throw x' /\ snd (run e p s) = Throw x).
Proof.
  induction p as [z|x|c k IH|t k IH|z k IH|path b k IH]; intros s; cbn [throwing_instead run]; unfold mbind, modify; cbv iota; auto.
  - split; [reflexivity|]. right. exists x, y. split; reflexivity.
  - destruct (Measure e c s) as [s1 [z|x| | |]]; cbv iota; auto.
Qed.
Theorem C88_same_run : forall e test y argv s, Main e (fun args => throwing_instead y (test args)) argv s = Main e test argv s.
Proof.
  intros e test y argv s. change (Main e test argv s) with (ends_with e (main_body e test argv (set_unmatched s (s_unmatched s + 1)))).
  change (Main e (fun args => throwing_instead y (test args)) argv s) with (ends_with e (main_body e (fun args => throwing_instead y (test args)) argv (set_unmatched s (s_unmatched s + 1)))).
  unfold main_body, mbind. destruct (ParseAndRemoveArguments e _ argv _) as [s2 [[argc l]|i| | |]]; auto. destruct (BeginMeasurement e s2) as [s3 [[]|i| | |]]; auto.
  destruct (instead_run e y (test (firstn argc l)) s3) as [F R]. destruct (run e (throwing_instead y _) s3) as [s4 r4], (run e (test (firstn argc l)) s3) as [s5 r5]. cbn [fst snd] in F, R. subst s5.
  destruct R as [->|(x & x' & -> & ->)]; reflexivity.
Qed.
Print Assumptions C88_same_run.

(** * Exceptions that are called unknown *)
Lemma fresh_unnamed n : ~ named n -> n <> $"std::exception".
Proof. intros H ->. apply H. left. reflexivity. Qed.
(** A class with two bases each of which is publicly derived from std::exception in the usual way is publicly a std::exception, even twice, and is called unknown; with virtual bases it is not. *)
Definition twice (virtual : bool) (n a b : str) : class :=
  Class n (And true false (Class a (And true virtual exception_class NoBase)) (And true false (Class b (And true virtual exception_class NoBase)) NoBase)).
Theorem C88_ambiguous_refuted : forall n a b w, ~ named n -> ~ named a -> ~ named b -> a <> b ->
  (exists k, subobject (twice false n a b) k true /\ last (snd k) [] = $"std::exception") /\
  handler (Thrown (twice false n a b) w) = None /\ handler (Thrown (twice true n a b) w) = Some ($"std::exception").
Proof.
  intros n a b w Hn Ha Hb Hab.
  assert (K : forall k, In k [(false, [n; a; $"std::exception"]); (false, [n; b; $"std::exception"])] -> subobject (twice false n a b) k true).
  { intros k I. apply subobjects_spec. cbn. destruct I as [<-|[<-|[]]]; auto 8. }
  split; [|split].
  - exists (false, [n; a; $"std::exception"]). split; [apply K, in_eq|reflexivity].
  - apply C88_unknown. intros E N (k & S & L & U).
    assert (E1 : E = $"std::exception").
    { apply subobjects_spec in S. cbn in S. repeat destruct S as [S|S]; try contradiction; apply pair_equal_spec in S; destruct S as [<- _]; cbn in L; first [symmetry; exact L|subst E; contradiction]. }
    pose proof (U _ _ (K _ (in_eq _ _)) (eq_sym E1)) as U1. pose proof (U _ _ (K _ (in_cons _ _ _ (in_eq _ _))) (eq_sym E1)) as U2.
    rewrite <- U1 in U2. injection U2 as U2. apply Hab. symmetry. exact U2.
  - assert (I : is_a (twice true n a b) ($"std::exception")).
    { exists (true, [$"std::exception"]). split; [apply subobjects_spec; cbn; auto 8|]. split; [reflexivity|]. intros k p S L.
      apply subobjects_spec in S. cbn in S. repeat destruct S as [S|S]; try contradiction; apply pair_equal_spec in S; destruct S as [<- _]; cbn in L; try reflexivity; exfalso; subst; match goal with H : ~ named _ |- _ => solve [apply H; left; reflexivity] end. }
    destruct (handler (Thrown (twice true n a b) w)) as [E|] eqn:H.
    + destruct (C88_named_class _ _ _ H) as (N & (k & S & L & U) & M). f_equal. apply subobjects_spec in S. cbn in S.
      repeat destruct S as [S|S]; try contradiction; apply pair_equal_spec in S; destruct S as [<- _]; cbn in L; first [symmetry; exact L|subst E; contradiction].
    + exfalso. exact (proj1 (C88_unknown _) H _ (or_introl eq_refl) I).
Qed.
Print Assumptions C88_ambiguous_refuted.
(** Private inheritance hides the base. *)
Theorem C88_private_refuted : forall n virtual w, ~ named n -> handler (Thrown (Class n (And false virtual runtime_error_class NoBase)) w) = None.
Proof.
  intros n virtual w Hn. apply C88_unknown. intros E N (k & S & L & _). apply subobjects_spec in S. cbn in S.
  repeat destruct S as [S|S]; try contradiction; try discriminate S; apply pair_equal_spec in S; destruct S as [<- S]; try discriminate S; cbn in L; subst E; contradiction.
Qed.
Print Assumptions C88_private_refuted.
(** An exception whose what() fails ends the process: no value is returned.  Its name is no protection: the handler is entered all the same. *)
Theorem C88_failing_what : forall specs first c, (handler (Thrown c Fails) = None -> entered specs first (Thrown c Fails) = ($"unknow exception" ++ [nl], true)) /\
  (forall E, handler (Thrown c Fails) = Some E -> snd (entered specs first (Thrown c Fails)) = false /\
     exists before, fst (entered specs first (Thrown c Fails)) = before ++ $"terminated!" ++ [nl] /\ (before = (if first then E ++ $": " ++ [chr 34] else []) ++ (if specs then $"unexpected error!" ++ [nl] else []))).
Proof.
  intros specs first c. unfold entered. split; [intros ->; reflexivity|]. intros E ->. cbv iota. cbn [fst snd]. split; [reflexivity|]. eexists. split; [|reflexivity]. rewrite <- app_assoc. reflexivity.
Qed.
Print Assumptions C88_failing_what.

(** * Cases: classes of the standard library, and a class of a test *)
Definition line_up (ns : list str) (root : str) : class := fold_right (fun n c => Class n (And true false c NoBase)) (Class root NoBase) ns.
Example C88_library :
  map (fun ns => handler (Thrown (line_up ns ($"std::exception")) (Says ($"text"))))
    [[$"std::length_error"; $"std::logic_error"]; [$"std::bad_array_new_length"; $"std::bad_alloc"]; [$"std::bad_typeid"]; [$"std::ios_base::failure"];
     [$"std::ios_base::failure"; $"std::system_error"; $"std::runtime_error"]; [$"std::future_error"; $"std::logic_error"]; [$"my::error"; $"std::overflow_error"; $"std::runtime_error"]] =
  map Some [$"std::length_error"; $"std::bad_alloc"; $"std::exception"; $"std::exception"; $"std::runtime_error"; $"std::logic_error"; $"std::overflow_error"].
Proof. vm_compute. reflexivity. Qed.
Local Notation my_names := [$"my::error"; $"std::overflow_error"; $"std::runtime_error"; $"std::exception"].
Local Notation my_class := (line_up [$"my::error"; $"std::overflow_error"; $"std::runtime_error"] ($"std::exception")).
Lemma not_named n : existsb (eqs n) clauses = false -> ~ named n.
Proof. intros H N. apply named_clauses in N. enough (existsb (eqs n) clauses = true) as K by (rewrite K in H; discriminate). apply existsb_exists. exists n. split; [exact N|apply eqs_refl]. Qed.
Lemma my_standard : standard_bases my_names.
Proof.
  intros [|x1 [|x2 [|x3 [|x4 [|x5 l1]]]]] E l2 D H N ND I; cbn [app] in H; try (injection H; intros; subst); try discriminate.
  - contradict N. exact (not_named ($"my::error") eq_refl).
  - destruct I as [<-|[<-|[]]]; [apply t_step; constructor|eapply t_trans; apply t_step; constructor].
  - destruct I as [<-|[]]. apply t_step. constructor.
  - destruct I.
Qed.
Example C88_nearest_met := C88_nearest my_class my_names (Says ($"text")) ($"std::overflow_error")
  (lo_derived _ _ _ _ (lo_derived _ _ _ _ (lo_derived _ _ _ _ (lo_root _)))) ltac:(repeat constructor; cbn; intuition discriminate) my_standard.
Example C88_named_class_met := C88_named_class my_class (Says ($"text")) ($"std::overflow_error") eq_refl.
Example C88_ambiguous_met := C88_ambiguous_refuted ($"both") ($"one") ($"other") (Says []) (not_named ($"both") eq_refl) (not_named ($"one") eq_refl) (not_named ($"other") eq_refl) ltac:(discriminate).
Example C88_private_met := C88_private_refuted ($"mine") false (Says []) (not_named ($"mine") eq_refl).
Example C88_failing_met : entered true true (Thrown my_class Fails) = ($"std::overflow_error: " ++ [chr 34] ++ $"unexpected error!" ++ [nl] ++ $"terminated!" ++ [nl], false).
Proof. vm_compute. reflexivity. Qed.
Local Notation new_opts := [($"-O", $"ro.xml"); ($"-O", $"new.xml")].
Example C88_record_met := C88_record_run false ex_env (c77_files c77_doc) c77_test ($"prog") new_opts [] Value true true [] ($"unknow exception" ++ [nl])
  ltac:(split; [repeat constructor; cbn; intuition discriminate|exact Logic.I]) eq_refl ltac:(vm_compute; discriminate) eq_refl eq_refl.
Example C88_record_case : forall specs first parse, text parse ($"std::overflow_error: " ++ [chr 34] ++ $"text" ++ [chr 34] ++ [nl])
    (says false ex_env (c77_files c77_doc) (fun args => throwing_instead (kind_of (Thrown my_class (Says ($"text")))) (c77_test args)) [$"prog"; $"-O"; $"new.xml"]) =
  fst (entered specs first (Thrown my_class (Says ($"text")))).
Proof. intros. vm_compute. reflexivity. Qed.
Example C88_compare_met : exists baseline s' ms rs x out faults ls,
  started ex_env (c77_files c77_doc) (output_of ex_env (c77_files c77_doc) c77_opts) (dirs_of c77_opts) ($"b.xml") = Some (None, c77_files c77_doc, baseline) /\
  Main ex_env c77_test ($"prog" :: flat c77_opts ++ []) (new_test (c77_files c77_doc)) = (s', Ok (-1)%Z) /\
  unfolds ex_env None default_tol (c77_files c77_doc) (expected_of c77_opts) (c77_test [$"prog"]) ms rs x out /\
  (out = Throw (kind_of Value) -> text [] ($"unknow exception" ++ [nl]) (says false ex_env (c77_files c77_doc) c77_test ($"prog" :: flat c77_opts ++ [])) =
    text [] ($"unknow exception" ++ [nl]) (refusals ex_env (c77_files c77_doc) c77_opts ++ faults ++ ls) ++ $"unknow exception" ++ [nl]).
Proof.
  destruct C77_hyps as ((Hc & Hi) & (baseline & Hs & _) & Hb & Hm).
  destruct (Main ex_env c77_test ($"prog" :: flat c77_opts ++ []) (new_test (c77_files c77_doc))) as [s' r] eqn:M. cbn [snd] in Hm. subst r.
  destruct (C88_compare_run false ex_env (c77_files c77_doc) c77_test ($"prog") c77_opts [] ($"b.xml") None (c77_files c77_doc) baseline c77_doc s' (-1)%Z Value true true [] ($"unknow exception" ++ [nl]) Hc Hi Hs Hb M eq_refl)
    as (ms & rs & x & out & faults & ls & U & _ & _ & E).
  exists baseline, s', ms, rs, x, out, faults, ls. split; [exact Hs|]. split; [reflexivity|]. split; [exact U|]. exact E.
Qed.
Example C88_compare_case : text [] ($"unknow exception" ++ [nl]) (List.skipn 9 (says false ex_env (c77_files c77_doc) c77_test ($"prog" :: flat c77_opts ++ []))) = $"unknow exception" ++ [nl].
Proof. vm_compute. reflexivity. Qed.

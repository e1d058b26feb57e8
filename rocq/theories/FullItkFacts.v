(** Runs of tests on the ITK driver that use the whole protected interface. *)
From Coq Require Import Floats.SpecFloat.
From Verif Require Import Base Str Dec PathModel PathFacts MeasModel MeasFacts DiffModel VisitModel XmlModel ReadModel ReadFacts ReadBack NoThrow RegModel ArgFacts ArgProps RegSpec RegFacts RegStart RegMain RegProps RegProps2 LineSpec LineProps ReportSpec ReportProps ImgModel ItkModel ItkSim ItkMain ItkRunProps ApiModel ApiSpec ApiFacts ApiRun FullModel FullSpec FullFacts ItkTellProps FullItkModel FullItkSpec.
Import RegModel ItkModel FullSpec.
Local Open Scope Z_scope.

(** * The input stream is not looked at *)
Definition blind {A} (m : M A) : Prop := forall s k, m (set_is s k) = (set_is (fst (m s)) k, snd (m s)).
Lemma blind_bind {A B} (m : M A) (k : A -> M B) : blind m -> (forall a, blind (k a)) -> blind (mbind m k).
Proof. intros Hm Hk s i. unfold mbind. rewrite (Hm s i). destruct (m s) as [s1 [a|x| | |]]; cbn [fst snd]; try reflexivity. apply Hk. Qed.
Lemma blind_ret {A} (a : A) : blind (mret a). Proof. intros s k. reflexivity. Qed.
Lemma blind_lift {A} (r : res A) : blind (mlift r). Proof. intros s k. reflexivity. Qed.
Lemma blind_gets {A} (g : rst -> A) : (forall s k, g (set_is s k) = g s) -> blind (gets g). Proof. intros H s k. unfold gets. rewrite H. reflexivity. Qed.
Lemma blind_pure {A} (g : rst -> res A) : (forall s k, g (set_is s k) = g s) -> blind (fun s => (s, g s)). Proof. intros H s k. rewrite H. reflexivity. Qed.
Lemma blind_modify g : (forall s k, g (set_is s k) = set_is (g s) k) -> blind (modify g). Proof. intros H s k. unfold modify. rewrite H. reflexivity. Qed.
Lemma blind_put t : blind (put t).
Proof. apply blind_modify. intros s k. unfold put_text. cbn [set_is s_os s_files]. destruct (s_os s) as [i|]; [|reflexivity]. destruct (s_files s i) as [[r w b|r w x]|]; reflexivity. Qed.
Lemma blind_put_meas m : blind (put_meas m).
Proof. intros s k. rewrite !put_meas_eq. exact (blind_put (print_of m ++ [nl]) s k). Qed.
Lemma blind_say t : blind (say t). Proof. intros s k. reflexivity. Qed.
Lemma blind_say_meas m : blind (say_meas m).
Proof. apply blind_bind; [apply blind_lift|]. intros t. apply blind_say. Qed.
Ltac blinds := repeat first
  [ apply blind_ret | apply blind_lift | apply blind_gets; reflexivity | apply blind_pure; reflexivity | apply blind_put | apply blind_put_meas | apply blind_say | apply blind_say_meas | apply blind_modify; reflexivity
  | apply blind_bind; [|intros ?] | match goal with |- blind (match ?x with _ => _ end) => destruct x | |- blind (if ?x then _ else _) => destruct x | |- blind (let _ := _ in _) => cbv zeta end ].
Lemma blind_report b m1 m2 : blind (report b m1 m2). Proof. unfold report. blinds. Qed.
Lemma blind_thing ie im f n : blind (ImageThing ie im f n). Proof. unfold ImageThing. blinds. Qed.
Lemma blind_pictures ie tol b m : blind (DifferenceTestImage ie tol b m).
Proof. unfold DifferenceTestImage. repeat first [apply blind_report|apply blind_thing|progress blinds]. Qed.
Lemma blind_itk_Compare ie tol c b m : blind (itk_Compare ie tol c b m). Proof. unfold itk_Compare. blinds. Qed.
Lemma blind_itk_compare ie tol m t : blind (itk_CompareMeasurement ie tol m t).
Proof.
  unfold itk_CompareMeasurement, itk_Difference, DifferenceMeasurement, UnmatchedMeasurement. repeat first [apply blind_itk_Compare|apply blind_pictures|apply blind_report|progress blinds].
Qed.

(** * Image reports end *)
Definition proper {A} (m : M A) : Prop := forall s, (exists v, snd (m s) = Ok v) \/ (exists x, snd (m s) = Throw x).
Lemma proper_bind {A B} (m : M A) (k : A -> M B) : proper m -> (forall a, proper (k a)) -> proper (mbind m k).
Proof. intros Hm Hk s. unfold mbind. destruct (Hm s) as [[v E]|[x E]]; destruct (m s) as [s1 r]; cbn [snd] in E; subst r; [apply Hk|right; exists x; reflexivity]. Qed.
Lemma proper_ok {A} (m : M A) : (forall s, exists s' v, m s = (s', Ok v)) -> proper m.
Proof. intros H s. destruct (H s) as (s' & v & ->). left. exists v. reflexivity. Qed.
Lemma proper_throw {A} x : proper (mlift (Throw x) : M A). Proof. intros s. right. exists x. reflexivity. Qed.
Lemma proper_say_meas m : proper (say_meas m).
Proof. apply proper_ok. intros s. rewrite say_meas_eq. do 2 eexists. reflexivity. Qed.
Lemma proper_append d f : proper (mlift (Append d f)).
Proof. destruct (append_ok d f) as [r E]. rewrite E. apply proper_ok. intros s. do 2 eexists. reflexivity. Qed.
Ltac propers := repeat first
  [ apply proper_say_meas | apply proper_append | apply proper_throw | apply proper_ok; intros ?; do 2 eexists; reflexivity
  | apply proper_bind; [|intros ?] | match goal with |- proper (match ?x with _ => _ end) => destruct x | |- proper (if ?x then _ else _) => destruct x | |- proper (let _ := _ in _) => cbv zeta end ].
Lemma proper_thing ie im f n : proper (ImageThing ie im f n). Proof. unfold ImageThing. propers. Qed.
Lemma proper_report b m1 m2 : proper (report b m1 m2). Proof. unfold report. propers. Qed.
Lemma proper_pictures ie tol b m : proper (DifferenceTestImage ie tol b m).
Proof. unfold DifferenceTestImage. repeat first [apply proper_report|apply proper_thing|progress propers]. Qed.

(** * Comparing *)
(** a baseline measurement used up, [n] mismatches, [c] printed, the files [f] *)
Definition step_by (c : piece) (f : store) (n : Z) (s : rst) : rst :=
  set_files (set_stdout (set_unmatched (set_input s (tl (s_input s))) (s_unmatched s + n)) (s_stdout s ++ on_stdout (s_os s) [c])) f.
Lemma same_rst s s' : s_files s' = s_files s -> s_stdout s' = s_stdout s -> s_input s' = s_input s -> s_unmatched s' = s_unmatched s -> s_tol s' = s_tol s -> s_expected s' = s_expected s -> frame s s' -> s' = s.
Proof. destruct s, s'. unfold frame. cbn. intuition subst. reflexivity. Qed.
Lemma is_object m b : image_object m = true -> same_kind b m = true -> exists name esc file name' esc' file', m = MF (Mf name esc itk_type file) /\ b = MF (Mf name' esc' itk_type file').
Proof.
  destruct m as [d|[name esc t file]]; [discriminate|]. cbn [image_object ftype]. intros T K. apply eqs_true in T. subst t. unfold same_kind in K. apply andb_true_iff in K. destruct K as [_ K]. apply eqs_true in K.
  destruct b as [d|[name' esc' t' file']]; [exfalso; cbn in K; destruct (dcls d); discriminate K|]. cbn in K. subst t'. exists name, esc, file, name', esc', file'. split; reflexivity.
Qed.
Lemma image_call ie tol name esc file tolerant b rest s : s_input s = b :: rest -> same_kind b (MF (Mf name esc itk_type file)) = true ->
  exists g, found (i_env ie) (s_path s) (s_files s) b (MF (Mf name true itk_type file)) = MF g /\ let m := Mf name true itk_type file in
    let s1 := set_stdout (set_input s rest) (s_stdout s ++ comparing_line (ffile g) file) in
    itk_CompareMeasurement ie tol (MF (Mf name esc itk_type file)) tolerant s =
    match image_verdict (i_diff ie) (read_image ie (s_files s)) tol g m with
    | Ok true => (s1, Ok 1) | Ok false => (_ <- DifferenceTestImage ie tol g m ;; mret 0) (set_unmatched s1 (s_unmatched s + 1))
    | Throw x => (s1, Throw x) | UB => (s1, UB) | Abort => (s1, Abort) | Hang => (s1, Hang)
    end.
Proof.
  intros Hin K. destruct (is_object (MF (Mf name esc itk_type file)) b eq_refl K) as (n1 & x1 & f1 & n2 & x2 & f2 & _ & Eb).
  assert (Ff : exists g, found (i_env ie) (s_path s) (s_files s) b (MF (Mf name esc itk_type file)) = MF g /\ found (i_env ie) (s_path s) (s_files s) b (MF (Mf name true itk_type file)) = MF g).
  { subst b. unfold found. destruct (SearchPathList _ _ _) as [[|c p]| | | |]; eexists; split; reflexivity. }
  destruct Ff as (g & F1 & F2). exists g. split; [exact F2|]. cbv zeta.
  unfold itk_CompareMeasurement. unfold mbind at 1. unfold gets at 1. rewrite Hin. unfold mbind at 1. unfold modify at 1. cbv iota.
  change (eqs (mname b) (mname (MF (Mf name esc itk_type file))) && eqs (mtype b) (mtype (MF (Mf name esc itk_type file)))) with (same_kind b (MF (Mf name esc itk_type file))). rewrite K.
  unfold mbind at 1. rewrite locate_found. cbv iota. change (s_path (set_input s rest)) with (s_path s). change (s_files (set_input s rest)) with (s_files s). rewrite F1.
  unfold mbind at 1. unfold gets at 1. cbv iota. unfold mbind at 1. unfold itk_Compare. change (eqs (ftype (Mf name esc itk_type file)) itk_type) with true. cbv iota.
  unfold mbind at 1. rewrite say_eq. unfold mbind at 1. unfold gets at 1. cbn [s_files set_stdout set_input].
  change (image_verdict (i_diff ie) (read_image ie (s_files s)) tol g (Mf name esc itk_type file)) with (image_verdict (i_diff ie) (read_image ie (s_files s)) tol g (Mf name true itk_type file)).
  unfold mbind at 1, mlift, mret at 1. destruct (image_verdict _ _ _ _ _) as [[|]|x| | |]; try reflexivity.
Qed.
Lemma as_image ie tol name esc file tolerant b rest s : s_input s = b :: rest -> same_kind b (MF (Mf name esc itk_type file)) = true ->
  let s0 := set_is s (Some []) in
  itk_CompareMeasurement ie tol (MF (Mf name esc itk_type file)) tolerant s = (set_is (fst (MeasurementInsightFileImage ie tol file name s0)) (s_is s), snd (MeasurementInsightFileImage ie tol file name s0)).
Proof.
  intros Hin K s0.
  assert (E : itk_CompareMeasurement ie tol (MF (Mf name esc itk_type file)) tolerant s = itk_CompareMeasurement ie tol (MF (Mf name true itk_type file)) false s).
  { destruct (image_call ie tol name esc file tolerant b rest s Hin K) as (g & Fg & ->). destruct (image_call ie tol name true file false b rest s Hin K) as (g' & Fg' & ->). rewrite Fg in Fg'. injection Fg' as <-. reflexivity. }
  rewrite E. replace s with (set_is s0 (s_is s)) at 1 by (destruct s; reflexivity). rewrite (blind_itk_compare ie tol _ false s0 (s_is s)).
  assert (Em : MeasurementInsightFileImage ie tol file name s0 = itk_CompareMeasurement ie tol (MF (Mf name true itk_type file)) false s0).
  { unfold MeasurementInsightFileImage, GetCompareMode. unfold mbind at 1. rewrite (compare_mode_open (i_env ie) s0 [] eq_refl). reflexivity. }
  rewrite Em. reflexivity.
Qed.
(** what an image comparison does *)
Lemma image_step ie tol name esc file tolerant b rest s s' r : s_input s = b :: rest -> same_kind b (MF (Mf name esc itk_type file)) = true ->
  itk_CompareMeasurement ie tol (MF (Mf name esc itk_type file)) tolerant s = (s', r) -> ended r ->
  exists c f n, image_told ie (s_path s) (s_os s) tol (s_files s) file name (Some b) c f n r /\ s' = step_by c f n s.
Proof.
  intros Hin K H Ho. rewrite (as_image _ _ _ _ _ _ _ _ _ Hin K) in H. destruct (MeasurementInsightFileImage ie tol file name (set_is s (Some []))) as [s1 r1] eqn:E. cbn [fst snd] in H.
  apply pair_equal_spec in H. destruct H as [<- <-]. destruct (image_tells ie tol file name (set_is s (Some [])) s1 r1 [] eq_refl E Ho) as (c & f & n & T & Fs & So & U & I & F & Tl & X).
  cbn [set_is s_path s_os s_files s_input s_stdout s_unmatched s_tol s_expected] in *. rewrite Hin in T. cbn [hd_error] in T. exists c, f, n. split; [exact T|].
  destruct F as (F1 & F2 & F3 & F4 & F5). apply same_rst; cbn; try assumption; repeat split; assumption.
Qed.
Lemma image_ends ie dirs o tol s file name b c f n x esc tolerant rest : dirs = s_path s -> s_input s = b :: rest -> same_kind b (MF (Mf name esc itk_type file)) = true ->
  image_told ie dirs o tol (s_files s) file name (Some b) c f n x -> ended (snd (itk_CompareMeasurement ie tol (MF (Mf name esc itk_type file)) tolerant s)).
Proof.
  intros -> Hin K T. destruct (image_call ie tol name esc file tolerant b rest s Hin K) as (g & Fg & E). cbv zeta in E. rewrite E. clear E.
  assert (V : (exists v, image_verdict (i_diff ie) (read_image ie (s_files s)) tol g (Mf name true itk_type file) = Ok v) \/ (exists i, image_verdict (i_diff ie) (read_image ie (s_files s)) tol g (Mf name true itk_type file) = Throw i)).
  { unfold same_kind in K. apply andb_true_iff in K. destruct K as [K1 K2]. apply eqs_true in K1, K2.
    inversion T; subst; match goal with A : forall b', Some b = Some b' -> _ |- _ => destruct (A b eq_refl) as [N|N]; contradiction N; assumption | A : found _ _ _ _ _ = MF ?h |- _ => rewrite Fg in A; injection A as <-; eauto end. }
  destruct V as [[[|] V]|[i V]]; rewrite V; [left; eexists; reflexivity| |right; eexists; reflexivity].
  unfold mbind. destruct (proper_pictures ie tol g (Mf name true itk_type file) (set_unmatched (set_stdout (set_input s rest) (s_stdout s ++ comparing_line (ffile g) file)) (s_unmatched s + 1))) as [[v E]|[v E]];
    destruct (DifferenceTestImage _ _ _ _ _) as [s2 r2]; cbn [snd] in E; subst r2; [left|right]; eexists; reflexivity.
Qed.
(** everything else is compared as by the base class *)
Lemma no_image ie tol m tolerant s : (image_object m = true -> forall b, hd_error (s_input s) = Some b -> same_kind b m = false) ->
  itk_CompareMeasurement ie tol m tolerant s = CompareMeasurement (i_env ie) m tolerant s /\ itk_object_after (i_env ie) s m tolerant = object_after (i_env ie) s m tolerant.
Proof.
  intros H. destruct (image_object m) eqn:Eo.
  - specialize (H eq_refl). unfold itk_CompareMeasurement, CompareMeasurement, itk_object_after. unfold mbind, gets, modify. destruct (s_input s) as [|b rest]; [split; reflexivity|].
    specialize (H b eq_refl). unfold same_kind in H. rewrite H. split; reflexivity.
  - split; [apply itk_compare_base; destruct m; [exact I|exact Eo]|]. unfold itk_object_after. destruct (s_input s); [reflexivity|]. rewrite Eo, andb_false_r. reflexivity.
Qed.
Lemma step_plain text n s : print_text text (set_unmatched (set_input s (tl (s_input s))) (s_unmatched s + n)) = step_by (Out, text) (appended (s_os s) text (s_files s)) n s.
Proof.
  set (s0 := set_unmatched (set_input s (tl (s_input s))) (s_unmatched s + n)). destruct (print_text_spec text s0) as (A & B & C & D & E & F).
  apply same_rst; cbn; try assumption.
  - exact (f_equal at_files A).
  - rewrite F. unfold on_stdout. cbn. rewrite app_nil_r. reflexivity.
  - exact (f_equal at_tol A).
  - exact (f_equal at_expected A).
  - repeat split; cbn; try assumption; [exact (f_equal at_in A)|exact (f_equal at_out A)|exact (f_equal at_dirs A)].
Qed.
Lemma answer_ended r a : answer r = Some a -> ended r /\ answers r a.
Proof. destruct r as [z|x| | |]; intros H; try discriminate H; injection H as <-; split; try reflexivity; [left|right]; eauto. Qed.
Lemma object_kept e s b rest m tolerant : s_input s = b :: rest -> same_kind b m = true -> image_object m = true -> itk_object_after e s m tolerant = m.
Proof. intros Hin K O. unfold itk_object_after. rewrite Hin. unfold same_kind in K. rewrite K, O. reflexivity. Qed.
Lemma compare_weighed ie tol m tolerant s s' r a : itk_CompareMeasurement ie tol m tolerant s = (s', r) -> answer r = Some a ->
  exists n c f, weighed ie tol (s_os s) (at_of s) (hd_error (s_input s)) m tolerant a n c f (itk_object_after (i_env ie) s m tolerant) /\ s' = step_by c f n s.
Proof.
  intros H Ha. destruct (answer_ended _ _ Ha) as [Ho Hr].
  assert (D : (image_object m = true /\ exists b rest, s_input s = b :: rest /\ same_kind b m = true) \/ (image_object m = true -> forall b, hd_error (s_input s) = Some b -> same_kind b m = false)).
  { destruct (image_object m); [|right; discriminate]. destruct (s_input s) as [|b rest]; [right; discriminate|]. destruct (same_kind b m) eqn:K; [left; eauto 6|right]. intros _ b0 E. injection E as <-. exact K. }
  destruct D as [(O & b & rest & Hin & K)|N].
  - rewrite (object_kept _ _ _ _ _ _ Hin K O). destruct (is_object m b O K) as (name & esc & file & n2 & x2 & f2 & -> & _).
    destruct (image_step _ _ _ _ _ _ _ _ _ _ _ Hin K H Ho) as (c & f & n & T & E). exists n, c, f. split; [|exact E]. rewrite Hin. cbn [hd_error].
    eapply weighed_image; [exact K|exact T|exact Hr].
  - destruct (no_image ie tol m tolerant s N) as [E1 E2]. rewrite E1 in H. rewrite E2. destruct (compare_judged _ _ _ _ _ _ _ H Ha) as (n & text & J & ->). exists n, (Out, text), (appended (s_os s) text (s_files s)).
    split; [|apply step_plain]. apply (weighed_other ie tol (s_os s) (at_of s)); assumption.
Qed.
Lemma weighed_compare ie tol m tolerant s r n c f after : weighed ie tol (s_os s) (at_of s) (hd_error (s_input s)) m tolerant r n c f after ->
  caught (itk_CompareMeasurement ie tol m tolerant) s = (step_by c f n s, Ok r) /\ after = itk_object_after (i_env ie) s m tolerant.
Proof.
  intros W. inversion W as [p m0 tl0 r0 n0 text aft N J E1 E2 E3 E4 E5 E6 E7|b name esc file tl0 x r0 n0 c0 f0 m0 K T A E1 E2 E3 E4 E5 E6 E7]; subst.
  - destruct (no_image ie tol m tolerant s N) as [F1 F2]. rewrite F2. destruct (judged_compare _ _ _ _ _ _ _ _ J) as [C ->]. split; [|reflexivity]. unfold caught in *. rewrite F1. rewrite C, step_plain. reflexivity.
  - subst m0. destruct (s_input s) as [|b' rest] eqn:Hin; [discriminate E1|]. injection E1 as ->.
    split; [|symmetry; eapply object_kept; [exact Hin|exact K|reflexivity]].
    pose proof (image_ends ie _ _ _ s _ _ _ _ _ _ _ esc tolerant rest eq_refl Hin K T) as Ho. unfold caught.
    destruct (itk_CompareMeasurement ie tol (MF (Mf name esc itk_type file)) tolerant s) as [s' r'] eqn:E. cbn [snd] in Ho.
    destruct (image_step _ _ _ _ _ _ _ _ _ _ _ Hin K E Ho) as (c' & f' & n' & T' & ->). destruct (C83_image_determined _ _ _ _ _ _ _ _ _ _ _ _ _ _ _ _ T T') as (-> & -> & -> & ->).
    destruct r as [z|i]; cbn [answers] in A; subst r'; reflexivity.
Qed.
Lemma weighed_det ie tol o a p m tolerant r n c f after r' n' c' f' after' :
  weighed ie tol o a p m tolerant r n c f after -> weighed ie tol o a p m tolerant r' n' c' f' after' -> r = r' /\ n = n' /\ c = c' /\ f = f' /\ after = after'.
Proof.
  intros W W'. inversion W as [p1 m1 t1 r1 n1 x1 a1 N J|b1 name esc file t1 x r1 n1 c1 f1 m1 K T A]; subst; inversion W' as [p2 m2 t2 r2 n2 x2 a2 N' J'|b2 name' esc' file' t2 x' r2 n2 c2 f2 m2 K' T' A']; subst.
  - destruct (judged_det _ _ _ _ _ _ _ _ _ _ _ _ _ J J') as (-> & -> & -> & ->). auto.
  - exfalso. subst m2. rewrite (N eq_refl b2 eq_refl) in K'. discriminate.
  - exfalso. subst m1. rewrite (N' eq_refl b1 eq_refl) in K. discriminate.
  - destruct (C83_image_determined _ _ _ _ _ _ _ _ _ _ _ _ _ _ _ _ T T') as (-> & -> & -> & E). subst x'. destruct r, r'; cbn [answers] in *; subst; try discriminate; try (injection A' as <-); repeat split; reflexivity.
Qed.

(** * A test *)
Lemma itk_measure_at ie tol c s : itk_Measure ie tol c s =
  if comparing (i_env ie) (is_open s) (at_of s) then itk_CompareMeasurement ie tol (meas_of (e_io (i_env ie)) true c) (tolerant_of c) s
  else (print_text (print_of (meas_of (e_io (i_env ie)) false c) ++ [nl]) s, Ok 0%Z).
Proof.
  unfold itk_Measure, GetCompareMode. unfold mbind at 1. rewrite mode_at. destruct (comparing (i_env ie) (is_open s) (at_of s)); [reflexivity|].
  unfold mbind, mret. rewrite put_meas_eq. rewrite print_text_full; [reflexivity|].
  unfold print_of. destruct (meas_of (e_io (i_env ie)) false c); cbn; discriminate.
Qed.
Lemma itk_image_at ie tol file name s : MeasurementInsightFileImage ie tol file name s =
  if comparing (i_env ie) (is_open s) (at_of s) then itk_CompareMeasurement ie tol (MF (Mf name true itk_type file)) false s
  else (print_text (element FILE name itk_type (Tail file) ++ [nl]) s, Ok 0%Z).
Proof.
  unfold MeasurementInsightFileImage, GetCompareMode. unfold mbind at 1. rewrite mode_at. destruct (comparing (i_env ie) (is_open s) (at_of s)); [reflexivity|].
  unfold mbind, mret. rewrite put_meas_eq, print_file. rewrite print_text_full; [reflexivity|]. unfold element. discriminate.
Qed.
(** between two calls *)
Definition between (s s1 : rst) (a : situation) (bs : list meas) (n : Z) (w : list piece) : Prop :=
  at_of s1 = a /\ s_input s1 = bs /\ s_unmatched s1 = s_unmatched s + n /\ s_stdout s1 = s_stdout s ++ on_stdout (s_os s) w /\ s_os s1 = s_os s /\ s_is s1 = s_is s.
Lemma on_stdout_app o (a b : list piece) : on_stdout o (a ++ b) = on_stdout o a ++ on_stdout o b.
Proof. unfold on_stdout. apply flat_map_app. Qed.
Lemma between_print text s : between s (print_text text s) (wrote (s_os s) text (at_of s)) (s_input s) 0 [(Out, text)].
Proof.
  destruct (print_text_spec text s) as (A & B & C & D & E & F). repeat split; try assumption; [lia|]. rewrite F. unfold on_stdout. cbn. rewrite app_nil_r. reflexivity.
Qed.
Lemma between_say text s s1 : say text s = (s1, Ok tt) -> between s s1 (at_of s) (s_input s) 0 [(Std, text)].
Proof.
  rewrite say_eq. intros H. apply pair_equal_spec in H. destruct H as [<- _]. repeat split; [cbn; lia|]. unfold on_stdout. cbn. rewrite app_nil_r. reflexivity.
Qed.
Lemma between_step c f n s : between s (step_by c f n s) (moved f (at_of s)) (tl (s_input s)) n [c].
Proof. repeat split. Qed.
Lemma between_same s s1 a : at_of s1 = a -> s_input s1 = s_input s -> s_unmatched s1 = s_unmatched s -> s_stdout s1 = s_stdout s -> s_os s1 = s_os s -> s_is s1 = s_is s -> between s s1 a (s_input s) 0 [].
Proof. intros A B C D E F. repeat split; try assumption; [lia|]. rewrite D. cbn. rewrite app_nil_r. reflexivity. Qed.
(** a test from a state *)
Definition ran ie args (p : xprog) tol count (s s' : rst) out : Prop := exists n l,
  does ie args (s_os s) (is_open s) tol count (at_of s) p (s_input s) n l (at_of s') out /\
  s_unmatched s' = s_unmatched s + n /\ s_stdout s' = s_stdout s ++ on_stdout (s_os s) l /\ s_os s' = s_os s /\ s_is s' = s_is s.
Lemma ran_step ie args p tol count s s1 s' a bs n1 w out : between s s1 a bs n1 w -> ran ie args p tol count s1 s' out ->
  exists n l, does ie args (s_os s) (is_open s) tol count a p bs n l (at_of s') out /\
    s_unmatched s' = s_unmatched s + (n1 + n) /\ s_stdout s' = s_stdout s ++ on_stdout (s_os s) (w ++ l) /\ s_os s' = s_os s /\ s_is s' = s_is s.
Proof.
  intros (A & B & U & X & O & I) (n & l & D & U2 & X2 & O2 & I2). unfold is_open in D. rewrite A, B, O, I in D. exists n, l. split; [exact D|]. split; [lia|]. split; [|split; congruence].
  rewrite X2, X, O, on_stdout_app, app_assoc. reflexivity.
Qed.
Lemma xrun_does ie args p : forall tol count s s' out, xrun ie args p tol count s = (s', out) -> ended out -> ran ie args p tol count s s' out.
Proof.
  assert (Compared : forall m tolerant (k : Z + exn -> xprog) tol count s s' out,
    (forall r tol count s s' out, xrun ie args (k r) tol count s = (s', out) -> ended out -> ran ie args (k r) tol count s s' out) ->
    (r <- caught (itk_CompareMeasurement ie tol m tolerant) ;; xrun ie args (k r) tol count) s = (s', out) -> ended out ->
    exists r n1 w f n l, weighed ie tol (s_os s) (at_of s) (hd_error (s_input s)) m tolerant r n1 w f (itk_object_after (i_env ie) s m tolerant) /\
      does ie args (s_os s) (is_open s) tol count (moved f (at_of s)) (k r) (tl (s_input s)) n l (at_of s') out /\
      s_unmatched s' = s_unmatched s + (n1 + n) /\ s_stdout s' = s_stdout s ++ on_stdout (s_os s) (w :: l) /\ s_os s' = s_os s /\ s_is s' = s_is s).
  { intros m tolerant k tol count s s' out IH H Ho. unfold mbind, caught in H. destruct (itk_CompareMeasurement ie tol m tolerant s) as [s1 r] eqn:Ec.
    assert (G : exists a, answer r = Some a /\ xrun ie args (k a) tol count s1 = (s', out)).
    { destruct r as [z|x| | |]; cbv iota in H; [exists (inl z)|exists (inr x)|..]; try (split; [reflexivity|exact H]);
        apply pair_equal_spec in H; destruct H as [_ <-]; destruct Ho as [[? Ho]|[? Ho]]; discriminate. }
    destruct G as (a & Hr & Hx). destruct (compare_weighed _ _ _ _ _ _ _ _ Ec Hr) as (n1 & c & f & W & ->).
    destruct (ran_step _ _ _ _ _ _ _ _ _ _ _ _ _ (between_step c f n1 s) (IH a _ _ _ _ _ Hx Ho)) as (n & l & D & R).
    exists a, n1, c, f, n, l. split; [exact W|]. split; [exact D|exact R]. }
  assert (Cont : forall k tol count s s1 s' out a bs w,
    (forall tol count s s' out, xrun ie args k tol count s = (s', out) -> ended out -> ran ie args k tol count s s' out) ->
    xrun ie args k tol count s1 = (s', out) -> ended out -> between s s1 a bs 0 w ->
    exists n l, does ie args (s_os s) (is_open s) tol count a k bs n l (at_of s') out /\
      s_unmatched s' = s_unmatched s + n /\ s_stdout s' = s_stdout s ++ on_stdout (s_os s) (w ++ l) /\ s_os s' = s_os s /\ s_is s' = s_is s).
  { intros k tol count s s1 s' out a bs w IH H Ho B. exact (ran_step _ _ _ _ _ _ _ _ _ _ _ _ _ B (IH _ _ _ _ _ H Ho)). }
  induction p as [z|x|c k IH|file name k IH|m tolerant k IH|t k IH|t k IH|t k IH|ext root k IH|t k IH|z k IH|n k IH|n k IH|dirs k IH|d k IH|path b k IH|k IH]; cbn [xrun]; intros tol count s s' out H Ho; unfold ran.
  - unfold mret in H. apply pair_equal_spec in H. destruct H as [<- <-]. exists 0%Z, []. split; [constructor|]. split; [lia|]. split; [cbn; rewrite app_nil_r; reflexivity|auto].
  - unfold mlift in H. apply pair_equal_spec in H. destruct H as [<- <-]. exists 0%Z, []. split; [constructor|]. split; [lia|]. split; [cbn; rewrite app_nil_r; reflexivity|auto].
  - destruct (comparing (i_env ie) (is_open s) (at_of s)) eqn:Em.
    + assert (H' : (r <- caught (itk_CompareMeasurement ie tol (meas_of (e_io (i_env ie)) true c) (tolerant_of c)) ;; xrun ie args (k r) tol count) s = (s', out)).
      { rewrite <- H. unfold mbind, caught. rewrite itk_measure_at, Em. reflexivity. }
      destruct (Compared _ _ k tol count s s' out IH H' Ho) as (r & n1 & w & f & n & l & W & D & R). exists (n1 + n)%Z, (w :: l). split; [|exact R].
      eapply d_measure; [exact Em|exact W|exact D].
    + unfold mbind, caught in H. rewrite itk_measure_at, Em in H. cbv iota in H.
      destruct (Cont _ _ _ s _ s' out _ _ _ (IH (inl 0%Z)) H Ho (between_print _ s)) as (n & l & D & R). eexists n, (_ :: l). split; [|exact R].
      apply d_record; [exact Em|apply line_print|exact D].
  - destruct (comparing (i_env ie) (is_open s) (at_of s)) eqn:Em.
    + assert (H' : (r <- caught (itk_CompareMeasurement ie tol (MF (Mf name true itk_type file)) false) ;; xrun ie args (k r) tol count) s = (s', out)).
      { rewrite <- H. unfold mbind, caught. rewrite itk_image_at, Em. reflexivity. }
      destruct (Compared _ _ k tol count s s' out IH H' Ho) as (r & n1 & w & f & n & l & W & D & R). exists (n1 + n)%Z, (w :: l). split; [|exact R].
      eapply d_image; [exact Em|exact W|exact D].
    + unfold mbind, caught in H. rewrite itk_image_at, Em in H. cbv iota in H.
      destruct (Cont _ _ _ s _ s' out _ _ _ (IH (inl 0%Z)) H Ho (between_print _ s)) as (n & l & D & R). eexists n, (_ :: l). split; [|exact R].
      apply d_record_image; [exact Em|exact D].
  - unfold mbind at 1 in H. unfold gets at 1 in H. cbv iota in H.
    destruct (Compared _ _ (fun r => k r (itk_object_after (i_env ie) s m tolerant)) tol count s s' out (fun r => IH r _) H Ho) as (r & n1 & w & f & n & l & W & D & R).
    exists (n1 + n)%Z, (w :: l). split; [|exact R]. eapply d_compare; [exact W|exact D].
  - unfold mbind in H. rewrite print_out_eq in H. cbv iota in H.
    destruct (Cont _ _ _ s _ s' out _ _ _ IH H Ho (between_print _ s)) as (n & l & D & R). eexists n, (_ :: l). split; [|exact R]. apply d_print. exact D.
  - unfold mbind in H. destruct (say t s) as [s1 r] eqn:Es. assert (r = Ok tt) by (rewrite say_eq in Es; apply pair_equal_spec in Es; symmetry; apply Es). subst r.
    destruct (Cont _ _ _ s _ s' out _ _ _ IH H Ho (between_say _ _ _ Es)) as (n & l & D & R). eexists n, (_ :: l). split; [|exact R]. apply d_say. exact D.
  - destruct (IH _ _ _ _ _ H Ho) as (n & l & D & R). exists n, l. split; [apply d_image_tolerance; exact D|exact R].
  - unfold mbind, mlift in H. destruct (GenerateFileName (e_sc (i_env ie)) args count ext root) as [name|x| | |] eqn:E.
    + destruct (IH _ _ _ _ _ _ H Ho) as (n & l & D & R). exists n, l. split; [eapply d_generate; [exact E|exact D]|exact R].
    + exfalso. unfold GenerateFileName in E. destruct args; [discriminate|]. destruct root; [discriminate|]. match type of E with Append ?a ?b = _ => destruct (append_ok a b) as [r Er] end. congruence.
    + apply pair_equal_spec in H. destruct H as [_ <-]. destruct Ho as [[? Ho]|[? Ho]]; discriminate.
    + apply pair_equal_spec in H. destruct H as [_ <-]. destruct Ho as [[? Ho]|[? Ho]]; discriminate.
    + apply pair_equal_spec in H. destruct H as [_ <-]. destruct Ho as [[? Ho]|[? Ho]]; discriminate.
  - unfold mbind, modify in H. cbv iota in H. match type of H with _ ?s1 = _ => destruct (Cont _ _ _ s _ s' out _ _ [] IH H Ho (between_same s s1 (at_of s1) eq_refl eq_refl eq_refl eq_refl eq_refl eq_refl)) as (m & l & D & R) end. exists m, l. split; [constructor; exact D|exact R].
  - unfold mbind, modify in H. cbv iota in H. match type of H with _ ?s1 = _ => destruct (Cont _ _ _ s _ s' out _ _ [] IH H Ho (between_same s s1 (at_of s1) eq_refl eq_refl eq_refl eq_refl eq_refl eq_refl)) as (m & l & D & R) end. exists m, l. split; [constructor; exact D|exact R].
  - unfold mbind, modify in H. cbv iota in H. match type of H with _ ?s1 = _ => destruct (Cont _ _ _ s _ s' out _ _ [] IH H Ho (between_same s s1 (at_of s1) eq_refl eq_refl eq_refl eq_refl eq_refl eq_refl)) as (m & l & D & R) end. exists m, l. split; [constructor; exact D|exact R].
  - unfold mbind, modify in H. cbv iota in H. match type of H with _ ?s1 = _ => destruct (Cont _ _ _ s _ s' out _ _ [] IH H Ho (between_same s s1 (at_of s1) eq_refl eq_refl eq_refl eq_refl eq_refl eq_refl)) as (m & l & D & R) end. exists m, l. split; [constructor; exact D|exact R].
  - unfold mbind, modify in H. cbv iota in H. match type of H with _ ?s1 = _ => destruct (Cont _ _ _ s _ s' out _ _ [] IH H Ho (between_same s s1 (at_of s1) eq_refl eq_refl eq_refl eq_refl eq_refl eq_refl)) as (m & l & D & R) end. exists m, l. split; [constructor; exact D|exact R].
  - unfold mbind, modify in H. cbv iota in H. match type of H with _ ?s1 = _ => destruct (Cont _ _ _ s _ s' out _ _ [] IH H Ho (between_same s s1 (at_of s1) eq_refl eq_refl eq_refl eq_refl eq_refl eq_refl)) as (m & l & D & R) end. exists m, l. split; [constructor; exact D|exact R].
  - unfold mbind, modify in H. cbv iota in H. match type of H with _ ?s1 = _ => destruct (Cont _ _ _ s _ s' out _ _ [] IH H Ho (between_same s s1 (at_of s1) eq_refl eq_refl eq_refl eq_refl eq_refl eq_refl)) as (m & l & D & R) end. exists m, l. split; [constructor; exact D|exact R].
  - unfold mbind at 1 in H. unfold look_at in H. rewrite mode_at in H. cbn [bind] in H.
    destruct (IH _ _ _ _ _ _ H Ho) as (n0 & l & D & R). exists n0, l. split; [|exact R]. apply d_look. exact D.
Qed.

Lemma does_xrun ie args o reading tol count a p bs n l a' out : does ie args o reading tol count a p bs n l a' out ->
  forall s, s_os s = o -> is_open s = reading -> at_of s = a -> s_input s = bs ->
  exists s', xrun ie args p tol count s = (s', out) /\ at_of s' = a' /\ ended out /\
    s_unmatched s' = s_unmatched s + n /\ s_stdout s' = s_stdout s ++ on_stdout o l /\ s_os s' = o /\ s_is s' = s_is s.
Proof.
  assert (Go : forall k tol count s s1 n1 w a bs n l a' out, between s s1 a bs n1 w ->
    (forall s0, s_os s0 = s_os s -> is_open s0 = is_open s -> at_of s0 = a -> s_input s0 = bs -> exists s', xrun ie args k tol count s0 = (s', out) /\ at_of s' = a' /\ ended out /\
      s_unmatched s' = s_unmatched s0 + n /\ s_stdout s' = s_stdout s0 ++ on_stdout (s_os s) l /\ s_os s' = s_os s /\ s_is s' = s_is s0) ->
    exists s', xrun ie args k tol count s1 = (s', out) /\ at_of s' = a' /\ ended out /\
      s_unmatched s' = s_unmatched s + (n1 + n) /\ s_stdout s' = s_stdout s ++ on_stdout (s_os s) (w ++ l) /\ s_os s' = s_os s /\ s_is s' = s_is s).
  { intros k tol0 count0 s s1 n1 w a0 bs0 n0 l0 a1 out0 (A & B & U & X & O & I) IH.
    destruct (IH s1 O) as (s' & R & A' & Ho & U' & X' & O' & I'); [unfold is_open; rewrite I; reflexivity|exact A|exact B|].
    exists s'. split; [exact R|]. split; [exact A'|]. split; [exact Ho|]. split; [lia|]. split; [|split; congruence]. rewrite X', X, on_stdout_app, app_assoc. reflexivity. }
  induction 1 as [t c a z bs|t c a x bs|t c a call k bs text n l a' out M L P IH|t c a call k bs r n1 w f after n l a' out M W P IH|t c a file name k bs n l a' out M text P IH|t c a file name k bs r n1 w f after n l a' out M W P IH|
    t c a m tolerant k bs r n1 w f after n l a' out W P IH|t c a text k bs n l a' out P IH|t c a text k bs n l a' out P IH|t t' c a k bs n l a' out P IH|t c a ext root name k bs n l a' out G P IH|t c a x k bs n l a' out P IH|
    t c a z k bs n l a' out P IH|t c a i k bs n l a' out P IH|t c a i k bs n l a' out P IH|t c a d k bs n l a' out P IH|t c a d k bs n l a' out P IH|t c a path b k bs n l a' out P IH|t c a k bs n l a' out P IH]; intros s <- <- <- <-; cbn [xrun].
  - exists s. split; [reflexivity|]. split; [reflexivity|]. split; [left; eauto|]. split; [lia|]. split; [cbn; rewrite app_nil_r; reflexivity|auto].
  - exists s. split; [reflexivity|]. split; [reflexivity|]. split; [right; eauto|]. split; [lia|]. split; [cbn; rewrite app_nil_r; reflexivity|auto].
  - rewrite (C44_line_determined _ _ _ _ L (line_print (e_io (i_env ie)) call)) in *.
    unfold mbind, caught. rewrite itk_measure_at, M. cbv iota. exact (Go _ _ _ _ _ _ _ _ _ _ _ _ _ (between_print _ s) IH).
  - unfold mbind. assert (E : caught (itk_Measure ie t call) s = (step_by w f n1 s, Ok r)).
    { unfold caught. rewrite itk_measure_at, M. exact (proj1 (weighed_compare _ _ _ _ _ _ _ _ _ _ W)). }
    rewrite E. cbv iota. exact (Go _ _ _ _ _ _ _ _ _ _ _ _ _ (between_step w f n1 s) IH).
  - unfold mbind, caught. rewrite itk_image_at, M. cbv iota. exact (Go _ _ _ _ _ _ _ _ _ _ _ _ _ (between_print _ s) IH).
  - unfold mbind. assert (E : caught (MeasurementInsightFileImage ie t file name) s = (step_by w f n1 s, Ok r)).
    { unfold caught. rewrite itk_image_at, M. exact (proj1 (weighed_compare _ _ _ _ _ _ _ _ _ _ W)). }
    rewrite E. cbv iota. exact (Go _ _ _ _ _ _ _ _ _ _ _ _ _ (between_step w f n1 s) IH).
  - destruct (weighed_compare _ _ _ _ _ _ _ _ _ _ W) as [E ->]. unfold mbind at 1. unfold gets at 1. cbv iota. unfold mbind at 1. rewrite E. cbv iota.
    exact (Go _ _ _ _ _ _ _ _ _ _ _ _ _ (between_step w f n1 s) IH).
  - unfold mbind. rewrite print_out_eq. cbv iota. exact (Go _ _ _ _ _ _ _ _ _ _ _ _ _ (between_print _ s) IH).
  - unfold mbind. rewrite say_eq. cbv iota. exact (Go _ _ _ _ _ _ _ _ _ _ _ _ _ (between_say text s _ (say_eq text s)) IH).
  - exact (IH s eq_refl eq_refl eq_refl eq_refl).
  - unfold mbind, mlift. rewrite G. exact (IH s eq_refl eq_refl eq_refl eq_refl).
  - unfold mbind, modify. cbv iota. exact (IH (set_tol s x) eq_refl eq_refl eq_refl eq_refl).
  - unfold mbind, modify. cbv iota. exact (IH (set_expected s z) eq_refl eq_refl eq_refl eq_refl).
  - unfold mbind, modify. cbv iota. exact (IH (set_in s i) eq_refl eq_refl eq_refl eq_refl).
  - unfold mbind, modify. cbv iota. exact (IH (set_out s i) eq_refl eq_refl eq_refl eq_refl).
  - unfold mbind, modify. cbv iota. exact (IH (set_path s d) eq_refl eq_refl eq_refl eq_refl).
  - unfold mbind, modify. cbv iota. exact (IH (set_path s (d :: s_path s)) eq_refl eq_refl eq_refl eq_refl).
  - unfold mbind, modify. cbv iota. exact (IH (set_files s (write_file (i_env ie) (s_files s) path b)) eq_refl eq_refl eq_refl eq_refl).
  - unfold mbind at 1. unfold look_at. rewrite mode_at. cbn [bind]. exact (IH s eq_refl eq_refl eq_refl eq_refl).
Qed.
Lemma xrun_ended ie args p tol count s s' z : ends_with (i_env ie) (xrun ie args p tol count s) = (s', Ok z) -> ended (snd (xrun ie args p tol count s)).
Proof. destruct (xrun ie args p tol count s) as [s1 [v|x| | |]]; cbn; intros H; try discriminate H; [left|right]; eauto. Qed.
Lemma on_out o t : on_stdout o [(Out, t)] = to_screen o t.
Proof. unfold on_stdout. cbn. rewrite app_nil_r. reflexivity. Qed.
(** from a state in which the test is started *)
Lemma xrun_at ie args p s : s_unmatched s = 1%Z -> let e := i_env ie in forall z files stdout,
  (exists s', ends_with e (xrun ie args p no_tolerance 0 s) = (s', Ok z) /\ s_files s' = files /\ s_stdout s' = stdout) <->
  exists n l a out, does ie args (s_os s) (is_open s) no_tolerance 0 (at_of s) p (s_input s) n l a out /\
    let c := comparing e (is_open s) a in
    files = appended (s_os s) (closing out c) (at_files a) /\ stdout = s_stdout s ++ on_stdout (s_os s) (l ++ [(Out, closing out c)]) /\
    z = outcome_status out (at_expected a) n (names_baseline e files (at_dirs a) (at_in a)) c.
Proof.
  intros Hu e z files stdout. split.
  - intros (s' & R & <- & <-). pose proof (xrun_ended _ _ _ _ _ _ _ _ R) as Ho. destruct (xrun ie args p no_tolerance 0 s) as [s3 out] eqn:E. cbn [snd] in Ho.
    destruct (xrun_does ie args p _ _ s s3 out E Ho) as (n & l & P & U & X & O & I). exists n, l, (at_of s3), out. split; [exact P|]. cbv zeta.
    assert (Io : is_open s = is_open s3) by (unfold is_open; rewrite I; reflexivity). rewrite Hu in U.
    destruct (end_of e s3 out n Ho U) as (s4 & R4 & F4 & X4). rewrite R in R4. injection R4 as <- ->.
    rewrite Io, F4, X4, <- O, X, on_stdout_app, on_out, app_assoc, O. split; [reflexivity|]. split; reflexivity.
  - intros (n & l & a & out & P & F & X & Z). cbv zeta in F, X, Z.
    destruct (does_xrun _ _ _ _ _ _ _ _ _ _ _ _ _ P s eq_refl eq_refl eq_refl eq_refl) as (s3 & R & A & Ho & U & X3 & O & I). rewrite R. rewrite Hu in U.
    assert (Io : is_open s = is_open s3) by (unfold is_open; rewrite I; reflexivity).
    destruct (end_of e s3 out n Ho U) as (s4 & R4 & F4 & X4). exists s4. rewrite <- A in *. rewrite Io, <- O in *.
    cbn [at_of at_files at_dirs at_expected at_in at_tol at_out] in *. rewrite F4, X4. rewrite F. split; [rewrite R4, Z, F; reflexivity|]. split; [reflexivity|].
    rewrite X, X3, on_stdout_app, on_out, app_assoc. reflexivity.
Qed.
Lemma does_det ie args o reading tol count a p bs n l a' out : does ie args o reading tol count a p bs n l a' out ->
  forall n2 l2 a2 out2, does ie args o reading tol count a p bs n2 l2 a2 out2 -> n2 = n /\ l2 = l /\ a2 = a' /\ out2 = out.
Proof.
  induction 1 as [t c a z bs|t c a x bs|t c a call k bs text n l a' out M L P IH|t c a call k bs r n1 w f after n l a' out M W P IH|t c a file name k bs n l a' out M text P IH|t c a file name k bs r n1 w f after n l a' out M W P IH|
    t c a m tolerant k bs r n1 w f after n l a' out W P IH|t c a text k bs n l a' out P IH|t c a text k bs n l a' out P IH|t t' c a k bs n l a' out P IH|t c a ext root name k bs n l a' out G P IH|t c a x k bs n l a' out P IH|
    t c a z k bs n l a' out P IH|t c a i k bs n l a' out P IH|t c a i k bs n l a' out P IH|t c a d k bs n l a' out P IH|t c a d k bs n l a' out P IH|t c a path b k bs n l a' out P IH|t c a k bs n l a' out P IH]; intros n2 l2 a2 out2 Q;
    inversion Q; clear Q; subst; try congruence; auto.
  - match goal with L2 : line _ _ ?t2 |- _ => rewrite (C44_line_determined _ _ _ _ L2 L) in * end. match goal with D : does _ _ _ _ _ _ _ _ _ _ _ _ _ |- _ => destruct (IH _ _ _ _ D) as (-> & -> & -> & ->) end. auto.
  - match goal with W2 : weighed _ _ _ _ _ _ _ ?r2 _ _ _ _ |- _ => destruct (weighed_det _ _ _ _ _ _ _ _ _ _ _ _ _ _ _ _ _ W2 W) as (-> & -> & -> & -> & _) end. match goal with D : does _ _ _ _ _ _ _ _ _ _ _ _ _ |- _ => destruct (IH _ _ _ _ D) as (-> & -> & -> & ->) end. auto.
  - match goal with D : does _ _ _ _ _ _ _ _ _ _ _ _ _ |- _ => destruct (IH _ _ _ _ D) as (-> & -> & -> & ->) end. auto.
  - match goal with W2 : weighed _ _ _ _ _ _ _ ?r2 _ _ _ _ |- _ => destruct (weighed_det _ _ _ _ _ _ _ _ _ _ _ _ _ _ _ _ _ W2 W) as (-> & -> & -> & -> & _) end. match goal with D : does _ _ _ _ _ _ _ _ _ _ _ _ _ |- _ => destruct (IH _ _ _ _ D) as (-> & -> & -> & ->) end. auto.
  - match goal with W2 : weighed _ _ _ _ _ _ _ ?r2 _ _ _ _ |- _ => destruct (weighed_det _ _ _ _ _ _ _ _ _ _ _ _ _ _ _ _ _ W2 W) as (-> & -> & -> & -> & ->) end. match goal with D : does _ _ _ _ _ _ _ _ _ _ _ _ _ |- _ => destruct (IH _ _ _ _ D) as (-> & -> & -> & ->) end. auto.
  - match goal with D : does _ _ _ _ _ _ _ _ _ _ _ _ _ |- _ => destruct (IH _ _ _ _ D) as (-> & -> & -> & ->) end. auto.
  - match goal with D : does _ _ _ _ _ _ _ _ _ _ _ _ _ |- _ => destruct (IH _ _ _ _ D) as (-> & -> & -> & ->) end. auto.
  - match goal with G2 : GenerateFileName _ _ _ _ _ = Ok ?n2 |- _ => rewrite G in G2; apply Ok_inj in G2; subst n2 end. auto.
Qed.

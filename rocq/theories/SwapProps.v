(** C74: a run depends on its baseline file only through the measurements read from it. *)
From Coq Require Import Floats.SpecFloat.
From Verif Require Import Base Str Dec PathModel PathFacts MeasModel DiffModel VisitModel XmlModel ReadModel RegModel ArgFacts ArgProps RegSpec RegFacts RegStart RegMain RegProps RegProps2 FileProps LimitModel LimitProps.

Section Swap.
Variables (e : env) (k : str) (r0 w0 : bool) (b0 b0' : str).
(** the same up to the bytes of one file *)
Definition alike (f f' : store) : Prop := (forall k', k' <> k -> f' k' = f k') /\ f k = Some (FFile r0 w0 b0) /\ f' k = Some (FFile r0 w0 b0').
Definition twin (s s' : rst) : Prop :=
  (s_input s' = s_input s /\ s_in s' = s_in s /\ s_out s' = s_out s /\ s_path s' = s_path s /\ s_os s' = s_os s /\ s_is s' = s_is s /\ s_tol s' = s_tol s /\ s_unmatched s' = s_unmatched s /\ s_expected s' = s_expected s) /\
  s_stdout s' = s_stdout s /\ alike (s_files s) (s_files s').
Lemma alike_kind f f' : alike f f' -> forall k', kind (f' k') = kind (f k').
Proof. intros (F & E & E') k'. destruct (eqs_spec k' k) as [->|N]; [rewrite E, E'; reflexivity|rewrite F by exact N; reflexivity]. Qed.
Lemma alike_node f f' path : alike f f' -> kind (node_at e f' path) = kind (node_at e f path).
Proof. intros R. unfold node_at. destruct (slot e path); [apply alike_kind, R|reflexivity]. Qed.
Ltac by_kind R path := pose proof (alike_node _ _ path R) as K; unfold is_file, is_readable, can_open, is_writable, is_directory;
  match goal with |- context [node_at e ?f path] => destruct (node_at e f path) as [[|]|] end; match goal with |- context [node_at e ?f path] => destruct (node_at e f path) as [[|]|] | _ => idtac end; cbn in K; congruence || reflexivity.
Lemma alike_is_file f f' path : alike f f' -> is_file e f' path = is_file e f path.
Proof. intros R. by_kind R path. Qed.
Lemma alike_is_readable f f' path : alike f f' -> is_readable e f' path = is_readable e f path.
Proof. intros R. by_kind R path. Qed.
Lemma alike_can_open f f' path : alike f f' -> can_open e f' path = can_open e f path.
Proof. intros R. by_kind R path. Qed.
Lemma alike_is_writable f f' path : alike f f' -> is_writable e f' path = is_writable e f path.
Proof. intros R. by_kind R path. Qed.
Lemma alike_is_directory f f' path : alike f f' -> is_directory e f' path = is_directory e f path.
Proof. intros R. by_kind R path. Qed.
Lemma alike_contents f f' path : alike f f' -> not_output e (Some k) path -> contents e f' path = contents e f path.
Proof. intros (F & _) N. unfold contents, node_at. unfold not_output in N. destruct (slot e path) as [k'|]; [|reflexivity]. rewrite F; [reflexivity|congruence]. Qed.
Lemma alike_sources f f' path : alike f f' -> not_output e (Some k) path -> sources e f' path = sources e f path.
Proof. intros (F & _) N. unfold sources, node_at. unfold not_output in N. destruct (slot e path) as [k'|]; [|reflexivity]. rewrite F; [reflexivity|congruence]. Qed.
Lemma twin_search s s' name : twin s s' -> search e s' name = search e s name.
Proof. intros R. unfold search, SearchPathList. assert (P : s_path s' = s_path s) by apply R. rewrite P. apply search_loop_ext. intros q. apply alike_is_file, R. Qed.
Lemma twin_mode s s' : twin s s' -> compare_mode e s' = compare_mode e s.
Proof.
  intros R. unfold compare_mode. assert (I : s_is s' = s_is s) by apply R. assert (N : s_in s' = s_in s) by apply R. rewrite I, N.
  destruct (s_is s); [reflexivity|]. destruct (s_in s) as [|c nm]; [reflexivity|]. rewrite (twin_search s s' _ R). destruct (search e s (c :: nm)) as [q| | | |]; try reflexivity.
  cbn [bind]. rewrite (alike_is_file _ _ _ (proj2 (proj2 R))), (alike_is_readable _ _ _ (proj2 (proj2 R))). reflexivity.
Qed.

(** computations that do not tell them apart *)
Definition blind {A} (P Q : rst -> Prop) (m : M A) : Prop := forall s s', twin s s' -> s_os s <> Some k -> P s ->
  twin (fst (m s)) (fst (m s')) /\ snd (m s') = snd (m s) /\ s_os (fst (m s)) <> Some k /\ (match snd (m s) with Ok _ => Q (fst (m s)) | _ => True end).
Lemma blind_bind {A B} (P Q S : rst -> Prop) (m : M A) (h : A -> M B) : blind P Q m -> (forall a, blind Q S (h a)) -> blind P S (mbind m h).
Proof.
  intros H K s s' R O HP. destruct (H s s' R O HP) as (R1 & E & O1 & Q1). unfold mbind. destruct (m s) as [s1 r1]. destruct (m s') as [s2 r2]. cbn [fst snd] in *. subst r2.
  destruct r1 as [a| | | |]; try (cbn [fst snd]; auto). exact (K a s1 s2 R1 O1 Q1).
Qed.
Lemma blind_weaken {A} (P P' Q : rst -> Prop) (m : M A) : blind P Q m -> (forall s, P' s -> P s) -> blind P' Q m.
Proof. intros H W s s' R O HP. exact (H s s' R O (W s HP)). Qed.
Lemma blind_peek {A B} (P Q : rst -> Prop) (r : rst -> res A) (h : A -> M B) : (forall s s', twin s s' -> P s -> r s' = r s) ->
  (forall s a, P s -> r s = Ok a -> blind (fun s' => s' = s) Q (h a)) -> blind P Q (mbind (fun s => (s, r s)) h).
Proof.
  intros H K s s' R O HP. unfold mbind. rewrite (H s s' R HP). destruct (r s) as [a| | | |] eqn:E; try (cbn [fst snd]; auto).
  exact (K s a HP E s s' R O eq_refl).
Qed.
Lemma blind_lift {A} (P : rst -> Prop) (r : res A) : blind P P (mlift r).
Proof. intros s s' R O H. cbn. split; [exact R|]. split; [reflexivity|]. split; [exact O|]. destruct r; auto. Qed.
Lemma blind_ret {A} (P : rst -> Prop) (a : A) : blind P P (mret a).
Proof. intros s s' R O H. cbn. auto. Qed.
Lemma blind_modify (P Q : rst -> Prop) (h : rst -> rst) : (forall s s', twin s s' -> twin (h s) (h s')) -> (forall s, s_os (h s) = s_os s) -> (forall s, P s -> Q (h s)) -> blind P Q (modify h).
Proof. intros H I J s s' R O HP. cbn. split; [apply H, R|]. split; [reflexivity|]. rewrite I. auto. Qed.
Ltac tfield := intros ? ? ((? & ? & ? & ? & ? & ? & ? & ? & ?) & ? & ? & ? & ?); unfold twin, alike; cbn; repeat split; solve [congruence|assumption].
Lemma twin_put text s s' : twin s s' -> s_os s <> Some k -> twin (put_text text s) (put_text text s').
Proof.
  intros ((F1 & F2 & F3 & F4 & F5 & F6 & F7 & F8 & F9) & F & C) O. unfold put_text. rewrite F5. destruct (s_os s) as [k0|] eqn:Eo.
  - assert (N : k0 <> k) by congruence. destruct C as [C1 C2]. rewrite (C1 k0 N).
    assert (D : twin s s') by (repeat split; try assumption; try congruence; apply C2). destruct (s_files s k0) as [[r w b|]|]; try exact D.
    unfold twin. cbn. repeat split; try congruence.
    + intros k' N'. unfold upd. rewrite (C1 k' N'). reflexivity.
    + unfold upd. destruct (eqs_spec k k0) as [X|X]; [congruence|]. apply C2.
    + unfold upd. destruct (eqs_spec k k0) as [X|X]; [congruence|]. apply C2.
  - unfold twin. cbn. repeat split; try congruence; apply C.
Qed.
Lemma blind_put P text : stable P -> blind P P (put text).
Proof.
  intros H s s' R O HP. unfold put, modify. cbn [fst snd]. destruct (put_text_any text s) as ((F1 & F2 & F3 & F4 & F5) & A & B & C & D & G).
  split; [apply twin_put; assumption|]. split; [reflexivity|]. split; [congruence|]. revert HP. apply H; congruence.
Qed.
Lemma blind_put_meas P m : stable P -> blind P P (put_meas m).
Proof. intros H. unfold put_meas. eapply blind_bind; [apply blind_lift|]. intros t. apply blind_put, H. Qed.
Lemma blind_count P : stable P -> blind P P (modify (fun s => set_unmatched s (s_unmatched s + 1))).
Proof. intros H. apply blind_modify; [tfield|reflexivity|]. intros s. apply H; reflexivity. Qed.
Lemma blind_unmatched P m : stable P -> blind P P (UnmatchedMeasurement m).
Proof. intros H. unfold UnmatchedMeasurement. eapply blind_bind; [apply blind_count, H|]. intros _. apply blind_put_meas, H. Qed.
Lemma blind_difference P m b : stable P -> blind P P (DifferenceMeasurement e m b).
Proof. intros H. unfold DifferenceMeasurement. eapply blind_bind; [apply blind_count, H|]. intros _. eapply blind_bind; [apply blind_lift|]. intros t. apply blind_put, H. Qed.
Local Notation G := (guarded e (Some k)).
Lemma stG : stable G.
Proof. apply stable_guarded. Qed.
Lemma blind_compare m t : (forall g, m = MF g -> not_output e (Some k) (ffile g)) -> blind G G (CompareMeasurement e m t).
Proof.
  intros Hm. unfold CompareMeasurement.
  assert (U : forall P : rst -> Prop, (forall s, P s -> G s) -> blind P G (_ <- UnmatchedMeasurement m ;; mret 1%Z)).
  { intros P W. eapply blind_weaken; [|exact W]. eapply blind_bind; [apply blind_unmatched, stG|]. intros _. apply blind_ret. }
  apply (blind_peek G G (fun s => Ok (s_input s))).
  { intros s p R _. f_equal. apply R. }
  intros s inp Hg E. injection E as E. destruct inp as [|b rest].
  { apply U. intros s' ->. exact Hg. }
  apply blind_bind with (Q := fun s => G s /\ names_others e (Some k) (s_path s) [b]).
  { apply blind_modify; [tfield|reflexivity|]. intros s' ->. unfold guarded in *. rewrite E in Hg. split; intros g H; apply Hg; [right; exact H|]. destruct H as [H|[]]. left. exact H. }
  intros _. destruct (eqs (mname b) (mname m) && eqs (mtype b) (mtype m)).
  2:{ apply U. intros s' H. apply H. }
  clear s Hg E. apply (blind_peek _ G (fun s => locate e s b m)).
  { intros s p R _. unfold locate. destruct b as [|g]; [reflexivity|]. destruct m as [|g']; [reflexivity|]. rewrite (twin_search s p _ R). reflexivity. }
  intros s b' [Hg N] L. apply (blind_peek _ G (fun s => Ok (Compare (e_sc e) (sources e (s_files s)) (e_io e) (visitor s t) b' m))).
  { intros s' p R ->. f_equal. unfold visitor. assert (T : s_tol p = s_tol s) by apply R. rewrite T. apply Compare_ext. intros f Hf.
    rewrite !sources_at. apply alike_sources; [apply R|]. destruct Hf as [->|Hf]; [exact (located e (Some k) s b m f N L)|exact (Hm f Hf)]. }
  intros s' [[b2 m2] v] -> _. eapply blind_bind with (Q := G); [eapply blind_weaken; [apply blind_lift|]; intros s' ->; exact Hg|].
  intros [|]; [apply blind_ret|]. eapply blind_bind; [apply blind_difference, stG|]. intros _. apply blind_ret.
Qed.
Lemma blind_measure c : (forall f, file_of c = Some f -> not_output e (Some k) f) -> blind G G (Measure e c).
Proof.
  intros Hf. unfold Measure. apply (blind_peek G G (compare_mode e)); [intros s p R _; apply twin_mode, R|].
  intros s [|] H E.
  - eapply blind_weaken; [apply blind_compare|intros s' ->; exact H]. intros g Hg. apply Hf. destruct c; cbn in Hg; try discriminate Hg; injection Hg as <-; reflexivity.
  - eapply blind_bind with (Q := G); [eapply blind_weaken; [apply blind_put_meas, stG|]; intros s' ->; exact H|]. intros _. apply blind_ret.
Qed.
Lemma blind_write P path b : stable P -> (slot e path = None \/ slot e path <> Some k) -> blind P P (modify (fun s => set_files s (write_file e (s_files s) path b))).
Proof.
  intros St H s s' (F0 & Fs & C & D) O HP. cbn. split; [|split; [reflexivity|split; [exact O|revert HP; apply St; reflexivity]]]. split; [exact F0|]. split; [exact Fs|]. cbn. unfold write_file.
  destruct (slot e path) as [k0|]; [|split; [exact C|exact D]]. destruct H as [H|H]; [discriminate H|]. assert (N : k0 <> k) by congruence. rewrite (C k0 N).
  assert (U : forall v, alike (upd (s_files s) k0 v) (upd (s_files s') k0 v)).
  { intros v. split; [intros k' N'; unfold upd; rewrite (C k' N'); reflexivity|]. unfold upd. destruct (eqs_spec k k0) as [X|X]; [congruence|exact D]. }
  destruct (s_files s k0) as [[r [|] c|]|]; [apply U|split; [exact C|exact D]|split; [exact C|exact D]|]. destruct (e_cancreate e (cstr path)); [apply U|split; [exact C|exact D]].
Qed.
Lemma blind_run p : leaves_alone e (Some k) p -> measures_others e (Some k) p -> blind G G (run e p).
Proof.
  induction p as [z|x|c h IH|t h IH|z h IH|path b h IH]; intros L N; cbn [run]; cbn [leaves_alone] in L; cbn [measures_others] in N.
  - apply blind_ret.
  - apply blind_lift.
  - eapply blind_bind; [apply blind_measure, N|]. intros r. apply IH; [apply L|apply N].
  - eapply blind_bind with (Q := G); [apply blind_modify; [tfield|reflexivity|intros s; apply stG; reflexivity]|]. intros _. apply IH; assumption.
  - eapply blind_bind with (Q := G); [apply blind_modify; [tfield|reflexivity|intros s; apply stG; reflexivity]|]. intros _. apply IH; assumption.
  - eapply blind_bind with (Q := G); [apply blind_write; [apply stG|apply L]|]. intros _. apply IH; [apply L|assumption].
Qed.
Lemma blind_end : blind (fun _ => True) (fun _ => True) (EndMeasurement e).
Proof.
  unfold EndMeasurement. apply (blind_peek _ _ (compare_mode e)); [intros s p R _; apply twin_mode, R|]. intros s cm _ _. apply blind_weaken with (P := fun _ => True); [|auto].
  apply blind_bind with (Q := fun _ => True).
  - destruct cm; [apply blind_modify; [tfield|reflexivity|auto]|apply blind_put; intros s1 s2 _ _ _ _ _; exact I].
  - intros _ s1 s2 R O _. unfold modify. cbn [fst snd]. split; [|split; [reflexivity|split; [discriminate|exact I]]]. revert s1 s2 R O. clear. intros s s' ((F1 & F2 & F3 & F4 & F5 & F6 & F7 & F8 & F9) & F & C) _. unfold twin. cbn. repeat split; try congruence; apply C.
Qed.
Lemma twin_finish ret s s' : twin s s' -> twin (fst (finish e ret s)) (fst (finish e ret s')) /\ snd (finish e ret s') = snd (finish e ret s).
Proof.
  intros R. unfold finish. assert (X : s_expected s' = s_expected s) by apply R. rewrite X. destruct (negb _); [split; [exact R|reflexivity]|].
  assert (U : s_unmatched s' = s_unmatched s) by apply R. rewrite (twin_mode s s' R), U. split; [exact R|reflexivity].
Qed.
(** ** the start *)
Lemma alike_accepted f f' x : alike f f' -> accepted e f x -> accepted e f' x.
Proof.
  intros R (H1 & H2 & H3). split; [exact H1|]. split; intros E; rewrite (alike_is_readable f f' _ R); [rewrite (alike_is_file f f' _ R)|rewrite (alike_is_directory f f' _ R)]; auto.
Qed.
Lemma alike_command_line f f' opts rest : alike f f' -> command_line e f opts rest -> command_line e f' opts rest.
Proof. intros R [H1 H2]. split; [|exact H2]. eapply Forall_impl; [|exact H1]. intros x. apply alike_accepted, R. Qed.
Lemma alike_output f f' opts : alike f f' -> output_of e f' opts = output_of e f opts.
Proof.
  intros R. unfold output_of. f_equal. assert (E : map (out_choice e f') (values ($"-O") opts) = map (out_choice e f) (values ($"-O") opts)).
  { apply map_ext. intros v. unfold out_choice. rewrite (alike_is_file f f' v R), (alike_is_writable f f' v R). reflexivity. }
  rewrite E. reflexivity.
Qed.
Lemma alike_opened f f' out o f1 : alike f f' -> opened e f out = Some (o, f1) -> o <> Some k -> exists f1', opened e f' out = Some (o, f1') /\ alike f1 f1' /\ f1 k = f k /\ f1' k = f' k.
Proof.
  intros R H O. pose proof R as (C & D). unfold opened in *. destruct out as [|c out]; [injection H as <- <-; exists f'; auto|]. destruct (slot e (c :: out)) as [k0|]; [|discriminate H].
  assert (N : k0 <> k). { intros ->. destruct (f k) as [[r [|] b|]|]; try discriminate H; [|destruct (e_cancreate e (cstr (c :: out))); [|discriminate H]]; injection H as <- _; apply O; reflexivity. }
  assert (U : forall v, alike (upd f k0 v) (upd f' k0 v) /\ upd f k0 v k = f k /\ upd f' k0 v k = f' k).
  { intros v. unfold upd at 3 4. destruct (eqs_spec k k0) as [X|X]; [congruence|]. split; [|auto]. split; [intros k' N'; unfold upd; rewrite (C k' N'); reflexivity|]. unfold upd. destruct (eqs_spec k k0); [congruence|exact D]. }
  rewrite (C k0 N). destruct (f k0) as [[r [|] b|]|]; try discriminate H; [|destruct (e_cancreate e (cstr (c :: out))); [|discriminate H]]; injection H as <- <-; eexists; (split; [reflexivity|apply U]).
Qed.
Lemma alike_baseline_path f f' dirs inf : alike f f' -> baseline_path e f' dirs inf = baseline_path e f dirs inf.
Proof. intros R. unfold baseline_path, SearchPathList. rewrite (search_loop_ext (is_file e f') (is_file e f) inf dirs); [reflexivity|]. intros q. apply alike_is_file, R. Qed.
End Swap.

(** Two baseline files from which the same measurements are read: the run is the same, with the same output and the same files. *)
Theorem C74_only_measurements_count : forall e f f' test a0 rest opts inf o f1 l k r w b b' s1 x,
  command_line e f opts rest -> input_of opts = Some inf -> started e f (output_of e f opts) (dirs_of opts) inf = Some (o, f1, l) ->
  (* the baseline file has the identity [k] and is not the output *)
  slot e (baseline_path e f1 (dirs_of opts) inf) = Some k -> o <> Some k -> f k = Some (FFile r w b) ->
  (* the other files: the same but for the baseline *)
  f' k = Some (FFile r w b') -> (forall k', k' <> k -> f' k' = f k') ->
  ReadXMLInput (e_asserts e) (e_ext e) b' = ReadXMLInput (e_asserts e) (e_ext e) b ->
  (* the baseline file is neither written nor measured by the test, nor named in the baseline *)
  leaves_alone e (Some k) (test (a0 :: rest)) -> measures_others e (Some k) (test (a0 :: rest)) -> names_others e (Some k) (dirs_of opts) l ->
  Main e test (a0 :: flat opts ++ rest) (new_test f) = (s1, x) ->
  exists s2, Main e test (a0 :: flat opts ++ rest) (new_test f') = (s2, x) /\ s_stdout s2 = s_stdout s1 /\ s_files s2 k = f' k /\ (forall k', k' <> k -> s_files s2 k' = s_files s1 k').
Proof.
  intros e f f' test a0 rest opts inf o f1 l k r w b b' s1 x Hc Hi Hs Hk Ok0 Hf Hf' Ho Hr L N1 N2 E.
  assert (R : alike k r w b b' f f') by (split; [exact Ho|split; assumption]).
  pose proof (alike_command_line e k r w b b' f f' opts rest R Hc) as Hc'.
  unfold started in Hs. destruct (opened e f (output_of e f opts)) as [[o2 f2]|] eqn:Eo; [|discriminate Hs].
  destruct (contents e f2 (baseline_path e f2 (dirs_of opts) inf)) as [bytes|] eqn:Ec; [|discriminate Hs]. destruct (ReadXMLInput (e_asserts e) (e_ext e) bytes) as [l2| | | |] eqn:Er; try discriminate Hs. injection Hs as <- <- <-.
  destruct (alike_opened e k r w b b' f f' _ _ _ R Eo Ok0) as (f1' & Eo' & R1 & K1 & K1'). rewrite <- (alike_output e k r w b b' f f' opts R) in Eo'.
  rewrite Main_unfold, (main_body_launch e f test a0 opts rest Hc) in E. rewrite Main_unfold, (main_body_launch e f' test a0 opts rest Hc').
  pose proof (input_of_nonempty e f opts inf (proj1 Hc) Hi) as Hn.
  assert (Hin : s_in (launched e f opts) = inf) by (cbn; rewrite Hi; reflexivity). assert (Hin' : s_in (launched e f' opts) = inf) by (cbn; rewrite Hi; reflexivity).
  pose proof (begin_compare e (launched e f opts) inf eq_refl eq_refl Hin Hn) as B. pose proof (begin_compare e (launched e f' opts) inf eq_refl eq_refl Hin' Hn) as B'.
  change (s_files (launched e f opts)) with f in B. change (s_out (launched e f opts)) with (output_of e f opts) in B. change (s_path (launched e f opts)) with (dirs_of opts) in B.
  change (s_files (launched e f' opts)) with f' in B'. change (s_out (launched e f' opts)) with (output_of e f' opts) in B'. change (s_path (launched e f' opts)) with (dirs_of opts) in B'.
  rewrite Eo in B. rewrite Eo' in B'. cbv zeta in B, B'. rewrite (alike_baseline_path e k r w b b' f2 f1' _ _ R1) in B'. set (q := baseline_path e f2 (dirs_of opts) inf) in *.
  assert (Rd : can_open e f2 q = true). { revert Ec. unfold contents, can_open. destruct (node_at e f2 q) as [[[|] w' c|]|]; try discriminate. reflexivity. }
  rewrite (alike_can_open e k r w b b' f2 f1' q R1) in B'. rewrite Rd in B, B'. rewrite Hk in B, B'.
  assert (Eb : bytes = b). { revert Ec. unfold contents, node_at. rewrite Hk, K1, Hf. destruct r; [|discriminate]. intros X. injection X as <-. reflexivity. }
  unfold read_input in B, B'. cbn [set_is s_is] in B, B'. change (s_files (set_is (set_os (set_files (launched e f opts) f2) o2) (Some k))) with f2 in B. change (s_files (set_is (set_os (set_files (launched e f' opts) f1') o2) (Some k))) with f1' in B'.
  rewrite K1, Hf in B. rewrite K1', Hf' in B'. rewrite Hr in B'. rewrite Eb in Er. rewrite Er in B, B'.
  set (t := set_input (set_is (set_os (set_files (launched e f opts) f2) o2) (Some k)) l2) in *. set (t' := set_input (set_is (set_os (set_files (launched e f' opts) f1') o2) (Some k)) l2) in *.
  assert (T : twin k r w b b' t t'). { split; [|split; [reflexivity|exact R1]]. repeat split. cbn. apply (alike_output e k r w b b' f f' opts R). }
  unfold mbind in E |- *. rewrite B in E. rewrite B'. cbv iota beta in E |- *.
  destruct (blind_run e k r w b b' (test (a0 :: rest)) L N1 t t' T Ok0 N2) as (T1 & E1 & O1 & _). destruct (run e (test (a0 :: rest)) t) as [s3 y]. destruct (run e (test (a0 :: rest)) t') as [s3' y']. cbn [fst snd] in T1, E1, O1. subst y'.
  assert (F : forall p p', twin k r w b b' (fst p) (fst p') /\ snd p' = snd p -> p = (s1, x) -> exists s2, p' = (s2, x) /\ s_stdout s2 = s_stdout s1 /\ s_files s2 k = f' k /\ (forall k', k' <> k -> s_files s2 k' = s_files s1 k')).
  { intros p [s2 x'] [(_ & A1 & A2 & A3 & A4) X] ->. cbn [fst snd] in *. subst x'. exists s2. rewrite Hf'. auto. }
  destruct y as [ret|i| | |]; try (refine (F _ _ _ E); split; [exact T1|reflexivity]).
  - destruct (blind_end e k r w b b' s3 s3' T1 O1 I) as (T2 & E2 & _ & _). destruct (EndMeasurement e s3) as [s4 u]. destruct (EndMeasurement e s3') as [s4' u']. cbn [fst snd] in T2, E2. subst u'.
    destruct u as [u|i| | |]; try (refine (F _ _ _ E); split; [exact T2|reflexivity]).
    + revert E. apply F. apply (twin_finish e k r w b b'). revert T2. generalize s4 s4'. clear. intros s s' ((F1 & F2 & F3 & F4 & F5 & F6 & F7 & F8 & F9) & F & C). unfold twin. cbn. repeat split; try congruence; apply C.
    + revert E. apply F. apply (twin_finish e k r w b b'). exact T2.
  - revert E. apply F. apply (twin_finish e k r w b b'). exact T1.
Qed.
Print Assumptions C74_only_measurements_count.

(** C73: an output stream that fails. *)
From Coq Require Import Floats.SpecFloat.
From Verif Require Import Base Str Dec PathModel PathFacts MeasModel DiffModel VisitModel XmlModel ReadModel ReadBack RegModel ArgFacts ArgProps RegSpec RegFacts RegStart RegMain RegProps RegProps2 RegRound FileProps CutProps ReuseProps LimitModel.

(** * Specification *)
(** the path does not name the output file *)
Definition not_output (e : env) (o : option str) (path : str) : Prop := match o with Some k => slot e path <> Some k | None => True end.
Definition file_of (c : call) : option str := match c with FileTextPlain f _ | FileImagePNG f _ | FileImageJPEG f _ => Some f | _ => None end.
(** the test does not measure the output file, whatever the measurements return *)
Fixpoint measures_others (e : env) (o : option str) (p : prog) : Prop :=
  match p with
  | Call c k => (forall f, file_of c = Some f -> not_output e o f) /\ forall r, measures_others e o (k r)
  | SetRelativeTolerance _ k | SetExpectedReturn _ k | WriteFile _ _ k => measures_others e o k
  | _ => True
  end.
(** no file named by the baseline [l], by itself or in a search directory, is the output file *)
Definition names_others (e : env) (o : option str) (dirs : list str) (l : list meas) : Prop :=
  forall g, In (MF g) l -> not_output e o (ffile g) /\ forall d p, In d dirs -> Append d (Tail (ffile g)) = Ok p -> not_output e o p.

(** * Agreement up to the output *)
Section Limit.
Variables (e : env) (o : option str) (n0 : nat).
Definition cut_output (s : rst) (p : rst * nat) : Prop :=
  match o with
  | None => s_stdout (fst p) = firstn n0 (s_stdout s) /\ snd p = n0 - length (s_stdout s)
  | Some k => s_stdout (fst p) = s_stdout s /\
              exists r w b, s_files s k = Some (FFile r w b) /\ s_files (fst p) k = Some (FFile r w (firstn n0 b)) /\ snd p = n0 - length b
  end.
Definition rel (s : rst) (p : rst * nat) : Prop :=
  (s_input (fst p) = s_input s /\ s_in (fst p) = s_in s /\ s_out (fst p) = s_out s /\ s_path (fst p) = s_path s /\ s_os (fst p) = s_os s /\
   s_is (fst p) = s_is s /\ s_tol (fst p) = s_tol s /\ s_unmatched (fst p) = s_unmatched s /\ s_expected (fst p) = s_expected s) /\
  (forall k, o <> Some k -> s_files (fst p) k = s_files s k) /\ cut_output s p.
(** a node as seen without reading the bytes *)
Definition kind (x : option fnode) : option fnode := match x with Some (FFile r w _) => Some (FFile r w []) | y => y end.
Lemma rel_kind s p : rel s p -> forall k, kind (s_files (fst p) k) = kind (s_files s k).
Proof.
  intros (_ & F & C) k. unfold cut_output in C. destruct o as [k0|].
  - destruct (eqs_spec k k0) as [->|N].
    + destruct C as (_ & r & w & b & -> & -> & _). reflexivity.
    + rewrite F; [reflexivity|]. intros X. injection X as ->. contradiction.
  - rewrite F; [reflexivity|discriminate].
Qed.
Lemma rel_node s p path : rel s p -> kind (node_at e (s_files (fst p)) path) = kind (node_at e (s_files s) path).
Proof. intros R. unfold node_at. destruct (slot e path); [apply rel_kind, R|reflexivity]. Qed.
Lemma rel_is_file s p path : rel s p -> is_file e (s_files (fst p)) path = is_file e (s_files s) path.
Proof.
  intros R. pose proof (rel_node s p path R) as K. unfold is_file. destruct (node_at e (s_files (fst p)) path) as [[|]|], (node_at e (s_files s) path) as [[|]|]; cbn in K; congruence || reflexivity.
Qed.
Lemma rel_is_readable s p path : rel s p -> is_readable e (s_files (fst p)) path = is_readable e (s_files s) path.
Proof.
  intros R. pose proof (rel_node s p path R) as K. unfold is_readable. destruct (node_at e (s_files (fst p)) path) as [[|]|], (node_at e (s_files s) path) as [[|]|]; cbn in K; congruence || reflexivity.
Qed.
Lemma search_loop_ext (a b : str -> bool) name pl : (forall q, a q = b q) -> forall full, PathModel.search_loop a pl name full = PathModel.search_loop b pl name full.
Proof.
  intros H. induction pl as [|d pl IH]; intros full; [reflexivity|]. cbn [PathModel.search_loop]. destruct (Append d name) as [q| | | |]; try reflexivity. cbn [bind]. rewrite H, IH. reflexivity.
Qed.
Lemma rel_search s p name : rel s p -> search e (fst p) name = search e s name.
Proof.
  intros R. unfold search, SearchPathList. assert (P : s_path (fst p) = s_path s) by apply R. rewrite P. apply search_loop_ext. intros q. apply rel_is_file, R.
Qed.
Lemma rel_mode s p : rel s p -> compare_mode e (fst p) = compare_mode e s.
Proof.
  intros R. unfold compare_mode. assert (I : s_is (fst p) = s_is s) by apply R. assert (N : s_in (fst p) = s_in s) by apply R. rewrite I, N.
  destruct (s_is s); [reflexivity|]. destruct (s_in s) as [|c nm]; [reflexivity|]. rewrite (rel_search s p _ R). destruct (search e s (c :: nm)) as [q| | | |]; try reflexivity.
  cbn [bind]. rewrite (rel_is_file s p _ R), (rel_is_readable s p _ R). reflexivity.
Qed.
Lemma rel_contents s p path : rel s p -> not_output e o path -> contents e (s_files (fst p)) path = contents e (s_files s) path.
Proof.
  intros (_ & F & _) N. unfold contents, node_at. unfold not_output in N. destruct (slot e path) as [k|]; [|reflexivity]. rewrite F; [reflexivity|]. intros E. rewrite E in N. exact (N eq_refl).
Qed.
Lemma rel_sources s p path : rel s p -> not_output e o path -> sources e (s_files (fst p)) path = sources e (s_files s) path.
Proof.
  intros (_ & F & _) N. unfold sources, node_at. unfold not_output in N. destruct (slot e path) as [k|]; [|reflexivity]. rewrite F; [reflexivity|]. intros E. rewrite E in N. exact (N eq_refl).
Qed.

(** * Computations *)
Definition mimics {A} (P Q : rst -> Prop) (m : M A) (l : LM A) : Prop := forall s p, rel s p -> s_os s = o -> P s ->
  rel (fst (m s)) (fst (l p)) /\ snd (l p) = snd (m s) /\ s_os (fst (m s)) = o /\ (match snd (m s) with Ok _ => Q (fst (m s)) | _ => True end).
Lemma mimics_bind {A B} (P Q S : rst -> Prop) (m : M A) (l : LM A) (k : A -> M B) (h : A -> LM B) :
  mimics P Q m l -> (forall a, mimics Q S (k a) (h a)) -> mimics P S (mbind m k) (lbind l h).
Proof.
  intros H K s p R O HP. destruct (H s p R O HP) as (R1 & E & O1 & Q1). unfold mbind, lbind. destruct (m s) as [s1 r1]. destruct (l p) as [p1 r2]. cbn [fst snd] in *. subst r2.
  destruct r1 as [a| | | |]; try (cbn [fst snd]; auto). exact (K a s1 p1 R1 O1 Q1).
Qed.
Lemma mimics_pure {A} (P : rst -> Prop) (m : M A) : (forall s, fst (m s) = s) -> (forall s p, rel s p -> P s -> snd (m (fst p)) = snd (m s)) -> mimics P P m (lift m).
Proof.
  intros F G s p R O HP. unfold lift. specialize (G s p R HP). specialize (F (fst p)) as F'. destruct (m (fst p)) as [s1 r1] eqn:E1. cbn [fst snd] in *. subst s1.
  rewrite F. destruct p as [sp n]. cbn [fst snd] in *. split; [exact R|]. split; [exact G|]. split; [exact O|]. destruct (snd (m s)); auto.
Qed.
Lemma mimics_lift {A} (P : rst -> Prop) (r : res A) : mimics P P (mlift r) (lift (mlift r)).
Proof. apply mimics_pure; reflexivity. Qed.
Lemma mimics_ret {A} (P : rst -> Prop) (a : A) : mimics P P (mret a) (lret a).
Proof. intros s p R O H. cbn. auto. Qed.
(** a change of fields other than the files, the output and the stream *)
Lemma mimics_modify (P Q : rst -> Prop) (h : rst -> rst) : (forall s p, rel s p -> rel (h s) (h (fst p), snd p)) -> (forall s, s_os (h s) = s_os s) -> (forall s, P s -> Q (h s)) ->
  mimics P Q (modify h) (lift (modify h)).
Proof. intros H I J s p R O HP. cbn. split; [apply H, R|]. split; [reflexivity|]. rewrite I. auto. Qed.
Lemma firstn_grow (b t : str) : firstn n0 b ++ firstn (n0 - length b) t = firstn n0 (b ++ t).
Proof. symmetry. apply firstn_app. Qed.
Lemma mimics_put (P : rst -> Prop) text : (forall s, P s -> P (put_text text s)) -> mimics P P (put text) (lput text).
Proof.
  intros HP s p R O H. unfold put, modify, lput. cbn [fst snd]. specialize (HP s H). destruct R as ((F1 & F2 & F3 & F4 & F5 & F6 & F7 & F8 & F9) & F & C).
  unfold cut_output in C. rewrite O in F5. unfold put_text in *. rewrite F5, O in *. destruct o as [k|] eqn:Eo.
  - destruct C as (C0 & r & w & b & C1 & C2 & C3). rewrite C1, C2 in *. cbn [fst snd]. split; [|split; [reflexivity|split; [exact O|exact HP]]].
    split; [cbn; rewrite O; repeat split; assumption|]. split.
    + intros k' N. cbn. unfold upd. destruct (eqs_spec k' k) as [->|X]; [rewrite Eo in N; contradiction|]. apply F. rewrite <- Eo. exact N.
    + unfold cut_output. rewrite Eo. cbn. split; [exact C0|]. exists r, w, (b ++ text). unfold upd. rewrite !eqs_refl. split; [reflexivity|]. rewrite C3, firstn_grow. split; [reflexivity|]. rewrite app_length. lia.
  - destruct C as [C0 C1]. cbn [fst snd]. split; [|split; [reflexivity|split; [exact O|exact HP]]].
    split; [cbn; rewrite O; repeat split; assumption|]. split; [intros k' N; apply F; rewrite <- Eo; exact N|]. unfold cut_output. rewrite Eo. cbn. rewrite C0, C1, firstn_grow, app_length. split; [reflexivity|lia].
Qed.

(** * Comparisons read the files they name only *)
Lemma Load_ext fs fs' f : fs (cstr (ffile f)) = fs' (cstr (ffile f)) -> Load fs f = Load fs' f.
Proof. intros H. unfold Load. rewrite H. reflexivity. Qed.
Lemma IsEqual_data_ext sc fs fs' f m : fs (cstr (ffile f)) = fs' (cstr (ffile f)) -> file_IsEqual_data sc fs f m = file_IsEqual_data sc fs' f m.
Proof. intros H. unfold file_IsEqual_data. rewrite (Load_ext fs fs' f H). reflexivity. Qed.
Lemma Compare_ext sc fs fs' io c b m : (forall f, (b = MF f \/ m = MF f) -> fs (cstr (ffile f)) = fs' (cstr (ffile f))) -> Compare sc fs io c b m = Compare sc fs' io c b m.
Proof.
  intros H. assert (E : IsEqual sc fs b m = IsEqual sc fs' b m).
  { unfold IsEqual. destruct b as [b|f], m as [m|g].
    - reflexivity.
    - rewrite (IsEqual_data_ext sc fs fs'); [reflexivity|]. apply H. auto.
    - rewrite (IsEqual_data_ext sc fs fs'); [reflexivity|]. apply H. auto.
    - unfold file_IsEqual_file. rewrite (Load_ext fs fs' f); [|apply H; auto]. destruct (negb _ || negb _); [reflexivity|]. f_equal. destruct (Load fs' f) as [d| | | |]; try reflexivity.
      cbn [bind]. rewrite (IsEqual_data_ext sc fs fs'); [reflexivity|]. apply H. auto. }
  unfold Compare. rewrite E. reflexivity.
Qed.

(** * The computations of the driver *)
Definition quiet (s : rst) : Prop := s_is s = None /\ s_in s = [].
Definition guarded (s : rst) : Prop := names_others e o (s_path s) (s_input s).
(** only the output changes *)
Definition stable (P : rst -> Prop) : Prop := forall s s', s_is s' = s_is s -> s_in s' = s_in s -> s_path s' = s_path s -> s_input s' = s_input s -> P s -> P s'.
Lemma stable_quiet : stable quiet.
Proof. intros s s' A B C D [H1 H2]. split; congruence. Qed.
Lemma stable_guarded : stable guarded.
Proof. intros s s' A B C D H. unfold guarded in *. rewrite C, D. exact H. Qed.
Lemma mimics_put_stable P text : stable P -> mimics P P (put text) (lput text).
Proof. intros H. apply mimics_put. intros s. destruct (put_text_any text s) as ((F1 & F2 & F3 & F4 & F5) & A & B & C & D & G). apply H; congruence. Qed.
Lemma mimics_put_meas P m : stable P -> mimics P P (put_meas m) (lput_meas m).
Proof. intros H. unfold put_meas, lput_meas. eapply mimics_bind; [apply mimics_lift|]. intros t. apply mimics_put_stable, H. Qed.
Lemma rel_field (h : rst -> rst) : (forall s, s_files (h s) = s_files s /\ s_stdout (h s) = s_stdout s) ->
  (forall s s', s_input s' = s_input s -> s_in s' = s_in s -> s_out s' = s_out s -> s_path s' = s_path s -> s_os s' = s_os s -> s_is s' = s_is s -> s_tol s' = s_tol s -> s_unmatched s' = s_unmatched s -> s_expected s' = s_expected s ->
   s_input (h s') = s_input (h s) /\ s_in (h s') = s_in (h s) /\ s_out (h s') = s_out (h s) /\ s_path (h s') = s_path (h s) /\ s_os (h s') = s_os (h s) /\ s_is (h s') = s_is (h s) /\ s_tol (h s') = s_tol (h s) /\
   s_unmatched (h s') = s_unmatched (h s) /\ s_expected (h s') = s_expected (h s)) ->
  forall s p, rel s p -> rel (h s) (h (fst p), snd p).
Proof.
  intros H1 H2 s p ((F1 & F2 & F3 & F4 & F5 & F6 & F7 & F8 & F9) & F & C). split; [apply H2; assumption|]. cbn [fst snd]. destruct (H1 s) as [A B]. destruct (H1 (fst p)) as [A' B'].
  split; [intros k N; rewrite A, A'; exact (F k N)|]. unfold cut_output in *. cbn [fst snd]. rewrite A, A', B, B'. exact C.
Qed.
Ltac field := apply rel_field; [intros; split; reflexivity|intros; cbn; repeat split; congruence].
Lemma mimics_count P : stable P -> mimics P P (modify (fun s => set_unmatched s (s_unmatched s + 1))) (lift (modify (fun s => set_unmatched s (s_unmatched s + 1)))).
Proof. intros H. apply mimics_modify; [field|reflexivity|]. intros s. apply H; reflexivity. Qed.
Lemma mimics_unmatched P m : stable P -> mimics P P (UnmatchedMeasurement m) (lUnmatched m).
Proof. intros H. unfold UnmatchedMeasurement, lUnmatched. eapply mimics_bind; [apply mimics_count, H|]. intros _. apply mimics_put_meas, H. Qed.
Lemma mimics_difference P m b : stable P -> mimics P P (DifferenceMeasurement e m b) (lDifference e m b).
Proof. intros H. unfold DifferenceMeasurement, lDifference. eapply mimics_bind; [apply mimics_count, H|]. intros _. eapply mimics_bind; [apply mimics_lift|]. intros t. apply mimics_put_stable, H. Qed.
Lemma mimics_weaken {A} (P P' Q : rst -> Prop) (m : M A) l : mimics P Q m l -> (forall s, P' s -> P s) -> mimics P' Q m l.
Proof. intros H W s p R O HP. exact (H s p R O (W s HP)). Qed.
(** looking at the state *)
Lemma mimics_peek {A B} (P Q : rst -> Prop) (r : rst -> res A) (k : A -> M B) (h : A -> LM B) : (forall s p, rel s p -> P s -> r (fst p) = r s) ->
  (forall s a, P s -> r s = Ok a -> mimics (fun s' => s' = s) Q (k a) (h a)) -> mimics P Q (mbind (fun s => (s, r s)) k) (lbind (lift (fun s => (s, r s))) h).
Proof.
  intros H K s p R O HP. unfold mbind, lbind, lift. rewrite (H s p R HP). destruct (r s) as [a| | | |] eqn:E; try (destruct p; cbn [fst snd]; auto).
  refine (K s a HP E s _ _ O eq_refl). exact R.
Qed.
Lemma located s b m g : names_others e o (s_path s) [b] -> locate e s b m = Ok (MF g) -> not_output e o (ffile g).
Proof.
  intros N E. unfold locate in E. destruct b as [d|g0]; [discriminate (Ok_inj _ _ E)|]. specialize (N g0 (or_introl eq_refl)). destruct N as [N1 N2].
  destruct m as [d|g']; [injection E as <-; exact N1|]. destruct (search e s (Tail (ffile g0))) as [q| | | |] eqn:Es; try discriminate E. cbn [bind] in E.
  destruct q as [|c q]; [injection E as <-; exact N1|]. injection E as <-. cbn [ffile].
  assert (W : forall l full, PathModel.search_loop (is_file e (s_files s)) l (Tail (ffile g0)) full = Ok (c :: q) -> (forall d p, In d l -> Append d (Tail (ffile g0)) = Ok p -> not_output e o p) -> full = c :: q \/ not_output e o (c :: q)).
  { induction l as [|d l IH]; intros full; cbn [PathModel.search_loop]; [intros X _; left; exact (Ok_inj _ _ X)|]. destruct (Append d (Tail (ffile g0))) as [p| | | |] eqn:Ea; try discriminate. cbn [bind]. intros X N3.
    assert (Hp : not_output e o p) by (apply (N3 d p); [left; reflexivity|exact Ea]). destruct (is_file e (s_files s) p).
    - injection X as <-. right. exact Hp.
    - destruct (IH p X) as [->|Y]; [intros d' p' I; apply N3; right; exact I| |]; right; assumption. }
  destruct (W _ _ Es N2) as [X|X]; [discriminate X|exact X].
Qed.
Lemma mimics_compare m t : (forall g, m = MF g -> not_output e o (ffile g)) -> mimics guarded guarded (CompareMeasurement e m t) (lCompare e m t).
Proof.
  intros Hm. unfold CompareMeasurement, lCompare.
  assert (U : forall P : rst -> Prop, (forall s, P s -> guarded s) -> mimics P guarded (_ <- UnmatchedMeasurement m ;; mret 1%Z) (_ <~ lUnmatched m ;; lret 1%Z)).
  { intros P W. eapply mimics_weaken; [|exact W]. eapply mimics_bind; [apply mimics_unmatched, stable_guarded|]. intros _. apply mimics_ret. }
  apply (mimics_peek guarded guarded (fun s => Ok (s_input s))).
  { intros s p R _. f_equal. apply R. }
  intros s inp G E. injection E as E. destruct inp as [|b rest].
  { apply U. intros s' ->. exact G. }
  apply mimics_bind with (Q := fun s => guarded s /\ names_others e o (s_path s) [b]).
  { apply mimics_modify; [field|reflexivity|]. intros s' ->. unfold guarded in *. rewrite E in G. split; intros g H; apply G; [right; exact H|]. destruct H as [H|[]]. left. exact H. }
  intros _. destruct (eqs (mname b) (mname m) && eqs (mtype b) (mtype m)).
  2:{ apply U. intros s' H. apply H. }
  clear s G E. apply (mimics_peek _ guarded (fun s => locate e s b m)).
  { intros s p R _. unfold locate. destruct b as [|g]; [reflexivity|]. destruct m as [|g']; [reflexivity|]. rewrite (rel_search s p _ R). reflexivity. }
  intros s b' [G N] L. apply (mimics_peek _ guarded (fun s => Ok (Compare (e_sc e) (sources e (s_files s)) (e_io e) (visitor s t) b' m))).
  { intros s' p R ->. f_equal. unfold visitor. assert (T : s_tol (fst p) = s_tol s) by apply R. rewrite T. apply Compare_ext. intros f Hf.
    rewrite !sources_at. apply rel_sources; [exact R|]. destruct Hf as [->|Hf]; [exact (located s b m f N L)|exact (Hm f Hf)]. }
  intros s' [[b2 m2] v] -> _. eapply mimics_bind with (Q := guarded); [eapply mimics_weaken; [apply mimics_lift|]; intros s' ->; exact G|].
  intros [|]; [apply mimics_ret|]. eapply mimics_bind; [apply mimics_difference, stable_guarded|]. intros _. apply mimics_ret.
Qed.
Lemma mimics_measure_quiet c : mimics quiet quiet (Measure e c) (lMeasure e c).
Proof.
  unfold Measure, lMeasure. apply (mimics_peek quiet quiet (compare_mode e)); [intros s p R _; apply rel_mode, R|].
  intros s cm H E. rewrite (record_mode e s (proj1 H) (proj2 H)) in E. injection E as <-.
  eapply mimics_bind with (Q := quiet); [eapply mimics_weaken; [apply mimics_put_meas, stable_quiet|]; intros s' ->; exact H|]. intros _. apply mimics_ret.
Qed.
Lemma mimics_measure_guarded c : (forall f, file_of c = Some f -> not_output e o f) -> mimics guarded guarded (Measure e c) (lMeasure e c).
Proof.
  intros Hf. unfold Measure, lMeasure. apply (mimics_peek guarded guarded (compare_mode e)); [intros s p R _; apply rel_mode, R|].
  intros s [|] H E.
  - eapply mimics_weaken; [apply mimics_compare|intros s' ->; exact H]. intros g Hg. apply Hf. destruct c; cbn in Hg; try discriminate Hg; injection Hg as <-; reflexivity.
  - eapply mimics_bind with (Q := guarded); [eapply mimics_weaken; [apply mimics_put_meas, stable_guarded|]; intros s' ->; exact H|]. intros _. apply mimics_ret.
Qed.
Lemma mimics_write P path b : stable P -> (slot e path = None \/ slot e path <> o) ->
  mimics P P (modify (fun s => set_files s (write_file e (s_files s) path b))) (lift (modify (fun s => set_files s (write_file e (s_files s) path b)))).
Proof.
  intros St H s p (F0 & F & C) O HP. cbn. split; [|split; [reflexivity|split; [exact O|revert HP; apply St; reflexivity]]]. split; [exact F0|]. cbn. unfold write_file.
  destruct (slot e path) as [k|]; [|split; [exact F|exact C]]. destruct H as [H|H]; [discriminate H|]. assert (N : o <> Some k) by congruence. rewrite (F k N).
  assert (U : forall v, rel s p -> (forall k', o <> Some k' -> upd (s_files (fst p)) k v k' = upd (s_files s) k v k') /\ cut_output (set_files s (upd (s_files s) k v)) (set_files (fst p) (upd (s_files (fst p)) k v), snd p)).
  { intros v _. split; [intros k' N'; unfold upd; rewrite (F k' N'); reflexivity|]. unfold cut_output in *. cbn. destruct o as [k0|]; [|exact C]. destruct C as (C0 & r & w & c & C1 & C2 & C3). split; [exact C0|].
    exists r, w, c. unfold upd. destruct (eqs_spec k0 k) as [->|X]; [contradiction|]. auto. }
  specialize (fun v => U v (conj F0 (conj F C))). destruct (s_files s k) as [[r [|] c|]|]; [apply U|split; [exact F|exact C]|split; [exact F|exact C]|]. destruct (e_cancreate e (cstr path)); [apply U|split; [exact F|exact C]].
Qed.
Lemma mimics_run_with P : stable P -> (forall c, mimics P P (Measure e c) (lMeasure e c)) -> forall p, leaves_alone e o p -> mimics P P (run e p) (lrun e p).
Proof.
  intros St H p. induction p as [z|x|c k IH|t k IH|z k IH|path b k IH]; intros L; cbn [run lrun]; cbn [leaves_alone] in L.
  - apply mimics_ret.
  - apply mimics_lift.
  - eapply mimics_bind; [apply H|]. intros r. apply IH, L.
  - eapply mimics_bind with (Q := P); [apply mimics_modify; [field|reflexivity|intros s; apply St; reflexivity]|]. intros _. apply IH, L.
  - eapply mimics_bind with (Q := P); [apply mimics_modify; [field|reflexivity|intros s; apply St; reflexivity]|]. intros _. apply IH, L.
  - eapply mimics_bind with (Q := P); [apply mimics_write; [exact St|apply L]|]. intros _. apply IH, L.
Qed.
Lemma mimics_run_guarded p : leaves_alone e o p -> measures_others e o p -> mimics guarded guarded (run e p) (lrun e p).
Proof.
  induction p as [z|x|c k IH|t k IH|z k IH|path b k IH]; intros L N; cbn [run lrun]; cbn [leaves_alone] in L; cbn [measures_others] in N.
  - apply mimics_ret.
  - apply mimics_lift.
  - eapply mimics_bind; [apply mimics_measure_guarded, N|]. intros r. apply IH; [apply L|apply N].
  - eapply mimics_bind with (Q := guarded); [apply mimics_modify; [field|reflexivity|intros s; apply stable_guarded; reflexivity]|]. intros _. apply IH; assumption.
  - eapply mimics_bind with (Q := guarded); [apply mimics_modify; [field|reflexivity|intros s; apply stable_guarded; reflexivity]|]. intros _. apply IH; assumption.
  - eapply mimics_bind with (Q := guarded); [apply mimics_write; [apply stable_guarded|apply L]|]. intros _. apply IH; [apply L|assumption].
Qed.
(** the end of a run *)
Definition agrees {A} (m : M A) (l : LM A) : Prop := forall s p, rel s p -> s_os s = o -> rel (fst (m s)) (fst (l p)) /\ snd (l p) = snd (m s).
Lemma agrees_bind {A B} (m : M A) (l : LM A) (k : A -> M B) (h : A -> LM B) : mimics (fun _ => True) (fun _ => True) m l -> (forall a, agrees (k a) (h a)) -> agrees (mbind m k) (lbind l h).
Proof.
  intros H K s p R O. destruct (H s p R O I) as (R1 & E & O1 & _). unfold mbind, lbind. destruct (m s) as [s1 r1]. destruct (l p) as [p1 r2]. cbn [fst snd] in *. subst r2.
  destruct r1 as [a| | | |]; try (cbn [fst snd]; auto). exact (K a s1 p1 R1 O1).
Qed.
Lemma stable_any : stable (fun _ => True).
Proof. intros s s' _ _ _ _ _. exact I. Qed.
Lemma end_agrees : agrees (EndMeasurement e) (lEnd e).
Proof.
  unfold EndMeasurement, lEnd. apply agrees_bind; [apply mimics_pure; [reflexivity|intros s p R _; apply rel_mode, R]|]. intros cm. apply agrees_bind.
  - destruct cm; [apply mimics_modify; [field|reflexivity|auto]|apply mimics_put_stable, stable_any].
  - intros _ s p R O. cbn. split; [|reflexivity]. revert R. apply (rel_field (fun s => set_is (set_os s None) None)); [intros; split; reflexivity|intros; cbn; repeat split; congruence].
Qed.
Lemma finish_agrees ret s p : rel s p -> rel (fst (finish e ret s)) (fst (lfinish e ret p)) /\ snd (lfinish e ret p) = snd (finish e ret s).
Proof.
  intros R. unfold finish, lfinish. assert (X : s_expected (fst p) = s_expected s) by apply R. rewrite X. destruct (negb _); [split; [exact R|reflexivity]|].
  assert (U : s_unmatched (fst p) = s_unmatched s) by apply R. rewrite (rel_mode s p R), U. split; [exact R|reflexivity].
Qed.
End Limit.

(** * The start of a run *)
Lemma lbegin_record e s n : s_os s = None -> s_is s = None -> s_in s = [] ->
  lBegin e (s, n) = match opened e (s_files s) (s_out s) with
                    | None => ((s, n), Throw ExnRuntime)
                    | Some (o, f1) => lput (header e) (set_os (set_files s f1) o, n)
                    end.
Proof.
  intros Ho Hs Hi. unfold lBegin. unfold lbind at 1, lift at 1. cbn [fst snd]. rewrite (open_output_spec e s Ho).
  destruct (opened e (s_files s) (s_out s)) as [[o f1]|]; [|reflexivity].
  unfold lbind, lift, open_input. cbn [fst snd set_os set_files s_in]. rewrite Hi. cbv iota.
  unfold GetCompareMode, compare_mode. cbn [fst snd set_os set_files s_in s_is]. rewrite Hi, Hs. reflexivity.
Qed.
Lemma lbegin_compare e s n inf : s_os s = None -> s_is s = None -> s_in s = inf -> inf <> [] -> lBegin e (s, n) = lift (BeginMeasurement e) (s, n).
Proof.
  intros Ho Hs Hi Hn. unfold lBegin, BeginMeasurement, lbind, mbind, lift. cbn [fst snd]. destruct (open_output e s) as [s1 r1] eqn:E1.
  assert (I1 : s_in s1 = inf).
  { rewrite (open_output_spec e s Ho) in E1. destruct (opened e (s_files s) (s_out s)) as [[o f1]|]; injection E1 as <- _; exact Hi. }
  destruct r1 as [[]| | | |]; try reflexivity. cbn [fst snd]. unfold open_input. rewrite I1. destruct inf as [|c inf]; [contradiction|].
  destruct (search e s1 (c :: inf)) as [q| | | |]; try reflexivity. cbv zeta. destruct (can_open e (s_files s1) _) eqn:R; [|reflexivity].
  destruct (readable_slot _ _ _ R) as (k & K & _). rewrite K. unfold GetCompareMode. cbn [fst snd]. rewrite (compare_mode_open e (set_is s1 (Some k)) k eq_refl).
  reflexivity.
Qed.
Lemma lmain_body_launch e f test a0 opts rest n : command_line e f opts rest ->
  lmain_body e test (a0 :: flat opts ++ rest) (set_unmatched (new_test f) 1, n) = (_ <~ lBegin e ;; lrun e (test (a0 :: rest))) (launched e f opts, n).
Proof.
  intros H. destruct (launch e f a0 opts rest H) as (argc & argv & E & F). unfold lmain_body. unfold lbind at 1, lift at 1. cbn [fst snd]. rewrite E.
  cbv beta iota. rewrite F. reflexivity.
Qed.
Lemma rel_start e f opts o f1 n : opened e f (output_of e f opts) = Some (o, f1) ->
  rel o n (set_os (set_files (launched e f opts) f1) o) (set_os (set_files (launched e f opts) f1) o, n).
Proof.
  intros H. split; [repeat split|]. split; [reflexivity|]. unfold cut_output. cbn. unfold opened in H. destruct (output_of e f opts) as [|c out]; [injection H as <- _; rewrite firstn_nil; split; [reflexivity|lia]|].
  destruct (slot e (c :: out)) as [k|]; [|discriminate H].
  assert (U : forall r, upd f k (Some (FFile r true [])) k = Some (FFile r true [])) by (intros r; unfold upd; rewrite eqs_refl; reflexivity).
  destruct (f k) as [[r [|] b|]|]; try discriminate H; [|destruct (e_cancreate e (cstr (c :: out))); [|discriminate H]]; injection H as <- <-; (split; [reflexivity|]); do 3 eexists; (split; [apply U|]);
    rewrite firstn_nil; (split; [apply U|cbn; lia]).
Qed.
Lemma end_to_end e o n s p r : 
  rel o n s p -> s_os s = o ->
  exists s' p', (match r with Ok ret => match EndMeasurement e s with
      | (s, Ok _) => finish e ret (set_unmatched s (s_unmatched s - 1)) | (s, Throw _) => finish e ret s | (s, UB) => (s, UB) | (s, Abort) => (s, Abort) | (s, Hang) => (s, Hang) end
    | Throw _ => finish e (-1)%Z s | UB => (s, UB) | Abort => (s, Abort) | Hang => (s, Hang) end) = s' /\
   (match r with Ok ret => match lEnd e p with
      | (p, Ok _) => lfinish e ret (set_unmatched (fst p) (s_unmatched (fst p) - 1), snd p) | (p, Throw _) => lfinish e ret p | (p, UB) => (p, UB) | (p, Abort) => (p, Abort) | (p, Hang) => (p, Hang) end
    | Throw _ => lfinish e (-1)%Z p | UB => (p, UB) | Abort => (p, Abort) | Hang => (p, Hang) end) = p' /\ rel o n (fst s') (fst p') /\ snd p' = snd s'.
Proof.
  intros R O. eexists. eexists. split; [reflexivity|]. split; [reflexivity|]. destruct r as [ret| | | |]; try (split; [exact R|reflexivity]).
  - destruct (end_agrees e o n s p R O) as [R1 E]. destruct (EndMeasurement e s) as [s1 r1]. destruct (lEnd e p) as [p1 r2]. cbn [fst snd] in R1, E. subst r2.
    destruct r1 as [u| | | |]; try (split; [exact R1|reflexivity]).
    + apply finish_agrees. revert R1. apply (rel_field o n (fun s => set_unmatched s (s_unmatched s - 1))); [intros; split; reflexivity|intros; cbn; repeat split; congruence].
    + apply finish_agrees. exact R1.
  - apply finish_agrees. exact R.
Qed.

(** * C73 *)
(** Whatever number of bytes the output takes, the run returns the value it returns when the output takes everything; the output is its beginning of that length, every other file
    (and, with an output file, standard output) is the same. *)
Theorem C73_full_disk : forall e f test a0 rest opts o f1 n s1 r,
  command_line e f opts rest -> opened e f (output_of e f opts) = Some (o, f1) -> leaves_alone e o (test (a0 :: rest)) ->
  (forall inf l, input_of opts = Some inf -> started e f (output_of e f opts) (dirs_of opts) inf = Some (o, f1, l) ->
     measures_others e o (test (a0 :: rest)) /\ names_others e o (dirs_of opts) l) ->
  Main e test (a0 :: flat opts ++ rest) (new_test f) = (s1, r) ->
  exists s2, limited_Main e test (a0 :: flat opts ++ rest) (new_test f, n) = ((s2, n - length (written o s1)), r) /\
    written o s2 = firstn n (written o s1) /\ (forall k, o <> Some k -> s_files s2 k = s_files s1 k) /\ (o <> None -> s_stdout s2 = s_stdout s1).
Proof.
  intros e f test a0 rest opts o f1 n s1 r Hc Ho L H E.
  rewrite Main_unfold in E. unfold limited_Main. change (set_unmatched (fst (new_test f, n)) (s_unmatched (fst (new_test f, n)) + 1)) with (set_unmatched (new_test f) 1). cbn [snd].
  rewrite (main_body_launch e f test a0 opts rest Hc) in E. rewrite (lmain_body_launch e f test a0 opts rest n Hc).
  pose proof (rel_start e f opts o f1 n Ho) as R0. set (s0 := set_os (set_files (launched e f opts) f1) o) in *. assert (O0 : s_os s0 = o) by reflexivity.
  assert (B : exists s p x, (_ <- BeginMeasurement e ;; run e (test (a0 :: rest))) (launched e f opts) = (s, x) /\ (_ <~ lBegin e ;; lrun e (test (a0 :: rest))) (launched e f opts, n) = (p, x) /\ rel o n s p /\ s_os s = o).
  { assert (K : forall m l P Q s p, @mimics o n Z P Q m l -> rel o n s p -> s_os s = o -> P s -> exists s' p' x, m s = (s', x) /\ l p = (p', x) /\ rel o n s' p' /\ s_os s' = o).
    { intros m l P Q s p M R O HP. destruct (M s p R O HP) as (R1 & E1 & O1 & _). destruct (m s) as [s' x]. destruct (l p) as [p' x']. cbn [fst snd] in *. subst x'. exists s', p', x. auto. }
    unfold mbind, lbind. destruct (input_of opts) as [inf|] eqn:Ei.
    - assert (Hin : s_in (launched e f opts) = inf) by (cbn; rewrite Ei; reflexivity). pose proof (input_of_nonempty e f opts inf (proj1 Hc) Ei) as Hn.
      rewrite (lbegin_compare e (launched e f opts) n inf eq_refl eq_refl Hin Hn). unfold lift. cbn [fst snd].
      pose proof (begin_compare e (launched e f opts) inf eq_refl eq_refl Hin Hn) as B. change (s_files (launched e f opts)) with f in B. change (s_out (launched e f opts)) with (output_of e f opts) in B.
      change (s_path (launched e f opts)) with (dirs_of opts) in B. rewrite Ho in B. cbv zeta in B. fold s0 in B. specialize (H inf). unfold started in H. rewrite Ho in H.
      set (q := baseline_path e f1 (dirs_of opts) inf) in *. destruct (can_open e f1 q) eqn:Er; rewrite B; [|do 3 eexists; split; [reflexivity|split; [reflexivity|split; [exact R0|exact O0]]]].
      assert (R1 : forall v, rel o n (set_is s0 v) (set_is s0 v, n)) by (intros v; revert R0; apply (rel_field o n (fun s => set_is s v)); [intros; split; reflexivity|intros; cbn; repeat split; congruence]).
      unfold read_input. cbn [set_is s_is]. change (s_files (set_is s0 (slot e q))) with f1.
      destruct (readable_contents e f1 q Er) as (k & Ek & [(r0 & w & b & Eb & Ec & Ef)|(r0 & w & x & Eb & Ec)]); rewrite Ek, Eb; [|do 3 eexists; split; [reflexivity|split; [reflexivity|split; [apply R1|exact O0]]]].
      rewrite Ec in H. destruct (ReadXMLInput (e_asserts e) (e_ext e) b) as [l| | | |]; try (do 3 eexists; split; [reflexivity|split; [reflexivity|split; [apply R1|exact O0]]]).
      destruct (H l eq_refl eq_refl) as [H1 H2]. eapply K; [exact (mimics_run_guarded e o n _ L H1)| |exact O0|exact H2].
      generalize (R1 (Some k)). apply (rel_field o n (fun s => set_input s l)); [intros; split; reflexivity|intros; cbn; repeat split; congruence].
    - assert (Hin : s_in (launched e f opts) = []) by (cbn; rewrite Ei; reflexivity).
      rewrite (begin_record e (launched e f opts) eq_refl eq_refl Hin), (lbegin_record e (launched e f opts) n eq_refl eq_refl Hin).
      change (s_files (launched e f opts)) with f. change (s_out (launched e f opts)) with (output_of e f opts). rewrite Ho. fold s0.
      destruct (mimics_put_stable o n quiet (header e) stable_quiet s0 (s0, n) R0 O0 (conj eq_refl Hin)) as (R1 & E1 & O1 & Q1). unfold put, modify in R1, O1, Q1. cbn [fst snd] in R1, O1, Q1.
      unfold lput in *. cbn [fst snd] in R1 |- *. eapply K; [exact (mimics_run_with e o n quiet stable_quiet (mimics_measure_quiet e o n) _ L)|exact R1|exact O1|exact Q1]. }
  destruct B as (s & p & x & B1 & B2 & R & O). rewrite B1 in E. rewrite B2. destruct (end_to_end e o n s p x R O) as (s' & p' & X1 & X2 & R' & X3).
  assert (Y1 : s' = (s1, r)). { rewrite <- X1. rewrite <- E. reflexivity. }
  assert (Y2 : forall T : (rst * nat) * res Z, T = p' -> exists s2, T = ((s2, n - length (written o s1)), r) /\ written o s2 = firstn n (written o s1) /\ (forall k, o <> Some k -> s_files s2 k = s_files s1 k) /\ (o <> None -> s_stdout s2 = s_stdout s1)).
  { intros T ->. rewrite Y1 in R', X3. clear X1 X2 Y1. destruct p' as [[s2 n'] r']. cbn [fst snd] in R', X3. subst r'. exists s2. destruct R' as (_ & F & C). unfold cut_output in C. unfold written. destruct o as [k|].
    - destruct C as (C0 & r0 & w & b & C1 & C2 & C3). cbn [fst snd] in C1, C2, C3. rewrite C1, C2, C3. split; [reflexivity|]. split; [reflexivity|]. split; [exact F|]. intros _. exact C0.
    - destruct C as [C0 C1]. cbn [fst snd] in C0, C1. rewrite C1. split; [reflexivity|]. split; [exact C0|]. split; [exact F|]. intros X. exfalso. apply X. reflexivity. }
  apply Y2. rewrite <- X2. destruct x; reflexivity.
Qed.
Print Assumptions C73_full_disk.

(** The value returned does not tell: a recording run returns 0, wherever its document is cut off. *)
Local Notation c73_run := (Main ex_env ex_recording [$"prog"; $"-O"; $"b.xml"] (new_test (fun _ => None))).
Local Notation c73_limited n := (limited_Main ex_env ex_recording [$"prog"; $"-O"; $"b.xml"] (new_test (fun _ => None), n)).
Definition c73_opened : store := upd (fun _ => None) ($"b.xml") (Some (FFile true true [])).
Lemma c73_hypotheses : command_line ex_env (fun _ => None) [($"-O", $"b.xml")] [] /\ input_of [($"-O", $"b.xml")] = None /\
  opened ex_env (fun _ => None) (output_of ex_env (fun _ => None) [($"-O", $"b.xml")]) = Some (Some ($"b.xml"), c73_opened) /\ leaves_alone ex_env (Some ($"b.xml")) (ex_recording [$"prog"]) /\
  snd c73_run = Ok 0%Z.
Proof.
  split; [split; [repeat constructor; cbn; auto; discriminate|exact I]|]. split; [reflexivity|]. split; [reflexivity|]. split; [repeat constructor|vm_compute; reflexivity].
Qed.
Theorem C73_recording_success_refuted : exists e f test argv o s1, Main e test argv (new_test f) = (s1, Ok 0%Z) /\ 200 < length (written o s1) /\
  forall n, exists s2 n', limited_Main e test argv (new_test f, n) = ((s2, n'), Ok 0%Z) /\ written o s2 = firstn n (written o s1).
Proof.
  exists ex_env, (fun _ => None), ex_recording, [$"prog"; $"-O"; $"b.xml"], (Some ($"b.xml")), (fst c73_run). destruct c73_hypotheses as (H1 & H2 & H3 & H4 & H5).
  assert (E : c73_run = (fst c73_run, Ok 0%Z)) by (apply pair_fst; exact H5). split; [exact E|]. split; [apply Nat.ltb_lt; vm_compute; reflexivity|]. intros n.
  destruct (C73_full_disk ex_env (fun _ => None) ex_recording ($"prog") [] [($"-O", $"b.xml")] (Some ($"b.xml")) c73_opened n (fst c73_run) (Ok 0%Z) H1 H3 H4) as (s2 & E2 & W & _).
  - intros inf l X. rewrite H2 in X. discriminate X.
  - exact E.
  - exists s2. eexists. split; [exact E2|exact W].
Qed.
Print Assumptions C73_recording_success_refuted.

(** It is noticed by the runs compared with that document, unless only the last newline is missing: they fail with -1 (with 1 if -1 is the expected value), make no measurement and no output;
    with assertions compiled in they may be aborted instead. *)
Theorem C73_noticed_later : forall e f old a0 rest opts o f1 s1 z n s n' z' e' f' new a0' rest' opts' inf o' f2,
  (* the recording run, with enough space and with little *)
  command_line e f opts rest -> input_of opts = None -> opened e f (output_of e f opts) = Some (o, f1) ->
  leaves_alone e o (old (a0 :: rest)) -> (exists k, ends (old (a0 :: rest)) = Ok k) ->
  Forall storable (map (meas_of (e_io e) false) (recorded (old (a0 :: rest)))) -> comment_safe (e_host e) -> comment_safe (e_time e) ->
  Main e old (a0 :: flat opts ++ rest) (new_test f) = (s1, Ok z) -> n + 2 <= length (written o s1) ->
  limited_Main e old (a0 :: flat opts ++ rest) (new_test f, n) = ((s, n'), Ok z') ->
  (* the comparing run *)
  command_line e' f' opts' rest' -> input_of opts' = Some inf -> opened e' f' (output_of e' f' opts') = Some (o', f2) ->
  contents e' f2 (baseline_path e' f2 (dirs_of opts') inf) = Some (written o s) -> rejects_incomplete_declaration (e_ext e') ->
  z' = z /\ exists s2, (Main e' new (a0' :: flat opts' ++ rest') (new_test f') = (s2, Ok (if (-1 =? expected_of opts')%Z then 1%Z else (-1)%Z)) /\ s_files s2 = f2 /\ s_stdout s2 = []) \/
    (e_asserts e' = true /\ Main e' new (a0' :: flat opts' ++ rest') (new_test f') = (s2, Abort)).
Proof.
  intros e f old a0 rest opts o f1 s1 z n s n' z' e' f' new a0' rest' opts' inf o' f2 Hc Hi Ho Hl He Hs Hh Ht Hm Hn HL Hc' Hi' Ho' Hb Hr.
  destruct (C73_full_disk e f old a0 rest opts o f1 n s1 (Ok z) Hc Ho Hl) as (s' & E & W & _).
  { intros i l X. rewrite Hi in X. discriminate X. }
  { exact Hm. }
  assert (Q : ((s, n'), Ok z') = ((s', n - length (written o s1)), Ok z)) by congruence. apply pair_equal_spec in Q as [Q1 Q2]. apply pair_equal_spec in Q1 as [-> ->]. apply Ok_inj in Q2. subst z'. split; [reflexivity|].
  refine (C70_cut_off_noticed e f old a0 rest opts o f1 s1 z (written o s') (skipn n (written o s1)) e' f' new a0' rest' opts' inf o' f2 Hc Hi Ho Hl He Hs Hh Ht Hm _ _ Hc' Hi' Ho' Hb Hr).
  - rewrite W. symmetry. apply firstn_skipn.
  - rewrite skipn_length. lia.
Qed.
Print Assumptions C73_noticed_later.

(** a recording on a disk with space for 160 bytes, and the comparison with what is left *)
Local Notation c73_left := (written (Some ($"b.xml")) (fst (fst (c73_limited 160)))).
Example C73_case_record :
  snd (c73_limited 160) = Ok 0%Z /\ snd (fst (c73_limited 160)) = 0 /\ length c73_left = 160 /\ length (written (Some ($"b.xml")) (fst c73_run)) = 235 /\
  snd (Main (c70_env false) ex_recording [$"prog"; $"-I"; $"b.xml"] (new_test (c70_file c73_left))) = Ok (-1)%Z /\
  snd (fst (c73_limited 1000)) = 765 /\ eqs (written (Some ($"b.xml")) (fst (fst (c73_limited 1000)))) (written (Some ($"b.xml")) (fst c73_run)) = true.
Proof. vm_compute. repeat split. Qed.
(** a comparison whose standard output takes nothing: the mismatch is counted, the report is lost *)
Definition c73_changed : list str -> prog := fun _ => Call (TextString ($"b") ($"one")) (fun _ => Call (TextPlain ($"two lines") ($"two")) (fun _ => Return 0)).
Local Notation c73_baseline := (c70_file (written (Some ($"b.xml")) (fst c73_run))).
Definition c73_args : list str := [$"prog"; $"-I"; $"b.xml"].
Example C73_case_compare :
  command_line (c70_env false) c73_baseline [($"-I", $"b.xml")] [] /\
  opened (c70_env false) c73_baseline (output_of (c70_env false) c73_baseline [($"-I", $"b.xml")]) = Some (None, c73_baseline) /\
  leaves_alone (c70_env false) None (c73_changed [$"prog"]) /\ measures_others (c70_env false) None (c73_changed [$"prog"]) /\
  (forall l, names_others (c70_env false) None [] l) /\
  snd (Main (c70_env false) c73_changed c73_args (new_test c73_baseline)) = Ok 1%Z /\
  length (s_stdout (fst (Main (c70_env false) c73_changed c73_args (new_test c73_baseline)))) <> 0 /\
  snd (limited_Main (c70_env false) c73_changed c73_args (new_test c73_baseline, 0)) = Ok 1%Z /\
  s_stdout (fst (fst (limited_Main (c70_env false) c73_changed c73_args (new_test c73_baseline, 0)))) = [].
Proof.
  split; [split; [|exact I]; constructor; [|constructor]; split; [cbn; auto|]; split; intros E; [vm_compute; auto|discriminate E]|].
  split; [reflexivity|]. split; [repeat constructor|]. split; [repeat split; intros; discriminate|]. split; [intros l g _; split; [exact I|intros d p []]|].
  split; [vm_compute; reflexivity|]. split; [intros E; apply (f_equal (Nat.eqb 0)) in E; vm_compute in E; discriminate E|]. split; vm_compute; reflexivity.
Qed.

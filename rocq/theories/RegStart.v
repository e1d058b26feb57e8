(** Start and end of a run. *)
From Coq Require Import Floats.SpecFloat.
From Verif Require Import Base Str Dec PathModel PathFacts MeasModel MeasFacts VisitModel XmlModel ReadModel ReadFacts ReadBack RegModel RegSpec RegFacts.

Lemma baseline_path_search e s inf : exists p, search e s inf = Ok p /\
  baseline_path e (s_files s) (s_path s) inf = match p with [] => inf | _ => p end.
Proof.
  destruct (search_always e s inf) as [p E]. exists p. split; [exact E|]. unfold baseline_path. unfold search in E. rewrite E. destruct p; reflexivity.
Qed.
Lemma readable_slot e f q : can_open e f q = true -> exists k, slot e q = Some k /\ f k <> None.
Proof.
  unfold can_open, node_at. destruct (slot e q) as [k|]; [|discriminate]. intros H. exists k. split; [reflexivity|].
  destruct (f k); discriminate.
Qed.

Lemma open_output_spec e s : s_os s = None ->
  open_output e s = match opened e (s_files s) (s_out s) with
                    | None => (s, Throw ExnRuntime)
                    | Some (o, f1) => (set_os (set_files s f1) o, Ok tt)
                    end.
Proof.
  intros H. unfold open_output, opened. destruct (s_out s) as [|c r] eqn:E.
  - destruct s; cbn in *. subst. reflexivity.
  - destruct (slot e (c :: r)) as [k|]; [|destruct s; cbn in *; subst; reflexivity].
    destruct (s_files s k) as [[rr w b|rr w x]|].
    + destruct w; [reflexivity|]. destruct s; cbn in *; subst; reflexivity.
    + destruct s; cbn in *; subst; reflexivity.
    + destruct (e_cancreate e (cstr (c :: r))); [reflexivity|]. destruct s; cbn in *; subst; reflexivity.
Qed.

(** the start of a run in record mode *)
Lemma begin_record e s : s_os s = None -> s_is s = None -> s_in s = [] ->
  BeginMeasurement e s = match opened e (s_files s) (s_out s) with
                         | None => (s, Throw ExnRuntime)
                         | Some (o, f1) => (put_text (header e) (set_os (set_files s f1) o), Ok tt)
                         end.
Proof.
  intros Ho Hs Hi. unfold BeginMeasurement. unfold mbind at 1. rewrite (open_output_spec e s Ho).
  destruct (opened e (s_files s) (s_out s)) as [[o f1]|]; [|reflexivity].
  unfold mbind, open_input. cbn [set_os set_files s_in]. rewrite Hi. cbv iota.
  unfold GetCompareMode, compare_mode. cbn [set_os set_files s_in s_is]. rewrite Hi, Hs. reflexivity.
Qed.

(** the start of a run in compare mode *)
Lemma begin_compare e s inf : s_os s = None -> s_is s = None -> s_in s = inf -> inf <> [] ->
  match opened e (s_files s) (s_out s) with
  | None => BeginMeasurement e s = (s, Throw ExnRuntime)
  | Some (o, f1) =>
      let s1 := set_os (set_files s f1) o in
      let q := baseline_path e f1 (s_path s) inf in
      if can_open e f1 q then BeginMeasurement e s = read_input e (set_is s1 (slot e q))
      else BeginMeasurement e s = (s1, Throw ExnRuntime)
  end.
Proof.
  intros Ho Hs Hi Hn. remember (BeginMeasurement e s) as bm eqn:Eb. unfold BeginMeasurement in Eb. unfold mbind at 1 in Eb. rewrite (open_output_spec e s Ho) in Eb.
  destruct (opened e (s_files s) (s_out s)) as [[o f1]|]; [|exact Eb]. cbv zeta.
  set (s1 := set_os (set_files s f1) o).
  assert (Q : open_input e s1 = if can_open e f1 (baseline_path e f1 (s_path s) inf)
     then (set_is s1 (slot e (baseline_path e f1 (s_path s) inf)), Ok tt) else (s1, Throw ExnRuntime)).
  { unfold open_input. change (s_in s1) with (s_in s). rewrite Hi.
    destruct (baseline_path_search e s1 inf) as (p & E & B). change (s_files s1) with f1 in *. change (s_path s1) with (s_path s) in *.
    destruct inf as [|c r] eqn:Einf; [contradiction|]. rewrite E. cbv zeta. rewrite <- B.
    destruct (can_open e f1 (baseline_path e f1 (s_path s) (c :: r))); [reflexivity|].
    unfold s1. destruct s; cbn in *; subst; reflexivity. }
  fold s1 in Eb. unfold mbind at 1 in Eb. rewrite Q in Eb. destruct (can_open e f1 (baseline_path e f1 (s_path s) inf)) eqn:R.
  - unfold mbind, GetCompareMode in Eb. destruct (readable_slot _ _ _ R) as (k & K & _). rewrite K in *.
    rewrite (compare_mode_open e (set_is s1 (Some k)) k eq_refl) in Eb. exact Eb.
  - exact Eb.
Qed.

(** What happens to the files in a run: they keep their permissions, new ones are readable and writable. *)
Definition keeps (f f' : store) : Prop := forall k,
  match f k with
  | Some (FFile r w b) => exists b', f' k = Some (FFile r w b')
  | Some (FDir r w x) => f' k = f k
  | None => f' k = None \/ exists b', f' k = Some (FFile true true b')
  end.
Lemma keeps_refl f : keeps f f.
Proof. intros k. destruct (f k) as [[|]|] eqn:E; eauto. Qed.
Lemma keeps_trans f g h : keeps f g -> keeps g h -> keeps f h.
Proof.
  intros A B k. specialize (A k). specialize (B k). destruct (f k) as [[r w b|r w x]|].
  - destruct A as [b' A]. rewrite A in B. exact B.
  - rewrite A in B. exact B.
  - destruct A as [A|[b' A]]; rewrite A in B; [exact B|]. right. exact B.
Qed.
Lemma keeps_upd f k r w b b' : f k = Some (FFile r w b) -> keeps f (upd f k (Some (FFile r w b'))).
Proof.
  intros H k'. unfold upd. destruct (eqs_spec k' k) as [->|N]; [rewrite H; eauto|]. destruct (f k') as [[|]|] eqn:E; eauto.
Qed.
Lemma keeps_new f k b' : f k = None -> keeps f (upd f k (Some (FFile true true b'))).
Proof.
  intros H k'. unfold upd. destruct (eqs_spec k' k) as [->|N]; [rewrite H; eauto|]. destruct (f k') as [[|]|] eqn:E; eauto.
Qed.
Lemma keeps_put t s : keeps (s_files s) (s_files (put_text t s)).
Proof.
  unfold put_text. destruct (s_os s) as [k|]; [|apply keeps_refl]. destruct (s_files s k) as [[r w b|]|] eqn:E; try apply keeps_refl.
  cbn [set_files s_files]. eapply keeps_upd. exact E.
Qed.
Lemma keeps_opened e f out o f1 : opened e f out = Some (o, f1) -> keeps f f1.
Proof.
  unfold opened. destruct out as [|c r]; [intros H; injection H as <- <-; apply keeps_refl|].
  destruct (slot e (c :: r)) as [k|]; [|discriminate]. destruct (f k) as [[rr [|] b|]|] eqn:E; try discriminate.
  - intros H. injection H as <- <-. eapply keeps_upd. exact E.
  - destruct (e_cancreate e (cstr (c :: r))); [|discriminate]. intros H. injection H as <- <-. apply keeps_new. exact E.
Qed.
Lemma keeps_write e f path b : keeps f (write_file e f path b).
Proof.
  unfold write_file. destruct (slot e path) as [k|]; [|apply keeps_refl]. destruct (f k) as [[r [|] b0|]|] eqn:E; try apply keeps_refl.
  - eapply keeps_upd. exact E.
  - destruct (e_cancreate e (cstr path)); [|apply keeps_refl]. apply keeps_new. exact E.
Qed.
Lemma keeps_put_meas m s : keeps (s_files s) (s_files (fst (put_meas m s))).
Proof. rewrite put_meas_eq. apply keeps_put. Qed.
Lemma keeps_compare e m t s : keeps (s_files s) (s_files (fst (CompareMeasurement e m t s))).
Proof.
  assert (UM : forall s, keeps (s_files s) (s_files (fst (UnmatchedMeasurement m s))) /\ snd (UnmatchedMeasurement m s) = Ok tt).
  { intros s0. unfold UnmatchedMeasurement, mbind, modify. cbv iota. rewrite put_meas_eq. split; [|reflexivity].
    exact (keeps_put _ (set_unmatched s0 (s_unmatched s0 + 1))). }
  assert (UM' : forall s, keeps (s_files s) (s_files (fst ((_ <- UnmatchedMeasurement m ;; mret 1%Z) s)))).
  { intros s0. destruct (UM s0) as [A B]. unfold mbind. destruct (UnmatchedMeasurement m s0) as [s1 r]. cbn [fst snd] in *. subst r. exact A. }
  unfold CompareMeasurement. unfold mbind at 1. unfold gets at 1. cbv iota. destruct (s_input s) as [|b bs]; [apply UM'|].
  unfold mbind at 1. unfold modify at 1. cbv iota. set (s0 := set_input s bs). change (s_files s) with (s_files s0).
  destruct (eqs (mname b) (mname m) && eqs (mtype b) (mtype m)); [|apply UM'].
  unfold mbind at 1. rewrite locate_found. cbv iota. unfold mbind at 1, gets. cbv iota.
  destruct (Compare _ _ _ _ _ _) as [[b2 m2] v]. unfold mbind at 1, mlift. destruct v as [[|]| | | |]; try apply keeps_refl.
  unfold DifferenceMeasurement, mbind, modify, mlift. cbv iota.
  destruct (snd (Difference _ _ _ _ _)) as [text| | | |]; cbv iota; try apply keeps_refl.
  exact (keeps_put text (set_unmatched s0 (s_unmatched s0 + 1))).
Qed.
Lemma keeps_measure e c s : keeps (s_files s) (s_files (fst (Measure e c s))).
Proof.
  unfold Measure, GetCompareMode. unfold mbind at 1. destruct (compare_mode e s) as [[|]| | | |]; try apply keeps_refl.
  - apply keeps_compare.
  - unfold mbind. rewrite put_meas_eq. apply keeps_put.
Qed.
Lemma keeps_run e p : forall s, keeps (s_files s) (s_files (fst (run e p s))).
Proof.
  induction p as [z|x|c k IH|t k IH|z k IH|path b k IH]; intros s; cbn [run]; try apply keeps_refl.
  - unfold mbind. pose proof (keeps_measure e c s) as K. destruct (Measure e c s) as [s1 r]. cbn [fst] in K.
    destruct r; try exact K. eapply keeps_trans; [exact K|apply IH].
  - exact (IH (set_tol s t)).
  - exact (IH (set_expected s z)).
  - unfold mbind, modify. cbv iota. eapply keeps_trans; [apply (keeps_write e (s_files s) path b)|]. exact (IH (set_files s (write_file e (s_files s) path b))).
Qed.

(** what is found under a path is found under its C string *)
Lemma node_cstr e f q : node_at e f (cstr q) = node_at e f q.
Proof. unfold node_at, slot. rewrite (cstr_free _ (cstr_is_free q)). reflexivity. Qed.
Lemma sources_at e f q : sources e f (cstr q) = sources e f q.
Proof. unfold sources. rewrite node_cstr. reflexivity. Qed.
Lemma sources_cstr e f q b : contents e f q = Some b -> sources e f (cstr q) = Bytes b.
Proof. rewrite sources_at. unfold contents, sources. destruct (node_at e f q) as [[[|] w c|]|]; try discriminate. intros X. injection X as <-. reflexivity. Qed.
(** for a file the two ways of asking agree *)
Lemma file_can_open e f q : is_file e f q = true -> is_readable e f q = can_open e f q.
Proof. unfold is_file, is_readable, can_open. destruct (node_at e f q) as [[r w b|r w x]|]; [reflexivity|discriminate|discriminate]. Qed.
(** a baseline that could be opened can still be opened *)
Definition readable_file (e : env) (f : store) (q : str) : bool := is_file e f q && is_readable e f q.
Lemma keeps_file e f f' q : keeps f f' -> is_file e f q = true -> is_file e f' q = true /\ is_readable e f' q = is_readable e f q.
Proof.
  intros K. unfold is_file, is_readable, node_at. destruct (slot e q) as [k|]; [|discriminate]. specialize (K k).
  destruct (f k) as [[r w b|]|]; try discriminate. destruct K as [b' ->]. auto.
Qed.
Lemma keeps_created e f f' q : keeps f f' -> is_file e f q = false -> is_file e f' q = true -> is_readable e f' q = true.
Proof.
  intros K. unfold is_file, is_readable, node_at. destruct (slot e q) as [k|]; [|discriminate]. specialize (K k).
  destruct (f k) as [[r w b|]|]; try discriminate.
  - rewrite K. discriminate.
  - destruct K as [->|[b' ->]]; [discriminate|reflexivity].
Qed.
Lemma keeps_baseline e f f' dirs inf : keeps f f' -> readable_file e f (baseline_path e f dirs inf) = true ->
  readable_file e f' (baseline_path e f' dirs inf) = true.
Proof.
  intros K. unfold baseline_path, SearchPathList.
  assert (G : forall full, readable_file e f (match search_loop (is_file e f) dirs inf full with Ok (c :: p) => c :: p | _ => inf end) = true ->
     readable_file e f' (match search_loop (is_file e f') dirs inf full with Ok (c :: p) => c :: p | _ => inf end) = true).
  2: apply G.
  induction dirs as [|d dirs IH]; intros full; cbn [search_loop].
  - unfold readable_file. intros H. apply andb_true_iff in H as [H1 H2]. destruct (keeps_file e f f' _ K H1) as [A B]. rewrite A, B, H2. reflexivity.
  - destruct (append_ok d inf) as [r E]. rewrite E. cbn [bind]. destruct (is_file e f r) eqn:F.
    + destruct (keeps_file e f f' _ K F) as [A B]. rewrite A. unfold readable_file. intros H. apply andb_true_iff in H as [H1 H2].
      destruct (keeps_file e f f' _ K H1) as [A' B']. rewrite A', B', H2. reflexivity.
    + destruct (is_file e f' r) eqn:F'; [|apply IH]. intros _. unfold readable_file.
      assert (R := keeps_created e f f' r K F F'). destruct r as [|c r'].
      * unfold is_file, node_at, slot in F'. cbn in F'. discriminate.
      * rewrite F', R. reflexivity.
Qed.
Lemma compare_mode_closed e s inf : s_is s = None -> s_in s = inf -> inf <> [] ->
  compare_mode e s = Ok (readable_file e (s_files s) (baseline_path e (s_files s) (s_path s) inf)).
Proof.
  intros H1 H2 H3. unfold compare_mode. rewrite H1, H2. destruct inf as [|c r]; [contradiction|].
  destruct (baseline_path_search e s (c :: r)) as (p & E & B). rewrite E. cbn [bind]. cbv zeta. rewrite <- B. reflexivity.
Qed.

(** C86: the drivers with 32-bit counters.  [i_Main], [i_itk_Main]: IntModel; [Main], [itk_Main]: the same without bounds. *)
From Coq Require Import Floats.SpecFloat.
From Verif Require Import Base Str Dec B64Model PathModel PathFacts MeasModel MeasFacts DiffModel VisitModel XmlText XmlModel ReadModel ReadFacts ReadBack ReadProps ElemProps RegModel ArgFacts ArgProps RegSpec RegFacts RegStart RegMain RegProps RegProps2 RegRound RegProps3 ImgModel ItkModel ItkSpec ItkSim ItkRun ItkMain ItkRunProps ReuseProps CasesRead ErrModel ErrProps ItkErrProps IntModel IntFacts.
Import RegModel ItkModel.

(** * Specification *)
(** the elements open after these events, and documents that go deeper than an [int] can count *)
Definition open_elements (evs : list event) : nat := fold_left (fun d v => match v with EStart _ _ => S d | EEnd _ => pred d | EData _ => d end) evs 0.
Definition too_deep (evs : list event) : Prop := exists a b, evs = a ++ b /\ (2147483647 < Z.of_nat (open_elements a))%Z.

Lemma shallow_fits evs : ~ too_deep evs -> fits 0 evs.
Proof. intros N a b E. apply Z.nlt_ge. intros L. apply N. exists a, b. split; [exact E|exact L]. Qed.
(** Reading. *)
Theorem C86_reading : forall asserts ext bytes,
  (~ too_deep (fst (expat ext bytes)) -> i_ReadXMLInput asserts ext bytes = ReadXMLInput asserts ext bytes) /\
  (too_deep (fst (expat ext bytes)) -> forall l, ReadXMLInput asserts ext bytes = Ok l -> i_ReadXMLInput asserts ext bytes = UB).
Proof.
  intros asserts ext bytes. rewrite read_spec. unfold i_ReadXMLInput. destruct (buffers_file bytes) as (full & lastb & E & C & _). rewrite E. cbn [bind]. rewrite concat_map_fst, C. clear E C full lastb.
  destruct (expat ext bytes) as [evs ok]. cbn [fst]. split.
  - intros N. rewrite (shallow_events asserts evs pd0 (shallow_fits evs N)). reflexivity.
  - intros D l H. destruct (on_events asserts pd0 evs) as [q|i| | |] eqn:Eo; try discriminate H. rewrite (deep_events asserts evs pd0 q Eo D); [reflexivity|]. cbn. unfold INT_MAX. lia.
Qed.
Print Assumptions C86_reading.

(** * Runs *)
Lemma i_begin_compare e s inf : s_os s = None -> s_is s = None -> s_in s = inf -> inf <> [] ->
  match opened e (s_files s) (s_out s) with
  | None => i_BeginMeasurement e s = (s, Throw ExnRuntime)
  | Some (o, f1) =>
      let s1 := set_os (set_files s f1) o in
      let q := baseline_path e f1 (s_path s) inf in
      if can_open e f1 q then i_BeginMeasurement e s = i_read_input e (set_is s1 (slot e q))
      else i_BeginMeasurement e s = (s1, Throw ExnRuntime)
  end.
Proof.
  intros Ho Hs Hi Hn. remember (i_BeginMeasurement e s) as bm eqn:Eb. unfold i_BeginMeasurement in Eb. unfold mbind at 1 in Eb. rewrite (open_output_spec e s Ho) in Eb.
  destruct (opened e (s_files s) (s_out s)) as [[o f1]|]; [|exact Eb]. cbv zeta.
  set (s1 := set_os (set_files s f1) o).
  assert (Q : open_input e s1 = if can_open e f1 (baseline_path e f1 (s_path s) inf)
     then (set_is s1 (slot e (baseline_path e f1 (s_path s) inf)), Ok tt) else (s1, Throw ExnRuntime)).
  { unfold open_input. change (s_in s1) with (s_in s). rewrite Hi.
    destruct (baseline_path_search e s1 inf) as (p & E & B). change (s_files s1) with f1 in *. change (s_path s1) with (s_path s) in *.
    destruct inf as [|c r] eqn:Einf; [contradiction|]. rewrite E. cbv zeta. rewrite <- B.
    destruct (can_open e f1 (baseline_path e f1 (s_path s) (c :: r))); [reflexivity|].
    unfold s1. destruct s; cbn in *; subst; reflexivity. }
  fold s1 in Eb. unfold mbind at 1 in Eb. rewrite Q in Eb. destruct (can_open e f1 (baseline_path e f1 (s_path s) inf)) eqn:R.
  - unfold mbind, GetCompareMode in Eb. destruct (readable_slot _ _ _ R) as (k & K & _). rewrite K in *.
    rewrite (compare_mode_open e (set_is s1 (Some k)) k eq_refl) in Eb. exact Eb.
  - exact Eb.
Qed.
Lemma i_begin_record e s : s_os s = None -> s_is s = None -> s_in s = [] -> i_BeginMeasurement e s = BeginMeasurement e s.
Proof.
  intros Ho Hs Hi. unfold i_BeginMeasurement, BeginMeasurement. unfold mbind at 1 4. rewrite (open_output_spec e s Ho).
  destruct (opened e (s_files s) (s_out s)) as [[o f1]|]; [|reflexivity]. unfold mbind, open_input. cbn [set_os set_files s_in]. rewrite Hi. cbv iota.
  unfold GetCompareMode, compare_mode. cbn [set_os set_files s_in s_is]. rewrite Hi, Hs. reflexivity.
Qed.
Lemma i_with_launch e body f dirs0 a0 opts rest : command_line e f opts rest ->
  i_body_with e body (a0 :: flat opts ++ rest) (set_unmatched (fresh f dirs0) 1) = (_ <- i_BeginMeasurement e ;; body (a0 :: rest)) (launched_in e f dirs0 opts).
Proof.
  intros H. destruct (launch_in e f dirs0 a0 opts rest H) as (argc & argv & E & F). unfold i_body_with. unfold mbind at 1. rewrite E. cbv beta iota. rewrite F. reflexivity.
Qed.
Lemma i_Main_unfold e body argv f dirs0 : i_Main_with e body argv (fresh f dirs0) = ends_with e (i_body_with e body argv (set_unmatched (fresh f dirs0) 1)).
Proof. reflexivity. Qed.
Lemma ub_end e x : snd x = UB -> snd (ends_with e x) = UB.
Proof. destruct x as [s r]. cbn [snd]. intros ->. reflexivity. Qed.
(** the same for any test *)
Lemma int_compare e body ibody f dirs0 a0 opts rest inf o f1 baseline bytes s' z : command_line e f opts rest -> input_of opts = Some inf ->
  started e f (output_of e f opts) (dirs_of opts ++ dirs0) inf = Some (o, f1, baseline) -> contents e f1 (baseline_path e f1 (dirs_of opts ++ dirs0) inf) = Some bytes ->
  within (body (a0 :: rest)) (ibody (a0 :: rest)) -> Main_with e body (a0 :: flat opts ++ rest) (fresh f dirs0) = (s', Ok z) ->
  let run := i_Main_with e ibody (a0 :: flat opts ++ rest) (fresh f dirs0) in
  (too_deep (fst (expat (e_ext e) bytes)) -> snd run = UB) /\
  (~ too_deep (fst (expat (e_ext e) bytes)) -> exists k s3 out, body (a0 :: rest) (comparing e f dirs0 opts o f1 k baseline) = (s3, out) /\ ((exists v, out = Ok v) \/ (exists i, out = Throw i)) /\
     main_body_with e body (a0 :: flat opts ++ rest) (set_unmatched (fresh f dirs0) 1) = (s3, out) /\ readable_file e f1 (baseline_path e f1 (dirs_of opts ++ dirs0) inf) = true /\
     ((s_unmatched s3 <= INT_MAX)%Z -> run = (s', Ok z)) /\ ((INT_MAX < s_unmatched s3)%Z -> snd run = UB)).
Proof.
  intros Hc Hi Hs Hb W H run. unfold run. rewrite i_Main_unfold, (i_with_launch e ibody f dirs0 a0 opts rest Hc).
  rewrite Main_with_unfold in H. change (set_unmatched (fresh f dirs0) (s_unmatched (fresh f dirs0) + 1)) with (set_unmatched (fresh f dirs0) 1) in H. rewrite (main_with_launch e body f dirs0 a0 opts rest Hc) in H. pose proof (main_with_launch e body f dirs0 a0 opts rest Hc) as MB.
  pose proof (input_of_nonempty e f opts inf (proj1 Hc) Hi) as Hn. set (s0 := launched_in e f dirs0 opts) in *.
  assert (Hin : s_in s0 = inf) by (cbn; rewrite Hi; reflexivity).
  pose proof (begin_compare e s0 inf eq_refl eq_refl Hin Hn) as B. pose proof (i_begin_compare e s0 inf eq_refl eq_refl Hin Hn) as IB.
  change (s_files s0) with f in B, IB. change (s_out s0) with (output_of e f opts) in B, IB. change (s_path s0) with (dirs_of opts ++ dirs0) in B, IB. cbv zeta in B, IB.
  unfold started in Hs. destruct (opened e f (output_of e f opts)) as [[o' f1']|] eqn:Eo; [|discriminate Hs].
  destruct (contents e f1' (baseline_path e f1' (dirs_of opts ++ dirs0) inf)) as [bytes'|] eqn:Ec; [|discriminate Hs].
  destruct (ReadXMLInput (e_asserts e) (e_ext e) bytes') as [l| | | |] eqn:Erd; try discriminate Hs. injection Hs as -> -> ->.
  rewrite Hb in Ec. injection Ec as <-. set (q := baseline_path e f1 (dirs_of opts ++ dirs0) inf) in *.
  assert (Er : can_open e f1 q = true) by (revert Hb; unfold can_open, contents; destruct (node_at e f1 q) as [[[|] w b|]|]; auto; discriminate).
  rewrite Er in B, IB. destruct (RegMain.readable_contents e f1 q Er) as (k & Ek & [(r & w & b & Eb & Ec' & Ef)|(r & w & x & Eb & Ec')]); rewrite Hb in Ec'; [|discriminate Ec']. injection Ec' as <-.
  unfold mbind in H, MB |- *. rewrite B in H, MB. rewrite IB. rewrite Ek in *. unfold read_input in H, MB. unfold i_read_input. cbn [set_is s_is] in *.
  change (s_files (set_is (set_os (set_files s0 f1) o) (Some k))) with f1 in *. rewrite Eb in *. rewrite Erd in H, MB. cbv iota in H, MB.
  destruct (C86_reading (e_asserts e) (e_ext e) bytes) as [R1 R2]. split.
  - intros D. rewrite (R2 D _ Erd). reflexivity.
  - intros N. rewrite (R1 N), Erd. cbv iota. change (set_input (set_is (set_os (set_files s0 f1) o) (Some k)) baseline) with (comparing e f dirs0 opts o f1 k baseline) in *.
    set (s2 := comparing e f dirs0 opts o f1 k baseline) in *. specialize (W s2). destruct (body (a0 :: rest) s2) as [s3 out] eqn:Erun. destruct W as [_ W]. specialize (W ltac:(cbn; unfold INT_MAX; lia)). destruct W as [W1 W2].
    exists k, s3, out. split; [exact Erun|]. split; [destruct out as [v|i| | |]; try discriminate H; eauto|].
    split; [exact MB|]. split; [unfold readable_file; rewrite Ef, (file_can_open _ _ _ Ef), Er; reflexivity|]. split.
    + intros L. rewrite (W1 L). exact H.
    + intros L. apply ub_end. exact (W2 L).
Qed.

(** A comparing run that gets to its test and ends: its baseline is not nested too deep, and fewer than 2^31 - 1 mismatches, and nothing changes; otherwise it is undefined. *)
Theorem C86_compare : forall e f test a0 opts rest inf o f1 baseline bytes s' z, let argv := a0 :: flat opts ++ rest in
  command_line e f opts rest -> input_of opts = Some inf -> started e f (output_of e f opts) (dirs_of opts) inf = Some (o, f1, baseline) ->
  contents e f1 (baseline_path e f1 (dirs_of opts) inf) = Some bytes -> Main e test argv (new_test f) = (s', Ok z) ->
  (too_deep (fst (expat (e_ext e) bytes)) -> snd (i_Main e test argv (new_test f)) = UB) /\
  (~ too_deep (fst (expat (e_ext e) bytes)) -> exists ms rs x out,
     unfolds e o default_tol f1 (expected_of opts) (test (a0 :: rest)) ms rs x out /\ rs = results e (dirs_of opts) baseline (firstn (length rs) ms) /\
     (forall mo, nth_error ms (length rs) = Some mo -> exists b i, out = Throw i /\ nth_error baseline (length rs) = Some b /\ kind_of_moment e b mo = true /\ verdict e (dirs_of opts) b mo = Throw i) /\
     let n := mismatches e (dirs_of opts) baseline (firstn (length rs) ms) in
     z = status out x n /\
     ((n < 2147483647)%Z -> i_Main e test argv (new_test f) = Main e test argv (new_test f)) /\
     ((2147483647 <= n)%Z -> snd (i_Main e test argv (new_test f)) = UB)).
Proof.
  intros e f test a0 opts rest inf o f1 baseline bytes s' z argv Hc Hi Hs Hb H.
  destruct (int_compare e (fun args => run e (test args)) (fun args => i_run e (test args)) f [] a0 opts rest inf o f1 baseline bytes s' z Hc Hi) as [D N];
    [rewrite app_nil_r; exact Hs|rewrite app_nil_r; exact Hb|apply within_run|exact H|]. split; [exact D|].
  intros Nd. destruct (N Nd) as (k & s3 & out & Er & Ho & MB & Rd & L1 & L2). set (s2 := comparing e f [] opts o f1 k baseline) in *.
  destruct (run_compare e (test (a0 :: rest)) s2 s3 out k eq_refl Er Ho) as (ms & rs & W & Rs & U & St & F).
  change (s_path s2) with (dirs_of opts ++ []) in Rs, U, St. rewrite app_nil_r in Rs, U, St. change (s_input s2) with baseline in Rs, U, St. change (s_unmatched s2) with 1%Z in U.
  exists ms, rs, (s_expected s3), out. split; [exact W|]. split; [exact Rs|]. split; [exact St|]. cbv zeta. set (n := mismatches e (dirs_of opts) baseline (firstn (length rs) ms)) in *. split; [|split].
  - destruct (ended_with e _ f [] argv s' z s3 out MB H) as [_ G]. pose proof F as (F1 & F2 & F3 & F4 & F5). rewrite app_nil_r in Rd.
    replace n with (s_unmatched s3 - 1)%Z by lia. apply (G inf (input_of_nonempty e f opts inf (proj1 Hc) Hi) k f1 (dirs_of opts)).
    + rewrite F5. reflexivity.
    + rewrite F1. cbn. rewrite Hi. reflexivity.
    + rewrite F3. cbn. apply app_nil_r.
    + pose proof (keeps_run e (test (a0 :: rest)) s2) as K. rewrite Er in K. exact K.
    + exact Rd.
  - intros L. rewrite H. apply L1. unfold INT_MAX. lia.
  - intros L. apply L2. unfold INT_MAX. lia.
Qed.
Print Assumptions C86_compare.
Theorem C86_itk_compare : forall ie f test a0 opts rest inf o f1 baseline bytes s' z, let e := i_env ie in let argv := a0 :: flat opts ++ rest in let dirs := dirs_of opts ++ [i_baselines ie] in
  command_line e f opts rest -> input_of opts = Some inf -> started e f (output_of e f opts) dirs inf = Some (o, f1, baseline) ->
  contents e f1 (baseline_path e f1 dirs inf) = Some bytes -> itk_Main ie test argv (new_itk_test ie f) = (s', Ok z) ->
  (too_deep (fst (expat (e_ext e) bytes)) -> snd (i_itk_Main ie test argv (new_itk_test ie f)) = UB) /\
  (~ too_deep (fst (expat (e_ext e) bytes)) -> exists ms rs ns x out extra,
     iunfolds ie argv o default_tol no_tolerance 0 f1 (expected_of opts) (test (a0 :: rest)) ms rs ns x out /\ rs = iresults ie dirs baseline (firstn (length rs) ms) /\
     match nth_error ms (length rs) with
     | Some mo => exists b i, out = Throw i /\ nth_error baseline (length rs) = Some b /\ ItkSpec.raises ie dirs b mo i extra
     | None => extra = 0%Z
     end /\
     let n := (imismatches ie dirs baseline (firstn (length rs) ms) + extra)%Z in
     z = status out x n /\
     ((n < 2147483647)%Z -> i_itk_Main ie test argv (new_itk_test ie f) = itk_Main ie test argv (new_itk_test ie f)) /\
     ((2147483647 <= n)%Z -> snd (i_itk_Main ie test argv (new_itk_test ie f)) = UB)).
Proof.
  intros ie f test a0 opts rest inf o f1 baseline bytes s' z e argv dirs Hc Hi Hs Hb H.
  destruct (int_compare e (itk_body ie test argv) (fun args => i_irun ie argv (test args) no_tolerance 0%Z) f [i_baselines ie] a0 opts rest inf o f1 baseline bytes s' z Hc Hi Hs Hb) as [D N];
    [apply within_irun|exact H|]. split; [exact D|].
  intros Nd. destruct (N Nd) as (k & s3 & out & Er & Ho & MB & Rd & L1 & L2). set (s2 := comparing e f [i_baselines ie] opts o f1 k baseline) in *.
  destruct (irun_compare ie argv (test (a0 :: rest)) no_tolerance 0%Z s2 s3 out k eq_refl Er Ho) as (ms & rs & ns & W & Rs & (ex & U & St) & F & K).
  change (s_path s2) with dirs in Rs, U, St. change (s_input s2) with baseline in Rs, U, St. change (s_unmatched s2) with 1%Z in U.
  exists ms, rs, ns, (s_expected s3), out, ex. split; [exact W|]. split; [exact Rs|]. split; [exact St|]. cbv zeta. set (n := (imismatches ie dirs baseline (firstn (length rs) ms) + ex)%Z) in *. split; [|split].
  - destruct (ended_with e _ f [i_baselines ie] argv s' z s3 out MB H) as [_ G]. pose proof F as (F1 & F2 & F3 & F4 & F5).
    replace n with (s_unmatched s3 - 1)%Z by (unfold n; lia). apply (G inf (input_of_nonempty e f opts inf (proj1 Hc) Hi) k f1 dirs).
    + rewrite F5. reflexivity.
    + rewrite F1. cbn. rewrite Hi. reflexivity.
    + rewrite F3. reflexivity.
    + exact K.
    + exact Rd.
  - intros L. rewrite H. apply L1. unfold INT_MAX. lia.
  - intros L. apply L2. unfold INT_MAX. lia.
Qed.
Print Assumptions C86_itk_compare.

(** * The other runs *)
(** Recording: the counter stays 1, whatever is measured. *)
Lemma same_end e body ibody f dirs0 a0 opts rest : command_line e f opts rest -> i_BeginMeasurement e (launched_in e f dirs0 opts) = BeginMeasurement e (launched_in e f dirs0 opts) ->
  (forall s1 u, BeginMeasurement e (launched_in e f dirs0 opts) = (s1, Ok u) -> ibody (a0 :: rest) s1 = body (a0 :: rest) s1) ->
  i_Main_with e ibody (a0 :: flat opts ++ rest) (fresh f dirs0) = Main_with e body (a0 :: flat opts ++ rest) (fresh f dirs0).
Proof.
  intros Hc E B. rewrite i_Main_unfold, Main_with_unfold. change (set_unmatched (fresh f dirs0) (s_unmatched (fresh f dirs0) + 1)) with (set_unmatched (fresh f dirs0) 1).
  rewrite (i_with_launch e ibody f dirs0 a0 opts rest Hc), (main_with_launch e body f dirs0 a0 opts rest Hc). unfold mbind. rewrite E.
  destruct (BeginMeasurement e (launched_in e f dirs0 opts)) as [s1 [u|i| | |]]; try reflexivity. rewrite (B s1 u eq_refl). reflexivity.
Qed.
Lemma measured e c s : s_is s = None -> s_in s = [] -> Measure e c s = (put_text (print_of (meas_of (e_io e) false c) ++ [nl]) s, Ok 0%Z).
Proof. intros H1 H2. unfold Measure, GetCompareMode, mbind. rewrite (record_mode e s H1 H2). cbv iota. rewrite put_meas_eq. reflexivity. Qed.
Lemma recording_run e p : forall s, s_is s = None -> s_in s = [] -> i_run e p s = run e p s.
Proof.
  induction p as [z|x|c k IH|t k IH|z k IH|path b k IH]; intros s H1 H2; cbn [run i_run]; try reflexivity; try (unfold mbind, modify; cbv iota; apply IH; assumption).
  unfold mbind. rewrite (measured e c s H1 H2). unfold i_Measure, GetCompareMode, mbind. rewrite (record_mode e s H1 H2). cbv iota. rewrite put_meas_eq. cbv iota. unfold mret. cbv iota.
  destruct (put_text_any (print_of (meas_of (e_io e) false c) ++ [nl]) s) as ((F1 & F2 & F3 & F4 & F5) & _). apply IH; congruence.
Qed.
Lemma recording_irun ie args p : forall tol n s, s_is s = None -> s_in s = [] -> i_irun ie args p tol n s = irun ie args p tol n s.
Proof.
  assert (REC : forall m (k ik : Z -> M Z) s, s_is s = None -> s_in s = [] -> (forall s', s_is s' = None -> s_in s' = [] -> ik 0%Z s' = k 0%Z s') ->
    (z <- (_ <- put_meas m ;; mret 0%Z) ;; ik z) s = (z <- (_ <- put_meas m ;; mret 0%Z) ;; k z) s).
  { intros m k ik s H1 H2 E. unfold mbind, mret. rewrite put_meas_eq. cbv iota. destruct (put_text_any (print_of m ++ [nl]) s) as ((F1 & F2 & F3 & F4 & F5) & _). apply E; congruence. }
  induction p as [z|i|c q IH|f nm q IH|t q IH|ext root q IH|t q IH|t q IH|z q IH|path b q IH]; intros tol n s H1 H2; cbn [irun i_irun]; try reflexivity; try (unfold mbind, modify, say; cbv iota; apply IH; assumption).
  - assert (Em : (r <- i_itk_Measure ie tol c ;; i_irun ie args (q r) tol n) s = (z <- (_ <- put_meas (meas_of (e_io (i_env ie)) false c) ;; mret 0%Z) ;; i_irun ie args (q z) tol n) s).
    { unfold i_itk_Measure, GetCompareMode. unfold mbind at 1 2. rewrite (record_mode (i_env ie) s H1 H2). reflexivity. }
    assert (Em' : (r <- itk_Measure ie tol c ;; irun ie args (q r) tol n) s = (z <- (_ <- put_meas (meas_of (e_io (i_env ie)) false c) ;; mret 0%Z) ;; irun ie args (q z) tol n) s).
    { unfold itk_Measure, GetCompareMode. unfold mbind at 1 2. rewrite (record_mode (i_env ie) s H1 H2). reflexivity. }
    rewrite Em, Em'. apply REC; auto.
  - assert (Em : (r <- i_FileImage ie tol f nm ;; i_irun ie args (q r) tol n) s = (z <- (_ <- put_meas (file_meas false itk_type f nm) ;; mret 0%Z) ;; i_irun ie args (q z) tol n) s).
    { unfold i_FileImage, GetCompareMode. unfold mbind at 1 2. rewrite (record_mode (i_env ie) s H1 H2). reflexivity. }
    assert (Em' : (r <- MeasurementInsightFileImage ie tol f nm ;; irun ie args (q r) tol n) s = (z <- (_ <- put_meas (file_meas false itk_type f nm) ;; mret 0%Z) ;; irun ie args (q z) tol n) s).
    { unfold MeasurementInsightFileImage, GetCompareMode. unfold mbind at 1 2. rewrite (record_mode (i_env ie) s H1 H2). reflexivity. }
    rewrite Em, Em'. apply REC; auto.
  - unfold mbind, mlift. destruct (GenerateFileName _ _ _ _ _); try reflexivity. apply IH; assumption.
Qed.
Theorem C86_recording : forall ie f test itest a0 opts rest, let e := i_env ie in let argv := a0 :: flat opts ++ rest in command_line e f opts rest -> input_of opts = None ->
  i_Main e test argv (new_test f) = Main e test argv (new_test f) /\ i_itk_Main ie itest argv (new_itk_test ie f) = itk_Main ie itest argv (new_itk_test ie f).
Proof.
  intros ie f test itest a0 opts rest e argv Hc Hi.
  assert (Hin : forall dirs0, s_in (launched_in e f dirs0 opts) = []) by (intros; cbn; rewrite Hi; reflexivity).
  assert (G : forall dirs0 s1 u, BeginMeasurement e (launched_in e f dirs0 opts) = (s1, Ok u) -> s_is s1 = None /\ s_in s1 = []).
  { intros dirs0 s1 u E. rewrite (begin_record e (launched_in e f dirs0 opts) eq_refl eq_refl (Hin dirs0)) in E. destruct (opened e _ _) as [[o f1]|]; [|discriminate E]. apply pair_equal_spec in E. destruct E as [<- _].
    destruct (put_text_any (header e) (set_os (set_files (launched_in e f dirs0 opts) f1) o)) as ((F1 & F2 & F3 & F4 & F5) & _). rewrite F5, F1. split; [reflexivity|]. exact (Hin dirs0). }
  split.
  - apply (same_end e (fun args => run e (test args)) _ f [] a0 opts rest Hc); [apply i_begin_record; [reflexivity|reflexivity|apply Hin]|]. intros s1 u E. destruct (G _ _ _ E). apply recording_run; assumption.
  - apply (same_end e (itk_body ie itest argv) _ f [i_baselines ie] a0 opts rest Hc); [apply i_begin_record; [reflexivity|reflexivity|apply Hin]|]. intros s1 u E. destruct (G _ _ _ E). apply recording_irun; assumption.
Qed.
Print Assumptions C86_recording.

(** Comparing runs that do not get to the test: the same, unless the baseline they read is nested too deep. *)
Lemma not_started_same e body ibody f dirs0 a0 opts rest inf : command_line e f opts rest -> input_of opts = Some inf ->
  started e f (output_of e f opts) (dirs_of opts ++ dirs0) inf = None ->
  (forall o f1 bytes, opened e f (output_of e f opts) = Some (o, f1) -> contents e f1 (baseline_path e f1 (dirs_of opts ++ dirs0) inf) = Some bytes -> ~ too_deep (fst (expat (e_ext e) bytes))) ->
  i_Main_with e ibody (a0 :: flat opts ++ rest) (fresh f dirs0) = Main_with e body (a0 :: flat opts ++ rest) (fresh f dirs0).
Proof.
  intros Hc Hi Hn Hd. pose proof (input_of_nonempty e f opts inf (proj1 Hc) Hi) as Hne. set (s0 := launched_in e f dirs0 opts) in *.
  assert (Hin : s_in s0 = inf) by (cbn; rewrite Hi; reflexivity).
  pose proof (begin_compare e s0 inf eq_refl eq_refl Hin Hne) as B. pose proof (i_begin_compare e s0 inf eq_refl eq_refl Hin Hne) as IB.
  change (s_files s0) with f in B, IB. change (s_out s0) with (output_of e f opts) in B, IB. change (s_path s0) with (dirs_of opts ++ dirs0) in B, IB. cbv zeta in B, IB.
  assert (E : i_BeginMeasurement e s0 = BeginMeasurement e s0 /\ forall u, snd (BeginMeasurement e s0) <> Ok u).
  { unfold started in Hn. destruct (opened e f (output_of e f opts)) as [[o f1]|] eqn:Eo; [|rewrite B, IB; split; [reflexivity|discriminate]].
    specialize (Hd o f1). destruct (can_open e f1 (baseline_path e f1 (dirs_of opts ++ dirs0) inf)) eqn:Er; [|rewrite B, IB; split; [reflexivity|discriminate]].
    rewrite B, IB. destruct (RegMain.readable_contents e f1 _ Er) as (k & Ek & [(r & w & b & Eb & Ec' & Ef)|(r & w & x & Eb & Ec')]); rewrite Ek; unfold read_input, i_read_input; cbn [set_is s_is];
      change (s_files (set_is (set_os (set_files s0 f1) o) (Some k))) with f1; rewrite Eb; [|split; [reflexivity|discriminate]].
    rewrite Ec' in Hn. rewrite (proj1 (C86_reading (e_asserts e) (e_ext e) b) (Hd b eq_refl Ec')). destruct (ReadXMLInput (e_asserts e) (e_ext e) b); try discriminate Hn; split; try reflexivity; discriminate. }
  destruct E as [E N]. apply (same_end e body ibody f dirs0 a0 opts rest Hc E). intros s1 u B1. exfalso. apply (N u). fold s0 in B1. rewrite B1. reflexivity.
Qed.
Theorem C86_not_started : forall e f test a0 opts rest inf, let argv := a0 :: flat opts ++ rest in command_line e f opts rest -> input_of opts = Some inf ->
  started e f (output_of e f opts) (dirs_of opts) inf = None ->
  (forall o f1 bytes, opened e f (output_of e f opts) = Some (o, f1) -> contents e f1 (baseline_path e f1 (dirs_of opts) inf) = Some bytes -> ~ too_deep (fst (expat (e_ext e) bytes))) ->
  i_Main e test argv (new_test f) = Main e test argv (new_test f).
Proof.
  intros e f test a0 opts rest inf argv Hc Hi Hn Hd. apply (not_started_same e (fun args => run e (test args)) _ f [] a0 opts rest inf Hc Hi); rewrite app_nil_r; assumption.
Qed.
Print Assumptions C86_not_started.
Theorem C86_itk_not_started : forall ie f test a0 opts rest inf, let e := i_env ie in let argv := a0 :: flat opts ++ rest in let dirs := dirs_of opts ++ [i_baselines ie] in
  command_line e f opts rest -> input_of opts = Some inf -> started e f (output_of e f opts) dirs inf = None ->
  (forall o f1 bytes, opened e f (output_of e f opts) = Some (o, f1) -> contents e f1 (baseline_path e f1 dirs inf) = Some bytes -> ~ too_deep (fst (expat (e_ext e) bytes))) ->
  i_itk_Main ie test argv (new_itk_test ie f) = itk_Main ie test argv (new_itk_test ie f).
Proof.
  intros ie f test a0 opts rest inf e argv dirs Hc Hi Hn Hd. exact (not_started_same e (itk_body ie test argv) _ f [i_baselines ie] a0 opts rest inf Hc Hi Hn Hd).
Qed.
Print Assumptions C86_itk_not_started.

(** * Reaching the bounds *)
Lemma run_many e n : forall s k, s_input s = [] -> s_is s = Some k -> s_os s = None -> exists s', run e (many n) s = (s', Ok 0%Z) /\ frame s s' /\ s_files s' = s_files s /\
  s_expected s' = s_expected s /\ s_unmatched s' = (s_unmatched s + Z.of_nat n)%Z.
Proof.
  induction n as [|n IH]; intros s k H1 H2 H3; cbn [many run]; [exists s; split; [reflexivity|split; [apply frame_refl|]]; repeat split; lia|].
  unfold mbind at 1. unfold Measure, GetCompareMode. unfold mbind at 1. rewrite (compare_mode_open e s k H2). cbv iota. unfold CompareMeasurement. unfold mbind at 1. unfold gets at 1. cbv iota. rewrite H1.
  unfold UnmatchedMeasurement, mbind, modify. cbv iota. rewrite put_meas_eq. cbv iota. unfold mret.
  match goal with |- context[put_text ?t ?s0] => destruct (put_text_any t s0) as (F & F6 & F7 & F8 & F9 & _); assert (Ff : s_files (put_text t s0) = s_files s0) by (unfold put_text; cbn [set_unmatched s_os]; rewrite H3; reflexivity);
    destruct (IH (put_text t s0) k) as (s' & E & G & G1 & G2 & G3) end.
  - rewrite F6. exact H1.
  - destruct F as (_ & _ & _ & _ & F5). rewrite F5. exact H2.
  - destruct F as (_ & _ & _ & F5 & _). rewrite F5. exact H3.
  - exists s'. split; [exact E|]. split; [exact (frame_trans _ _ _ F G)|]. split; [rewrite G1, Ff; reflexivity|]. split; [rewrite G2, F9; reflexivity|]. rewrite G3, F8. cbn [set_unmatched s_unmatched]. lia.
Qed.
Definition c86_opts : list (str * str) := [($"-I", $"b.xml")].
Lemma c86_line : command_line ex_env ex_base c86_opts [].
Proof. split; [|exact I]. constructor; [|constructor]. split; [cbn; auto|]. split; [intros _; split; reflexivity|discriminate]. Qed.
Local Notation c86_argv := ($"prog" :: flat c86_opts ++ []).
(** n mismatches: the value is n up to 2^31 - 2, and undefined from 2^31 - 1 on. *)
Lemma c86_many n : exists s1 s2 s' k, BeginMeasurement ex_env (launched_in ex_env ex_base [] c86_opts) = (s1, Ok tt) /\ s_is s1 = Some k /\ run ex_env (many n) s1 = (s2, Ok 0%Z) /\ s_unmatched s2 = (1 + Z.of_nat n)%Z /\
  Main ex_env (fun _ => many n) c86_argv (new_test ex_base) = (s', Ok (Z.of_nat n)).
Proof.
  assert (B : exists s1 k, BeginMeasurement ex_env (launched_in ex_env ex_base [] c86_opts) = (s1, Ok tt) /\ s_input s1 = [] /\ s_is s1 = Some k /\ s_os s1 = None /\ s_unmatched s1 = 1%Z /\ s_expected s1 = 0%Z /\ s_in s1 = $"b.xml" /\
    readable_file ex_env (s_files s1) (baseline_path ex_env (s_files s1) (s_path s1) ($"b.xml")) = true).
  { do 2 eexists. split; [vm_compute; reflexivity|]. repeat split. }
  destruct B as (s1 & k & B & I1 & I2 & I3 & I4 & I5 & I6 & I7). destruct (run_many ex_env n s1 k I1 I2 I3) as (s2 & R & (F1 & F2 & F3 & F4 & F5) & G1 & G2 & G3).
  exists s1, s2. do 2 eexists. split; [exact B|]. split; [exact I2|]. split; [exact R|]. split; [lia|].
  change (Main ex_env (fun _ => many n)) with (Main_with ex_env (fun _ => run ex_env (many n))). change (new_test ex_base) with (fresh ex_base []). rewrite Main_with_unfold.
  change (set_unmatched (fresh ex_base []) (s_unmatched (fresh ex_base []) + 1)) with (set_unmatched (fresh ex_base []) 1). rewrite (main_with_launch ex_env (fun _ => run ex_env (many n)) ex_base [] ($"prog") c86_opts [] c86_line).
  unfold mbind. rewrite B. cbv iota. rewrite R. cbn [ends_with].
  unfold EndMeasurement, mbind, GetCompareMode. rewrite (compare_mode_open ex_env s2 k) by congruence. cbv iota. unfold modify. unfold finish_with.
  match goal with |- context[compare_mode ex_env ?s] => set (s3 := s) end. change (s_expected s3) with (s_expected s2). rewrite G2, I5. cbn [Z.eqb negb].
  rewrite (compare_mode_closed ex_env s3 ($"b.xml") eq_refl) by (try discriminate; change (s_in s3) with (s_in s2); congruence).
  change (s_files s3) with (s_files s2). change (s_path s3) with (s_path s2). rewrite G1, F3, I7. cbn [bind]. replace (s_unmatched s3) with (Z.of_nat n) by (change (s_unmatched s3) with (s_unmatched s2 - 1)%Z; lia). reflexivity.
Qed.
Theorem C86_count_refuted : forall n, exists e f argv test, (exists s', Main e test argv (new_test f) = (s', Ok (Z.of_nat n))) /\
  ((Z.of_nat n < 2147483647)%Z -> i_Main e test argv (new_test f) = Main e test argv (new_test f)) /\ ((2147483647 <= Z.of_nat n)%Z -> snd (i_Main e test argv (new_test f)) = UB).
Proof.
  intros n. destruct (c86_many n) as (s1 & s2 & s' & k & B & I1 & R & Un & H). exists ex_env, ex_base, c86_argv, (fun _ => many n). split; [exists s'; exact H|].
  pose proof (within_run ex_env (many n) s1) as W. rewrite R in W. destruct W as [_ W].
  assert (I2 : s_unmatched s1 = 1%Z) by (assert (X : s_unmatched (fst (BeginMeasurement ex_env (launched_in ex_env ex_base [] c86_opts))) = 1%Z) by (vm_compute; reflexivity); rewrite B in X; exact X).
  assert (IB : i_BeginMeasurement ex_env (launched_in ex_env ex_base [] c86_opts) = BeginMeasurement ex_env (launched_in ex_env ex_base [] c86_opts)) by (vm_compute; reflexivity).
  destruct W as [W1 W2]; [rewrite I2; unfold INT_MAX; lia|]. split.
  - intros L. apply (same_end ex_env (fun _ => run ex_env (many n)) (fun _ => i_run ex_env (many n)) ex_base [] ($"prog") c86_opts [] c86_line IB). intros s0 u B0. rewrite B in B0. apply pair_equal_spec in B0. destruct B0 as [<- _]. rewrite R. apply W1. unfold INT_MAX. lia.
  - intros L. change (i_Main ex_env (fun _ => many n)) with (i_Main_with ex_env (fun _ => i_run ex_env (many n))). change (new_test ex_base) with (fresh ex_base []). rewrite i_Main_unfold.
    rewrite (i_with_launch ex_env (fun _ => i_run ex_env (many n)) ex_base [] ($"prog") c86_opts [] c86_line). apply ub_end. unfold mbind. rewrite IB, B. cbv iota. apply W2. unfold INT_MAX. lia.
Qed.
Print Assumptions C86_count_refuted.

(** A document of n nested elements. *)
Definition nested (n : nat) : str := concat (repeat ($"<a>") n) ++ concat (repeat ($"</a>") n).
Definition nested_events (n : nat) : list event := repeat (EStart ($"a") []) n ++ repeat (EEnd ($"a")) n.
Lemma feed_opens n : forall os t, os <> [] -> feed (PState stext os t) (concat (repeat ($"<a>") n)) = (PState stext (repeat ($"a") n ++ os) (if n =? 0 then t else true), repeat (EStart ($"a") []) n).
Proof.
  induction n as [|n IH]; intros os t N; [reflexivity|]. cbn [repeat concat].
  assert (E : feed (PState stext os t) ($"<a>") = (PState stext ($"a" :: os) true, [EStart ($"a") []])) by (destruct os; [contradiction|reflexivity]).
  rewrite (feed_step _ _ _ _ _ E), (IH ($"a" :: os) true) by discriminate. cbn [Nat.eqb repeat app]. f_equal. f_equal; [|destruct n; reflexivity].
  clear. induction n as [|n IH]; [reflexivity|]. cbn [repeat app]. f_equal. exact IH.
Qed.
Lemma feed_closes n : forall t, feed (PState stext (repeat ($"a") n) t) (concat (repeat ($"</a>") n)) = (PState stext [] t, repeat (EEnd ($"a")) n).
Proof.
  induction n as [|n IH]; intros t; [reflexivity|]. cbn [repeat concat].
  assert (E : forall os, feed (PState stext ($"a" :: os) t) ($"</a>") = (PState stext os t, [EEnd ($"a")])) by (intros [|]; reflexivity).
  rewrite (feed_step _ _ _ _ _ (E _)), IH. reflexivity.
Qed.
Lemma nested_expat ext n : expat ext (nested (S n)) = (nested_events (S n), true).
Proof.
  unfold expat. assert (Sp : supported_bytes (nested (S n)) = true).
  { unfold supported_bytes, nested. rewrite forallb_app. apply andb_true_iff. split; apply forallb_forall; intros c I; apply in_concat in I; destruct I as (l & I1 & I2); apply repeat_spec in I1; subst l; cbn in I2; intuition; subst; reflexivity. }
  rewrite Sp. change (strip_prefix xml_decl (nested (S n))) with (@None str). unfold nested, nested_events. cbn [repeat concat]. change (pinit) with (PState stext [] false).
  assert (E : feed (PState stext [] false) ($"<a>") = (PState stext [$"a"] true, [EStart ($"a") []])) by reflexivity.
  rewrite <- !app_assoc. rewrite (feed_step _ _ _ _ _ E). rewrite (feed_step _ _ _ _ _ (feed_opens n [$"a"] true ltac:(discriminate))).
  replace (repeat ($"a") n ++ [$"a"]) with (repeat ($"a") (S n)) by (exact (repeat_cons n ($"a"))). replace (if n =? 0 then true else true) with true by (destruct n; reflexivity).
  change ($"</a>" ++ concat (repeat ($"</a>") n)) with (concat (repeat ($"</a>") (S n))). rewrite (feed_closes (S n) true). cbn [pmode complete popen proot stext repeat app]. reflexivity.
Qed.
Lemma nested_opens asserts evs n : forall d, on_events asserts (PD d [] None []) (repeat (EStart ($"a") []) n ++ evs) = on_events asserts (PD (n + d) [] None []) evs.
Proof.
  induction n as [|n IH]; intros d; [reflexivity|]. cbn [repeat app on_events on_event]. unfold on_start. cbn [pm ptext pdepth plist negb length Nat.eqb]. rewrite !andb_false_r.
  replace (eqs ($"a") data_elem || eqs ($"a") file_elem) with false by reflexivity. destruct (d =? 1); cbn [bind]; rewrite (IH (S d)); rewrite Nat.add_succ_r; reflexivity.
Qed.
Lemma nested_closes asserts n : forall d, on_events asserts (PD d [] None []) (repeat (EEnd ($"a")) n) = Ok (PD (d - n) [] None []).
Proof. induction n as [|n IH]; intros d; [cbn; rewrite Nat.sub_0_r; reflexivity|]. cbn [repeat on_events on_event bind]. unfold on_end. cbn [pm pdepth plist app]. rewrite IH. f_equal. f_equal. lia. Qed.
Lemma nested_read asserts ext n : ReadXMLInput asserts ext (nested (S n)) = Ok [].
Proof.
  rewrite read_spec, nested_expat. unfold nested_events. change pd0 with (PD 0 [] None []). rewrite nested_opens, nested_closes. cbn. rewrite andb_false_r. reflexivity.
Qed.
Lemma opens_levels n : forall d, fold_left level_after (repeat (EStart ($"a") []) n) d = n + d.
Proof. induction n as [|n IH]; intros d; [reflexivity|]. cbn [repeat fold_left level_after]. rewrite IH. lia. Qed.
(** A well-formed document of nested elements has no measurements; with more than 2^31 - 1 of them reading it is undefined. *)
Theorem C86_depth_refuted : forall asserts ext n, ReadXMLInput asserts ext (nested (S n)) = Ok [] /\ ((2147483647 < Z.of_nat (S n))%Z -> i_ReadXMLInput asserts ext (nested (S n)) = UB) /\
  ((Z.of_nat (S n) <= 2147483647)%Z -> i_ReadXMLInput asserts ext (nested (S n)) = Ok []).
Proof.
  intros asserts ext n. split; [apply nested_read|]. destruct (C86_reading asserts ext (nested (S n))) as [A B]. rewrite nested_expat in A, B. cbn [fst] in A, B. split; intros L.
  - apply (B) with (l := []); [|apply nested_read]. exists (repeat (EStart ($"a") []) (S n)), (repeat (EEnd ($"a")) (S n)). split; [reflexivity|]. change (2147483647 < Z.of_nat (fold_left level_after (repeat (EStart ($"a") []) (S n)) O))%Z.
    rewrite (opens_levels (S n) 0). lia.
  - rewrite A, nested_read; [reflexivity|]. intros (a & b & E & D). assert (Le : forall evs d, (fold_left level_after evs d <= length (List.filter (fun v => match v with EStart _ _ => true | _ => false end) evs) + d)).
    { clear. induction evs as [|[?n al|?n|s] evs IH]; intros d; cbn [fold_left List.filter length level_after]; [lia| | |]; (eapply Nat.le_trans; [apply IH|]); lia. }
    specialize (Le a 0). assert (Lb : length (List.filter (fun v => match v with EStart _ _ => true | _ => false end) (nested_events (S n))) = S n).
    { unfold nested_events. clear. induction (S n) as [|m IH] in |- *; [reflexivity|]. rewrite !filter_app, !app_length in *. cbn [repeat List.filter length]. lia. }
    rewrite E, filter_app, app_length in Lb. change (fold_left level_after a 0) with (open_elements a) in Le. lia.
Qed.
Print Assumptions C86_depth_refuted.

(** * The hypotheses can be met *)
Lemma shallow_doc evs : (Z.of_nat (length evs) <= 2147483647)%Z -> ~ too_deep evs.
Proof.
  intros L (a & b & -> & D). assert (Le : forall l d, fold_left level_after l d <= length l + d).
  { clear. induction l as [|[n al|n|s] l IH]; intros d; cbn [fold_left length level_after]; [lia| | |]; (eapply Nat.le_trans; [apply IH|]); lia. }
  specialize (Le a 0). change (fold_left level_after a 0) with (open_elements a) in Le. rewrite app_length in L. lia.
Qed.
Local Notation c86_run := (Main ex_env (fun _ => many 3) c86_argv (new_test ex_base)).
Example C86_compare_met := C86_compare ex_env ex_base (fun _ => many 3) ($"prog") c86_opts [] ($"b.xml") None ex_base [] ($"<output></output>") (fst c86_run) 3%Z c86_line eq_refl eq_refl eq_refl (pair_fst _ _ ltac:(vm_compute; reflexivity)).
Example C86_compare_case : snd (i_Main ex_env (fun _ => many 3) c86_argv (new_test ex_base)) = Ok 3%Z.
Proof. vm_compute. reflexivity. Qed.
Local Notation c86_test := (two_images ($"same/x.mha") ($"two/x.mha")).
Local Notation c86_itk_run := (itk_Main ex_itk c86_test c86_argv (new_itk_test ex_itk ex_image_files)).
Example C86_itk_compare_met := C86_itk_compare ex_itk ex_image_files c86_test ($"prog") c84_opts [] ($"b.xml") None ex_image_files
  [MF (Mf ($"one") true itk_type ($"x.mha")); MF (Mf ($"two") true itk_type ($"x.mha"))] ex_xml (fst c86_itk_run) 1%Z (c84_line [] I) eq_refl eq_refl eq_refl (pair_fst _ _ ltac:(vm_compute; reflexivity)).
Example C86_shallow_met : ~ too_deep (fst (expat (e_ext ex_env) ex_xml)).
Proof. apply shallow_doc. vm_compute. discriminate. Qed.
Example C86_recording_met := C86_recording ex_itk ex_image_files ex_test c86_test ($"prog") [] [] (conj (Forall_nil _) I) eq_refl.
(** a baseline that is not XML *)
Definition c86_bad : store := fun k => if eqs k ($"b.xml") || eqs k ($"base/b.xml") then Some (FFile true true ($"<output>")) else None.
Lemma c86_bad_line : command_line ex_env c86_bad c86_opts [].
Proof. split; [|exact I]. constructor; [|constructor]. split; [cbn; auto|]. split; [intros _; split; reflexivity|discriminate]. Qed.
Lemma c86_bad_shallow o f1 bytes : opened ex_env c86_bad (output_of ex_env c86_bad c86_opts) = Some (o, f1) -> contents ex_env f1 (baseline_path ex_env f1 (dirs_of c86_opts) ($"b.xml")) = Some bytes -> ~ too_deep (fst (expat (e_ext ex_env) bytes)).
Proof.
  intros E. change (opened ex_env c86_bad (output_of ex_env c86_bad c86_opts)) with (Some (@None str, c86_bad)) in E. injection E as <- <-. intros E.
  assert (X : contents ex_env c86_bad (baseline_path ex_env c86_bad (dirs_of c86_opts) ($"b.xml")) = Some ($"<output>")) by (vm_compute; reflexivity). rewrite X in E. apply (f_equal (fun o => match o with Some x => x | None => [] end)) in E. subst bytes.
  apply shallow_doc. vm_compute. discriminate.
Qed.
Example C86_not_started_met := C86_not_started ex_env c86_bad (fun _ => many 3) ($"prog") c86_opts [] ($"b.xml") c86_bad_line eq_refl eq_refl c86_bad_shallow.
Example C86_not_started_case : snd (i_Main ex_env (fun _ => many 3) c86_argv (new_test c86_bad)) = Ok (-1)%Z.
Proof. vm_compute. reflexivity. Qed.
Lemma c86_bad_itk_shallow o f1 bytes : opened ex_env c86_bad (output_of ex_env c86_bad c86_opts) = Some (o, f1) -> contents ex_env f1 (baseline_path ex_env f1 (dirs_of c86_opts ++ [i_baselines ex_itk]) ($"b.xml")) = Some bytes ->
  ~ too_deep (fst (expat (e_ext ex_env) bytes)).
Proof.
  intros E. change (opened ex_env c86_bad (output_of ex_env c86_bad c86_opts)) with (Some (@None str, c86_bad)) in E. injection E as <- <-. intros E.
  assert (X : contents ex_env c86_bad (baseline_path ex_env c86_bad (dirs_of c86_opts ++ [i_baselines ex_itk]) ($"b.xml")) = Some ($"<output>")) by (vm_compute; reflexivity). rewrite X in E. apply (f_equal (fun o => match o with Some x => x | None => [] end)) in E. subst bytes.
  apply shallow_doc. vm_compute. discriminate.
Qed.
Example C86_itk_not_started_met := C86_itk_not_started ex_itk c86_bad c86_test ($"prog") c86_opts [] ($"b.xml") c86_bad_line eq_refl ltac:(vm_compute; reflexivity) c86_bad_itk_shallow.

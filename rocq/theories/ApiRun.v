(** Runs against a baseline of tests that ask the driver and set its file names. *)
From Coq Require Import Floats.SpecFloat.
From Verif Require Import Base Str Dec PathModel PathFacts MeasModel MeasFacts VisitModel XmlModel ReadModel ReadFacts ReadBack RegModel ArgFacts ArgProps RegSpec RegFacts RegStart RegMain ItkModel ItkSim ApiModel ApiSpec ApiFacts.

Lemma arun_compare e p : forall s s' out k, s_is s = Some k -> arun e p s = (s', out) ->
  (exists z, out = Ok z) \/ (exists i, out = Throw i) ->
  exists ms rs, aunfolds e (s_os s) (s_path s) (s_tol s) (s_files s) (s_expected s) (s_in s) (s_out s) p ms rs (s_expected s') (s_in s') (s_out s') out /\
    rs = results e (s_path s) (s_input s) (firstn (length rs) ms) /\
    s_unmatched s' = (s_unmatched s + mismatches e (s_path s) (s_input s) (firstn (length rs) ms))%Z /\
    (forall mo, nth_error ms (length rs) = Some mo -> exists b i, out = Throw i /\ nth_error (s_input s) (length rs) = Some b /\
        kind_of_moment e b mo = true /\ verdict e (s_path s) b mo = Throw i) /\
    (s_path s' = s_path s /\ s_is s' = s_is s).
Proof.
  induction p as [z|x|c k IH|t k IH|z k IH|path b k IH|k IH|n k IH|n k IH]; intros s s' out ki Hi H Ho; cbn [arun] in H.
  - unfold mret in H. injection H as <- <-. exists [], []. split; [constructor|]. cbn. split; [reflexivity|]. split; [lia|]. split; [discriminate|]. auto.
  - unfold mlift in H. injection H as <- <-. exists [], []. split; [constructor|]. cbn. split; [reflexivity|]. split; [lia|]. split; [discriminate|]. auto.
  - unfold mbind at 1 in H. unfold Measure, GetCompareMode in H. unfold mbind at 1 in H. rewrite (compare_mode_open e s ki Hi) in H. cbv iota in H.
    destruct (CompareMeasurement e (meas_of (e_io e) true c) (tolerant_of c) s) as [s1 r] eqn:E.
    destruct (compare_one _ _ _ _ _ E) as [A B]. destruct r as [z|i| | |].
    + destruct (A z eq_refl) as (Rz & U & I & F & T & X & G). clear A B. cbv zeta in Rz, U.
      destruct F as (F1 & F2 & F3 & F4 & F5).
      assert (Hi1 : s_is s1 = Some ki) by congruence.
      destruct (IH z s1 s' out ki Hi1 H Ho) as (ms & rs & W & Rs & Us & St & Fs).
      exists ((c, s_tol s, s_files s) :: ms), (z :: rs). split.
      * eapply au_call; [exact G|]. rewrite <- F4, <- T, <- X, <- F1, <- F2, <- F3. exact W.
      * cbn [length firstn]. cbn [results mismatches] in *. rewrite F3, I in *.
        split; [congruence|]. split; [lia|]. split.
        { intros mo Hm. cbn [nth_error] in Hm. destruct (St mo Hm) as (b & i & S1 & S2 & S3). exists b, i.
          rewrite nth_error_tl in S2. auto. }
        destruct Fs as [Fs1 Fs2]. split; congruence.
    + injection H as <- <-. destruct (B i eq_refl) as ((b & B1 & B2 & B3) & U & F & T & X & G). clear A B.
      destruct F as (F1 & F2 & F3 & F4 & F5).
      exists [(c, s_tol s, s_files s)], []. rewrite X, F1, F2. split; [constructor|]. cbn [length firstn results mismatches].
      split; [reflexivity|]. split; [lia|]. split.
      { intros mo Hm. cbn in Hm. injection Hm as <-. exists b, i. auto. }
      auto.
    + injection H as <- <-. destruct Ho as [[? ?]|[? ?]]; discriminate.
    + injection H as <- <-. destruct Ho as [[? ?]|[? ?]]; discriminate.
    + injection H as <- <-. destruct Ho as [[? ?]|[? ?]]; discriminate.
  - unfold mbind, modify in H. cbv iota in H. destruct (IH (set_tol s t) s' out ki Hi H Ho) as (ms & rs & W & R & U & St & F).
    exists ms, rs. split; [constructor; exact W|]. split; [exact R|]. split; [exact U|]. split; [exact St|exact F].
  - unfold mbind, modify in H. cbv iota in H. destruct (IH (set_expected s z) s' out ki Hi H Ho) as (ms & rs & W & R & U & St & F).
    exists ms, rs. split; [constructor; exact W|]. split; [exact R|]. split; [exact U|]. split; [exact St|exact F].
  - unfold mbind, modify in H. cbv iota in H.
    destruct (IH (set_files s (write_file e (s_files s) path b)) s' out ki Hi H Ho) as (ms & rs & W & R & U & St & F).
    exists ms, rs. split; [constructor; exact W|]. split; [exact R|]. split; [exact U|]. split; [exact St|exact F].
  - unfold mbind at 1 in H. unfold look_at in H. rewrite (compare_mode_open e s ki Hi) in H. cbn [bind] in H.
    destruct (IH _ s s' out ki Hi H Ho) as (ms & rs & W & R & U & St & F).
    exists ms, rs. split; [constructor; exact W|]. split; [exact R|]. split; [exact U|]. split; [exact St|exact F].
  - unfold mbind, modify in H. cbv iota in H. destruct (IH (set_in s n) s' out ki Hi H Ho) as (ms & rs & W & R & U & St & F).
    exists ms, rs. split; [constructor; exact W|]. split; [exact R|]. split; [exact U|]. split; [exact St|exact F].
  - unfold mbind, modify in H. cbv iota in H. destruct (IH (set_out s n) s' out ki Hi H Ho) as (ms & rs & W & R & U & St & F).
    exists ms, rs. split; [constructor; exact W|]. split; [exact R|]. split; [exact U|]. split; [exact St|exact F].
Qed.

Lemma closed_mode e s : s_is s = None -> compare_mode e s = Ok (names_baseline e (s_files s) (s_path s) (s_in s)).
Proof.
  intros H. unfold names_baseline. destruct (s_in s) as [|c r] eqn:E.
  - unfold compare_mode. rewrite H, E. reflexivity.
  - rewrite (compare_mode_closed e s (c :: r) H E) by discriminate. reflexivity.
Qed.
Lemma main_with_launch e f body a0 opts rest : command_line e f opts rest ->
  main_body_with e body (a0 :: flat opts ++ rest) (set_unmatched (new_test f) 1) =
  (_ <- BeginMeasurement e ;; body (a0 :: rest)) (launched e f opts).
Proof.
  intros H. destruct (launch e f a0 opts rest H) as (argc & argv & E & F). unfold main_body_with. unfold mbind at 1. rewrite E.
  cbv beta iota. rewrite F. reflexivity.
Qed.
(** the state in which the test is started, if a baseline is read *)
Lemma begin_started e f opts rest inf o f1 baseline : command_line e f opts rest -> input_of opts = Some inf ->
  started e f (output_of e f opts) (dirs_of opts) inf = Some (o, f1, baseline) ->
  exists k, BeginMeasurement e (launched e f opts) = (Rst f1 [] baseline inf (output_of e f opts) (dirs_of opts) o (Some k) default_tol 1 (expected_of opts), Ok tt).
Proof.
  intros Hc Hi Hs. pose proof (input_of_nonempty e f opts inf (proj1 Hc) Hi) as Hn. unfold started in Hs.
  pose proof (begin_compare e (launched e f opts) inf eq_refl eq_refl) as B.
  assert (Hin : s_in (launched e f opts) = inf) by (cbn; rewrite Hi; reflexivity). specialize (B Hin Hn).
  change (s_files (launched e f opts)) with f in B. change (s_out (launched e f opts)) with (output_of e f opts) in B.
  change (s_path (launched e f opts)) with (dirs_of opts) in B. cbv zeta in B.
  destruct (opened e f (output_of e f opts)) as [[o1 f2]|] eqn:Eo; [|discriminate].
  set (s1 := set_os (set_files (launched e f opts) f2) o1) in *. set (q := baseline_path e f2 (dirs_of opts) inf) in *.
  destruct (can_open e f2 q) eqn:Er.
  2:{ assert (Ec : contents e f2 q = None).
      { revert Er. unfold can_open, contents. destruct (node_at e f2 q) as [[[|] w b|]|]; auto; discriminate. }
      rewrite Ec in Hs. discriminate. }
  destruct (readable_contents e f2 q Er) as (k & Ek & [(r & w & b & Eb & Ec & Ef)|(r & w & x & Eb & Ec)]); rewrite Ec in Hs; [|discriminate].
  rewrite B, Ek. unfold read_input. cbn [set_is s_is]. change (s_files (set_is s1 (Some k))) with f2. rewrite Eb.
  destruct (ReadXMLInput (e_asserts e) (e_ext e) b) as [l|i| | |]; try discriminate. injection Hs as -> -> ->.
  exists k. unfold s1, launched, set_input, set_is, set_os, set_files. cbn. rewrite Hi. reflexivity.
Qed.

Lemma api_compare e f test a0 opts rest inf s' z o f1 baseline : command_line e f opts rest -> input_of opts = Some inf ->
  api_Main e test (a0 :: flat opts ++ rest) (new_test f) = (s', Ok z) ->
  started e f (output_of e f opts) (dirs_of opts) inf = Some (o, f1, baseline) ->
  exists ms rs out,
    aunfolds e o (dirs_of opts) default_tol f1 (expected_of opts) inf (output_of e f opts) (test (a0 :: rest)) ms rs (s_expected s') (s_in s') (s_out s') out /\
    rs = results e (dirs_of opts) baseline (firstn (length rs) ms) /\
    (forall mo, nth_error ms (length rs) = Some mo -> exists b i, out = Throw i /\ nth_error baseline (length rs) = Some b /\
       kind_of_moment e b mo = true /\ verdict e (dirs_of opts) b mo = Throw i) /\
    z = astatus (names_baseline e (s_files s') (dirs_of opts) (s_in s')) out (s_expected s') (mismatches e (dirs_of opts) baseline (firstn (length rs) ms)).
Proof.
  intros Hc Hi Hm Hs. unfold api_Main in Hm. rewrite Main_with_unfold in Hm.
  change (s_unmatched (new_test f) + 1)%Z with 1%Z in Hm. rewrite (main_with_launch e f _ a0 opts rest Hc) in Hm.
  destruct (begin_started e f opts rest inf o f1 baseline Hc Hi Hs) as [k B]. unfold mbind in Hm. rewrite B in Hm.
  set (s2 := Rst f1 [] baseline inf (output_of e f opts) (dirs_of opts) o (Some k) default_tol 1 (expected_of opts)) in *.
  destruct (arun e (test (a0 :: rest)) s2) as [s3 out] eqn:Er.
  assert (Hout : (exists z, out = Ok z) \/ (exists i, out = Throw i)).
  { destruct out as [v|i| | |]; try (discriminate Hm); eauto. }
  destruct (arun_compare e _ s2 s3 out k eq_refl Er Hout) as (ms & rs & W & R & U & St & F1 & F2).
  cbn [s2 s_os s_path s_tol s_files s_expected s_in s_out s_input s_unmatched s_is] in *.
  exists ms, rs, out.
  set (n := mismatches e (dirs_of opts) baseline (firstn (length rs) ms)) in *.
  destruct Hout as [[v ->]|[i ->]].
  - unfold ends_with in Hm. unfold EndMeasurement, GetCompareMode, mbind in Hm. rewrite (compare_mode_open e s3 k F2) in Hm. unfold modify in Hm. cbv iota in Hm.
    unfold finish_with in Hm. cbn [set_unmatched set_is set_os set_input s_expected s_unmatched] in Hm.
    assert (Q : s_expected s' = s_expected s3 /\ s_in s' = s_in s3 /\ s_out s' = s_out s3 /\ s_files s' = s_files s3 /\
       z = astatus (names_baseline e (s_files s3) (dirs_of opts) (s_in s3)) (Ok v) (s_expected s3) n).
    { unfold astatus. destruct (v =? s_expected s3)%Z; cbn [negb] in Hm.
      - rewrite closed_mode in Hm by reflexivity. cbn [bind] in Hm. injection Hm as <- <-. cbn [set_unmatched set_is set_os set_input s_expected s_in s_out s_files s_path].
        rewrite F1. repeat (split; [reflexivity|]). destruct (names_baseline _ _ _ _); [lia|reflexivity].
      - injection Hm as <- <-. repeat (split; [reflexivity|]). reflexivity. }
    destruct Q as (Q1 & Q2 & Q3 & Q4 & Q5). rewrite Q1, Q2, Q3, Q4. split; [exact W|]. split; [exact R|]. split; [exact St|exact Q5].
  - unfold ends_with, finish_with in Hm.
    assert (Q : s' = s3 /\ z = status (Throw i) (s_expected s3) n).
    { unfold status. destruct (-1 =? s_expected s3)%Z; cbn [negb] in Hm.
      - rewrite (compare_mode_open e s3 k F2) in Hm. cbn [bind] in Hm. injection Hm as <- <-. split; [reflexivity|]. rewrite U. lia.
      - injection Hm as <- <-. split; reflexivity. }
    destruct Q as [-> ->]. split; [exact W|]. split; [exact R|]. split; [exact St|reflexivity].
Qed.

(** while recording, tests that keep the baseline name empty are told that no comparison is made *)
Lemma told_record e p : keeps_baseline_name p -> forall s, s_is s = None -> s_in s = [] -> arun e (told false p) s = arun e p s.
Proof.
  induction p as [z|x|c k IH|t k IH|z k IH|path b k IH|k IH|n k IH|n k IH]; intros Hp s H1 H2; cbn [keeps_baseline_name told arun] in *; try contradiction; try reflexivity.
  - unfold mbind. destruct (Measure e c s) as [s1 r] eqn:E. destruct r as [a|i| | |]; try reflexivity. apply IH; [apply Hp| |].
    + unfold Measure, GetCompareMode, mbind in E. rewrite (record_mode e s H1 H2) in E. rewrite put_meas_eq in E. unfold mret in E. injection E as <- _.
      destruct (put_text_any (print_of (meas_of (e_io e) false c) ++ [nl]) s) as [F _]. destruct F as (_ & _ & _ & _ & F). congruence.
    + pose proof (keeps_in_measure e c s) as K. rewrite E in K. cbn [fst] in K. congruence.
  - unfold mbind, modify. apply IH; auto.
  - unfold mbind, modify. apply IH; auto.
  - unfold mbind, modify. apply IH; auto.
  - unfold mbind, look_at. rewrite (record_mode e s H1 H2). cbn [bind]. apply IH; auto.
  - unfold mbind, modify. apply IH; auto.
Qed.

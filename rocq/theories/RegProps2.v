(** Properties C43, C44, C54: looking up files, the recorded document, values returned by measurements. *)
From Coq Require Import Floats.SpecFloat.
From Verif Require Import Base Str Dec PathModel PathFacts MeasModel MeasFacts MeasFacts2 MeasProps XmlModel ReadModel ReadFacts ReadBack ReadProps RegModel ArgFacts ArgProps RegSpec RegFacts RegStart RegMain RegProps.

(** C43 *)
Lemma append_nonempty d f r : f <> [] -> Append d f = Ok r -> r <> [].
Proof.
  intros Hn E. destruct (append_char d f) as [A B]. destruct (is_absolute f) eqn:Ea.
  - rewrite (A (or_introl eq_refl)) in E. injection E as <-. exact Hn.
  - destruct d as [|c d]; [rewrite (A (or_intror eq_refl)) in E; injection E as <-; exact Hn|].
    assert (Hd : c :: d <> []) by discriminate. destruct (B eq_refl Hd) as (q & k & _ & Hq & _ & E'). rewrite E' in E. injection E as <-.
    destruct q; discriminate.
Qed.
Lemma search_none e f name dirs : (forall d r, In d dirs -> Append d name = Ok r -> node_at e f r = None) -> dirs <> [] -> name <> [] ->
  exists c p, SearchPathList (is_file e f) name dirs = Ok (c :: p) /\ node_at e f (c :: p) = None.
Proof.
  intros H Hd Hn. unfold SearchPathList. generalize (@nil ascii) as full.
  induction dirs as [|d dirs IH]; [contradiction|]. intros full. cbn [search_loop].
  destruct (append_ok d name) as [r E]. rewrite E. cbn [bind].
  pose proof (H d r (or_introl eq_refl) E) as N.
  assert (F : is_file e f r = false) by (unfold is_file; rewrite N; reflexivity). rewrite F.
  destruct dirs as [|d' dirs].
  - cbn [search_loop]. destruct r as [|c p]; [elim (append_nonempty d name [] Hn E); reflexivity|]. exists c, p. auto.
  - apply IH; [|discriminate]. intros d0 r0 Hi. apply H. right. exact Hi.
Qed.
(** With search directories, a baseline that is in none of them is not used, even though the command line was only accepted because
    this file exists in the current directory: the run fails, or, if -1 is the expected value, succeeds without comparing anything. *)
Theorem C43_baseline_only_in_current_directory : forall e f test a0 opts rest inf o f1,
  command_line e f opts rest -> input_of opts = Some inf -> dirs_of opts <> [] ->
  opened e f (output_of e f opts) = Some (o, f1) ->
  (forall d r, In d (dirs_of opts) -> Append d inf = Ok r -> node_at e f1 r = None) ->
  is_file e f inf = true /\
  exists s', Main e test (a0 :: flat opts ++ rest) (new_test f) = (s', Ok (if (-1 =? expected_of opts)%Z then 0%Z else (-1)%Z)).
Proof.
  intros e f test a0 opts rest inf o f1 Hc Hi Hd Ho Hnone. pose proof (input_of_nonempty e f opts inf (proj1 Hc) Hi) as Hn. split.
  - destruct Hc as [Hc _]. unfold input_of in Hi. clear -Hc Hi.
    assert (G : forall d, last_value (map Some (values ($"-I") opts)) d = Some inf -> d = Some inf \/ is_file e f inf = true).
    { revert Hc. clear. induction 1 as [|[k v] l Hk _ IH]; intros d; [cbn; auto|]. unfold values in *. cbn [filter fst].
      destruct (eqs_spec k ($"-I")) as [->|N]; [|apply IH]. cbn [map last_value snd]. intros E. destruct (IH _ E) as [E'|E']; [|auto].
      injection E' as ->. destruct Hk as (_ & Hk & _). destruct (Hk eq_refl) as [F _]. auto. }
    destruct (G None Hi) as [E|E]; [discriminate|exact E].
  - rewrite Main_unfold, (main_body_launch e f test a0 opts rest Hc).
    pose proof (begin_compare e (launched e f opts) inf eq_refl eq_refl) as B.
    assert (Hin : s_in (launched e f opts) = inf) by (cbn; rewrite Hi; reflexivity). specialize (B Hin Hn).
    change (s_files (launched e f opts)) with f in B. change (s_out (launched e f opts)) with (output_of e f opts) in B.
    change (s_path (launched e f opts)) with (dirs_of opts) in B. cbv zeta in B. rewrite Ho in B.
    destruct (search_none e f1 inf (dirs_of opts) Hnone Hd Hn) as (c & p & S & N).
    assert (P : baseline_path e f1 (dirs_of opts) inf = c :: p) by (unfold baseline_path; rewrite S; reflexivity).
    rewrite P in B. assert (R : can_open e f1 (c :: p) = false) by (unfold can_open; rewrite N; reflexivity).
    rewrite R in B. unfold mbind. rewrite B. unfold finish.
    change (s_expected (set_os (set_files (launched e f opts) f1) o)) with (expected_of opts).
    destruct (-1 =? expected_of opts)%Z; cbn [negb]; [|eexists; reflexivity].
    rewrite (compare_mode_closed e _ inf) by (try reflexivity; assumption).
    change (s_files (set_os (set_files (launched e f opts) f1) o)) with f1. change (s_path (set_os (set_files (launched e f opts) f1) o)) with (dirs_of opts).
    rewrite P. unfold readable_file, is_readable. rewrite N, andb_false_r. eexists. reflexivity.
Qed.
Print Assumptions C43_baseline_only_in_current_directory.
(** The baseline of a measured file is searched by its last path component in the search directories; the first directory that has it wins ... *)
Lemma found_in_first : forall e dirs f g m pre d post r,
  dirs = pre ++ d :: post -> Append d (Tail (ffile g)) = Ok r -> is_file e f r = true ->
  (forall x y, In x pre -> Append x (Tail (ffile g)) = Ok y -> is_file e f y = false) ->
  found e dirs f (MF g) (MF m) = MF (Mf (fname g) (fesc g) (ftype g) r).
Proof.
  intros e dirs f g m pre d post r -> E F H. unfold found.
  assert (S : forall full, search_loop (is_file e f) (pre ++ d :: post) (Tail (ffile g)) full = Ok r).
  { induction pre as [|x pre IH]; intros full; cbn [app search_loop].
    - rewrite E. cbn [bind]. rewrite F. reflexivity.
    - destruct (append_ok x (Tail (ffile g))) as [y Ey]. rewrite Ey. cbn [bind]. rewrite (H x y (or_introl eq_refl) Ey).
      apply IH. intros x0 y0 Hx. apply H. right. exact Hx. }
  unfold SearchPathList. rewrite S. destruct r as [|c p]; [|reflexivity]. unfold is_file, node_at, slot in F. discriminate F.
Qed.
(** ... and if none has it the measurement does not match, whatever the current directory has. *)
Lemma found_nowhere : forall e dirs f g c t, let m := meas_of (e_io e) true c in
  is_data m = false -> dirs <> [] -> Tail (ffile g) <> [] -> fname g <> [] ->
  (forall d r, In d dirs -> Append d (Tail (ffile g)) = Ok r -> node_at e f r = None) ->
  verdict e dirs (MF g) (c, t, f) = Ok false.
Proof.
  intros e dirs f g c t m Hm Hd Ht Hn H. unfold verdict. fold m. destruct m as [|h] eqn:Em; [discriminate|].
  destruct (search_none e f (Tail (ffile g)) dirs H Hd Ht) as (a & p & S & N).
  assert (N' : node_at e f (cstr (a :: p)) = node_at e f (a :: p)).
  { unfold node_at, slot. rewrite (cstr_free _ (cstr_is_free (a :: p))). reflexivity. }
  unfold found. rewrite S.
  destruct (C25_two_files (e_sc e) (sources e f) (e_io e) (if tolerant_of c then SetTolerance new_cmp t else new_cmp) (Mf (fname g) (fesc g) (ftype g) (a :: p)) h) as (v & E & V).
  { unfold reads_dir, unreadable, missing, sources. cbn [fname ftype ffile]. rewrite N', N. intros (X & _ & [Y|(_ & _ & Y)]); [discriminate Y|]. destruct (Y eq_refl). congruence. }
  rewrite E. cbn [snd]. destruct v; [|reflexivity]. destruct V as [V _]. destruct (V eq_refl) as (_ & _ & _ & _ & V').
  elim Hn. apply V'. left. unfold missing. cbn [ffile]. unfold sources.
  rewrite N', N. reflexivity.
Qed.

(** C44 *)
Definition written (o : option str) (s : rst) : str :=
  match o with
  | None => s_stdout s
  | Some k => match s_files s k with Some (FFile _ _ b) => b | _ => [] end
  end.
Lemma opened_ready e f out o f1 s : opened e f out = Some (o, f1) -> s_stdout s = [] ->
  output_ready (set_os (set_files s f1) o) /\ output (set_os (set_files s f1) o) = [].
Proof.
  intros H Hs. unfold opened in H. unfold output_ready, output. destruct out as [|c r].
  - injection H as <- <-. cbn [set_os set_files s_os s_stdout]. auto.
  - destruct (slot e (c :: r)) as [k|]; [|discriminate]. cbn [set_os set_files s_os s_files].
    assert (G : forall rr w b, upd f k (Some (FFile rr w b)) k = Some (FFile rr w b)) by (intros; unfold upd; rewrite eqs_refl; reflexivity).
    destruct (f k) as [[rr [|] b|]|]; try discriminate.
    + injection H as <- <-. rewrite G. split; [eauto|reflexivity].
    + destruct (e_cancreate e (cstr (c :: r))); [|discriminate]. injection H as <- <-. rewrite G. split; [eauto|reflexivity].
Qed.
Lemma lines_prints_ex ms : exists ps, Forall2 (fun m p => Print m = Ok p) ms ps /\ concat (map (fun p => p ++ [nl]) ps) = lines_of ms.
Proof.
  exists (map print_of ms). assert (H : Forall2 (fun m p => Print m = Ok p) ms (map print_of ms)).
  { induction ms; constructor; [apply print_print_of|assumption]. }
  split; [exact H|]. apply lines_prints. exact H.
Qed.
(** The recorded document: header, the prints of the measurements in order, and the footer unless the test ended with an exception
    (provided the test does not itself write to this file). *)
Theorem C44_recorded_document : forall e f test a0 opts rest o f1,
  command_line e f opts rest -> input_of opts = None -> opened e f (output_of e f opts) = Some (o, f1) ->
  leaves_alone e o (test (a0 :: rest)) ->
  exists s' z ps, Main e test (a0 :: flat opts ++ rest) (new_test f) = (s', Ok z) /\
    Forall2 (fun m p => Print m = Ok p) (map (meas_of (e_io e) false) (recorded (test (a0 :: rest)))) ps /\
    written o s' = header e ++ concat (map (fun p => p ++ [nl]) ps) ++
                   match ends (test (a0 :: rest)) with Ok _ => footer | _ => [] end.
Proof.
  intros e f test a0 opts rest o f1 Hc Hi Ho Hl.
  destruct (main_record e f test a0 opts rest Hc Hi) as [s' E]. exists s'. eexists.
  destruct (lines_prints_ex (map (meas_of (e_io e) false) (recorded (test (a0 :: rest))))) as (ps & P & L). exists ps.
  split; [exact E|]. split; [exact P|]. rewrite L. clear P L ps.
  rewrite Main_unfold, (main_body_launch e f test a0 opts rest Hc) in E.
  assert (Hin : s_in (launched e f opts) = []) by (cbn; rewrite Hi; reflexivity).
  unfold mbind in E. rewrite (begin_record e (launched e f opts) eq_refl eq_refl Hin) in E.
  change (s_files (launched e f opts)) with f in E. change (s_out (launched e f opts)) with (output_of e f opts) in E. rewrite Ho in E.
  destruct (opened_ready e f _ o f1 (launched e f opts) Ho eq_refl) as [R0 O0].
  set (s0 := set_os (set_files (launched e f opts) f1) o) in *.
  destruct (put_text_spec (header e) s0 R0) as (O1 & R1 & (F1 & F2 & F3 & F4 & F5) & _).
  set (s1 := put_text (header e) s0) in *. rewrite O0 in O1. cbn [app] in O1.
  destruct (run_record e (test (a0 :: rest)) s1) as (s2 & Er & O2 & R2 & (G1 & G2 & G3 & G4 & G5) & _).
  { rewrite F5. reflexivity. } { rewrite F1. exact Hin. } { exact R1. } { rewrite F4. exact Hl. }
  rewrite Er in E. assert (Os2 : s_os s2 = o) by (rewrite G4, F4; reflexivity).
  assert (J1 : s_is s2 = None) by (rewrite G5, F5; reflexivity). assert (J2 : s_in s2 = []) by (rewrite G1, F1; exact Hin).
  assert (W : forall s3, s_files s3 = s_files s2 -> s_stdout s3 = s_stdout s2 -> written o s3 = output s2).
  { intros s3 A B. unfold written, output. rewrite Os2, A, B. reflexivity. }
  destruct (ends (test (a0 :: rest))) as [v|i| | |].
  - unfold EndMeasurement, GetCompareMode, mbind in E. rewrite (record_mode e s2 J1 J2) in E. unfold put, modify in E. cbv iota in E.
    destruct (put_text_spec footer s2 R2) as (O3 & R3 & (H1 & H2 & H3 & H4 & H5) & _). set (s3 := put_text footer s2) in *.
    assert (W3 : forall s4, s_files s4 = s_files s3 -> s_stdout s4 = s_stdout s3 -> written o s4 = output s3).
    { intros s4 A B. unfold written, output. rewrite H4, Os2, A, B. reflexivity. }
    rewrite app_assoc, <- O1, <- O2, <- O3. apply W3;
    unfold finish in E; destruct (negb (v =? _))%Z; (injection E as <- _ || injection E as <-); reflexivity.
  - rewrite app_nil_r, <- O1, <- O2. apply W; unfold finish in E; destruct (negb (-1 =? _))%Z; (injection E as <- _ || injection E as <-); reflexivity.
  - discriminate E.
  - discriminate E.
  - discriminate E.
Qed.
Print Assumptions C44_recorded_document.
(** "the output is a well-formed document": not when the test throws *)
Theorem C44_exception_refuted : exists e f test argv s' z b, Main e test argv (new_test f) = (s', Ok z) /\
  s_files s' ($"out.xml") = Some (FFile true true b) /\ z = (-1)%Z /\
  ReadXMLInput (e_asserts e) (e_ext e) b = Throw ExnRuntime.
Proof.
  exists ex_env, (fun _ => None), (fun _ => Call (TextString ($"text") ($"name")) (fun _ => Raise ExnRuntime)), [$"prog"; $"-O"; $"out.xml"].
  do 3 eexists. split; [vm_compute; reflexivity|]. split; [vm_compute; reflexivity|]. split; [reflexivity|]. vm_compute. reflexivity.
Qed.
Print Assumptions C44_exception_refuted.

(** only the output file and the files the test writes change *)
Lemma same_put t s k : s_os s <> Some k -> s_files (put_text t s) k = s_files s k.
Proof. intros H. apply (put_text_any t s). exact H. Qed.
Definition same_os (k : str) (s : rst) (X : rst * res Z) : Prop := s_files (fst X) k = s_files s k /\ s_os (fst X) = s_os s.
Lemma compare_os e m t s k : s_os s <> Some k -> same_os k s (CompareMeasurement e m t s).
Proof.
  intros Hk.
  assert (PT : forall text s, s_os s <> Some k -> same_os k s (put_text text (set_unmatched s (s_unmatched s + 1)), Ok 0%Z)).
  { intros text s0 H0. split; [exact (same_put text (set_unmatched s0 (s_unmatched s0 + 1)) k H0)|].
    destruct (put_text_any text (set_unmatched s0 (s_unmatched s0 + 1))) as ((_ & _ & _ & A & _) & _). exact A. }
  assert (UM : forall s, s_os s <> Some k -> same_os k s ((_ <- UnmatchedMeasurement m ;; mret 1%Z) s)).
  { intros s0 H0. unfold UnmatchedMeasurement, mbind, modify. cbv iota. rewrite put_meas_eq. exact (PT _ s0 H0). }
  unfold CompareMeasurement. unfold mbind at 1. unfold gets at 1. cbv iota.
  destruct (s_input s) as [|b bs]; [apply UM; exact Hk|].
  unfold mbind at 1. unfold modify at 1. cbv iota. set (s0 := set_input s bs).
  change (same_os k s0 ((if eqs (mname b) (mname m) && eqs (mtype b) (mtype m) then
        baseline <- (fun s => (s, locate e s b m)) ;;
        out <- gets (fun s => Compare (e_sc e) (sources e (s_files s)) (e_io e) (visitor s t) baseline m) ;;
        let '(baseline, m, v) := out in
        same <- mlift v ;;
        if (same : bool) then mret 1%Z
        else _ <- DifferenceMeasurement e m baseline ;; mret 0%Z
      else _ <- UnmatchedMeasurement m ;; mret 1%Z) s0)).
  change (s_os s) with (s_os s0) in Hk. clearbody s0.
  destruct (eqs (mname b) (mname m) && eqs (mtype b) (mtype m)); [|apply UM; exact Hk].
  unfold mbind at 1. rewrite locate_found. cbv iota. unfold mbind, gets. cbv iota.
  destruct (Compare _ _ _ _ _ _) as [[b2 m2] v]. unfold mlift. destruct v as [[|]| | | |]; try (split; reflexivity).
  unfold DifferenceMeasurement, mbind, modify, mlift. cbv iota.
  destruct (snd (VisitModel.Difference _ _ _ _ _)) as [text| | | |]; cbv iota; try (split; reflexivity).
  exact (PT text s0 Hk).
Qed.
Lemma measure_os e c s k : s_os s <> Some k -> same_os k s (Measure e c s).
Proof.
  intros H. unfold Measure, GetCompareMode. unfold mbind at 1. destruct (compare_mode e s) as [[|]| | | |]; try (split; reflexivity).
  - apply compare_os. exact H.
  - unfold mbind. rewrite put_meas_eq. split; [exact (same_put _ s k H)|].
    destruct (put_text_any (print_of (meas_of (e_io e) false c) ++ [nl]) s) as ((_ & _ & _ & A & _) & _). exact A.
Qed.
Lemma write_other e f path b k : slot e path = None \/ slot e path <> Some k -> write_file e f path b k = f k.
Proof.
  unfold write_file. destruct (slot e path) as [k'|]; [|reflexivity]. intros [H|H]; [discriminate|].
  assert (G : forall v, upd f k' v k = f k) by (intros v; unfold upd; destruct (eqs_spec k k'); [subst; contradiction|reflexivity]).
  destruct (f k') as [[r [|] b0|]|]; rewrite ?G; auto. destruct (e_cancreate e (cstr path)); rewrite ?G; reflexivity.
Qed.
Lemma run_os e p k : forall s, s_os s <> Some k -> leaves_alone e (Some k) p -> same_os k s (run e p s).
Proof.
  induction p as [z|x|c q IH|t q IH|z q IH|path b q IH]; intros s Hk Hl; cbn [run leaves_alone] in *; try (split; reflexivity).
  - unfold mbind. destruct (measure_os e c s k Hk) as [A B]. destruct (Measure e c s) as [s1 r]. cbn [fst] in A, B.
    destruct r as [z| | | |]; try (split; assumption). destruct (IH z s1) as [C D]; [congruence|apply Hl|]. split; congruence.
  - exact (IH (set_tol s t) Hk Hl).
  - exact (IH (set_expected s z) Hk Hl).
  - destruct Hl as [Hw Hl]. unfold mbind, modify. cbv iota. destruct (IH (set_files s (write_file e (s_files s) path b)) Hk Hl) as [C D].
    split; [|exact D]. rewrite C. cbn [set_files s_files]. apply write_other. exact Hw.
Qed.
Definition fine (k : str) (f : store) (X : rst * res unit) : Prop := s_files (fst X) k = f k /\ s_os (fst X) <> Some k.
(** In any run, successful or not, no file changes but the output file and those the test itself writes. *)
Theorem C44_other_files_untouched : forall e f test a0 opts rest s' r k,
  command_line e f opts rest -> Main e test (a0 :: flat opts ++ rest) (new_test f) = (s', r) ->
  slot e (output_of e f opts) <> Some k -> leaves_alone e (Some k) (test (a0 :: rest)) -> s_files s' k = f k.
Proof.
  intros e f test a0 opts rest s' r k Hc. rewrite Main_unfold, (main_body_launch e f test a0 opts rest Hc).
  intros H Hk Hl. set (s0 := launched e f opts) in *.
  assert (OO : forall s, s_os s <> Some k -> slot e (s_out s) <> Some k -> same_os k s (fst (open_output e s), Ok 0%Z) \/
       s_files (fst (open_output e s)) k = s_files s k /\ s_os (fst (open_output e s)) <> Some k).
  { intros s A B. unfold open_output. destruct (s_out s) as [|c t]; [left; split; reflexivity|]. destruct (slot e (c :: t)) as [k'|]; [|right; split; [reflexivity|discriminate]].
    right. assert (G : forall v, upd (s_files s) k' v k = s_files s k) by (intros v; unfold upd; destruct (eqs_spec k k'); [subst; contradiction|reflexivity]).
    destruct (s_files s k') as [[rr [|] b|]|]; cbn [fst set_os set_files s_files s_os]; rewrite ?G; try (split; [reflexivity|congruence]).
    destruct (e_cancreate e (cstr (c :: t))); cbn [fst set_os set_files s_files s_os]; rewrite ?G; (split; [reflexivity|congruence]). }
  assert (BM : fine k f (BeginMeasurement e s0)).
  { unfold BeginMeasurement. unfold mbind at 1.
    assert (O1 : s_files (fst (open_output e s0)) k = f k /\ s_os (fst (open_output e s0)) <> Some k).
    { destruct (OO s0) as [[A B]|[A B]]; [discriminate|exact Hk| |].
      - cbn [fst] in A, B. rewrite A, B. split; [reflexivity|discriminate].
      - split; [exact A|exact B]. }
    destruct (open_output e s0) as [s1 r1]. cbn [fst] in O1. destruct r1 as [u| | | |]; try exact O1.
    unfold mbind at 1. unfold open_input.
    destruct (s_in s1) as [|c t] eqn:Es1.
    - unfold mbind, GetCompareMode. destruct (compare_mode e s1) as [[|]| | | |]; try exact O1.
      + unfold read_input. destruct (s_is s1) as [k1|]; [|exact O1]. destruct (s_files s1 k1) as [[rr w b|]|]; try exact O1.
        destruct (ReadXMLInput (e_asserts e) (e_ext e) b); exact O1.
      + unfold put, modify. cbn [fst]. destruct O1 as [A B]. unfold fine. cbn [fst]. rewrite (same_put _ _ _ B).
        destruct (put_text_any (header e) s1) as ((_ & _ & _ & C & _) & _). rewrite C. auto.
    - destruct (search e s1 (c :: t)) as [p| | | |]; try exact O1. cbv zeta.
      destruct (can_open e (s_files s1) _); [|exact O1]. unfold mbind, GetCompareMode. destruct (compare_mode e _) as [[|]| | | |]; try exact O1.
      + unfold read_input. set (s2 := set_is s1 _). destruct (s_is s2) as [k1|]; [|exact O1]. change (s_files s2) with (s_files s1).
        destruct (s_files s1 k1) as [[rr w b|]|]; try exact O1. destruct (ReadXMLInput (e_asserts e) (e_ext e) b); exact O1.
      + unfold put, modify. cbn [fst]. destruct O1 as [A B]. set (s2 := set_is s1 _). unfold fine. cbn [fst].
        rewrite (same_put (header e) s2 k B). destruct (put_text_any (header e) s2) as ((_ & _ & _ & C & _) & _). rewrite C. auto. }
  unfold mbind in H. destruct (BeginMeasurement e s0) as [s1 r1]. destruct BM as [B1 B2]. cbn [fst] in B1, B2.
  assert (FIN : forall z s, s_files s k = f k -> finish e z s = (s', r) -> s_files s' k = f k).
  { intros z s A. unfold finish. destruct (negb (z =? s_expected s))%Z; intros E; injection E as <- _; exact A. }
  destruct r1 as [u|i| | |]; try (injection H as <- _; exact B1); [|eapply FIN; [|exact H]; exact B1].
  destruct (run_os e (test (a0 :: rest)) k s1 B2 Hl) as [C1 C2]. destruct (run e (test (a0 :: rest)) s1) as [s2 r2]. cbn [fst] in C1, C2.
  assert (C3 : s_files s2 k = f k) by congruence. assert (C4 : s_os s2 <> Some k) by congruence.
  destruct r2 as [z|i| | |]; try (injection H as <- _; exact C3); [|eapply FIN; [|exact H]; exact C3].
  unfold EndMeasurement, GetCompareMode, mbind in H. destruct (compare_mode e s2) as [[|]| | | |]; unfold modify, put in H; cbv iota in H;
    try (injection H as <- _; exact C3); try (eapply FIN; [|exact H]; exact C3).
  eapply FIN; [|exact H]. cbn [set_unmatched set_is set_os s_files]. unfold modify. rewrite (same_put _ _ _ C4). exact C3.
Qed.
Print Assumptions C44_other_files_untouched.
Example C44_case : exists s', Main ex_env (fun _ => Call (TextString ($"a<b") ($"name")) (fun _ => Return 0)) [$"prog"; $"-O"; $"out.xml"] (new_test (fun _ => None)) = (s', Ok 0%Z) /\
  written (Some ($"out.xml")) s' = header ex_env ++ $"<DartMeasurement name=" ++ [dq] ++ $"name" ++ [dq] ++ $" type=" ++ [dq] ++ $"text/string" ++ [dq] ++ $">a&lt;b</DartMeasurement>" ++ [nl] ++ footer.
Proof. eexists. split; vm_compute; reflexivity. Qed.

(** C54: what a measurement function returns.  The comment in the header says: 0 if the measurements are the same, non-zero otherwise. *)
Theorem C54_return_value : forall e c s s' z, Measure e c s = (s', Ok z) ->
  (compare_mode e s = Ok false -> z = 0%Z) /\
  (compare_mode e s = Ok true ->
     (z = 0%Z \/ z = 1%Z) /\
     (z = 0%Z <-> exists b, hd_error (s_input s) = Some b /\ mname b = mname (meas_of (e_io e) true c) /\ mtype b = mtype (meas_of (e_io e) true c) /\
                 verdict e (s_path s) b (c, s_tol s, s_files s) = Ok false)).
Proof.
  intros e c s s' z H. unfold Measure, GetCompareMode, mbind at 1 in H. split; intros Hc; rewrite Hc in H; cbv iota in H.
  - unfold mbind in H. rewrite put_meas_eq in H. injection H as _ <-. reflexivity.
  - assert (V : forall b, hd_error (s_input s) = Some b -> kind_of_moment e b (c, s_tol s, s_files s) = true ->
       exists v, verdict e (s_path s) b (c, s_tol s, s_files s) = Ok v).
    { intros b Hb Hk. revert H. unfold CompareMeasurement. unfold mbind at 1. unfold gets at 1. cbv iota.
      destruct (s_input s) as [|b0 bs]; [discriminate|]. injection Hb as ->. unfold kind_of_moment, same_kind in Hk. cbn [fst] in Hk.
      rewrite Hk. unfold mbind at 1. unfold modify at 1. cbv iota. unfold mbind at 1. rewrite locate_found. cbv iota. unfold mbind, gets. cbv iota.
      unfold verdict, visitor. cbn [set_input s_path s_files s_tol].
      destruct (Compare _ _ _ _ _ _) as [[b2 m2] v]. unfold mlift. cbn [snd]. destruct v as [v| | | |]; try (intros X; discriminate X). eauto. }
    apply compare_one in H. destruct H as [A _]. destruct (A z eq_refl) as (R & _). cbv zeta in R. cbn [results] in R.
    destruct (s_input s) as [|b bs].
    + injection R as ->. split; [auto|]. split; [discriminate|]. intros (b & X & _). discriminate X.
    + cbn [hd_error] in *. destruct (kind_of_moment e b (c, s_tol s, s_files s)) eqn:K.
      * destruct (V b eq_refl K) as [v Ev]. unfold same_value in R. rewrite Ev in R.
        unfold kind_of_moment, same_kind in K. cbn [fst] in K. rewrite andb_true_iff, !eqs_true in K.
        destruct v; cbn [andb negb] in R; injection R as ->; (split; [auto|]); split.
        -- discriminate.
        -- intros (b' & X & _ & _ & Y). injection X as <-. congruence.
        -- intros _. exists b. tauto.
        -- reflexivity.
      * cbn [andb] in R. injection R as ->. split; [auto|]. split; [discriminate|]. intros (b' & X & Y1 & Y2 & _). injection X as <-.
        unfold kind_of_moment, same_kind in K. cbn [fst] in K. rewrite Y1, Y2, !eqs_refl in K. discriminate K.
Qed.
Print Assumptions C54_return_value.
Definition ex_state : rst := set_is (set_input (new_test (fun _ => None)) [meas_of (e_io ex_env) true (TextString ($"text") ($"name"))]) (Some []).
Theorem C54_zero_if_same_refuted : exists e c s s', Measure e c s = (s', Ok 1%Z) /\ s_unmatched s' = s_unmatched s /\ compare_mode e s = Ok true /\
  hd_error (s_input s) = Some (meas_of (e_io e) true c).
Proof. exists ex_env, (TextString ($"text") ($"name")), ex_state. eexists. split; [vm_compute; reflexivity|]. repeat split. Qed.
Print Assumptions C54_zero_if_same_refuted.
Example C54_case : exists s', Measure ex_env (TextString ($"other") ($"name")) ex_state = (s', Ok 0%Z) /\ s_unmatched s' = 1%Z.
Proof. eexists. split; vm_compute; reflexivity. Qed.

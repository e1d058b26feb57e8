(** C84: what the ITK driver and itktfImageCompare say on the standard error.  [itk_says], [tool_says]: ItkErrModel; the specification is in ItkErrSpec. *)
From Coq Require Import Floats.SpecFloat.
From Verif Require Import Base Str Dec B64Model PathModel PathFacts MeasModel MeasFacts DiffModel VisitModel XmlText XmlModel ReadModel ReadFacts ReadBack ReadProps ElemProps RegModel ArgFacts ArgProps RegSpec RegFacts RegStart RegMain RegProps RegProps2 RegRound RegProps3 HeapFacts HeapXml ErrReader ErrRun ImgModel ItkModel ItkSpec ItkSim ItkRun ItkMain ItkRunProps ErrProps ItkArgProps ReuseProps CasesRead ErrModel ErrFacts ErrSpec ItkErrModel ItkErrFacts ItkErrSpec ItkErrRun.

(** The driver and the tool with their messages are those of ItkModel: C50-C56, C82, C83 hold for them. *)
Theorem C84_same_driver : forall r ie test argv x,
  itk_Main ie test argv (x_s x) = (x_s (fst (x_itk_Main r ie test argv x)), snd (x_itk_Main r ie test argv x)) /\
  itk_Main ie (itktfImageCompare ie) argv (x_s x) = (x_s (fst (x_tool_Main r ie argv x)), snd (x_tool_Main r ie argv x)).
Proof.
  intros r ie test argv x. split.
  - apply (follows_Main_with (i_env ie) (fun args => x_irun r ie argv (test args) no_tolerance 0%Z) (itk_body ie test argv) argv x). intros args. apply follows_irun.
  - apply (follows_Main_with (i_env ie) (x_itktfImageCompare r ie) (itk_body ie (itktfImageCompare ie) argv) argv x). intros args. apply follows_tool.
Qed.
Print Assumptions C84_same_driver.

(** the two bodies *)
Definition x_body_of (r : itkerr) (ie : ienv) (test : list str -> iprog) (argv : list str) : list str -> X Z := fun args => x_irun r ie argv (test args) no_tolerance 0%Z.
Definition start_state (ie : ienv) (f : store) : xst := Xst (set_unmatched (fresh f [i_baselines ie]) 1) [] None.
Lemma itk_says_body r ie f test argv : itk_says r ie f test argv = ErrProps.said (x_body_with (i_env ie) (x_body_of r ie test argv) argv (start_state ie f)).
Proof. unfold itk_says, x_itk_Main. rewrite x_Main_with_says. reflexivity. Qed.
Lemma tool_says_body r ie f argv : tool_says r ie f argv = ErrProps.said (x_body_with (i_env ie) (x_itktfImageCompare r ie) argv (start_state ie f)).
Proof. unfold tool_says, x_tool_Main. rewrite x_Main_with_says. reflexivity. Qed.

(** An exception that ends the body of [Main] is reported, once and last; nothing else is called an exception.  So also for the tool. *)
Theorem C84_exception_reported : forall r ie f test argv,
  (exists l w, (forall v i, ~ In (Caught v i) l) /\
    itk_says r ie f test argv = l ++ match snd (main_body_with (i_env ie) (itk_body ie test argv) argv (set_unmatched (new_itk_test ie f) 1)) with Throw i => [Caught w i] | _ => [] end) /\
  (exists l w, (forall v i, ~ In (Caught v i) l) /\
    tool_says r ie f argv = l ++ match snd (main_body_with (i_env ie) (itk_body ie (itktfImageCompare ie) argv) argv (set_unmatched (new_itk_test ie f) 1)) with Throw i => [Caught w i] | _ => [] end).
Proof.
  intros r ie f test argv.
  assert (G : forall (xb : list str -> X Z) (b : list str -> M Z), (forall args, ErrFacts.follows (xb args) (b args)) -> exists l w, (forall v i, ~ In (Caught v i) l) /\
    ErrProps.said (x_body_with (i_env ie) xb argv (start_state ie f)) = l ++ match snd (main_body_with (i_env ie) b argv (set_unmatched (new_itk_test ie f) 1)) with Throw i => [Caught w i] | _ => [] end).
  { intros xb b F. pose proof (follows_body_with (i_env ie) xb b argv F) as FB. unfold ErrProps.said. set (x := start_state ie f).
    destruct (fo_says _ _ FB x) as (l & E & U). pose proof (fo_base _ _ FB x) as B. change (x_s x) with (set_unmatched (new_itk_test ie f) 1) in B.
    exists l, (x_what (fst (x_body_with (i_env ie) xb argv x))). split; [exact U|]. rewrite B. cbn [snd]. rewrite E. reflexivity. }
  split.
  - rewrite itk_says_body. apply G. intros args. apply follows_irun.
  - rewrite tool_says_body. apply G. intros args. apply follows_tool.
Qed.
Print Assumptions C84_exception_reported.

(** * The command line *)
Lemma rejected_with e body f dirs0 a0 opts k v rest : Forall (accepted e f) opts ->
  (k = $"-I" /\ is_file e f v && is_readable e f v = false \/ k = $"-P" /\ is_directory e f v && is_readable e f v = false) ->
  ErrProps.said (x_body_with e body (a0 :: flat opts ++ k :: v :: rest) (Xst (set_unmatched (fresh f dirs0) 1) [] None)) = refusals e f opts ++ [Caught (Some (rejection k v)) ExnRuntime].
Proof.
  intros Ha H. set (argv := a0 :: flat opts ++ k :: v :: rest).
  assert (E : exists s, x_body_with e body argv (Xst (set_unmatched (fresh f dirs0) 1) [] None) = (Xst s (refusals e f opts) (Some (rejection k v)), Throw ExnRuntime)).
  { unfold x_body_with. unfold xbind at 1. unfold x_Parse. unfold xbind at 1.
    destruct (x_parse_prefix e a0 (k :: v :: rest) opts (S (length argv) - length opts) [] None None (set_unmatched (fresh f dirs0) 1) [] None Ha) as (tail' & P & E).
    assert (L : length argv = 1 + 2 * length opts + length (k :: v :: rest)) by (unfold argv; cbn [length]; rewrite app_length, flat_length; cbn [length]; lia).
    replace (length opts + (S (length argv) - length opts)) with (S (length argv)) in E by lia. rewrite app_nil_r in E. rewrite <- L in E. change (a0 :: flat opts ++ k :: v :: rest) with argv in E. rewrite E.
    destruct (S (length argv) - length opts) as [|f'] eqn:Ef; [lia|].
    pose proof (x_parse_reject e a0 k v rest tail' f' (in_after opts None) (out_after e (s_files (set_unmatched (fresh f dirs0) 1)) opts None) (after opts (set_unmatched (fresh f dirs0) 1)) ([] ++ refusals e (s_files (set_unmatched (fresh f dirs0) 1)) opts) None) as R.
    rewrite after_files in R. specialize (R H). change (1 + length (k :: v :: rest)) with (3 + length rest). cbn [app] in R |- *. rewrite R. eexists. reflexivity. }
  destruct E as [s ->]. reflexivity.
Qed.
Theorem C84_rejected : forall r ie f test a0 opts k v rest, let e := i_env ie in Forall (accepted e f) opts ->
  let all := fun last => itk_says r ie f test (a0 :: flat opts ++ k :: v :: rest) = refusals e f opts ++ [last] /\ tool_says r ie f (a0 :: flat opts ++ k :: v :: rest) = refusals e f opts ++ [last] in
  (k = $"-I" /\ is_file e f v && is_readable e f v = false -> all (Caught (Some ($"unable to read input file " ++ [chr 34] ++ v ++ [chr 34] ++ $"!")) ExnRuntime)) /\
  (k = $"-P" /\ is_directory e f v && is_readable e f v = false -> all (Caught (Some ($"unable to read input path " ++ [chr 34] ++ v ++ [chr 34] ++ $"!")) ExnRuntime)).
Proof.
  intros r ie f test a0 opts k v rest e Ha all. unfold all. rewrite itk_says_body, tool_says_body.
  pose proof (fun body H => rejected_with e body f [i_baselines ie] a0 opts k v rest Ha H) as G. unfold rejection in G.
  split; intros H; (split; (etransitivity; [apply G; tauto|]); destruct H as [-> _]; reflexivity).
Qed.
Print Assumptions C84_rejected.

(** * Recording *)
(** A recording run says nothing but the refusals of output files, and the exception that ends it: the output file that cannot be opened, or the test's own. *)
Theorem C84_record_run : forall r ie f test a0 opts rest, let e := i_env ie in let argv := a0 :: flat opts ++ rest in command_line e f opts rest -> input_of opts = None ->
  itk_says r ie f test argv = refusals e f opts ++
    match opened e f (output_of e f opts) with
    | None => [Caught (Some ($"unable to open output file " ++ [chr 34] ++ output_of e f opts ++ [chr 34] ++ $"!")) ExnRuntime]
    | Some _ => match iends (e_sc e) argv 0 (test (a0 :: rest)) with Throw i => [Caught None i] | _ => [] end
    end.
Proof.
  intros r ie f test a0 opts rest e argv Hc Hi. rewrite itk_says_body. unfold argv. rewrite (x_with_launch e _ f [i_baselines ie] a0 opts rest None Hc). fold argv.
  assert (Hin : s_in (launched_in e f [i_baselines ie] opts) = []) by (cbn; rewrite Hi; reflexivity).
  set (s0 := launched_in e f [i_baselines ie] opts) in *.
  unfold xbind at 1. unfold x_Begin. unfold xbind at 1. unfold throwing at 1. cbn [x_s x_err x_what]. rewrite (open_output_spec e s0 eq_refl).
  change (s_files s0) with f. change (s_out s0) with (output_of e f opts).
  destruct (opened e f (output_of e f opts)) as [[o f1]|]; [|reflexivity].
  set (s1 := set_os (set_files s0 f1) o). cbv iota beta. unfold xbind at 1. unfold throwing at 1, open_input. cbn [x_s x_err x_what].
  change (s_in s1) with (s_in s0). rewrite Hin. cbv iota beta. unfold xbind at 1. unfold quiet at 1, GetCompareMode. cbn [x_s x_err x_what].
  rewrite (record_mode e s1 eq_refl Hin). cbv iota beta. unfold quiet at 1, RegModel.put, modify. cbn [x_s x_err x_what]. cbv iota beta.
  destruct (put_text_any (header e) s1) as ((F1 & F2 & F3 & F4 & F5) & _).
  destruct (x_irun_record r ie argv (test (a0 :: rest)) no_tolerance 0%Z (Xst (put_text (header e) s1) (refusals e f opts) None)) as (s' & E); [cbn [x_s]; rewrite F5; reflexivity|cbn [x_s]; rewrite F1; exact Hin|].
  unfold x_body_of. rewrite E. unfold ErrProps.said. cbn [fst snd x_err x_what]. reflexivity.
Qed.
Print Assumptions C84_record_run.

(** * Comparing *)
Lemma not_started_with e body f dirs0 a0 opts rest inf : command_line e f opts rest -> input_of opts = Some inf ->
  let all := ErrProps.said (x_body_with e body (a0 :: flat opts ++ rest) (Xst (set_unmatched (fresh f dirs0) 1) [] None)) in
  let quote := fun s => [chr 34] ++ s ++ [chr 34] ++ $"!" in
  match opened e f (output_of e f opts) with
  | None => all = refusals e f opts ++ [Caught (Some ($"unable to open output file " ++ quote (output_of e f opts))) ExnRuntime]
  | Some (_, f1) =>
      let q := baseline_path e f1 (dirs_of opts ++ dirs0) inf in
      (sources e f1 q = Missing -> all = refusals e f opts ++ [Caught (Some ($"unable to open input file " ++ quote inf)) ExnRuntime]) /\
      (sources e f1 q = Unreadable -> all = refusals e f opts ++ [Caught (Some ($"XML:read error")) ExnRuntime]) /\
      (forall bytes i, contents e f1 q = Some bytes -> ReadXMLInput (e_asserts e) (e_ext e) bytes = Throw i ->
         exists l, reading (fst (expat (e_ext e) bytes)) l /\ all = refusals e f opts ++ l ++ [ParseError; Caught (Some ($"parse error")) i])
  end.
Proof.
  intros Hc Hi. cbv zeta. rewrite (x_with_launch e body f dirs0 a0 opts rest None Hc).
  set (s0 := launched_in e f dirs0 opts).
  assert (Hin : s_in s0 = inf) by (cbn; rewrite Hi; reflexivity).
  pose proof (x_begin_at e s0 (refusals e f opts) inf eq_refl eq_refl Hin (input_of_nonempty e f opts inf (proj1 Hc) Hi)) as B. cbv zeta in B.
  change (s_files s0) with f in B. change (s_out s0) with (output_of e f opts) in B. change (s_path s0) with (dirs_of opts ++ dirs0) in B.
  destruct (opened e f (output_of e f opts)) as [[o f1]|].
  2:{ unfold xbind. rewrite B. reflexivity. }
  set (q := baseline_path e f1 (dirs_of opts ++ dirs0) inf) in *. set (s1 := set_os (set_files s0 f1) o) in *.
  unfold can_open in B. unfold sources, contents. unfold xbind. split; [|split].
  - intros M. assert (N : match node_at e f1 q with Some (FFile r _ _) => r | Some (FDir r _ _) => r | None => false end = false) by (destruct (node_at e f1 q) as [[[|] w b|[|] w x]|]; try discriminate M; reflexivity).
    rewrite N in B. rewrite B. reflexivity.
  - intros M. unfold node_at in *. destruct (slot e q) as [k|]; [|discriminate M]. destruct (f1 k) as [[[|] w b|[|] w x]|] eqn:Ek; try discriminate M. rewrite B.
    unfold x_read_input, xbind, ErrModel.say, throwing, read_input. cbn [x_s x_err x_what set_is s_is]. change (s_files (set_is s1 (Some k))) with f1. rewrite Ek. unfold ErrProps.said. cbn [fst snd x_err x_what]. rewrite app_nil_r. reflexivity.
  - intros bytes i M R. unfold node_at in *. destruct (slot e q) as [k|]; [|discriminate M]. destruct (f1 k) as [[[|] w b|]|] eqn:Ek; try discriminate M. injection M as ->. rewrite B.
    unfold x_read_input, xbind, ErrModel.say, throwing, read_input. cbn [x_s x_err x_what set_is s_is]. change (s_files (set_is s1 (Some k))) with f1. rewrite Ek, R. cbn [fst snd x_err x_what].
    destruct (read_throws _ _ _ _ R) as (p & Ep & Eo). exists (says_from 0 (fst (expat (e_ext e) bytes))). split; [apply read_reading|].
    destruct (expat (e_ext e) bytes) as [evs ok] eqn:Ex. cbn [fst snd] in *. rewrite (read_says_spec _ _ _ _ _ _ Ex Ep), Eo. unfold ErrProps.said. cbn [fst snd x_err x_what]. rewrite <- !app_assoc. reflexivity.
Qed.
(** A comparing run that does not get to its test: why. *)
Theorem C84_not_started : forall r ie f test a0 opts rest inf, let e := i_env ie in let argv := a0 :: flat opts ++ rest in command_line e f opts rest -> input_of opts = Some inf ->
  forall all, all = itk_says r ie f test argv \/ all = tool_says r ie f argv ->
  let quote := fun s => [chr 34] ++ s ++ [chr 34] ++ $"!" in
  match opened e f (output_of e f opts) with
  | None => all = refusals e f opts ++ [Caught (Some ($"unable to open output file " ++ quote (output_of e f opts))) ExnRuntime]
  | Some (_, f1) =>
      let q := baseline_path e f1 (dirs_of opts ++ [i_baselines ie]) inf in
      (sources e f1 q = Missing -> all = refusals e f opts ++ [Caught (Some ($"unable to open input file " ++ quote inf)) ExnRuntime]) /\
      (sources e f1 q = Unreadable -> all = refusals e f opts ++ [Caught (Some ($"XML:read error")) ExnRuntime]) /\
      (forall bytes i, contents e f1 q = Some bytes -> ReadXMLInput (e_asserts e) (e_ext e) bytes = Throw i ->
         exists l, reading (fst (expat (e_ext e) bytes)) l /\ all = refusals e f opts ++ l ++ [ParseError; Caught (Some ($"parse error")) i])
  end.
Proof.
  intros r ie f test a0 opts rest inf e argv Hc Hi all [-> | ->]; [rewrite itk_says_body|rewrite tool_says_body]; exact (not_started_with e _ f [i_baselines ie] a0 opts rest inf Hc Hi).
Qed.
Print Assumptions C84_not_started.

(** the start of a comparing run that gets to its test *)
Lemma begun_with e body f dirs0 a0 opts rest inf o f1 baseline bytes : command_line e f opts rest -> input_of opts = Some inf ->
  started e f (output_of e f opts) (dirs_of opts ++ dirs0) inf = Some (o, f1, baseline) -> contents e f1 (baseline_path e f1 (dirs_of opts ++ dirs0) inf) = Some bytes ->
  exists k, Forall uncached baseline /\ readable_file e f1 (baseline_path e f1 (dirs_of opts ++ dirs0) inf) = true /\ x_body_with e body (a0 :: flat opts ++ rest) (Xst (set_unmatched (fresh f dirs0) 1) [] None) =
    body (a0 :: rest) (Xst (comparing e f dirs0 opts o f1 k baseline) (refusals e f opts ++ says_from 0 (fst (expat (e_ext e) bytes))) None).
Proof.
  intros Hc Hi Hs Hb. rewrite (x_with_launch e body f dirs0 a0 opts rest None Hc).
  set (s0 := launched_in e f dirs0 opts).
  assert (Hin : s_in s0 = inf) by (cbn; rewrite Hi; reflexivity).
  pose proof (x_begin_at e s0 (refusals e f opts) inf eq_refl eq_refl Hin (input_of_nonempty e f opts inf (proj1 Hc) Hi)) as B. cbv zeta in B.
  change (s_files s0) with f in B. change (s_out s0) with (output_of e f opts) in B. change (s_path s0) with (dirs_of opts ++ dirs0) in B.
  unfold started in Hs. destruct (opened e f (output_of e f opts)) as [[o' f1']|] eqn:Eo; [|discriminate Hs].
  destruct (contents e f1' (baseline_path e f1' (dirs_of opts ++ dirs0) inf)) as [bytes'|] eqn:Ec; [|discriminate Hs].
  destruct (ReadXMLInput (e_asserts e) (e_ext e) bytes') as [l| | | |] eqn:Erd; try discriminate Hs. injection Hs as -> -> ->.
  rewrite Hb in Ec. injection Ec as <-. set (q := baseline_path e f1 (dirs_of opts ++ dirs0) inf) in *. set (s1 := set_os (set_files s0 f1) o) in *.
  assert (Er : can_open e f1 q = true).
  { revert Hb. unfold can_open, contents. destruct (node_at e f1 q) as [[[|] w b|]|]; auto; discriminate. }
  rewrite Er in B.
  destruct (RegMain.readable_contents e f1 q Er) as (k & Ek & [(r & w & b & Eb & Ec' & Ef)|(r & w & x & Eb & Ec')]); rewrite Hb in Ec'; [|discriminate Ec'].
  injection Ec' as <-. rewrite Ek in B. exists k. split; [exact (read_uncached _ _ _ _ Erd)|]. split; [unfold readable_file; fold q; rewrite Ef, (file_can_open _ _ _ Ef), Er; reflexivity|].
  destruct (read_ok _ _ _ _ Erd) as (p & Ep & Eok & _). unfold xbind. rewrite B.
  unfold x_read_input, xbind, ErrModel.say, throwing, read_input. cbn [x_s x_err x_what set_is s_is]. change (s_files (set_is s1 (Some k))) with f1. rewrite Eb, Erd. cbv iota beta.
  destruct (expat (e_ext e) bytes) as [evs ok] eqn:Ex. cbn [fst snd] in *. rewrite (read_says_spec _ _ _ _ _ _ Ex Ep), Eok, app_nil_r. reflexivity.
Qed.
(** its end *)
Lemma ended_with e body f dirs0 argv s' z s3 out : main_body_with e body argv (set_unmatched (fresh f dirs0) 1) = (s3, out) -> Main_with e body argv (fresh f dirs0) = (s', Ok z) ->
  ((exists v, out = Ok v) \/ (exists i, out = Throw i)) /\
  forall inf, inf <> [] -> forall k f1 dirs, s_is s3 = Some k -> s_in s3 = inf -> s_path s3 = dirs -> keeps f1 (s_files s3) -> readable_file e f1 (baseline_path e f1 dirs inf) = true ->
  z = status out (s_expected s3) (s_unmatched s3 - 1).
Proof.
  intros B H. rewrite Main_with_unfold in H. change (set_unmatched (fresh f dirs0) (s_unmatched (fresh f dirs0) + 1)) with (set_unmatched (fresh f dirs0) 1) in H. rewrite B in H.
  assert (Hout : (exists v, out = Ok v) \/ (exists i, out = Throw i)) by (destruct out as [v|i| | |]; try (discriminate H); eauto).
  split; [exact Hout|]. intros inf Hn k f1 dirs Hi3 Hin Hp K Er. unfold ends_with in H.
  assert (Hfin : forall s4, s_is s4 = None -> s_in s4 = inf -> s_path s4 = dirs -> s_files s4 = s_files s3 -> compare_mode e s4 = Ok true).
  { intros s4 A1 A2 A3 A4. rewrite (compare_mode_closed e s4 inf A1 A2 Hn), A3, A4. f_equal. apply (keeps_baseline e f1); [exact K|exact Er]. }
  destruct Hout as [[v ->]|[i ->]].
  - unfold EndMeasurement, GetCompareMode, mbind in H. rewrite (compare_mode_open e s3 k Hi3) in H. unfold modify in H. cbv iota in H.
    unfold finish_with in H. cbn [set_unmatched set_is set_os set_input s_expected s_unmatched] in H. unfold status.
    destruct (v =? s_expected s3)%Z; cbn [negb] in H; [rewrite Hfin in H; auto; cbn [bind] in H|]; injection H as _ <-; reflexivity.
  - unfold finish_with in H. unfold status. destruct (-1 =? s_expected s3)%Z; cbn [negb] in H; [rewrite (compare_mode_open e s3 k Hi3) in H; cbn [bind] in H|]; injection H as _ <-; lia || reflexivity.
Qed.
(** A comparing run says, in this order: the refusals; the faults of the baseline document; for each measurement the remarks about it, its partner and its images; the
    exception that ended the test.  It is the same sequence of measurements that determines the status (C50). *)
Theorem C84_compare_run : forall r ie f test a0 opts rest inf o f1 baseline bytes s' z, let e := i_env ie in let argv := a0 :: flat opts ++ rest in let dirs := dirs_of opts ++ [i_baselines ie] in
  command_line e f opts rest -> input_of opts = Some inf -> started e f (output_of e f opts) dirs inf = Some (o, f1, baseline) ->
  contents e f1 (baseline_path e f1 dirs inf) = Some bytes -> itk_Main ie test argv (new_itk_test ie f) = (s', Ok z) ->
  exists ms rs ns x out extra faults ls,
    iunfolds ie argv o default_tol no_tolerance 0 f1 (expected_of opts) (test (a0 :: rest)) ms rs ns x out /\
    rs = iresults ie dirs baseline (firstn (length rs) ms) /\
    match nth_error ms (length rs) with
    | Some mo => exists b i, out = Throw i /\ nth_error baseline (length rs) = Some b /\ ItkSpec.raises ie dirs b mo i extra
    | None => extra = 0%Z
    end /\
    z = status out x (imismatches ie dirs baseline (firstn (length rs) ms) + extra) /\
    reading (fst (expat (e_ext e) bytes)) faults /\ iremarks r ie dirs baseline ms ls /\
    itk_says r ie f test argv = refusals e f opts ++ faults ++ ls ++ match out with Throw i => [Caught None i] | _ => [] end.
Proof.
  intros r ie f test a0 opts rest inf o f1 baseline bytes s' z e argv dirs Hc Hi Hs Hb Hm.
  destruct (begun_with e (x_body_of r ie test argv) f [i_baselines ie] a0 opts rest inf o f1 baseline bytes Hc Hi Hs Hb) as (k & Hu & Hr & E). fold argv in E.
  set (s2 := comparing e f [i_baselines ie] opts o f1 k baseline) in *. set (faults := says_from 0 (fst (expat (e_ext e) bytes))) in *. set (x2 := Xst s2 (refusals e f opts ++ faults) None) in *.
  destruct (x_irun r ie argv (test (a0 :: rest)) no_tolerance 0%Z x2) as [x3 out] eqn:Erun.
  pose proof (fo_base _ _ (follows_body_with e (x_body_of r ie test argv) (itk_body ie test argv) argv (fun args => follows_irun r ie argv (test args) no_tolerance 0%Z)) (start_state ie f)) as FB.
  change (x_s (start_state ie f)) with (set_unmatched (fresh f [i_baselines ie]) 1) in FB. unfold start_state in FB. rewrite E in FB. change (x_body_of r ie test argv (a0 :: rest)) with (x_irun r ie argv (test (a0 :: rest)) no_tolerance 0%Z) in FB, E. rewrite Erun in FB, E. cbn [fst snd] in FB.
  change (itk_Main ie test argv (new_itk_test ie f)) with (Main_with e (itk_body ie test argv) argv (fresh f [i_baselines ie])) in Hm.
  destruct (ended_with e (itk_body ie test argv) f [i_baselines ie] argv s' z (x_s x3) out FB Hm) as [Hout Hz].
  destruct (x_irun_compare r ie argv (test (a0 :: rest)) no_tolerance 0%Z x2 x3 out k eq_refl Hu Erun Hout) as (ms & rs & ns & ls & W & Rs & (ex & U & St) & F & K & Rm & L & Wh).
  exists ms, rs, ns, (s_expected (x_s x3)), out, ex, faults, ls. split; [exact W|]. split; [exact Rs|]. split; [exact St|]. split.
  - rewrite (Hz inf (input_of_nonempty e f opts inf (proj1 Hc) Hi) k f1 dirs).
    + rewrite U. f_equal. change (s_unmatched (x_s x2)) with 1%Z. change (s_path (x_s x2)) with dirs. change (s_input (x_s x2)) with baseline. lia.
    + destruct F as (F1 & F2 & F3 & F4 & F5). rewrite F5. reflexivity.
    + destruct F as (F1 & F2 & F3 & F4 & F5). rewrite F1. cbn. rewrite Hi. reflexivity.
    + destruct F as (F1 & F2 & F3 & F4 & F5). rewrite F3. reflexivity.
    + exact K.
    + exact Hr.
  - split; [apply read_reading|]. split; [exact Rm|]. rewrite itk_says_body. unfold start_state. fold e. rewrite E. unfold ErrProps.said. cbn [fst snd]. rewrite L, Wh. cbn [x2 x_err x_what]. rewrite <- !app_assoc. reflexivity.
Qed.
Print Assumptions C84_compare_run.

(** * itktfImageCompare *)
(** Each wrong argument meets with one objection. *)
Theorem C84_objection : forall ie l, (wrong ie l <-> exists t, objection ie l t) /\ (forall t t', objection ie l t -> objection ie l t' -> t = t').
Proof.
  intros ie l. split; [split|].
  - destruct l as [|a rest]; [intros []|]. intros (D & W1 & W2).
    destruct (eqs_spec a ($"--intensityTolerance")) as [->|N1].
    { specialize (W1 eq_refl). destruct rest as [|v rest]; eexists; [apply no_double|apply wrong_double; exact W1]. }
    destruct (eqs_spec a ($"--numberOfPixelTolerance")) as [->|N2].
    { specialize (W2 (or_introl eq_refl)). destruct rest as [|v rest]; eexists; [apply no_uint; auto|apply wrong_uint; auto]. }
    destruct (eqs_spec a ($"--radiusTolerance")) as [->|N3].
    { specialize (W2 (or_intror eq_refl)). destruct rest as [|v rest]; eexists; [apply no_uint; auto|apply wrong_uint; auto]. }
    destruct a as [|c a]; [discriminate D|]. cbn [dashed] in D. destruct (eqc_spec c "-") as [->|]; [|discriminate D]. eexists. apply not_known; eauto.
  - intros [t H]. destruct H as [|v l H|a H|a v l H E|a l [t ->] N1 N2 N3].
    + split; [reflexivity|]. split; [auto|]. intros [X|X]; discriminate X.
    + split; [reflexivity|]. split; [auto|]. intros [X|X]; discriminate X.
    + split; [destruct H as [->| ->]; reflexivity|]. split; [|auto]. intros ->. destruct H; discriminate.
    + split; [destruct H as [->| ->]; reflexivity|]. split; [|auto]. intros ->. destruct H; discriminate.
    + split; [reflexivity|]. split; [contradiction|]. intros [X|X]; contradiction.
  - intros t t' H H'. destruct H as [|v l H|a H|a v l H E|a l [t ->] N1 N2 N3]; inversion H'; subst; auto; try contradiction;
      repeat match goal with A : ?x = _ \/ ?x = _ |- _ => destruct A; subst end; try discriminate; try contradiction; auto.
Qed.
Print Assumptions C84_objection.

Lemma x_loop_file r ie a rest tol n x : dashed a = false ->
  x_image_loop r ie (a :: rest) tol n x = (_ <! x_MeasurementInsightFileImage r ie tol a ($"ImageFile" ++ print_int n) ;; x_image_loop r ie rest tol (n + 1)%Z) x.
Proof.
  intros H. destruct a as [|c a]; [reflexivity|]. cbn [dashed] in H. cbn [x_image_loop].
  destruct c as [[] [] [] [] [] [] [] []]; try reflexivity; discriminate H.
Qed.
Definition then_says (l : list msg) (q : xst * res Z) : xst * res Z :=
  match snd q with Ok _ => (Xst (x_s (fst q)) (x_err (fst q) ++ l) (x_what (fst q)), snd q) | _ => q end.
Lemma x_loop_items r ie args0 items bad z l : (forall tol n x, x_image_loop r ie bad tol n x = then_says l (x, Ok z)) -> Forall (readable_item ie) items ->
  forall tol tol0 n c x, x_image_loop r ie (flat_map words items ++ bad) tol (Z.of_nat n) x = then_says l (x_irun r ie args0 (perform (plan_from ie tol items) n z) tol0 c x).
Proof.
  intros B. induction items as [|i q IH]; intros H tol tol0 n c x; [apply B|]. apply Forall_cons_iff in H. destruct H as [Hi Hl]. specialize (IH Hl).
  destruct i as [v|v|v|f]; cbn [flat_map words app plan_from perform readable_item] in *.
  - change (x_image_loop r ie ($"--intensityTolerance" :: v :: flat_map words q ++ bad) tol (Z.of_nat n) x) with
      ((match i_double ie v with None => _ <! say (fun _ => [expected_not ($"double") ($"--intensityTolerance") v]) ;; xret 1%Z | Some d => x_image_loop r ie (flat_map words q ++ bad) (Tolerances d (t_pixels tol) (t_radius tol)) (Z.of_nat n) end) x).
    destruct (i_double ie v); [|congruence]. apply IH.
  - change (x_image_loop r ie ($"--numberOfPixelTolerance" :: v :: flat_map words q ++ bad) tol (Z.of_nat n) x) with
      ((match scan_uint v with None => _ <! say (fun _ => [expected_not ($"unsigned int") ($"--numberOfPixelTolerance") v]) ;; xret 1%Z | Some d => x_image_loop r ie (flat_map words q ++ bad) (Tolerances (t_intensity tol) d (t_radius tol)) (Z.of_nat n) end) x).
    destruct (scan_uint v); [|congruence]. apply IH.
  - change (x_image_loop r ie ($"--radiusTolerance" :: v :: flat_map words q ++ bad) tol (Z.of_nat n) x) with
      ((match scan_uint v with None => _ <! say (fun _ => [expected_not ($"unsigned int") ($"--radiusTolerance") v]) ;; xret 1%Z | Some d => x_image_loop r ie (flat_map words q ++ bad) (Tolerances (t_intensity tol) (t_pixels tol) d) (Z.of_nat n) end) x).
    destruct (scan_uint v); [|congruence]. apply IH.
  - rewrite x_loop_file by exact Hi. replace (Z.of_nat n + 1)%Z with (Z.of_nat (S n)) by lia. cbn [x_irun]. unfold xbind.
    destruct (x_MeasurementInsightFileImage r ie tol f _ x) as [x1 [w|i| | |]]; try reflexivity. apply IH.
Qed.
Lemma x_loop_wrong r ie l t tol n x : objection ie l t -> x_image_loop r ie l tol n x = then_says [Written t] (x, Ok 1%Z).
Proof.
  intros H. destruct H as [|v l E|a E|a v l E V|a l [t ->] N1 N2 N3].
  - destruct x. reflexivity.
  - cbn [x_image_loop]. rewrite eqs_refl, E. destruct x. reflexivity.
  - destruct E as [->| ->]; destruct x; reflexivity.
  - assert (Q : x_image_loop r ie (a :: v :: l) tol n = (_ <! say (fun _ => [expected_not ($"unsigned int") a v]) ;; xret 1%Z)).
    { destruct E as [->| ->]; cbn [x_image_loop]; cbn [eqs eqc]; rewrite V; reflexivity. }
    rewrite Q. destruct x. reflexivity.
  - cbn [x_image_loop]. rewrite (proj2 (eqs_false _ _) N1), (proj2 (eqs_false _ _) N2), (proj2 (eqs_false _ _) N3). destruct x. reflexivity.
Qed.
(** what the tool says itself, at the end: the usage if it has no argument, the objection to the argument that ends it *)
Inductive parting (ie : ienv) (a0 : str) : list item -> list str -> Z -> list msg -> Prop :=
| no_arguments : parting ie a0 [] [] 0 [Written
    ($"Usage: " ++ [nl] ++ [chr 9] ++ a0 ++ $" ( filename | --intensityTolerance real | --numberOfPixelTolerance uint | --radiusTolerance uint )*" ++ [nl] ++ [nl] ++
     $"The primary argument is list of image files to compare to an input XML file via the " ++ [chr 34] ++ $"-I filename.xml" ++ [chr 34] ++
     $" argument from the regression framework. Additainlly, the " ++ [chr 34] ++ $"--" ++ [chr 34] ++ $" arguments can applied during the processing, to affect the subsequent image files." ++ [nl])]
| all_read i items : parting ie a0 (i :: items) [] 0 []
| stopped items bad t : objection ie bad t -> parting ie a0 items bad 1 [Written t].
Lemma tool_body r ie args0 a0 items bad z l : Forall (readable_item ie) items -> parting ie a0 items bad z l ->
  forall x, x_itktfImageCompare r ie (a0 :: flat_map words items ++ bad) x = then_says l (x_irun r ie args0 (perform (plan_from ie no_tolerance items) 0 z) no_tolerance 0%Z x).
Proof.
  intros R P x. unfold x_itktfImageCompare. cbn [tl]. destruct P as [|i items|items bad t E].
  - destruct x. reflexivity.
  - assert (Q : exists w ws, flat_map words (i :: items) ++ [] = w :: ws) by (destruct i; cbn [flat_map words app]; eauto). destruct Q as (w & ws & Q). rewrite Q.
    change (match [a0; w] with [a] => [usage a] | _ => [] end) with (@nil msg). rewrite <- Q.
    unfold xbind at 1. unfold say at 1. cbn [app].
    assert (G : (Xst (x_s x) (x_err x ++ []) (x_what x)) = x) by (rewrite app_nil_r; destruct x; reflexivity). rewrite G.
    change 0%Z with (Z.of_nat 0) at 1. apply x_loop_items; [|exact R]. intros tol n y. unfold then_says. cbn [fst snd x_image_loop]. rewrite app_nil_r. destruct y; reflexivity.
  - assert (Q : exists w ws, flat_map words items ++ bad = w :: ws). { destruct items as [|i items]; [destruct E; cbn; eauto|destruct i; cbn [flat_map words app]; eauto]. } destruct Q as (w & ws & Q).
    unfold xbind at 1. unfold say at 1. rewrite Q. rewrite <- Q.
    assert (G : (Xst (x_s x) (x_err x ++ []) (x_what x)) = x) by (rewrite app_nil_r; destruct x; reflexivity). rewrite G.
    change 0%Z with (Z.of_nat 0) at 1. apply x_loop_items; [|exact R]. intros tol n y. apply x_loop_wrong. exact E.
Qed.
(** The tool says what a test says that measures the images before the argument which ends it, each with the tolerances set before it (C51); then, unless an exception ends
    it before, its parting word. *)
Theorem C84_tool : forall r ie f a0 opts items bad z l plan, let argv := a0 :: flat opts ++ flat_map words items ++ bad in let test := fun _ : list str => perform plan 0 z in
  command_line (i_env ie) f opts (flat_map words items ++ bad) -> Forall (readable_item ie) items -> planned ie items plan -> parting ie a0 items bad z l ->
  tool_says r ie f argv = itk_says r ie f test argv ++
    match snd (main_body_with (i_env ie) (itk_body ie test argv) argv (set_unmatched (new_itk_test ie f) 1)) with Ok _ => l | _ => [] end.
Proof.
  intros r ie f a0 opts items bad z l plan argv test Hc R P D. set (e := i_env ie).
  pose proof (planned_unique ie items plan (plan_from ie no_tolerance items) P (planned_from ie items)) as Ep. subst plan.
  assert (E : x_body_with e (x_itktfImageCompare r ie) argv (start_state ie f) = then_says l (x_body_with e (x_body_of r ie test argv) argv (start_state ie f))).
  { unfold start_state, argv. rewrite !(x_with_launch e _ f [i_baselines ie] a0 opts _ None Hc). fold argv. unfold xbind. destruct (x_Begin e _) as [x1 [w|i| | |]]; try reflexivity.
    apply (tool_body r ie argv a0 items bad z l R D). }
  rewrite tool_says_body, itk_says_body. fold e. rewrite E.
  pose proof (fo_base _ _ (follows_body_with e (x_body_of r ie test argv) (itk_body ie test argv) argv (fun args => follows_irun r ie argv (test args) no_tolerance 0%Z)) (start_state ie f)) as FB.
  change (x_s (start_state ie f)) with (set_unmatched (new_itk_test ie f) 1) in FB. rewrite FB. cbn [snd].
  destruct (x_body_with e (x_body_of r ie test argv) argv (start_state ie f)) as [x1 [w|i| | |]]; unfold then_says, ErrProps.said; cbn [fst snd x_err x_what]; rewrite ?app_nil_r; reflexivity.
Qed.
Print Assumptions C84_tool.

(** * Remarks on one image, and silence *)
(** Nothing is said about an image exactly when it has no partner, or both images are read and either no pictures are made or all three can be. *)
Theorem C84_silent_image : forall r ie dirs tol f file name p, image_remarks r ie dirs tol f file name p [] ->
  forall b g, p = Some b -> mname b = name -> mtype b = itk_type -> found (i_env ie) dirs f b (MF (Mf name true itk_type file)) = MF g ->
  read_image ie f (ffile g) <> None /\ read_image ie f file <> None.
Proof.
  intros r ie dirs tol f file name p H b g -> Hn Ht Hg. inversion H; subst.
  - match goal with A : forall b0, Some b = Some b0 -> _ |- _ => destruct (A b eq_refl); contradiction end.
  - match goal with A : found _ _ _ _ _ = MF ?g' |- _ => rewrite Hg in A; injection A as <- end. split; congruence.
  - match goal with A : found _ _ _ _ _ = MF ?g' |- _ => rewrite Hg in A; injection A as <- end. split; congruence.
Qed.
Print Assumptions C84_silent_image.
Theorem C84_remarks_determined : forall r ie dirs tol f file name p l l', image_remarks r ie dirs tol f file name p l -> image_remarks r ie dirs tol f file name p l' -> l = l'.
Proof.
  assert (DR : forall r im p l l', rescaling r im p l -> rescaling r im p l' -> l = l').
  { intros r im p l l' [E|t E] [E'|t' E']; congruence. }
  assert (DS : forall r ie f im p l l', storing r ie f im p l -> storing r ie f im p l' -> l = l').
  { intros r ie f im p l l' [N P|[N|P]] [N' P'|[N'|P']]; try reflexivity; contradiction. }
  assert (DD : forall r ie f im p l l', drawing r ie f im p l -> drawing r ie f im p l' -> l = l').
  { intros r ie f im p l l' (a & b & A & B & ->) (a' & b' & A' & B' & ->). rewrite (DR _ _ _ _ _ A A'), (DS _ _ _ _ _ _ _ B B'). reflexivity. }
  intros r ie dirs tol f file name p l l' H H'. inversion H; subst; clear H; inversion H'; subst; clear H'; try reflexivity;
    try match goal with A : forall b, Some ?c = Some b -> _ |- _ => destruct (A c eq_refl); congruence end;
    repeat match goal with A : found ?x ?y ?z ?c ?d = MF ?g, B : found ?x ?y ?z ?c ?d = MF ?h |- _ => rewrite A in B; injection B as <- end;
    repeat match goal with A : ?x = Some ?c, B : ?x = Some ?d |- _ => rewrite A in B; injection B as <- end; try congruence.
  - exfalso. match goal with A : _ -> forall hb ht, _ |- _ => eapply A; eauto end.
  - exfalso. match goal with A : _ -> forall hb ht, _ |- _ => eapply A; eauto end.
  - repeat match goal with A : ?x = Ok ?c, B : ?x = Ok ?d |- _ => first [constr_eq c d; fail 1 | rewrite A in B; apply Ok_inj in B; subst d] end.
    f_equal; [eapply DD; eassumption|f_equal; eapply DD; eassumption].
Qed.
Print Assumptions C84_remarks_determined.

(** Not every message ends its line: the one about a baseline image that cannot be read does not; the report of the exception that follows stands on the same line. *)
Definition c84_err : itkerr := ItkErr false (fun _ p => $"cannot read " ++ p) (fun _ => Some (Some ($"range"))) (fun _ _ _ => Some ($"cannot write")).
Definition c84_files : store := fun k => if eqs k ($"base/x.mha") then Some (FFile true true []) else ex_image_files k.
Theorem C84_lines_refuted : exists r ie f test argv t i, itk_says r ie f test argv = [Written t; Caught None i] /\ forall u, t <> u ++ [nl].
Proof.
  exists c84_err, ex_itk, c84_files, (two_images ($"same/x.mha") ($"two/x.mha")), [$"prog"; $"-I"; $"b.xml"], ($"Exception detected while reading base/x.mha : cannot read base/x.mha"), ExnRuntime.
  split; [vm_compute; reflexivity|]. intros u H. apply (f_equal (fun l => last l "0"%char)) in H. rewrite last_last in H. discriminate H.
Qed.
Print Assumptions C84_lines_refuted.

(** * Cases *)
(** an environment in which no file can be made *)
Definition c84_sealed : ienv := IEnv (Env true true None (e_io ex_env) (e_ext ex_env) (e_canon ex_env) (fun _ => false) (e_host ex_env) (e_time ex_env))
  (i_header ex_itk) (i_decode ex_itk) (i_diff ex_itk) (i_diff_image ex_itk) (i_show_size ex_itk) (i_show_vector ex_itk) (i_show_slice ex_itk) (i_png ex_itk) (i_double ex_itk) (i_output ex_itk) (i_baselines ex_itk).
Definition c84_opts : list (str * str) := [($"-I", $"b.xml")].
Lemma c84_line rest : (match rest with [] => True | a :: _ => ~ In a flags end) -> command_line ex_env ex_image_files c84_opts rest.
Proof. intros Hr. split; [accept|exact Hr]. Qed.
Local Notation c84_test := (two_images ($"same/x.mha") ($"two/x.mha")).
Local Notation c84_argv := [$"prog"; $"-I"; $"b.xml"].
Local Notation c84_run := (itk_Main ex_itk c84_test c84_argv (new_itk_test ex_itk ex_image_files)).
Example C84_compare_run_met := C84_compare_run c84_err ex_itk ex_image_files c84_test ($"prog") c84_opts [] ($"b.xml") None ex_image_files
  [MF (Mf ($"one") true itk_type ($"x.mha")); MF (Mf ($"two") true itk_type ($"x.mha"))] ex_xml (fst c84_run) 1%Z (c84_line [] I) eq_refl eq_refl eq_refl (pair_fst _ _ ltac:(vm_compute; reflexivity)).
(** the pictures of a differing image: rescaling fails; and nothing can be written either *)
Example C84_pictures : itk_says c84_err ex_itk ex_image_files c84_test c84_argv =
    map (fun p => Written ($"Error during rescale of out/x.mha." ++ p ++ $".png" ++ [nl] ++ $"range" ++ [nl])) [$"diff"; $"base"; $"test"] /\
  itk_says c84_err c84_sealed ex_image_files c84_test c84_argv =
    flat_map (fun p => [Written ($"Error during rescale of out/x.mha." ++ p ++ $".png" ++ [nl] ++ $"range" ++ [nl]); Written ($"Error during exctraction and writing of out/x.mha." ++ p ++ $".png" ++ [nl] ++ $"cannot write" ++ [nl])]) [$"diff"; $"base"; $"test"] /\
  itk_says c84_err ex_itk ex_image_files (two_images ($"none/x.mha") ($"two/x.mha")) c84_argv = [Written ($"Exception detected while reading none/x.mha : cannot read none/x.mha" ++ [nl]); Caught None ExnRuntime] /\
  itk_says c84_err ex_itk ex_image_files (two_images ($"same/x.mha") ($"same/x.mha")) c84_argv = [].
Proof. repeat split; vm_compute; reflexivity. Qed.
(** an image without difference, one that cannot be read *)
Example C84_silent_image_met : image_remarks c84_err ex_itk [$"base"] no_tolerance ex_image_files ($"same/x.mha") ($"one") (Some (MF (Mf ($"one") true itk_type ($"x.mha")))) [] /\
  found ex_env [$"base"] ex_image_files (MF (Mf ($"one") true itk_type ($"x.mha"))) (MF (Mf ($"one") true itk_type ($"same/x.mha"))) = MF (Mf ($"one") true itk_type ($"base/x.mha")).
Proof.
  split; [|vm_compute; reflexivity]. eapply (ir_read _ _ _ _ _ _ _ _ (Mf ($"one") true itk_type ($"base/x.mha"))); try reflexivity; vm_compute; discriminate.
Qed.
(** the tool: no argument; two images, then an option without a number; an unknown option; a missing image, after which the objection is not made *)
Lemma c84_not_flag a : dashed a = false -> ~ In a flags.
Proof. intros D H. vm_compute in H. intuition (subst; discriminate). Qed.
Example C84_tool_met := C84_tool c84_err ex_itk ex_image_files ($"prog") c84_opts [ItkArgProps.ImageFile ($"same/x.mha")] [$"--radiusTolerance"; $"x"] 1%Z
  [Written ($"Expected unsigned int to follow --radiusTolerance but got " ++ quote ++ $"x" ++ quote ++ [nl])] [(no_tolerance, $"same/x.mha")]
  (c84_line (flat_map words [ItkArgProps.ImageFile ($"same/x.mha")] ++ [$"--radiusTolerance"; $"x"]) (c84_not_flag ($"same/x.mha") eq_refl)) ltac:(repeat constructor) (planned_from ex_itk [ItkArgProps.ImageFile ($"same/x.mha")])
  (stopped ex_itk _ _ _ _ (wrong_uint ex_itk ($"--radiusTolerance") ($"x") [] (or_intror eq_refl) eq_refl)).
Definition c84_tool_files : store := fun k => if eqs k ($"base/b.xml") then Some (FFile true true ($"<output><DartMeasurementFile name=" ++ quote ++ $"ImageFile0" ++ quote ++ $" type=" ++ quote ++ $"image/itk" ++ quote ++ $">x.mha</DartMeasurementFile></output>")) else ex_image_files k.
Example C84_tool_says :
  map (text_of [] []) (tool_says c84_err ex_itk ex_image_files (c84_argv ++ [$"same/x.mha"; $"--radiusTolerance"; $"x"])) = [$"Expected unsigned int to follow --radiusTolerance but got " ++ quote ++ $"x" ++ quote ++ [nl]] /\
  map (text_of [] []) (tool_says c84_err ex_itk ex_image_files (c84_argv ++ [$"--tolerance"])) = [$"Unknown argument: " ++ quote ++ $"--tolerance" ++ quote ++ [nl]] /\
  map (text_of [] []) (tool_says c84_err ex_itk ex_image_files (c84_argv ++ [$"--numberOfPixelTolerance"])) = [$"Expected unsigned int to follow --numberOfPixelTolerance" ++ [nl]] /\
  map (text_of [] []) (tool_says c84_err ex_itk ex_image_files (c84_argv ++ [$"--intensityTolerance"; $"z"])) = [$"Expected double to follow --intensityTolerance but got " ++ quote ++ $"z" ++ quote ++ [nl]] /\
  firstn 14 (concat (map (text_of [] []) (tool_says c84_err ex_itk ex_image_files c84_argv))) = $"Usage: " ++ [nl; chr 9] ++ $"prog " /\
  tool_says c84_err ex_itk c84_tool_files (c84_argv ++ [$"none/x.mha"; $"--tolerance"]) = [Written ($"Exception detected while reading none/x.mha : cannot read none/x.mha" ++ [nl]); Caught None ExnRuntime].
Proof. repeat split; vm_compute; reflexivity. Qed.
(** the start *)
Example C84_starts :
  itk_says c84_err ex_itk ex_image_files c84_test [$"prog"; $"-I"; $"none.xml"] = [Caught (Some ($"unable to read input file " ++ quote ++ $"none.xml" ++ quote ++ $"!")) ExnRuntime] /\
  itk_says c84_err c84_sealed ex_image_files c84_test [$"prog"; $"-I"; $"b.xml"; $"-O"; $"o.xml"] = [Caught (Some ($"unable to open output file " ++ quote ++ $"o.xml" ++ quote ++ $"!")) ExnRuntime] /\
  itk_says c84_err ex_itk ex_image_files (fun _ => IImage ($"none/x.mha") ($"one") (fun _ => IRaise ExnOther)) [$"prog"] = [Caught None ExnOther].
Proof. repeat split; vm_compute; reflexivity. Qed.
Example C84_record_run_met := C84_record_run c84_err ex_itk ex_image_files c84_test ($"prog") [] [] (conj (Forall_nil _) I) eq_refl.

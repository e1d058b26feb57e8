(** Runs of a test on the ITK driver from start to end. *)
From Coq Require Import Floats.SpecFloat.
From Verif Require Import Base Str Dec PathModel PathFacts MeasModel MeasFacts VisitModel XmlModel ReadModel ReadFacts ReadBack NoThrow RegModel ArgFacts ArgProps RegSpec RegFacts RegStart RegMain ImgModel ItkModel ItkSpec ItkSim ItkRun.

(** * The test *)
Definition run_outcome (ie : ienv) (args : list str) (p : iprog) (tol : tolerances) (n : Z) (s s' : rst) (out : res Z) : Prop :=
  exists ms rs ns, iunfolds ie args (s_os s) (s_tol s) tol n (s_files s) (s_expected s) p ms rs ns (s_expected s') out /\
    rs = iresults ie (s_path s) (s_input s) (firstn (length rs) ms) /\
    (exists extra, s_unmatched s' = (s_unmatched s + imismatches ie (s_path s) (s_input s) (firstn (length rs) ms) + extra)%Z /\
      match nth_error ms (length rs) with
      | Some mo => exists b i, out = Throw i /\ nth_error (s_input s) (length rs) = Some b /\ raises ie (s_path s) b mo i extra
      | None => extra = 0%Z
      end) /\
    frame s s' /\ keeps (s_files s) (s_files s').
Lemma after_unfold ie args c o t tol n f f' x p ms rs ns x' out o' t' x0 : o' = o -> t' = t -> x0 = x -> only_changes ie o c f f' ->
  iunfolds ie args o' t' tol n f' x0 p ms rs ns x' out -> only_changes ie o c f f' /\ iunfolds ie args o t tol n f' x p ms rs ns x' out.
Proof. intros -> -> ->. auto. Qed.

Lemma irun_compare ie args p : forall tol n s s' out k, s_is s = Some k -> irun ie args p tol n s = (s', out) ->
  (exists z, out = Ok z) \/ (exists i, out = Throw i) -> run_outcome ie args p tol n s s' out.
Proof.
  assert (STEP : forall c (q : Z -> iprog) tol n s s' out k s1 r,
    (forall z tol n s s' out k, s_is s = Some k -> irun ie args (q z) tol n s = (s', out) -> (exists z, out = Ok z) \/ (exists i, out = Throw i) -> run_outcome ie args (q z) tol n s s' out) ->
    s_is s = Some k -> call_outcome ie tol c s s1 r ->
    (match r with Ok a => irun ie args (q a) tol n s1 | Throw e => (s1, Throw e) | UB => (s1, UB) | Abort => (s1, Abort) | Hang => (s1, Hang) end) = (s', out) ->
    (exists z, out = Ok z) \/ (exists i, out = Throw i) ->
    run_outcome ie args (match c with BaseCall c => ICall c q | ImageCall f nm => IImage f nm q end) tol n s s' out).
  { intros c q tol n s s' out k s1 r IH Hi [A B] H Ho. destruct r as [z|i| | |].
    - destruct (A z eq_refl) as (Rz & U & I & (F & T & X & G & K)). clear A B. pose proof F as (F1 & F2 & F3 & F4 & F5).
      assert (Hi1 : s_is s1 = Some k) by congruence.
      destruct (IH z tol n s1 s' out k Hi1 H Ho) as (ms & rs & ns & W & Rs & (ex & Ue & St) & Fs & Ks).
      exists (IMoment c (s_tol s) tol (s_files s) :: ms), (z :: rs), ns.
      rewrite F4, T, X in W. split.
      { destruct c as [c|f nm]; [eapply iu_call|eapply iu_image]; eassumption. }
      cbn [length firstn nth_error]. rewrite F3, I in *. cbn [iresults imismatches] in *.
      split; [congruence|]. split.
      { exists ex. split; [lia|]. destruct (nth_error ms (length rs)) as [mo|]; [|exact St].
        destruct St as (b & i & S1 & S2 & S3). exists b, i. rewrite nth_error_tl in S2. auto. }
      split; [eapply frame_trans; eassumption|eapply keeps_trans; eassumption].
    - injection H as <- <-. destruct (B i eq_refl) as (b & m & B1 & B2 & U & (F & T & X & G & K)). clear A B.
      exists [IMoment c (s_tol s) tol (s_files s)], [], []. rewrite X. split; [destruct c; constructor|]. cbn [length firstn iresults imismatches nth_error].
      split; [reflexivity|]. split; [|split; assumption]. exists m. split; [lia|]. exists b, i. auto.
    - injection H as <- <-. destruct Ho as [[? ?]|[? ?]]; discriminate.
    - injection H as <- <-. destruct Ho as [[? ?]|[? ?]]; discriminate.
    - injection H as <- <-. destruct Ho as [[? ?]|[? ?]]; discriminate. }
  assert (KEEP : forall p q tol tol' n n' s s1 s' out (nm : list str), run_outcome ie args q tol' n' s1 s' out ->
     s_os s1 = s_os s -> s_path s1 = s_path s -> s_input s1 = s_input s -> s_unmatched s1 = s_unmatched s -> frame s s1 -> keeps (s_files s) (s_files s1) ->
     (forall ms rs ns x' out, iunfolds ie args (s_os s) (s_tol s1) tol' n' (s_files s1) (s_expected s1) q ms rs ns x' out ->
        iunfolds ie args (s_os s) (s_tol s) tol n (s_files s) (s_expected s) p ms rs (nm ++ ns) x' out) ->
     run_outcome ie args p tol n s s' out).
  { intros p0 q tol tol' n n' s s1 s' out nm (ms & rs & ns & W & Rs & St & Fs & Ks) E1 E2 E3 E4 F K H.
    exists ms, rs, (nm ++ ns). rewrite E1 in W. rewrite E2, E3, ?E4 in *. split; [apply H; exact W|]. split; [exact Rs|]. split; [exact St|].
    split; [eapply frame_trans; eassumption|eapply keeps_trans; eassumption]. }
  induction p as [z|x|c q IH|f nm q IH|t q IH|ext root q IH|t q IH|t q IH|z q IH|path b q IH]; intros tol n s s' out ki Hi H Ho; cbn [irun] in H.
  - unfold mret in H. injection H as <- <-. exists [], [], []. split; [constructor|]. cbn. split; [reflexivity|]. split; [exists 0%Z; split; [lia|reflexivity]|].
    split; [apply frame_refl|apply keeps_refl].
  - unfold mlift in H. injection H as <- <-. exists [], [], []. split; [constructor|]. cbn. split; [reflexivity|]. split; [exists 0%Z; split; [lia|reflexivity]|].
    split; [apply frame_refl|apply keeps_refl].
  - unfold mbind at 1 in H. unfold itk_Measure, GetCompareMode in H. unfold mbind at 1 in H. rewrite (compare_mode_open (i_env ie) s ki Hi) in H. cbv iota in H.
    destruct (itk_CompareMeasurement ie tol (meas_of (e_io (i_env ie)) true c) (tolerant_of c) s) as [s1 r] eqn:E.
    exact (STEP (BaseCall c) q tol n s s' out ki s1 r IH Hi (base_outcome _ _ _ _ _ _ E) H Ho).
  - unfold mbind at 1 in H. unfold MeasurementInsightFileImage, GetCompareMode in H. unfold mbind at 1 in H. rewrite (compare_mode_open (i_env ie) s ki Hi) in H. cbv iota in H.
    destruct (itk_CompareMeasurement ie tol (file_meas true itk_type f nm) false s) as [s1 r] eqn:E.
    exact (STEP (ImageCall f nm) q tol n s s' out ki s1 r IH Hi (image_outcome _ _ _ _ _ _ _ E) H Ho).
  - refine (KEEP _ q tol t n n s s s' out [] (IH t n s s' out ki Hi H Ho) _ _ _ _ _ _ _); try reflexivity; [apply frame_refl|apply keeps_refl|].
    intros. constructor. assumption.
  - unfold mbind, mlift in H. destruct (GenerateFileName (e_sc (i_env ie)) args n ext root) as [name|x| | |] eqn:E.
    + refine (KEEP _ (q name) tol tol n (n + 1)%Z s s s' out [name] (IH name tol (n + 1)%Z s s' out ki Hi H Ho) _ _ _ _ _ _ _); try reflexivity; [apply frame_refl|apply keeps_refl|].
      intros. eapply iu_generate; eassumption.
    + exfalso. unfold GenerateFileName in E. destruct args; [discriminate|]. destruct root; [discriminate|].
      match type of E with Append ?a ?b = _ => destruct (append_ok a b) as [r Er]; rewrite Er in E; discriminate end.
    + injection H as <- <-. destruct Ho as [[? ?]|[? ?]]; discriminate.
    + injection H as <- <-. destruct Ho as [[? ?]|[? ?]]; discriminate.
    + injection H as <- <-. destruct Ho as [[? ?]|[? ?]]; discriminate.
  - unfold mbind, say, modify in H. refine (KEEP _ q tol tol n n s _ s' out [] (IH tol n _ s' out ki _ H Ho) _ _ _ _ _ _ _); try reflexivity; [exact Hi|repeat split|apply keeps_refl|].
    intros. constructor. assumption.
  - unfold mbind, modify in H. refine (KEEP _ q tol tol n n s _ s' out [] (IH tol n _ s' out ki _ H Ho) _ _ _ _ _ _ _); try reflexivity; [exact Hi|repeat split|apply keeps_refl|].
    intros. constructor. assumption.
  - unfold mbind, modify in H. refine (KEEP _ q tol tol n n s _ s' out [] (IH tol n _ s' out ki _ H Ho) _ _ _ _ _ _ _); try reflexivity; [exact Hi|repeat split|apply keeps_refl|].
    intros. constructor. assumption.
  - unfold mbind, modify in H. refine (KEEP _ q tol tol n n s _ s' out [] (IH tol n _ s' out ki _ H Ho) _ _ _ _ _ _ _); try reflexivity; [exact Hi|repeat split|apply keeps_write|].
    intros. constructor. assumption.
Qed.

(** * Start and end, for any test *)
Definition launched_in (e : env) (f : store) (dirs0 : list str) (opts : list (str * str)) : rst :=
  set_path (launched e f opts) (dirs_of opts ++ dirs0).
Definition fresh (f : store) (dirs0 : list str) : rst := set_path (new_test f) dirs0.
Lemma launch_in e f dirs0 a0 opts rest : command_line e f opts rest ->
  exists argc argv, ParseAndRemoveArguments e (S (length (a0 :: flat opts ++ rest))) (a0 :: flat opts ++ rest) (set_unmatched (fresh f dirs0) 1)
    = (launched_in e f dirs0 opts, Ok (argc, argv)) /\ firstn argc argv = a0 :: rest.
Proof.
  intros [H1 H2].
  destruct (C36_arguments_removed e (set_unmatched (fresh f dirs0) 1) a0 opts rest (S (length (a0 :: flat opts ++ rest)))) as (argc & argv & s' & E & F & _ & A & B & C & D & G).
  - exact H1.
  - exact H2.
  - cbn [length]. rewrite app_length, flat_length. lia.
  - exists argc, argv. split; [|exact F]. rewrite E. f_equal. rewrite G. cbn in A, B, C, D.
    rewrite A, B, C, D. unfold launched_in, launched, set_in, set_out, set_expected, set_path. cbn. unfold input_of, output_of, dirs_of, expected_of. reflexivity.
Qed.
Lemma main_with_launch e body f dirs0 a0 opts rest : command_line e f opts rest ->
  main_body_with e body (a0 :: flat opts ++ rest) (set_unmatched (fresh f dirs0) 1) =
  (_ <- BeginMeasurement e ;; body (a0 :: rest)) (launched_in e f dirs0 opts).
Proof.
  intros H. destruct (launch_in e f dirs0 a0 opts rest H) as (argc & argv & E & F). unfold main_body_with. unfold mbind at 1. rewrite E.
  cbv beta iota. rewrite F. reflexivity.
Qed.
(** the state when the test starts comparing *)
Definition comparing (e : env) (f : store) (dirs0 : list str) (opts : list (str * str)) (o : option str) (f1 : store) (k : str) (baseline : list meas) : rst :=
  set_input (set_is (set_os (set_files (launched_in e f dirs0 opts) f1) o) (Some k)) baseline.
Lemma main_with_compare e body f dirs0 a0 opts rest inf s' z : command_line e f opts rest -> input_of opts = Some inf ->
  Main_with e body (a0 :: flat opts ++ rest) (fresh f dirs0) = (s', Ok z) ->
  match started e f (output_of e f opts) (dirs_of opts ++ dirs0) inf with
  | Some (o, f1, baseline) =>
      exists k s3 out, body (a0 :: rest) (comparing e f dirs0 opts o f1 k baseline) = (s3, out) /\
        ((exists v, out = Ok v) \/ (exists i, out = Throw i)) /\
        (frame (comparing e f dirs0 opts o f1 k baseline) s3 -> keeps f1 (s_files s3) ->
         z = status out (s_expected s3) (s_unmatched s3 - 1))
  | None => if (-1 =? expected_of opts)%Z then (0 <= z <= 1)%Z else z = (-1)%Z
  end.
Proof.
  intros Hc Hi. pose proof (input_of_nonempty e f opts inf (proj1 Hc) Hi) as Hn.
  rewrite Main_with_unfold. change (set_unmatched (fresh f dirs0) (s_unmatched (fresh f dirs0) + 1)) with (set_unmatched (fresh f dirs0) 1).
  rewrite (main_with_launch e body f dirs0 a0 opts rest Hc). unfold started. set (dirs := dirs_of opts ++ dirs0).
  set (s0 := launched_in e f dirs0 opts). pose proof (begin_compare e s0 inf eq_refl eq_refl) as B.
  assert (Hin : s_in s0 = inf) by (cbn; rewrite Hi; reflexivity). specialize (B Hin Hn).
  change (s_files s0) with f in B. change (s_out s0) with (output_of e f opts) in B.
  change (s_path s0) with dirs in B. cbv zeta in B.
  assert (FT : forall s s' z, s_is s = None -> s_in s = inf -> s_expected s = expected_of opts -> s_unmatched s = 1%Z -> finish_with e (-1) s = (s', Ok z) ->
     if (-1 =? expected_of opts)%Z then (0 <= z <= 1)%Z else z = (-1)%Z).
  { intros s s1 z0 A1 A2 A3 A4. unfold finish_with. rewrite A3. destruct (-1 =? expected_of opts)%Z; cbn [negb].
    - rewrite (compare_mode_closed e s inf A1 A2 Hn). cbn [bind]. intros H. injection H as _ <-. rewrite A4. destruct (readable_file _ _ _); lia.
    - intros H. injection H as _ <-. reflexivity. }
  assert (FT' : forall s s' z k, s_is s = Some k -> s_expected s = expected_of opts -> s_unmatched s = 1%Z -> finish_with e (-1) s = (s', Ok z) ->
     if (-1 =? expected_of opts)%Z then (0 <= z <= 1)%Z else z = (-1)%Z).
  { intros s s1 z0 k A1 A3 A4. unfold finish_with. rewrite A3. destruct (-1 =? expected_of opts)%Z; cbn [negb].
    - rewrite (compare_mode_open e s k A1). cbn [bind]. intros H. injection H as _ <-. rewrite A4. lia.
    - intros H. injection H as _ <-. reflexivity. }
  destruct (opened e f (output_of e f opts)) as [[o f1]|] eqn:Eo.
  2:{ unfold mbind. rewrite B. apply FT; auto. }
  set (s1 := set_os (set_files s0 f1) o) in *. set (q := baseline_path e f1 dirs inf) in *.
  destruct (can_open e f1 q) eqn:Er.
  2:{ assert (Ec : contents e f1 q = None).
      { revert Er. unfold can_open, contents. destruct (node_at e f1 q) as [[[|] w b|]|]; auto; discriminate. }
      rewrite Ec. unfold mbind. rewrite B. apply FT; auto. }
  destruct (readable_contents e f1 q Er) as (k & Ek & [(r & w & b & Eb & Ec & Ef)|(r & w & x & Eb & Ec)]); rewrite Ec.
  2:{ unfold mbind. rewrite B. unfold read_input. rewrite Ek. cbn [set_is s_is]. change (s_files (set_is s1 (Some k))) with f1. rewrite Eb.
      cbv iota. eapply FT'; reflexivity. }
  unfold mbind. rewrite B, Ek. unfold read_input. cbn [set_is s_is]. change (s_files (set_is s1 (Some k))) with f1. rewrite Eb.
  destruct (ReadXMLInput (e_asserts e) (e_ext e) b) as [baseline|i| | |]; try (intros H; discriminate H).
  2:{ cbv iota. eapply FT'; reflexivity. }
  cbv iota. change (set_input (set_is s1 (Some k)) baseline) with (comparing e f dirs0 opts o f1 k baseline).
  set (s2 := comparing e f dirs0 opts o f1 k baseline). intros H.
  destruct (body (a0 :: rest) s2) as [s3 out] eqn:Erun. exists k, s3, out. split; [exact Erun|].
  assert (Hout : (exists z, out = Ok z) \/ (exists i, out = Throw i)).
  { destruct out as [v|i| | |]; try (discriminate H); eauto. }
  split; [exact Hout|]. intros F K. unfold ends_with in H.
  assert (Hfin : forall s4, s_is s4 = None -> s_in s4 = inf -> s_path s4 = dirs -> s_files s4 = s_files s3 -> compare_mode e s4 = Ok true).
  { intros s4 A1 A2 A3 A4. rewrite (compare_mode_closed e s4 inf A1 A2 Hn), A3, A4. f_equal.
    apply (keeps_baseline e f1); [exact K|]. unfold readable_file. fold q. rewrite Ef, (file_can_open _ _ _ Ef), Er. reflexivity. }
  destruct F as (F1 & F2 & F3 & F4 & F5).
  assert (Hi3 : s_is s3 = Some k) by (rewrite F5; reflexivity).
  destruct Hout as [[v ->]|[i ->]].
  - unfold EndMeasurement, GetCompareMode, mbind in H. rewrite (compare_mode_open e s3 k Hi3) in H. unfold modify in H. cbv iota in H.
    unfold finish_with in H. cbn [set_unmatched set_is set_os set_input s_expected s_unmatched] in H. unfold status.
    destruct (v =? s_expected s3)%Z; cbn [negb] in H.
    + rewrite Hfin in H.
      * cbn [bind] in H. injection H as _ <-. reflexivity.
      * reflexivity.
      * change (s_in s3 = inf). rewrite F1. exact Hin.
      * change (s_path s3 = dirs). rewrite F3. reflexivity.
      * reflexivity.
    + injection H as _ <-. reflexivity.
  - unfold finish_with in H. unfold status. destruct (-1 =? s_expected s3)%Z; cbn [negb] in H.
    + rewrite (compare_mode_open e s3 k Hi3) in H. cbn [bind] in H. injection H as _ <-. lia.
    + injection H as _ <-. reflexivity.
Qed.

(** * A comparing run *)
Definition itk_body (ie : ienv) (test : list str -> iprog) (argv : list str) (args : list str) : M Z := irun ie argv (test args) no_tolerance 0%Z.
Lemma compare_in ie f dirs0 test a0 opts rest inf s' z : let e := i_env ie in let argv := a0 :: flat opts ++ rest in
  command_line e f opts rest -> input_of opts = Some inf -> Main_with e (itk_body ie test argv) argv (fresh f dirs0) = (s', Ok z) ->
  let dirs := dirs_of opts ++ dirs0 in
  match started e f (output_of e f opts) dirs inf with
  | Some (o, f1, baseline) =>
      exists ms rs ns x out extra,
        iunfolds ie argv o default_tol no_tolerance 0 f1 (expected_of opts) (test (a0 :: rest)) ms rs ns x out /\
        rs = iresults ie dirs baseline (firstn (length rs) ms) /\
        match nth_error ms (length rs) with
        | Some mo => exists b i, out = Throw i /\ nth_error baseline (length rs) = Some b /\ raises ie dirs b mo i extra
        | None => extra = 0%Z
        end /\
        z = status out x (imismatches ie dirs baseline (firstn (length rs) ms) + extra)
  | None => if (-1 =? expected_of opts)%Z then (0 <= z <= 1)%Z else z = (-1)%Z
  end.
Proof.
  intros e argv Hc Hi H dirs.
  pose proof (main_with_compare e (itk_body ie test argv) f dirs0 a0 opts rest inf s' z Hc Hi H) as G.
  fold dirs in G. destruct (started e f (output_of e f opts) dirs inf) as [[[o f1] baseline]|]; [|exact G].
  destruct G as (k & s3 & out & E & Ho & Hz). set (s2 := comparing e f dirs0 opts o f1 k baseline) in *.
  destruct (irun_compare ie argv (test (a0 :: rest)) no_tolerance 0%Z s2 s3 out k eq_refl E Ho) as (ms & rs & ns & W & Rs & (ex & U & St) & F & K).
  specialize (Hz F K). exists ms, rs, ns, (s_expected s3), out, ex. split; [exact W|]. split; [exact Rs|]. split; [exact St|].
  rewrite Hz, U. f_equal. change (s_unmatched s2) with 1%Z. change (s_path s2) with dirs. change (s_input s2) with baseline. lia.
Qed.

(** * Recording *)
Definition shown (ie : ienv) (direct : bool) (a : step) : str :=
  match a with Made c => print_of (imeas ie false c) ++ [nl] | Said t => if direct then t else [] end.
Definition direct_output (s : rst) : bool := match s_os s with None => true | Some _ => false end.
Definition record_outcome (ie : ienv) (args : list str) (p : iprog) (n : Z) (s s' : rst) (out : res Z) : Prop :=
  let sc := e_sc (i_env ie) in
  out = iends sc args n p /\
  output s' = output s ++ flat_map (shown ie (direct_output s)) (script sc args n p) /\
  (direct_output s = false -> s_stdout s' = s_stdout s ++ said (script sc args n p)) /\
  output_ready s' /\ frame s s' /\ s_expected s' = iexpects sc args n (s_expected s) p /\ s_unmatched s' = s_unmatched s.
Lemma put_stdout t s : direct_output s = false -> s_stdout (put_text t s) = s_stdout s.
Proof.
  unfold direct_output, put_text. destruct (s_os s) as [k|]; [|discriminate]. intros _. destruct (s_files s k) as [[r w b|]|]; reflexivity.
Qed.
Lemma irun_record ie args p : forall tol n s, s_is s = None -> s_in s = [] -> output_ready s -> ileaves_alone (i_env ie) args n (s_os s) p ->
  exists s' out, irun ie args p tol n s = (s', out) /\ record_outcome ie args p n s s' out.
Proof.
  set (e := i_env ie).
  assert (STEP : forall c (q : Z -> iprog) (tol : tolerances) n s,
    (forall z tol n s, s_is s = None -> s_in s = [] -> output_ready s -> ileaves_alone e args n (s_os s) (q z) ->
       exists s' out, irun ie args (q z) tol n s = (s', out) /\ record_outcome ie args (q z) n s s' out) ->
    s_is s = None -> s_in s = [] -> output_ready s -> ileaves_alone e args n (s_os s) (q 0%Z) ->
    exists s' out, irun ie args (q 0%Z) tol n (put_text (print_of (imeas ie false c) ++ [nl]) s) = (s', out) /\
      record_outcome ie args (match c with BaseCall c => ICall c q | ImageCall f nm => IImage f nm q end) n s s' out).
  { intros c q tol n s IH Hi Hn Ho Hl. set (t := print_of (imeas ie false c) ++ [nl]).
    destruct (put_text_spec t s Ho) as (P1 & P2 & P3 & P4 & P5 & P6 & P7 & P8 & P9). pose proof P3 as (F1 & F2 & F3 & F4 & F5).
    destruct (IH 0%Z tol n (put_text t s)) as (s' & out & E & (R1 & R2 & R3 & R4 & R5 & R6 & R7)); [congruence|congruence|exact P2|rewrite F4; exact Hl|].
    assert (DO : direct_output (put_text t s) = direct_output s) by (unfold direct_output; rewrite F4; reflexivity).
    exists s', out. split; [exact E|]. unfold record_outcome. rewrite DO in *. rewrite R2, P1, <- app_assoc.
    assert (ES : script (e_sc (i_env ie)) args n (match c with BaseCall c => ICall c q | ImageCall f nm => IImage f nm q end) = Made c :: script (e_sc (i_env ie)) args n (q 0%Z)) by (destruct c; reflexivity).
    rewrite ES. split; [rewrite R1; destruct c; reflexivity|]. split; [reflexivity|]. split.
    { intros D. rewrite (R3 D), (put_stdout t s D). reflexivity. }
    split; [exact R4|]. split; [eapply frame_trans; eassumption|]. split; [rewrite R6, P7; destruct c; reflexivity|congruence]. }
  induction p as [z|x|c q IH|f nm q IH|t q IH|ext root q IH|t q IH|t q IH|z q IH|path b q IH]; intros tol n s Hi Hn Ho Hl; cbn [irun ileaves_alone] in *.
  - exists s, (Ok z). split; [reflexivity|]. unfold record_outcome. cbn. rewrite !app_nil_r. repeat split; auto.
  - exists s, (Throw x). split; [reflexivity|]. unfold record_outcome. cbn. rewrite !app_nil_r. repeat split; auto.
  - unfold mbind at 1. unfold itk_Measure, GetCompareMode. unfold mbind at 1. rewrite (record_mode (i_env ie) s Hi Hn). cbv iota.
    unfold mbind, mret. rewrite put_meas_eq. cbv iota. exact (STEP (BaseCall c) q tol n s IH Hi Hn Ho Hl).
  - unfold mbind at 1. unfold MeasurementInsightFileImage, GetCompareMode. unfold mbind at 1. rewrite (record_mode (i_env ie) s Hi Hn). cbv iota.
    unfold mbind, mret. rewrite put_meas_eq. cbv iota. exact (STEP (ImageCall f nm) q tol n s IH Hi Hn Ho Hl).
  - exact (IH t n s Hi Hn Ho Hl).
  - unfold mbind, mlift. destruct (GenerateFileName (e_sc (i_env ie)) args n ext root) as [name|x| | |] eqn:E.
    { unfold e in Hl; rewrite E in Hl. destruct (IH name tol (n + 1)%Z s Hi Hn Ho Hl) as (s' & out & Er & R). exists s', out. split; [exact Er|].
      unfold record_outcome in *. cbn [iends script iexpects]. rewrite E. exact R. }
    all: eexists; eexists; (split; [reflexivity|]); unfold record_outcome; cbn [iends script iexpects]; rewrite E; cbn [flat_map said]; rewrite !app_nil_r; repeat split; auto.
  - unfold mbind, say, modify. set (s1 := set_stdout s (s_stdout s ++ t)).
    assert (O1 : output_ready s1) by (revert Ho; unfold output_ready; cbn; destruct (s_os s); auto).
    destruct (IH tol n s1 Hi Hn O1 Hl) as (s' & out & Er & (R1 & R2 & R3 & R4 & R5 & R6 & R7)). exists s', out. split; [exact Er|].
    unfold record_outcome. cbn [iends script iexpects flat_map shown said]. change (direct_output s1) with (direct_output s) in *.
    split; [exact R1|]. split.
    { rewrite R2, app_assoc. f_equal. unfold output, direct_output. cbn. destruct (s_os s); [|reflexivity].
      rewrite app_nil_r. reflexivity. }
    split; [intros D; rewrite (R3 D); cbn; rewrite <- app_assoc; reflexivity|]. repeat split; try apply R5; auto.
  - unfold mbind, modify. exact (IH tol n (set_tol s t) Hi Hn Ho Hl).
  - unfold mbind, modify. exact (IH tol n (set_expected s z) Hi Hn Ho Hl).
  - unfold mbind, modify. destruct Hl as [Hw Hl]. destruct (write_ready e path b s Hw Ho) as [W1 W2].
    destruct (IH tol n (set_files s (write_file e (s_files s) path b)) Hi Hn W2 Hl) as (s' & out & Er & (R1 & R2 & R3 & R4 & R5 & R6 & R7)).
    exists s', out. split; [exact Er|]. unfold record_outcome. change (direct_output (set_files s (write_file e (s_files s) path b))) with (direct_output s) in *.
    split; [exact R1|]. split; [rewrite R2, W1; reflexivity|]. split; [exact R3|]. repeat split; try apply R5; auto.
Qed.

(** a recording run, for any test whose effect on output is [texts] (output) and [more] (standard output besides) *)
Definition recording (e : env) (f : store) (dirs0 : list str) (opts : list (str * str)) (o : option str) (f1 : store) : rst :=
  put_text (header e) (set_os (set_files (launched_in e f dirs0 opts) f1) o).
Definition written_to (o : option str) (s : rst) : str :=
  match o with None => s_stdout s | Some k => match s_files s k with Some (FFile _ _ b) => b | _ => [] end end.
Lemma finish_record e ret s : s_is s = None -> s_in s = [] -> finish_with e ret s = (s, Ok (if (ret =? s_expected s)%Z then 0%Z else ret)).
Proof. intros A1 A2. unfold finish_with. rewrite (record_mode e s A1 A2). cbn [bind]. destruct (ret =? s_expected s)%Z; reflexivity. Qed.
Definition record_status (out : res Z) (x : Z) : Z :=
  match out with Ok r => if (r =? x)%Z then 0%Z else r | _ => if (-1 =? x)%Z then 0%Z else (-1)%Z end.
Lemma opened_ready_in e f out o f1 s : opened e f out = Some (o, f1) -> s_stdout s = [] ->
  output_ready (set_os (set_files s f1) o) /\ output (set_os (set_files s f1) o) = [].
Proof.
  intros H Hs. unfold opened in H. unfold output_ready, output. destruct out as [|c r].
  - injection H as <- <-. cbn [set_os set_files s_os s_stdout]. auto.
  - destruct (slot e (c :: r)) as [k|]; [|discriminate]. cbn [set_os set_files s_os s_files].
    assert (G : forall rr w b, upd f k (Some (FFile rr w b)) k = Some (FFile rr w b)) by (intros; unfold upd; rewrite eqs_refl; reflexivity).
    destruct (f k) as [[rr [|] b|]|]; try discriminate.
    + injection H as <- <-. rewrite G. split; [do 3 eexists; reflexivity|reflexivity].
    + destruct (e_cancreate e (cstr (c :: r))); [|discriminate]. injection H as <- <-. rewrite G. split; [do 3 eexists; reflexivity|reflexivity].
Qed.
Lemma record_in ie f dirs0 test a0 opts rest o f1 : let e := i_env ie in let argv := a0 :: flat opts ++ rest in let p := test (a0 :: rest) in
  command_line e f opts rest -> input_of opts = None -> opened e f (output_of e f opts) = Some (o, f1) -> ileaves_alone e argv 0 o p ->
  exists s', Main_with e (itk_body ie test argv) argv (fresh f dirs0) = (s', Ok (record_status (iends (e_sc e) argv 0 p) (iexpects (e_sc e) argv 0 (expected_of opts) p))) /\
    written_to o s' = header e ++ flat_map (shown ie (match o with None => true | Some _ => false end)) (script (e_sc e) argv 0 p)
                      ++ match iends (e_sc e) argv 0 p with Ok _ => footer | _ => [] end /\
    (o <> None -> s_stdout s' = said (script (e_sc e) argv 0 p)).
Proof.
  intros e argv p Hc Hi Ho Hl. rewrite Main_with_unfold. change (set_unmatched (fresh f dirs0) (s_unmatched (fresh f dirs0) + 1)) with (set_unmatched (fresh f dirs0) 1).
  unfold argv at 2. rewrite (main_with_launch e _ f dirs0 a0 opts rest Hc). set (s0 := launched_in e f dirs0 opts).
  assert (Hin : s_in s0 = []) by (cbn; rewrite Hi; reflexivity).
  unfold mbind. rewrite (begin_record e s0 eq_refl eq_refl Hin). change (s_files s0) with f. change (s_out s0) with (output_of e f opts). rewrite Ho.
  set (s1 := set_os (set_files s0 f1) o). destruct (opened_ready_in e f _ o f1 s0 Ho eq_refl) as [R0 O0]. fold s1 in R0, O0.
  destruct (put_text_spec (header e) s1 R0) as (P1 & P2 & P3 & P4 & P5 & P6 & P7 & P8 & P9). set (s2 := put_text (header e) s1) in *.
  pose proof P3 as (F1 & F2 & F3 & F4 & F5). rewrite O0 in P1. cbn [app] in P1.
  assert (I2 : s_is s2 = None) by (rewrite F5; reflexivity). assert (N2 : s_in s2 = []) by (rewrite F1; exact Hin). assert (OS2 : s_os s2 = o) by (rewrite F4; reflexivity).
  destruct (irun_record ie argv p no_tolerance 0%Z s2 I2 N2 P2) as (s3 & out & Er & (R1 & R2 & R3 & R4 & R5 & R6 & R7)); [rewrite OS2; exact Hl|].
  unfold itk_body. fold p. rewrite Er. fold e in R1, R2, R3, R6. pose proof R5 as (G1 & G2 & G3 & G4 & G5).
  assert (J1 : s_is s3 = None) by congruence. assert (J2 : s_in s3 = []) by congruence. assert (OS3 : s_os s3 = o) by congruence.
  assert (X3 : s_expected s3 = iexpects (e_sc e) argv 0 (expected_of opts) p) by (rewrite R6, P7; reflexivity).
  assert (D2 : direct_output s2 = match o with None => true | Some _ => false end) by (unfold direct_output; rewrite OS2; reflexivity).
  rewrite D2, P1 in R2. rewrite D2 in R3.
  assert (W : forall s, s_os s = o -> output s = written_to o s) by (intros s <-; reflexivity).
  assert (S2 : o <> None -> s_stdout s2 = []).
  { intros Hno. unfold s2. rewrite put_stdout; [reflexivity|]. unfold direct_output. change (s_os s1) with o. destruct o; [reflexivity|contradiction]. }
  assert (S3 : o <> None -> s_stdout s3 = said (script (e_sc e) argv 0 p)).
  { intros Hno. rewrite R3 by (destruct o; [reflexivity|contradiction]). rewrite (S2 Hno). reflexivity. }
  assert (Q : forall p n, (exists z, iends (e_sc e) argv n p = Ok z) \/ (exists i, iends (e_sc e) argv n p = Throw i)).
  { clear. induction p as [z|x|c q IH|f nm q IH|t q IH|ext root q IH|t q IH|t q IH|z q IH|path b q IH]; intros n; cbn [iends]; eauto.
    unfold argv, GenerateFileName. destruct root; [apply IH|]. match goal with |- context [Append ?a ?b] => destruct (append_ok a b) as [r ->] end. apply IH. }
  unfold ends_with. rewrite R1. destruct (Q p 0%Z) as [[v Ev]|[i Ev]]; rewrite Ev in *; cbn [record_status].
  - unfold EndMeasurement, GetCompareMode, mbind. rewrite (record_mode e s3 J1 J2). unfold put, modify. cbv iota.
    destruct (put_text_spec footer s3 R4) as (T1 & T2 & T3 & T4 & T5 & T6 & T7 & T8 & T9). pose proof T3 as (H1 & H2 & H3 & H4 & H5).
    set (s4 := set_unmatched _ _). eexists. split; [|split].
    + rewrite (finish_record e v s4 eq_refl).
      * rewrite <- X3. change (s_expected s4) with (s_expected (put_text footer s3)). rewrite T7. reflexivity.
      * change (s_in s4) with (s_in (put_text footer s3)). congruence.
    + assert (WW : written_to o s4 = written_to o (put_text footer s3)) by (destruct o; reflexivity).
      rewrite WW, <- W by congruence. rewrite T1, R2, <- app_assoc. reflexivity.
    + intros Hno. change (s_stdout s4) with (s_stdout (put_text footer s3)). rewrite put_stdout; [apply S3; exact Hno|].
      unfold direct_output. rewrite OS3. destruct o; [reflexivity|contradiction].
  - rewrite (finish_record e (-1)%Z s3 J1 J2), <- X3. eexists. split; [reflexivity|]. split; [|exact S3].
    rewrite <- W by exact OS3. rewrite R2, app_nil_r. reflexivity.
Qed.

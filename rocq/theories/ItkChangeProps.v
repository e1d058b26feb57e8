(** C82: recording with one version of a test with images and comparing with another one. *)
From Coq Require Import Floats.SpecFloat.
From Verif Require Import Base Str Dec PathModel PathFacts MeasModel MeasFacts MeasFacts2 MeasProps XmlText XmlModel ReadModel ReadFacts ReadBack ReadProps RegModel ArgFacts ArgProps RegSpec RegFacts RegStart RegMain RegProps RegProps2 RegRound ImgModel ImgSpec ImgPixel ImgBox ImgMore ImgProps ItkModel ItkSpec ItkSim ItkRun ItkMain ItkRunProps ItkRound ItkRoundProps ReuseProps CutProps CutItkProps ChangeProps.
Local Open Scope Z_scope.

(** * Vocabulary *)
(** The call [c0] recorded on [ie] and the call of the moment [mo], made when comparing on [ie']: a measurement of the same name and kind with the same value;
    for images, one that agrees within the tolerances in force with the file that the directories have under the recorded file name. *)
Definition unchanged (ie ie' : ienv) (dirs : list str) (c0 : icall) (mo : imoment) : Prop :=
  match c0, mo_call mo with
  | BaseCall c, BaseCall c' => what (e_io (i_env ie)) c = what (e_io (i_env ie')) c'
  | ImageCall file0 name0, ImageCall file name =>
      name0 = name /\ images_agree ie' (mo_files mo) (mo_tol mo) (baseline_path (i_env ie') (mo_files mo) dirs (Tail file0)) file
  | _, _ => False
  end.
(** [n] of the measurements [ms] have changed since the [old] ones were recorded: position by position, a position without a recorded measurement included *)
Inductive changes (ie ie' : ienv) (dirs : list str) : list icall -> list imoment -> Z -> Prop :=
| ch_end old : changes ie ie' dirs old [] 0
| ch_unchanged c0 old mo ms n : unchanged ie ie' dirs c0 mo -> changes ie ie' dirs old ms n -> changes ie ie' dirs (c0 :: old) (mo :: ms) n
| ch_changed c0 old mo ms n : ~ unchanged ie ie' dirs c0 mo -> changes ie ie' dirs old ms n -> changes ie ie' dirs (c0 :: old) (mo :: ms) (n + 1)
| ch_new mo ms n : changes ie ie' dirs [] ms n -> changes ie ie' dirs [] (mo :: ms) (n + 1).
(** The differing images can be read for the report. *)
Definition readable_pair (ie : ienv) (f : store) (base file : str) : Prop :=
  exists t b, read_info ie f file = Some t /\ read_info ie f base = Some b /\
    (h_size b = h_size t -> exists ti bi, read_image ie f file = Some ti /\ read_image ie f base = Some bi).
(** the test does not react to the values the measurements return (0 or 1), and sets no negative image tolerances *)
Fixpoint isteady (sc : bool) (args : list str) (n : Z) (p : iprog) : Prop :=
  match p with
  | IReturn _ | IRaise _ => True
  | ICall _ k | IImage _ _ k => k 1 = k 0 /\ isteady sc args n (k 0)
  | ITolerance tol k => sensible tol /\ isteady sc args n k
  | IGenerate ext root k => match GenerateFileName sc args n ext root with Ok name => isteady sc args (n + 1) (k name) | _ => True end
  | ISay _ k | IRelativeTolerance _ k | IExpectedReturn _ k | IWriteFile _ _ k => isteady sc args n k
  end.
Definition iexact (c : icall) : Prop := match c with BaseCall c => exact_call c | ImageCall _ _ => True end.

(** * The run *)
Lemma iresults_bit ie dirs bs ms : Forall (fun r => r = 0 \/ r = 1) (iresults ie dirs bs ms).
Proof.
  revert bs. induction ms as [|mo ms IH]; intros bs; cbn [iresults]; constructor; [|apply IH].
  destruct bs as [|b bs]; [auto|]. destruct (ikind ie b mo); [|auto]. destruct (isame_value ie dirs b mo); cbn; auto.
Qed.
Lemma isteady_unfolds ie args o t tol n f x p ms rs ns x' out : iunfolds ie args o t tol n f x p ms rs ns x' out ->
  isteady (e_sc (i_env ie)) args n p -> sensible tol -> Forall (fun r => r = 0 \/ r = 1) rs ->
  Forall (fun mo => sensible (mo_tol mo)) ms /\
  exists more, made (script (e_sc (i_env ie)) args n p) = map mo_call ms ++ more /\
    (length rs = length ms -> more = [] /\ out = iends (e_sc (i_env ie)) args n p /\ x' = iexpects (e_sc (i_env ie)) args n x p).
Proof.
  induction 1; intros S T R; cbn [isteady script made flat_map iends iexpects app] in *; try (apply IHiunfolds; assumption).
  - split; [constructor|]. exists []. auto.
  - split; [constructor|]. exists []. auto.
  - destruct S as [S1 S2]. inversion R as [|? ? Hr Rr]; subst. assert (Ek : k r = k 0) by (destruct Hr as [-> | ->]; auto). rewrite Ek in *.
    destruct (IHiunfolds S2 T Rr) as (Q & more & A & B). split; [constructor; assumption|]. exists more. unfold made in A. split; [cbn [map mo_call app]; rewrite A; reflexivity|].
    cbn [length]. intros L. apply B. lia.
  - destruct S as [S1 S2]. inversion R as [|? ? Hr Rr]; subst. assert (Ek : k r = k 0) by (destruct Hr as [-> | ->]; auto). rewrite Ek in *.
    destruct (IHiunfolds S2 T Rr) as (Q & more & A & B). split; [constructor; assumption|]. exists more. unfold made in A. split; [cbn [map mo_call app]; rewrite A; reflexivity|].
    cbn [length]. intros L. apply B. lia.
  - destruct S as [S1 S2]. apply IHiunfolds; assumption.
  - rewrite H in *. apply IHiunfolds; assumption.
  - split; [constructor; [exact T|constructor]|]. eexists. split; [reflexivity|]. cbn [length]. discriminate.
  - split; [constructor; [exact T|constructor]|]. eexists. split; [reflexivity|]. cbn [length]. discriminate.
Qed.

Lemma exact_data io cm c : exact_call c -> exists d, meas_of io cm c = MD d.
Proof. intros H. destruct c; cbn [exact_call meas_of] in *; try contradiction; eexists; reflexivity. Qed.
Lemma not_image c : eqs (type_of c) itk_type = false.
Proof. destruct c; reflexivity. Qed.
Lemma found_image ie dirs f name0 file0 m : found (i_env ie) dirs f (MF (Mf name0 true itk_type (Tail file0))) (MF m) =
  MF (Mf name0 true itk_type (baseline_path (i_env ie) f dirs (Tail file0))).
Proof.
  unfold found, baseline_path. cbn [ffile fname fesc ftype]. rewrite tail_tail. destruct (SearchPathList _ _ _) as [[|c p]| | | |]; reflexivity.
Qed.
(** an image compared with the recorded one *)
Lemma image_accepted ie dirs file0 name0 file name mo : itk_library ie -> sensible (mo_tol mo) -> mo_call mo = ImageCall file name ->
  exists v, iverdict ie dirs (MF (Mf name0 true itk_type (Tail file0))) mo = Ok v /\
    (v = true <-> images_agree ie (mo_files mo) (mo_tol mo) (baseline_path (i_env ie) (mo_files mo) dirs (Tail file0)) file).
Proof.
  intros [L1 L2] [T1 T2] C. unfold iverdict. rewrite C. change (file_meas true itk_type file name) with (MF (Mf name true itk_type file)).
  rewrite found_image. cbv iota.
  apply (C49_accepted (i_diff ie) (read_image ie (mo_files mo)) (mo_tol mo) (Mf name0 true itk_type (baseline_path (i_env ie) (mo_files mo) dirs (Tail file0))) (Mf name true itk_type file) L1 T1 T2).
  intros nm g. unfold read_image. destruct (contents _ _ nm) as [bytes|]; [apply L2|discriminate].
Qed.
Lemma unchanged_dec ie ie' dirs c0 mo : itk_library ie' -> sensible (mo_tol mo) -> iexact c0 -> iexact (mo_call mo) ->
  let b := stored (imeas ie false c0) in
  (unchanged ie ie' dirs c0 mo /\ ikind ie' b mo && isame_value ie' dirs b mo = true) \/
  (~ unchanged ie ie' dirs c0 mo /\ ikind ie' b mo && isame_value ie' dirs b mo = false).
Proof.
  intros L T X0 X b. unfold unchanged, ikind. destruct mo as [c rel tol fs] eqn:Em. cbn [mo_call mo_tol mo_files] in *. rewrite <- Em in *.
  assert (Ec : mo_call mo = c) by (subst mo; reflexivity). assert (Et : mo_tol mo = tol) by (subst mo; reflexivity). assert (Ef : mo_files mo = fs) by (subst mo; reflexivity).
  destruct c0 as [c0|file0 name0], c as [c|file name]; cbn [iexact imeas] in *.
  - destruct (exact_stored (e_io (i_env ie)) c0 X0) as (d & D & D1 & D2 & _). unfold b. rewrite D.
    pose proof (exact_verdict (i_env ie') dirs (MD d) c rel fs X (conj D1 D2) eq_refl) as E. unfold kind_of_moment in E. cbn [fst] in E.
    assert (I : isame_value ie' dirs (MD d) mo = same_value (i_env ie') dirs (MD d) (c, rel, fs)) by (subst mo; reflexivity). rewrite I, E.
    assert (Q : eq3 (triple (MD d)) (triple (meas_of (e_io (i_env ie')) true c)) = eq3 (what (e_io (i_env ie)) c0) (what (e_io (i_env ie')) c)).
    { rewrite <- D, what_stored. destruct (exact_stored (e_io (i_env ie')) c X) as (_ & _ & _ & _ & M). rewrite M. reflexivity. }
    rewrite Q. clear. destruct (eq3 _ _) eqn:Q; [left; split; [apply eq3_true, Q|reflexivity]|].
    right. split; [|reflexivity]. intros A. apply eq3_true in A. congruence.
  - right. split; [tauto|]. destruct (exact_stored (e_io (i_env ie)) c0 X0) as (d & D & _). unfold b, same_kind. rewrite D. cbn [mname mtype file_meas].
    assert (Q : eqs (type_of (dcls d)) itk_type = false) by apply not_image. cbn [ftype]. rewrite Q, andb_false_r. reflexivity.
  - right. split; [tauto|]. destruct (exact_data (e_io (i_env ie')) true c X) as [d D]. unfold b, same_kind. rewrite D. cbn [stored mname mtype file_meas ftype].
    assert (Q : eqs itk_type (type_of (dcls d)) = false) by (destruct (dcls d); reflexivity). rewrite Q, andb_false_r. reflexivity.
  - change b with (MF (Mf name0 true itk_type (Tail file0))). unfold same_kind. cbn [mname mtype file_meas fname ftype]. rewrite eqs_refl, andb_true_r.
    destruct (image_accepted ie' dirs file0 name0 file name mo L) as (v & V & Hv); [rewrite Et; exact T|exact Ec|]. rewrite Et, Ef in Hv.
    unfold isame_value. rewrite V. destruct (eqs_spec name0 name) as [->|N]; [|right; split; [tauto|reflexivity]]. cbn [andb].
    destruct v; [left; split; [split; [reflexivity|apply Hv; reflexivity]|reflexivity]|]. right. split; [|reflexivity]. intros [_ A]. apply Hv in A. discriminate A.
Qed.
Lemma changes_counted ie ie' dirs : itk_library ie' -> forall ms old, Forall (fun mo => sensible (mo_tol mo)) ms -> Forall iexact old -> Forall (fun mo => iexact (mo_call mo)) ms ->
  changes ie ie' dirs old ms (imismatches ie' dirs (map stored (map (imeas ie false) old)) ms).
Proof.
  intros L. induction ms as [|mo ms IH]; intros old Hs Ho Hm; [constructor|]. inversion Hs as [|? ? T Hs']; subst. inversion Hm as [|? ? X Hm']; subst.
  cbn [imismatches]. destruct old as [|c0 old]; [rewrite Z.add_comm; apply ch_new; exact (IH [] Hs' Ho Hm')|].
  inversion Ho as [|? ? X0 Ho']; subst. cbn [map tl]. specialize (IH old Hs' Ho' Hm').
  destruct (unchanged_dec ie ie' dirs c0 mo L T X0 X) as [[U E]|[U E]]; cbv zeta in E; rewrite E; [apply ch_unchanged; assumption|].
  rewrite Z.add_comm. apply ch_changed; assumption.
Qed.

Lemma imismatches_last ie ie' dirs mo c0 : ikind ie' (stored (imeas ie false c0)) mo && isame_value ie' dirs (stored (imeas ie false c0)) mo = false -> forall ms0 before,
  nth_error before (length ms0) = Some c0 ->
  imismatches ie' dirs (map stored (map (imeas ie false) before)) (ms0 ++ [mo]) = imismatches ie' dirs (map stored (map (imeas ie false) before)) ms0 + 1.
Proof.
  intros Q. induction ms0 as [|m ms0 IH]; intros [|c l] N; try discriminate N; cbn [imismatches app map tl nth_error length] in *.
  - injection N as ->. rewrite Q. reflexivity.
  - rewrite (IH l N). lia.
Qed.

(** The old version of a test records; the new one compares.  Either no measurement raises an exception: the value returned is the number of changed measurements if the
    test returns the expected value.  Or the last measurement [mo] made is an image that has changed, under the recorded name, and cannot be reported because a file cannot be
    read: the test fails with -1 (if -1 is expected, with the number of changes found and one more). *)
Theorem C82_changes_counted : forall ie f old a0 rest opts k f1 s1 z w ie' f' new a0' rest' opts' inf o' f2 v s2 z2,
  let e := i_env ie in let argv := a0 :: flat opts ++ rest in let p := old (a0 :: rest) in
  let e' := i_env ie' in let argv' := a0' :: flat opts' ++ rest' in let p' := new (a0' :: rest') in let dirs := dirs_of opts' ++ [i_baselines ie'] in
  (* the recording run *)
  command_line e f opts rest -> input_of opts = None -> opened e f (output_of e f opts) = Some (Some k, f1) ->
  ileaves_alone e argv 0 (Some k) p -> iends (e_sc e) argv 0 p = Ok w ->
  Forall storable (map (imeas ie false) (made (script (e_sc e) argv 0 p))) -> comment_safe (e_host e) -> comment_safe (e_time e) ->
  Forall iexact (made (script (e_sc e) argv 0 p)) ->
  itk_Main ie old argv (new_itk_test ie f) = (s1, Ok z) ->
  (* the comparing run *)
  itk_library ie' -> command_line e' f' opts' rest' -> input_of opts' = Some inf ->
  opened e' f' (output_of e' f' opts') = Some (o', f2) ->
  contents e' f2 (baseline_path e' f2 dirs inf) = Some (written (Some k) s1) ->
  isteady (e_sc e') argv' 0 p' -> Forall iexact (made (script (e_sc e') argv' 0 p')) -> iends (e_sc e') argv' 0 p' = Ok v ->
  itk_Main ie' new argv' (new_itk_test ie' f') = (s2, Ok z2) ->
  let before := made (script (e_sc e) argv 0 p) in let now := made (script (e_sc e') argv' 0 p') in
  exists ms rs ns x out n,
    iunfolds ie' argv' o' default_tol no_tolerance 0 f2 (expected_of opts') p' ms rs ns x out /\ changes ie ie' dirs before ms n /\
    ((map mo_call ms = now /\ x = iexpects (e_sc e') argv' 0 (expected_of opts') p' /\ z2 = if v =? x then n else v) \/
     (exists ms0 mo file0 file name, ms = ms0 ++ [mo] /\ (exists more, now = map mo_call ms ++ more) /\
        nth_error before (length ms0) = Some (ImageCall file0 name) /\ mo_call mo = ImageCall file name /\
        let base := baseline_path e' (mo_files mo) dirs (Tail file0) in
        ~ images_agree ie' (mo_files mo) (mo_tol mo) base file /\ ~ readable_pair ie' (mo_files mo) base file /\
        z2 = if -1 =? x then n + 1 else -1)).
Proof.
  intros ie f old a0 rest opts k f1 s1 z w ie' f' new a0' rest' opts' inf o' f2 v s2 z2 e argv p e' argv' p' dirs Hc Hi Ho Hl He Hs Hh Ht Hx Hm L Hc' Hi' Ho' Hb Hst Hnx Hv Hm2 before now.
  pose proof (itk_document ie f old a0 opts rest k f1 s1 z Hc Hi Ho Hl Hm) as W. fold e argv p in W. rewrite He in W. rewrite W in Hb.
  pose proof (C55_compare_status ie' f' new a0' opts' rest' inf s2 z2 Hc' Hi' Hm2) as C. cbv zeta in C. fold e' argv' p' dirs in C.
  unfold started in C. rewrite Ho', Hb, (read_recorded (e_asserts e') (e_ext e') e _ Hh Ht Hs) in C. fold before in C, Hs, Hx.
  destruct C as (ms & rs & ns & x & out & extra & U & R & S & Z).
  assert (B01 : Forall (fun r => r = 0 \/ r = 1) rs) by (rewrite R; apply iresults_bit).
  destruct (isteady_unfolds _ _ _ _ _ _ _ _ _ _ _ _ _ _ U Hst (conj (Z.le_refl 0) (Z.le_refl 0)) B01) as (Fs & more & Er & Ef). fold e' in Er, Ef. fold now in Er.
  assert (Fm : Forall (fun mo => iexact (mo_call mo)) ms).
  { fold now in Hnx. rewrite Er in Hnx. apply Forall_app in Hnx as [Hnx _]. rewrite Forall_map in Hnx. exact Hnx. }
  destruct (nth_error ms (length rs)) as [mo|] eqn:Nm.
  - destruct S as (b & i & Eo & Nb & K & V).
    assert (Em : ms = firstn (length rs) ms ++ [mo]).
    { apply nth_error_split in Nm as (l1 & l2 & -> & El). rewrite <- El, firstn_app, firstn_all, Nat.sub_diag. cbn [firstn]. rewrite app_nil_r. f_equal.
      assert (length rs <= length l1 + length l2 <= length rs)%nat; [|destruct l2; [reflexivity|cbn in *; lia]].
      assert (A : (length (l1 ++ mo :: l2) <= S (length rs))%nat) by (clear -U; induction U; cbn [length] in *; lia). rewrite app_length in A. cbn [length] in A. lia. }
    set (ms0 := firstn (length rs) ms) in *.
    assert (L0 : length ms0 = length rs). { apply (f_equal (@length imoment)) in Em. rewrite app_length in Em. cbn in Em. assert (A : nth_error ms (length rs) <> None) by congruence. apply nth_error_Some in A. unfold ms0. rewrite firstn_length_le by lia. reflexivity. }
    rewrite nth_error_map, nth_error_map in Nb. fold before in Nb. destruct (nth_error before (length rs)) as [c0|] eqn:N0; [|discriminate Nb].
    cbn [option_map] in Nb. injection Nb as <-.
    assert (X0 : iexact c0) by (rewrite Forall_forall in Hx; exact (Hx c0 (nth_error_In _ _ N0))).
    assert (Im : In mo ms) by (apply (nth_error_In ms (length rs)); exact Nm).
    assert (X : iexact (mo_call mo)) by (rewrite Forall_forall in Fm; exact (Fm mo Im)).
    assert (T : sensible (mo_tol mo)) by (rewrite Forall_forall in Fs; exact (Fs mo Im)).
    assert (CH : forall n', imismatches ie' dirs (map stored (map (imeas ie false) before)) ms = n' -> changes ie ie' dirs before ms n') by (intros n' <-; apply changes_counted; assumption).
    assert (IM : imismatches ie' dirs (map stored (map (imeas ie false) before)) ms = imismatches ie' dirs (map stored (map (imeas ie false) before)) ms0 + 1).
    { rewrite Em at 1. rewrite <- L0 in N0.
      assert (Q : ikind ie' (stored (imeas ie false c0)) mo && isame_value ie' dirs (stored (imeas ie false c0)) mo = false).
      { unfold isame_value. destruct V as [[-> _]|[-> _]]; apply andb_false_r. }
      exact (imismatches_last ie ie' dirs mo c0 Q ms0 before N0). }
    destruct c0 as [c0|file0 name0], (mo_call mo) as [c|file name] eqn:Ec.
    + exfalso. destruct (exact_stored (e_io (i_env ie)) c0 X0) as (d & D & D1 & D2 & _). unfold iverdict, reportable in V. cbn [imeas] in V. rewrite Ec, D in V.
      destruct V as [[V _]|[_ [V _]]]; [exact (exact_no_throw _ _ d c _ _ _ X D1 D2 V)|apply V; exact I].
    + exfalso. unfold ikind, same_kind in K. rewrite Ec in K. destruct (exact_stored (e_io (i_env ie)) c0 X0) as (d & D & _). cbn [imeas] in K. rewrite D in K. cbn [mname mtype file_meas ftype] in K. rewrite not_image, andb_false_r in K. discriminate K.
    + exfalso. unfold ikind, same_kind in K. rewrite Ec in K. destruct (exact_data (e_io (i_env ie')) true c X) as [d D]. cbn [imeas] in K. rewrite D in K. cbn [stored mname mtype file_meas ftype] in K.
      assert (Q : eqs itk_type (type_of (dcls d)) = false) by (destruct (dcls d); reflexivity). rewrite Q, andb_false_r in K. discriminate K.
    + change (stored (imeas ie false (ImageCall file0 name0))) with (MF (Mf name0 true itk_type (Tail file0))) in *.
      destruct (image_accepted ie' dirs file0 name0 file name mo L T Ec) as (vv & VV & Hvv).
      destruct V as [[V _]|(V & V2 & -> & ->)]; [congruence|].
      assert (En : name0 = name). { unfold ikind, same_kind in K. rewrite Ec in K. cbn [imeas mname mtype file_meas fname ftype] in K. apply andb_true_iff in K as [K _]. apply eqs_true in K. exact K. } subst name0.
      exists ms, rs, ns, x, out, (imismatches ie' dirs (map stored (map (imeas ie false) before)) ms0 + 1). split; [exact U|]. split; [apply CH; exact IM|]. right.
      exists ms0, mo, file0, file, name. split; [exact Em|]. split; [exists more; exact Er|]. split; [rewrite L0; exact N0|]. split; [exact Ec|]. cbv zeta. split; [|split].
      * intros A. apply Hvv in A. congruence.
      * intros A. apply V2. unfold reportable. rewrite Ec. change (file_meas true itk_type file name) with (MF (Mf name true itk_type file)). rewrite found_image. exact A.
      * rewrite Z, Eo. reflexivity.
  - assert (Ll : length rs = length ms).
    { apply nth_error_None in Nm. assert (length rs <= length ms)%nat by (clear -U; induction U; cbn [length]; lia). lia. }
    destruct (Ef Ll) as (-> & -> & ->). rewrite app_nil_r in Er. rewrite Ll, firstn_all, S, Z.add_0_r, Hv in Z. cbn [status] in Z.
    eexists ms, rs, ns, _, _, _. split; [exact U|]. split; [apply changes_counted; assumption|]. left. split; [symmetry; exact Er|]. split; [reflexivity|exact Z].
Qed.
Print Assumptions C82_changes_counted.
(** The number of changes is one number, and it is 0 iff every measurement is unchanged and there are no more than were recorded. *)
Lemma changes_nonneg ie ie' dirs o m n : changes ie ie' dirs o m n -> 0 <= n.
Proof. intros H. induction H; lia. Qed.
Theorem C82_no_changes : forall ie ie' dirs old ms,
  (forall n n', changes ie ie' dirs old ms n -> changes ie ie' dirs old ms n' -> n = n') /\
  (changes ie ie' dirs old ms 0 <-> exists kept more, old = kept ++ more /\ Forall2 (unchanged ie ie' dirs) kept ms).
Proof.
  intros ie ie' dirs old ms. split; [|split].
  - intros n n' H. revert n'. induction H as [o|c0 o mo ms n H H1 IH|c0 o mo ms n H H1 IH|mo ms n H1 IH]; intros n' H'; inversion H'; subst; try contradiction; try reflexivity.
    + apply IH. assumption.
    + f_equal. apply IH. assumption.
    + f_equal. apply IH. assumption.
  - intros H. remember 0 as n eqn:E. induction H as [o|c0 o mo ms n H H1 IH|c0 o mo ms n H H1 IH|mo ms n H1 IH].
    + exists [], o. split; [reflexivity|constructor].
    + destruct (IH E) as (kept & more & -> & F). exists (c0 :: kept), more. split; [reflexivity|constructor; assumption].
    + pose proof (changes_nonneg _ _ _ _ _ _ H1). lia.
    + pose proof (changes_nonneg _ _ _ _ _ _ H1). lia.
  - intros (kept & more & -> & F). induction F as [|c0 mo kept ms H F IH]; [constructor|]. cbn [app]. apply ch_unchanged; assumption.
Qed.
Print Assumptions C82_no_changes.

(** * Tests that make images *)
(** images a test makes: file contents, measurement name, and the image the contents stand for *)
Definition picture := (str * str * imagefile)%type.
(** The image [g] is accepted for the recorded [g0] without tolerance (C49). *)
Definition same_image (g0 g : imagefile) : Prop :=
  isize (g_image g0) = isize (g_image g) /\ equal_values (g_spacing g0) (g_spacing g) /\ ~ In S754_nan (g_origin g0) /\
  how_many (reported (Filter (t_radius no_tolerance) (t_intensity no_tolerance) false) (g_image g0) (g_image g)) 0.
(** [n] positions of [now] have an image or a name that is not the one of [before] *)
Inductive image_changes : list picture -> list picture -> Z -> Prop :=
| ic_end old : image_changes old [] 0
| ic_same b0 g0 old b nm g now n : same_image g0 g -> image_changes old now n -> image_changes ((b0, nm, g0) :: old) ((b, nm, g) :: now) n
| ic_other b0 nm0 g0 old b nm g now n : ~ (nm0 = nm /\ same_image g0 g) -> image_changes old now n -> image_changes ((b0, nm0, g0) :: old) ((b, nm, g) :: now) (n + 1)
| ic_new b nm g now n : image_changes [] now n -> image_changes [] ((b, nm, g) :: now) (n + 1).
(** the files recorded are in the directory *)
Fixpoint recorded_in_place (ie : ienv) (dir : str) (f : store) (sc0 : bool) (args0 : list str) (n : Z) (l : list picture) : Prop :=
  match l with
  | [] => True
  | (bytes, _, g) :: l' =>
      (exists name0 base j w h, GenerateFileName sc0 args0 n ($"mha") [] = Ok name0 /\ Append dir (Tail name0) = Ok base /\ slot (i_env ie) base = Some j /\
         f j = Some (FFile true w bytes) /\ i_decode ie base bytes = Some g /\ i_header ie base bytes = Some h) /\
      recorded_in_place ie dir f sc0 args0 (n + 1) l'
  end.
(** the new files can be written *)
Fixpoint can_be_made (ie : ienv) (f : store) (args : list str) (n : Z) (l : list picture) : Prop :=
  match l with
  | [] => True
  | (bytes, _, g) :: l' =>
      (exists name i h, GenerateFileName (e_sc (i_env ie)) args n ($"mha") [] = Ok name /\ slot (i_env ie) name = Some i /\
         ((f i = None /\ e_cancreate (i_env ie) (cstr name) = true) \/ exists old, f i = Some (FFile true true old)) /\
         i_decode ie name bytes = Some g /\ i_header ie name bytes = Some h) /\
      can_be_made ie f args (n + 1) l'
  end.
(** the files a report may write: the output file and the three pictures of each image *)
Fixpoint report_file (ie : ienv) (o : option str) (args : list str) (n : Z) (l : list picture) (k : str) : Prop :=
  match l with
  | [] => False
  | _ :: l' => o = Some k \/ (exists name, GenerateFileName (e_sc (i_env ie)) args n ($"mha") [] = Ok name /\ picture_of ie name k) \/ report_file ie o args (n + 1) l' k
  end.
(** files [f] and [f'] have the same in [k] unless [k] may have been written *)
Lemma in_place_kept ie dir sc0 args0 l : forall n f f', recorded_in_place ie dir f sc0 args0 n l ->
  (forall k, In (Some k) (baseline_files ie dir sc0 args0 n (map fst l)) -> f' k = f k) -> recorded_in_place ie dir f' sc0 args0 n l.
Proof.
  induction l as [|[[b nm] g] l IH]; intros n f f' H K; [exact I|]. cbn [recorded_in_place] in *. destruct H as [H R]. unfold baseline_files in *. cbn [map fst named_files] in K.
  split; [|apply (IH _ f); [exact R|intros k Hk; apply K; right; exact Hk]].
  destruct H as (name0 & base & j & w & h & G & A & Sb & F & D). exists name0, base, j, w, h. rewrite G, A, Sb in K. rewrite K by (left; reflexivity). auto 10.
Qed.
Lemma made_kept ie args l : forall n f f', can_be_made ie f args n l ->
  (forall k, In (Some k) (test_files ie args n (map fst l)) -> f' k = f k \/ exists old, f' k = Some (FFile true true old)) -> can_be_made ie f' args n l.
Proof.
  induction l as [|[[b nm] g] l IH]; intros n f f' H K; [exact I|]. cbn [can_be_made] in *. destruct H as [H R]. unfold test_files in *. cbn [map fst named_files] in K.
  split; [|apply (IH _ f); [exact R|intros k Hk; apply K; right; exact Hk]].
  destruct H as (name & i & h & G & Sn & F & D). exists name, i, h. rewrite G, Sn in K. split; [exact G|]. split; [exact Sn|]. split; [|exact D].
  destruct (K i (in_eq _ _)) as [-> | E]; [exact F|right; exact E].
Qed.
(** what the moments of the run see *)
Fixpoint seen (ie : ienv) (dirs : list str) (sc0 : bool) (args0 : list str) (n : Z) (l0 l : list picture) (ms : list imoment) {struct ms} : Prop :=
  match ms, l with
  | [], _ => True
  | mo :: ms', (_, nm, g) :: l' =>
      (exists name h, mo_call mo = ImageCall name nm /\ mo_tol mo = no_tolerance /\ read_image ie (mo_files mo) name = Some g /\ read_info ie (mo_files mo) name = Some h) /\
      match l0 with
      | [] => True
      | (_, nm0, g0) :: _ => exists name0 h, GenerateFileName sc0 args0 n ($"mha") [] = Ok name0 /\
          let base := baseline_path (i_env ie) (mo_files mo) dirs (Tail name0) in read_image ie (mo_files mo) base = Some g0 /\ read_info ie (mo_files mo) base = Some h
      end /\ seen ie dirs sc0 args0 (n + 1) (tl l0) l' ms'
  | _ :: _, [] => False
  end.
Lemma image_seen ie dir dirs sc0 args0 args n f l0 bytes nm g name i h : 
  recorded_in_place ie dir f sc0 args0 n l0 -> ~ In (Some i) (baseline_files ie dir sc0 args0 n (map fst l0)) ->
  slot (i_env ie) name = Some i -> i_decode ie name bytes = Some g -> i_header ie name bytes = Some h ->
  let f1 := upd f i (Some (FFile true true bytes)) in
  forall mo l ms t, mo = IMoment (ImageCall name nm) t no_tolerance f1 ->
  seen ie (dir :: dirs) sc0 args0 (n + 1) (tl l0) l ms ->
  GenerateFileName (e_sc (i_env ie)) args n ($"mha") [] = Ok name ->
  seen ie (dir :: dirs) sc0 args0 n l0 ((bytes, nm, g) :: l) (mo :: ms).
Proof.
  intros R N Sn D H f1 mo l ms t -> S G. cbn [seen mo_call mo_tol mo_files].
  assert (C : contents (i_env ie) f1 name = Some bytes) by (unfold contents, node_at; rewrite Sn; unfold f1, upd; rewrite eqs_refl; reflexivity).
  split; [|split; [|exact S]].
  - exists name, h. unfold read_image, read_info. rewrite C. auto.
  - destruct l0 as [|[[b0 nm0] g0] l0]; [exact I|]. cbn [recorded_in_place] in R. destruct R as [(name0 & base & j & w & h0 & G0 & A & Sb & F & D0 & H0) _].
    unfold baseline_files in N. cbn [map fst named_files] in N. rewrite G0, A, Sb in N. assert (NE : j <> i) by (intros ->; apply N; left; reflexivity).
    assert (F1 : f1 j = Some (FFile true w b0)) by (unfold f1, upd; destruct (eqs_spec j i) as [E|_]; [contradiction|exact F]).
    exists name0, h0. split; [exact G0|]. cbv zeta.
    rewrite (found_first (i_env ie) f1 dir dirs (Tail name0) base j true w b0 A (slot_some_nonempty _ _ _ Sb) Sb F1).
    unfold read_image, read_info. assert (Cb : contents (i_env ie) f1 base = Some b0) by (unfold contents, node_at; rewrite Sb, F1; reflexivity). rewrite Cb. auto.
Qed.
Lemma image_unfolds ie args o t tol n f x bytes nm k ms rs ns x' out : iunfolds ie args o t tol n f x (InsightImage bytes nm k) ms rs ns x' out ->
  exists name ms', GenerateFileName (e_sc (i_env ie)) args n ($"mha") [] = Ok name /\ let f1 := write_file (i_env ie) f name bytes in
    ms = IMoment (ImageCall name nm) t tol f1 :: ms' /\
    (ms' = [] \/ exists f' r rs' ns', only_changes ie o (ImageCall name nm) f1 f' /\ iunfolds ie args o t tol (n + 1) f' x (k r) ms' rs' ns' x' out).
Proof.
  unfold InsightImage. intros U. inversion U; subst. match goal with H : iunfolds _ _ _ _ _ _ _ _ (IWriteFile _ _ _) _ _ _ _ _ |- _ => inversion H; subst end.
  match goal with H : iunfolds _ _ _ _ _ _ _ _ (IImage _ _ _) _ _ _ _ _ |- _ => inversion H; subst end.
  - eexists _, _. split; [eassumption|]. split; [reflexivity|]. right. eexists _, _, _, _. split; eassumption.
  - eexists _, _. split; [eassumption|]. split; [reflexivity|]. left. reflexivity.
Qed.
Lemma images_seen ie dir dirs sc0 args0 args o : forall l n l0 t f x ms rs ns x' out,
  iunfolds ie args o t no_tolerance n f x (make_images (map fst l)) ms rs ns x' out ->
  recorded_in_place ie dir f sc0 args0 n l0 -> can_be_made ie f args n l ->
  (forall k, In (Some k) (baseline_files ie dir sc0 args0 n (map fst l0)) -> ~ In (Some k) (test_files ie args n (map fst l)) /\ ~ report_file ie o args n l k) ->
  (forall k, In (Some k) (test_files ie args n (map fst l)) -> ~ report_file ie o args n l k) ->
  seen ie (dir :: dirs) sc0 args0 n l0 l ms.
Proof.
  induction l as [|[[bytes nm] g] l IH]; intros n l0 t f x ms rs ns x' out U R M Db Dt.
  - inversion U; subst. exact I.
  - cbn [map fst make_images] in U. destruct (image_unfolds _ _ _ _ _ _ _ _ _ _ _ _ _ _ _ _ U) as (name & ms' & G & Em & U3). clear U. subst ms.
    cbn [can_be_made] in M. destruct M as [(name' & i & h & G' & Sn & Fn & D & H) M]. assert (name' = name) by (clear -G G'; rewrite G in G'; injection G'; auto). subst name'.
    rewrite (write_there (i_env ie) f name i bytes Sn Fn) in *.
    set (f1 := upd f i (Some (FFile true true bytes))) in *.
    assert (Db0 : ~ In (Some i) (baseline_files ie dir sc0 args0 n (map fst l0))).
    { intros X. destruct (Db i X) as [Y _]. apply Y. unfold test_files. cbn [map fst named_files]. rewrite G, Sn. left. reflexivity. }
    destruct U3 as [-> |(f' & r & rs' & ns' & O & U3)].
    + eapply (image_seen ie dir dirs sc0 args0 args n f l0 bytes nm g name i h R Db0 Sn D H); [reflexivity|exact I|exact G].
    + eapply (image_seen ie dir dirs sc0 args0 args n f l0 bytes nm g name i h R Db0 Sn D H); [reflexivity| |exact G].
      assert (Dtl : forall k, In (Some k) (baseline_files ie dir sc0 args0 (n + 1) (map fst (tl l0))) -> In (Some k) (baseline_files ie dir sc0 args0 n (map fst l0))).
      { intros k Hk. destruct l0 as [|[[? ?] ?] l0]; [destruct Hk|]. unfold baseline_files. cbn [map fst named_files tl] in *. right. exact Hk. }
      eapply IH; [exact U3| | | |].
      * assert (Rtl : recorded_in_place ie dir f sc0 args0 (n + 1) (tl l0)) by (destruct l0 as [|[[? ?] ?] l0]; [exact I|exact (proj2 R)]).
        apply (in_place_kept ie dir sc0 args0 (tl l0) _ f); [exact Rtl|]. intros k Hk. apply Dtl in Hk. destruct (Db k Hk) as [_ Y].
        rewrite (O k) by (intros [Z|Z]; apply Y; cbn [report_file]; [left; exact Z|right; left; exists name; auto]).
        unfold f1, upd. destruct (eqs_spec k i) as [->|_]; [contradiction|reflexivity].
      * apply (made_kept ie args l _ f); [exact M|]. intros k Hk.
        assert (Hk' : In (Some k) (test_files ie args n (map fst ((bytes, nm, g) :: l)))) by (right; exact Hk).
        rewrite (O k) by (intros [Z|Z]; apply (Dt k Hk'); cbn [report_file]; [left; exact Z|right; left; exists name; auto]).
        unfold f1, upd. destruct (eqs_spec k i) as [->|_]; [right; eexists; reflexivity|left; reflexivity].
      * intros k Hk. destruct (Db k (Dtl k Hk)) as [Y1 Y2]. split; [intros X; apply Y1; right; exact X|intros X; apply Y2; cbn [report_file]; auto].
      * intros k Hk X. apply (Dt k); [right; exact Hk|cbn [report_file]; auto].
Qed.

Lemma agree_images ie f base file g0 g : read_image ie f base = Some g0 -> read_image ie f file = Some g -> images_agree ie f no_tolerance base file <-> same_image g0 g.
Proof.
  intros B F. unfold images_agree, same_image. split.
  - intros (b & t & Eb & Et & H1 & H2 & H3 & n & H4 & H5). assert (b = g0) by congruence. assert (t = g) by congruence. subst b t.
    split; [exact H1|]. split; [exact H2|]. split; [exact H3|]. pose proof (how_many_nonneg _ _ H4) as P. cbn [t_pixels no_tolerance] in H5. assert (n = 0) by lia. subst n. exact H4.
  - intros (H1 & H2 & H3 & H4). exists g0, g. split; [exact B|]. split; [exact F|]. split; [exact H1|]. split; [exact H2|]. split; [exact H3|]. exists 0. split; [exact H4|cbn; lia].
Qed.
Lemma image_changes_of ie ie' dirs sc0 args0 : forall ms n l0 l c, changes ie ie' dirs (made (script sc0 args0 n (make_images (map fst l0)))) ms c -> seen ie' dirs sc0 args0 n l0 l ms ->
  length ms = length l -> image_changes l0 l c.
Proof.
  induction ms as [|mo ms IH]; intros n l0 [|[[b nm] g] l] c C S Lm; try discriminate Lm.
  - inversion C; subst. constructor.
  - cbn [seen] in S. destruct S as [(name & h & Ec & Et & Ri & _) [S0 S]]. cbn [length] in Lm. injection Lm as Lm.
    destruct l0 as [|[[b0 nm0] g0] l0].
    + cbn in C. inversion C; subst. apply ic_new. apply (IH (n + 1) [] l); [cbn; assumption|exact S|exact Lm].
    + destruct S0 as (name0 & h0 & G0 & R0 & _). cbn [map fst make_images] in C. unfold InsightImage in C. cbn [script] in C. rewrite G0 in C. cbn [made flat_map app] in C.
      assert (Q : unchanged ie ie' dirs (ImageCall name0 nm0) mo <-> nm0 = nm /\ same_image g0 g).
      { unfold unchanged. rewrite Ec, Et, (agree_images _ _ _ _ g0 g R0 Ri). reflexivity. }
      inversion C; subst.
      * match goal with H : unchanged _ _ _ _ _ |- _ => apply Q in H as [-> H]; apply ic_same; [exact H|] end. apply (IH (n + 1)); assumption.
      * apply ic_other; [tauto|]. apply (IH (n + 1)); assumption.
Qed.
Lemma seen_nth ie dirs sc0 args0 : forall ms0 n l0 l mo more, seen ie dirs sc0 args0 n l0 l (ms0 ++ mo :: more) ->
  forall name0 nm0, nth_error (made (script sc0 args0 n (make_images (map fst l0)))) (length ms0) = Some (ImageCall name0 nm0) ->
  exists name nm, mo_call mo = ImageCall name nm /\ readable_pair ie (mo_files mo) (baseline_path (i_env ie) (mo_files mo) dirs (Tail name0)) name.
Proof.
  induction ms0 as [|m ms0 IH]; intros n l0 [|[[b nm] g] l] mo more S name0 nm0 N; cbn [app seen] in S; try contradiction.
  - destruct S as [(name & h & Ec & _ & Ri & Hi) [S0 _]]. destruct l0 as [|[[b0 nm0'] g0] l0]; [discriminate N|].
    destruct S0 as (name0' & h0 & G0 & R0 & H0). cbn [map fst make_images] in N. unfold InsightImage in N. cbn [script] in N. rewrite G0 in N. cbn in N. injection N as <- <-.
    exists name, nm. split; [exact Ec|]. exists h, h0. split; [exact Hi|]. split; [exact H0|]. intros _. exists g, g0. split; [exact Ri|exact R0].
  - destruct S as [_ [S0 S]]. destruct l0 as [|[[b0 nm0'] g0] l0]; [destruct (length (m :: ms0)); discriminate N|].
    destruct S0 as (name0' & h0 & G0 & _). cbn [map fst make_images] in N. unfold InsightImage in N. cbn [script] in N. rewrite G0 in N. cbn [made flat_map app length nth_error] in N.
    exact (IH (n + 1) l0 l mo more S name0 nm0 N).
Qed.
Lemma images_steady sc arg0 args' : let args := arg0 :: args' in forall l n, isteady sc args n (make_images l) /\ Forall iexact (made (script sc args n (make_images l))) /\ iends sc args n (make_images l) = Ok 0 /\
  length (made (script sc args n (make_images l))) = length l /\ forall x, iexpects sc args n x (make_images l) = x.
Proof.
  intros args. induction l as [|[b nm] l IH]; intros n; [repeat split; constructor|]. cbn [make_images]. unfold InsightImage. cbn [isteady script iends iexpects].
  destruct (IH (n + 1)) as (A & B & C & D & E). assert (G : exists name, GenerateFileName sc args n ($"mha") [] = Ok name) by (eexists; reflexivity). destruct G as [name ->].
  cbn [isteady script made flat_map app length]. unfold made in B, D. split; [split; [reflexivity|exact A]|]. split; [constructor; [exact I|exact B]|]. split; [exact C|]. split; [rewrite D; reflexivity|exact E].
Qed.
(** A test that makes the images [l0] is recorded, and the files are copied to the first search directory; a version that makes the images [l] returns 0 and is compared.
    Main returns the number of images that have changed: the image, its name, or none recorded at the position - provided that no file written is a baseline file. *)
Theorem C82_images_counted : forall ie f old a0 rest opts k f1 s1 z ie' f' new a0' rest' opts' inf o' f2 s2 z2 l0 l dir dirs,
  let e := i_env ie in let argv := a0 :: flat opts ++ rest in let e' := i_env ie' in let argv' := a0' :: flat opts' ++ rest' in
  old (a0 :: rest) = make_images (map fst l0) -> new (a0' :: rest') = make_images (map fst l) ->
  (* the recording run *)
  command_line e f opts rest -> input_of opts = None -> opened e f (output_of e f opts) = Some (Some k, f1) ->
  ileaves_alone e argv 0 (Some k) (make_images (map fst l0)) ->
  Forall storable (map (imeas ie false) (made (script (e_sc e) argv 0 (make_images (map fst l0))))) -> comment_safe (e_host e) -> comment_safe (e_time e) ->
  itk_Main ie old argv (new_itk_test ie f) = (s1, Ok z) ->
  (* the comparing run *)
  itk_library ie' -> command_line e' f' opts' rest' -> input_of opts' = Some inf -> expected_of opts' = 0 ->
  opened e' f' (output_of e' f' opts') = Some (o', f2) -> dirs_of opts' ++ [i_baselines ie'] = dir :: dirs ->
  contents e' f2 (baseline_path e' f2 (dir :: dirs) inf) = Some (written (Some k) s1) ->
  recorded_in_place ie' dir f2 (e_sc e) argv 0 l0 -> can_be_made ie' f2 argv' 0 l ->
  (forall i, In (Some i) (baseline_files ie' dir (e_sc e) argv 0 (map fst l0)) -> ~ In (Some i) (test_files ie' argv' 0 (map fst l)) /\ ~ report_file ie' o' argv' 0 l i) ->
  (forall i, In (Some i) (test_files ie' argv' 0 (map fst l)) -> ~ report_file ie' o' argv' 0 l i) ->
  itk_Main ie' new argv' (new_itk_test ie' f') = (s2, Ok z2) ->
  image_changes l0 l z2.
Proof.
  intros ie f old a0 rest opts k f1 s1 z ie' f' new a0' rest' opts' inf o' f2 s2 z2 l0 l dir dirs e argv e' argv' Eo En Hc Hi Ho Hl Hs Hh Ht Hm L Hc' Hi' Hx Ho' Hd Hb Hr Hn Db Dt Hm2.
  destruct (images_steady (e_sc e) a0 (flat opts ++ rest) (map fst l0) 0) as (_ & A2 & A3 & _ & _). destruct (images_steady (e_sc e') a0' (flat opts' ++ rest') (map fst l) 0) as (B1 & B2 & B3 & B4 & B5).
  rewrite <- Eo in Hl, Hs, A2, A3. rewrite <- En in B1, B2, B3. rewrite <- Hd in Hb.
  destruct (C82_changes_counted ie f old a0 rest opts k f1 s1 z 0 ie' f' new a0' rest' opts' inf o' f2 0 s2 z2 Hc Hi Ho Hl A3 Hs Hh Ht A2 Hm L Hc' Hi' Ho' Hb B1 B2 B3 Hm2)
    as (ms & rs & ns & x & out & c & U & C & P). fold e argv in C, P. fold e' argv' in U, P. rewrite Hd in C, P. rewrite En in U, P. rewrite Eo in C, P.
  pose proof (images_seen ie' dir dirs (e_sc e) argv argv' o' l 0 l0 _ _ _ _ _ _ _ _ U Hr Hn Db Dt) as S.
  destruct P as [(Em & -> & Ez)|(ms0 & mo & file0 & file & name & -> & _ & N & Ec & _ & Q & _)].
  - rewrite B5, Hx in Ez. cbn in Ez. subst z2. apply (image_changes_of ie ie' (dir :: dirs) (e_sc e) argv ms 0); [exact C|exact S|].
    rewrite <- (map_length mo_call ms), Em. etransitivity; [exact B4|apply map_length].
  - exfalso. destruct (seen_nth _ _ _ _ _ _ _ _ _ _ S _ _ N) as (nm & nm' & Ec' & Rp). assert (nm = file) by congruence. subst nm. contradiction.
Qed.
Print Assumptions C82_images_counted.

(** * Two images recorded; the new version changes the second and makes a third *)
Definition c82_of (b : str) : imagefile := ImageFile (ex_image b) [of_int64 1; of_int64 1] [of_int64 0; of_int64 0].
Definition c82_old : list picture := [($"a", $"first", c82_of ($"a")); ($"b", $"second", c82_of ($"b"))].
Definition c82_new : list picture := [($"a", $"first", c82_of ($"a")); ($"c", $"second", c82_of ($"c")); ($"a", $"third", c82_of ($"a"))].
Local Notation c82_record := (itk_Main rt_itk (makes (map fst c82_old)) [$"prog"; $"-O"; $"rec.xml"] (new_itk_test rt_itk (fun _ => None))).
Local Notation c82_compare := (itk_Main rt_itk (makes (map fst c82_new)) [$"prog"; $"-I"; $"rec.xml"] (new_itk_test rt_itk rt_files)).
Lemma c82_recorded : c82_record = (fst c82_record, Ok 0).
Proof. apply pair_fst. vm_compute. reflexivity. Qed.
Lemma c82_compared : c82_compare = (fst c82_compare, Ok 2).
Proof. apply pair_fst. vm_compute. reflexivity. Qed.
Lemma c82_command : command_line ex_env rt_files [($"-I", $"rec.xml")] [].
Proof. split; [|exact I]. constructor; [|constructor]. split; [vm_compute; auto 6|]. split; [intros _; split; vm_compute; reflexivity|intros E; discriminate E]. Qed.
Lemma c82_in_place : recorded_in_place rt_itk ($"base") rt_files true [$"prog"; $"-O"; $"rec.xml"] 0 c82_old.
Proof.
  cbn [recorded_in_place c82_old]. split; [|split; [|exact I]].
  - exists ($"prog_a6a5_1.mha"), ($"base/prog_a6a5_1.mha"), ($"base/prog_a6a5_1.mha"), false. eexists. do 4 (split; [vm_compute; reflexivity|]). split; [reflexivity|]. vm_compute. reflexivity.
  - exists ($"prog_a6a5_2.mha"), ($"base/prog_a6a5_2.mha"), ($"base/prog_a6a5_2.mha"), false. eexists. do 4 (split; [vm_compute; reflexivity|]). split; [reflexivity|]. vm_compute. reflexivity.
Qed.
Lemma c82_can_be_made : can_be_made rt_itk rt_files [$"prog"; $"-I"; $"rec.xml"] 0 c82_new.
Proof.
  cbn [can_be_made c82_new]. split; [|split; [|split; [|exact I]]].
  - exists ($"prog_a6a9_1.mha"), ($"prog_a6a9_1.mha"). eexists. split; [vm_compute; reflexivity|]. split; [vm_compute; reflexivity|]. split; [left; split; vm_compute; reflexivity|]. split; [reflexivity|]. vm_compute. reflexivity.
  - exists ($"prog_a6a9_2.mha"), ($"prog_a6a9_2.mha"). eexists. split; [vm_compute; reflexivity|]. split; [vm_compute; reflexivity|]. split; [left; split; vm_compute; reflexivity|]. split; [reflexivity|]. vm_compute. reflexivity.
  - exists ($"prog_a6a9_3.mha"), ($"prog_a6a9_3.mha"). eexists. split; [vm_compute; reflexivity|]. split; [vm_compute; reflexivity|]. split; [left; split; vm_compute; reflexivity|]. split; [reflexivity|]. vm_compute. reflexivity.
Qed.
Lemma c82_pictures_apart i : report_file rt_itk None [$"prog"; $"-I"; $"rec.xml"] 0 c82_new i -> firstn 4 i = $"out/".
Proof.
  assert (P : forall name, name = $"prog_a6a9_1.mha" \/ name = $"prog_a6a9_2.mha" \/ name = $"prog_a6a9_3.mha" -> picture_of rt_itk name i -> firstn 4 i = $"out/").
  { intros name N (ext & p & Ie & A & Sp). assert (Ei : Some (firstn 4 i) = option_map (firstn 4) (slot (i_env rt_itk) p)) by (rewrite Sp; reflexivity). clear Sp.
    destruct Ie as [<-|[<-|[<-|[]]]], N as [->|[->| ->]]; vm_compute in A; apply Ok_inj in A; subst p; vm_compute in Ei |- *; congruence. }
  cbn [report_file c82_new]. intros H. destruct H as [H|[(name & G & H)|[H|[(name & G & H)|[H|[(name & G & H)|[]]]]]]]; try discriminate H.
  - apply (P name); [left; vm_compute in G; vm_compute; congruence|exact H].
  - apply (P name); [right; left; vm_compute in G; vm_compute; congruence|exact H].
  - apply (P name); [right; right; vm_compute in G; vm_compute; congruence|exact H].
Qed.
Example C82_images_counted_met : image_changes c82_old c82_new 2.
Proof.
  apply (C82_images_counted rt_itk (fun _ => None) (makes (map fst c82_old)) ($"prog") [] [($"-O", $"rec.xml")] ($"rec.xml") (upd (fun _ => None) ($"rec.xml") (Some (FFile true true []))) (fst c82_record) 0
     rt_itk rt_files (makes (map fst c82_new)) ($"prog") [] [($"-I", $"rec.xml")] ($"rec.xml") None rt_files (fst c82_compare) 2 c82_old c82_new ($"base") []).
  - reflexivity.
  - reflexivity.
  - split; [|exact I]. repeat constructor; cbn; auto 6; discriminate.
  - reflexivity.
  - reflexivity.
  - cbn. repeat split; right; vm_compute; discriminate.
  - repeat constructor; vm_compute; intuition discriminate.
  - apply c80_safe; reflexivity.
  - apply c80_safe; reflexivity.
  - exact c82_recorded.
  - exact rt_library.
  - exact c82_command.
  - reflexivity.
  - reflexivity.
  - reflexivity.
  - reflexivity.
  - vm_compute. reflexivity.
  - exact c82_in_place.
  - exact c82_can_be_made.
  - intros i Hi. split; [intros Hj; vm_compute in Hi, Hj; intuition congruence|]. intros Hj. apply c82_pictures_apart in Hj. vm_compute in Hi, Hj. destruct Hi as [Hi|[Hi|[]]]; injection Hi as <-; discriminate Hj.
  - intros i Hi Hj. apply c82_pictures_apart in Hj. vm_compute in Hi, Hj. destruct Hi as [Hi|[Hi|[Hi|[]]]]; injection Hi as <-; discriminate Hj.
  - exact c82_compared.
Qed.
(** the general theorem, for the same runs *)
Example C82_changes_counted_met := C82_changes_counted rt_itk (fun _ => None) (makes (map fst c82_old)) ($"prog") [] [($"-O", $"rec.xml")] ($"rec.xml") (upd (fun _ => None) ($"rec.xml") (Some (FFile true true []))) (fst c82_record) 0 0
  rt_itk rt_files (makes (map fst c82_new)) ($"prog") [] [($"-I", $"rec.xml")] ($"rec.xml") None rt_files 0 (fst c82_compare) 2
  ltac:(split; [|exact I]; repeat constructor; cbn; auto 6; discriminate) eq_refl eq_refl ltac:(cbn; repeat split; right; vm_compute; discriminate) eq_refl
  ltac:(repeat constructor; vm_compute; intuition discriminate) ltac:(apply c80_safe; reflexivity) ltac:(apply c80_safe; reflexivity) ltac:(repeat constructor) c82_recorded
  rt_library c82_command eq_refl eq_refl ltac:(vm_compute; reflexivity) ltac:(cbn; auto) ltac:(repeat constructor) eq_refl c82_compared.
(** When the second baseline image is missing, the changed image cannot be reported: the run fails with -1. *)
Example C82_missing : snd (itk_Main rt_itk (makes (map fst c82_new)) [$"prog"; $"-I"; $"rec.xml"]
    (new_itk_test rt_itk (fun k => if eqs k ($"base/prog_a6a5_2.mha") then None else rt_files k))) = Ok (-1) /\
  snd (itk_Main rt_itk (makes (map fst c82_old)) [$"prog"; $"-I"; $"rec.xml"] (new_itk_test rt_itk rt_files)) = Ok 0.
Proof. split; vm_compute; reflexivity. Qed.

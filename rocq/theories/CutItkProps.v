(** C80: recordings of the ITK driver that were interrupted. *)
From Coq Require Import Floats.SpecFloat.
From Verif Require Import Base Str Dec PathModel PathFacts MeasModel MeasFacts MeasFacts2 MeasProps XmlText XmlModel ReadModel ReadFacts ReadBack ReadProps RegModel ArgFacts ArgProps RegSpec RegFacts RegStart RegMain RegProps RegProps2 RegRound ImgModel ImgSpec ImgPixel ImgBox ImgMore ImgProps ItkModel ItkSpec ItkSim ItkRun ItkMain ItkRunProps ItkRound ItkRoundProps ReuseProps CutProps.

(** * A run against a baseline that cannot be read, whatever the test *)
Lemma with_unreadable e body f dirs0 a0 opts rest inf o f1 b : command_line e f opts rest -> input_of opts = Some inf ->
  opened e f (output_of e f opts) = Some (o, f1) -> contents e f1 (baseline_path e f1 (dirs_of opts ++ dirs0) inf) = Some b ->
  (forall i, ReadXMLInput (e_asserts e) (e_ext e) b = Throw i ->
     exists s', Main_with e body (a0 :: flat opts ++ rest) (fresh f dirs0) = (s', Ok (if (-1 =? expected_of opts)%Z then 1%Z else (-1)%Z)) /\ s_files s' = f1 /\ s_stdout s' = []) /\
  (ReadXMLInput (e_asserts e) (e_ext e) b = Abort -> exists s', Main_with e body (a0 :: flat opts ++ rest) (fresh f dirs0) = (s', Abort)).
Proof.
  intros Hc Hi Eo Ec. pose proof (input_of_nonempty e f opts inf (proj1 Hc) Hi) as Hn.
  rewrite Main_with_unfold. change (set_unmatched (fresh f dirs0) (s_unmatched (fresh f dirs0) + 1)) with (set_unmatched (fresh f dirs0) 1).
  rewrite (main_with_launch e body f dirs0 a0 opts rest Hc). set (dirs := dirs_of opts ++ dirs0) in *.
  set (s0 := launched_in e f dirs0 opts). pose proof (begin_compare e s0 inf eq_refl eq_refl) as B.
  assert (Hin : s_in s0 = inf) by (cbn; rewrite Hi; reflexivity). specialize (B Hin Hn).
  change (s_files s0) with f in B. change (s_out s0) with (output_of e f opts) in B.
  change (s_path s0) with dirs in B. rewrite Eo in B. cbv zeta in B.
  set (s1 := set_os (set_files s0 f1) o) in *. set (q := baseline_path e f1 dirs inf) in *.
  destruct (can_open e f1 q) eqn:Er.
  2:{ exfalso. revert Er Ec. unfold can_open, contents. destruct (node_at e f1 q) as [[[|] w c|]|]; discriminate. }
  destruct (RegMain.readable_contents e f1 q Er) as (k & Ek & [(r & w & b' & Eb & Ec' & Ef)|(r & w & x & Eb & Ec')]); rewrite Ec' in Ec; [|discriminate Ec].
  injection Ec as ->.
  unfold mbind. rewrite B, Ek. unfold read_input. cbn [set_is s_is]. change (s_files (set_is s1 (Some k))) with f1. rewrite Eb.
  split; [intros i R|intros R]; rewrite R; cbv iota; unfold ends_with.
  - unfold finish_with. cbn [set_unmatched set_is s1 set_os set_files s_expected s_unmatched launched_in launched s0 set_path].
    destruct (-1 =? expected_of opts)%Z; cbn [negb].
    + rewrite (compare_mode_open e _ k) by reflexivity. cbn [bind]. eexists. split; [reflexivity|split; reflexivity].
    + eexists. split; [reflexivity|split; reflexivity].
  - eexists. reflexivity.
Qed.

(** * Stopping a test in the middle *)
(** the test stops after [k] steps (measurements, images, settings, printed text, generated names, written files) with an exception *)
Fixpoint icut (k : nat) (p : iprog) : iprog :=
  match k with
  | 0 => IRaise ExnRuntime
  | S k' => match p with
            | IReturn _ | IRaise _ => p
            | ICall c q => ICall c (fun r => icut k' (q r))
            | IImage f n q => IImage f n (fun r => icut k' (q r))
            | ITolerance t q => ITolerance t (icut k' q)
            | IGenerate ext root q => IGenerate ext root (fun name => icut k' (q name))
            | ISay t q => ISay t (icut k' q)
            | IRelativeTolerance t q => IRelativeTolerance t (icut k' q)
            | IExpectedReturn z q => IExpectedReturn z (icut k' q)
            | IWriteFile path bytes q => IWriteFile path bytes (icut k' q)
            end
  end.
Lemma icut_leaves e args o : forall k n p, ileaves_alone e args n o p -> ileaves_alone e args n o (icut k p).
Proof.
  induction k as [|k IH]; intros n p H; [exact I|]. destruct p; cbn [icut ileaves_alone] in *; auto.
  - destruct (GenerateFileName (e_sc e) args n ext root); auto.
  - destruct H as [H1 H2]. auto.
Qed.
Lemma icut_script sc args : forall k n p,
  (script sc args n (icut k p) = script sc args n p /\ iends sc args n (icut k p) = iends sc args n p) \/
  (exists more, script sc args n p = script sc args n (icut k p) ++ more) /\ iends sc args n (icut k p) = Throw ExnRuntime.
Proof.
  induction k as [|k IH]; intros n p; [right; split; [exists (script sc args n p)|]; reflexivity|].
  destruct p as [z|x|c q|f nm q|t q|ext root q|t q|t q|z q|path b q]; cbn [icut script iends]; auto.
  - destruct (IH n (q 0%Z)) as [[-> ->]|[[m E] ->]]; [auto|]. right. split; [exists m; rewrite E|]; reflexivity.
  - destruct (IH n (q 0%Z)) as [[-> ->]|[[m E] ->]]; [auto|]. right. split; [exists m; rewrite E|]; reflexivity.
  - destruct (GenerateFileName sc args n ext root); auto.
  - destruct (IH n q) as [[-> ->]|[[m E] ->]]; [auto|]. right. split; [exists m; rewrite E|]; reflexivity.
Qed.

(** * The document of a run *)
Lemma made_lines ie l : concat (map (fun c => print_of (imeas ie false c) ++ [nl]) (made l)) = lines_of (map (imeas ie false) (made l)).
Proof. unfold lines_of. generalize (made l). intros m. induction m as [|c m IH]; [reflexivity|]. cbn [map concat flat_map]. rewrite IH. reflexivity. Qed.
Lemma made_app a b : made (a ++ b) = made a ++ made b.
Proof. unfold made. apply flat_map_app. Qed.
Lemma itk_document ie f test a0 opts rest k f1 s1 z : let e := i_env ie in let argv := a0 :: flat opts ++ rest in let p := test (a0 :: rest) in
  command_line e f opts rest -> input_of opts = None -> opened e f (output_of e f opts) = Some (Some k, f1) -> ileaves_alone e argv 0 (Some k) p ->
  itk_Main ie test argv (new_itk_test ie f) = (s1, Ok z) ->
  written (Some k) s1 = header e ++ lines_of (map (imeas ie false) (made (script (e_sc e) argv 0 p))) ++ match iends (e_sc e) argv 0 p with Ok _ => footer | _ => [] end.
Proof.
  intros e argv p Hc Hi Ho Hl Hm.
  destruct (C55_recorded_document ie f test a0 opts rest (Some k) f1 Hc Hi Ho Hl) as (s1' & M & W & _). fold e argv p in M, W.
  assert (E1 : (s1', Ok (record_status (iends (e_sc e) argv 0 p) (iexpects (e_sc e) argv 0 (expected_of opts) p))) = (s1, Ok z)) by congruence.
  apply (f_equal fst) in E1. cbn [fst] in E1. subst s1'. rewrite W, made_lines. reflexivity.
Qed.

(** Stopped after any number of steps, a recording run leaves a beginning of the document it would have made. *)
Theorem C80_stopped_recording : forall ie f test a0 rest opts k f1 s1 z v n,
  let e := i_env ie in let argv := a0 :: flat opts ++ rest in let p := test (a0 :: rest) in
  command_line e f opts rest -> input_of opts = None -> opened e f (output_of e f opts) = Some (Some k, f1) ->
  ileaves_alone e argv 0 (Some k) p -> iends (e_sc e) argv 0 p = Ok v ->
  itk_Main ie test argv (new_itk_test ie f) = (s1, Ok z) ->
  exists s' z', itk_Main ie (fun args => icut n (test args)) argv (new_itk_test ie f) = (s', Ok z') /\
  (exists more, written (Some k) s1 = written (Some k) s' ++ more /\ (length more <> 0 -> 2 <= length more)) /\
  exists more, s_stdout s1 = s_stdout s' ++ more.
Proof.
  intros ie f test a0 rest opts k f1 s1 z v n e argv p Hc Hi Ho Hl He Hm.
  destruct (C55_recorded_document ie f test a0 opts rest (Some k) f1 Hc Hi Ho Hl) as (s1' & M & W & T). fold e argv p in M, W, T.
  assert (E1 : (s1', Ok (record_status (iends (e_sc e) argv 0 p) (iexpects (e_sc e) argv 0 (expected_of opts) p))) = (s1, Ok z)) by congruence.
  apply (f_equal fst) in E1. cbn [fst] in E1. subst s1'.
  destruct (C55_recorded_document ie f (fun args => icut n (test args)) a0 opts rest (Some k) f1 Hc Hi Ho (icut_leaves e argv (Some k) n 0%Z _ Hl)) as (s' & M' & W' & T').
  fold e argv p in M', W', T'. eexists s', _. split; [exact M'|]. rewrite W, W', T, T', He. clear W W' T T' M M'.
  destruct (icut_script (e_sc e) argv n 0%Z p) as [[E1 E2]|[[m E1] E2]]; rewrite E2.
  - rewrite E1, He. split; exists []; [|rewrite app_nil_r; reflexivity]. split; [rewrite app_nil_r; reflexivity|]. cbn. lia.
  - rewrite E1. split.
    + rewrite made_app, map_app, concat_app. exists (concat (map (fun c => print_of (imeas ie false c) ++ [nl]) (made m)) ++ footer). split; [rewrite app_nil_r, <- !app_assoc; reflexivity|]. intros _. rewrite app_length. change (length footer) with 10. lia.
    + exists (said m). unfold said. apply flat_map_app.
Qed.
Print Assumptions C80_stopped_recording.

(** A recording that is cut off anywhere before its last two characters is noticed by every run compared with it, whatever images that run would make: it
    fails with -1 (with 1 if -1 is the expected value), makes no measurement, reads no image, writes no picture and prints nothing; with assertions compiled in it
    may be aborted instead. *)
Theorem C80_cut_off_noticed : forall ie f old a0 rest opts k f1 s1 z v b t ie' f' new a0' rest' opts' inf o' f2,
  let e := i_env ie in let argv := a0 :: flat opts ++ rest in let p := old (a0 :: rest) in
  let e' := i_env ie' in let argv' := a0' :: flat opts' ++ rest' in
  (* the recording run *)
  command_line e f opts rest -> input_of opts = None -> opened e f (output_of e f opts) = Some (Some k, f1) ->
  ileaves_alone e argv 0 (Some k) p -> iends (e_sc e) argv 0 p = Ok v ->
  Forall storable (map (imeas ie false) (made (script (e_sc e) argv 0 p))) -> comment_safe (e_host e) -> comment_safe (e_time e) ->
  itk_Main ie old argv (new_itk_test ie f) = (s1, Ok z) ->
  (* what is left of its document *)
  written (Some k) s1 = b ++ t -> 2 <= length t ->
  (* the comparing run *)
  command_line e' f' opts' rest' -> input_of opts' = Some inf ->
  opened e' f' (output_of e' f' opts') = Some (o', f2) ->
  contents e' f2 (baseline_path e' f2 (dirs_of opts' ++ [i_baselines ie']) inf) = Some b -> rejects_incomplete_declaration (e_ext e') ->
  exists s2, (itk_Main ie' new argv' (new_itk_test ie' f') = (s2, Ok (if (-1 =? expected_of opts')%Z then 1%Z else (-1)%Z)) /\ s_files s2 = f2 /\ s_stdout s2 = []) \/
    (e_asserts e' = true /\ itk_Main ie' new argv' (new_itk_test ie' f') = (s2, Abort)).
Proof.
  intros ie f old a0 rest opts k f1 s1 z v b t ie' f' new a0' rest' opts' inf o' f2 e argv p e' argv' Hc Hi Ho Hl He Hs Hh Ht Hm Ew Lt Hc' Hi' Ho' Hb Hx.
  pose proof (itk_document ie f old a0 opts rest k f1 s1 z Hc Hi Ho Hl Hm) as W. fold e argv p in W. rewrite He, Ew in W.
  pose proof (prefix_rejected (e_asserts e') (e_ext e') e _ b t Hx Hh Ht Hs W Lt) as R.
  destruct (with_unreadable e' (itk_body ie' new argv') f' [i_baselines ie'] a0' opts' rest' inf o' f2 b Hc' Hi' Ho' Hb) as [A B].
  destruct R as [R|[R1 R2]].
  - destruct (A _ R) as (s2 & A1 & A2). exists s2. left. split; [exact A1|exact A2].
  - destruct (B R2) as (s2 & B1). exists s2. right. split; [exact R1|exact B1].
Qed.
Print Assumptions C80_cut_off_noticed.

(** complete measurements without the end of the document *)
Lemma unfinished_rejected (asserts : bool) ext e ms : comment_safe (e_host e) -> comment_safe (e_time e) -> Forall storable ms ->
  ReadXMLInput asserts ext (header e ++ lines_of ms) = Throw ExnRuntime.
Proof.
  intros Hh Ht Hs. rewrite read_spec. unfold expat.
  assert (S : supported_bytes (header e ++ lines_of ms) = true).
  { unfold header. rewrite !sup_app, (comment_sup _ Hh), (comment_sup _ Ht), sup_lines by exact Hs. reflexivity. }
  rewrite S.
  assert (D : header e ++ lines_of ms = xml_decl ++ ([nl] ++ before_body e) ++ ($"<output>" ++ [nl]) ++ lines_of ms) by (unfold header, before_body; rewrite <- !app_assoc; reflexivity).
  rewrite D, strip_app, (feed_step _ _ _ _ _ (feed_header e Hh Ht)).
  assert (F1 : feed pinit ($"<output>" ++ [nl]) = (PState stext [$"output"] true, [EStart ($"output") []; EData [nl]])) by reflexivity.
  rewrite (feed_step _ _ _ _ _ F1). destruct (feed_lines ($"output") [] ms 0 Hs) as [b' E2]. fold stext in E2. rewrite E2.
  cbn [pmode complete popen proot]. set (evs := [] ++ _).
  assert (O : on_events asserts pd0 evs = Ok (PD 1 [] None (map stored ms))).
  { unfold evs. cbn [app]. change (EStart ($"output") [] :: EData [nl] :: line_events ms) with ([EStart ($"output") []; EData [nl]] ++ line_events ms).
    assert (E4 : on_events asserts pd0 [EStart ($"output") []; EData [nl]] = Ok (PD 1 [] None [])) by (destruct asserts; reflexivity).
    rewrite on_events_app, E4. cbn [bind]. rewrite on_lines by exact Hs. reflexivity. }
  rewrite O. cbn [bind pm negb]. rewrite andb_false_r. reflexivity.
Qed.
(** The same for the document of a recording run whose test ended with an exception. *)
Theorem C80_exception_noticed : forall ie f old a0 rest opts k f1 s1 z i ie' f' new a0' rest' opts' inf o' f2,
  let e := i_env ie in let argv := a0 :: flat opts ++ rest in let p := old (a0 :: rest) in
  let e' := i_env ie' in let argv' := a0' :: flat opts' ++ rest' in
  command_line e f opts rest -> input_of opts = None -> opened e f (output_of e f opts) = Some (Some k, f1) ->
  ileaves_alone e argv 0 (Some k) p -> iends (e_sc e) argv 0 p = Throw i ->
  Forall storable (map (imeas ie false) (made (script (e_sc e) argv 0 p))) -> comment_safe (e_host e) -> comment_safe (e_time e) ->
  itk_Main ie old argv (new_itk_test ie f) = (s1, Ok z) ->
  command_line e' f' opts' rest' -> input_of opts' = Some inf ->
  opened e' f' (output_of e' f' opts') = Some (o', f2) ->
  contents e' f2 (baseline_path e' f2 (dirs_of opts' ++ [i_baselines ie']) inf) = Some (written (Some k) s1) ->
  exists s2, itk_Main ie' new argv' (new_itk_test ie' f') = (s2, Ok (if (-1 =? expected_of opts')%Z then 1%Z else (-1)%Z)) /\ s_files s2 = f2 /\ s_stdout s2 = [].
Proof.
  intros ie f old a0 rest opts k f1 s1 z i ie' f' new a0' rest' opts' inf o' f2 e argv p e' argv' Hc Hi Ho Hl He Hs Hh Ht Hm Hc' Hi' Ho' Hb.
  pose proof (itk_document ie f old a0 opts rest k f1 s1 z Hc Hi Ho Hl Hm) as W. fold e argv p in W. rewrite He, app_nil_r in W.
  destruct (with_unreadable e' (itk_body ie' new argv') f' [i_baselines ie'] a0' opts' rest' inf o' f2 _ Hc' Hi' Ho' Hb) as [A _]. apply (A ExnRuntime).
  rewrite W. apply unfinished_rejected; assumption.
Qed.
Print Assumptions C80_exception_noticed.
(** Without its last newline the document still is complete: the comparing run is the same with and without it. *)
Theorem C80_newline_not_needed : forall ie f old a0 rest opts k f1 s1 z v b t asserts ext,
  let e := i_env ie in let argv := a0 :: flat opts ++ rest in let p := old (a0 :: rest) in
  command_line e f opts rest -> input_of opts = None -> opened e f (output_of e f opts) = Some (Some k, f1) ->
  ileaves_alone e argv 0 (Some k) p -> iends (e_sc e) argv 0 p = Ok v ->
  Forall storable (map (imeas ie false) (made (script (e_sc e) argv 0 p))) -> comment_safe (e_host e) -> comment_safe (e_time e) ->
  itk_Main ie old argv (new_itk_test ie f) = (s1, Ok z) ->
  written (Some k) s1 = b ++ t -> length t <= 1 ->
  ReadXMLInput asserts ext b = Ok (map stored (map (imeas ie false) (made (script (e_sc e) argv 0 p)))) /\
  ReadXMLInput asserts ext (written (Some k) s1) = ReadXMLInput asserts ext b.
Proof.
  intros ie f old a0 rest opts k f1 s1 z v b t asserts ext e argv p Hc Hi Ho Hl He Hs Hh Ht Hm Ew Lt.
  pose proof (itk_document ie f old a0 opts rest k f1 s1 z Hc Hi Ho Hl Hm) as W. fold e argv p in W. rewrite He in W.
  rewrite W at 1. rewrite (read_recorded asserts ext e _ Hh Ht Hs). rewrite Ew in W.
  destruct t as [|c [|c' t]]; [| |cbn in Lt; lia].
  - rewrite app_nil_r in W. subst b. rewrite read_recorded by assumption. auto.
  - change footer with ($"</output>" ++ [nl]) in W. rewrite !app_assoc in W. apply app_inj_tail in W as [-> _]. rewrite <- app_assoc. rewrite without_newline by assumption. auto.
Qed.
Print Assumptions C80_newline_not_needed.

(** * A recording of an image and a string, killed or ended by an exception *)
Definition c80_itk (asserts : bool) : ienv := IEnv (c70_env asserts) (i_header ex_itk) (i_decode ex_itk) some_diff (i_diff_image ex_itk)
  (i_show_size ex_itk) (i_show_vector ex_itk) (i_show_slice ex_itk) (i_png ex_itk) (i_double ex_itk) ($"out") ($"base").
Definition c80_test (fails : bool) : list str -> iprog := fun _ =>
  InsightImage ($"pixels") ($"image") (fun _ => ISay ($"half way") (ICall (TextString ($"a") ($"one")) (fun _ => if fails then IRaise ExnOther else IReturn 0%Z))).
Definition c80_argv : list str := [$"prog"; $"-O"; $"b.xml"].
Local Notation c80_recorded fails := (itk_Main (c80_itk true) (c80_test fails) c80_argv (new_itk_test (c80_itk true) (fun _ => None))).
Local Notation c80_text := (written (Some ($"b.xml")) (fst (c80_recorded false))).
Local Notation c80_cut n := (firstn n c80_text).
Definition c80_image : str := match GenerateFileName true c80_argv 0 ($"mha") [] with Ok n => $"base/" ++ Tail n | _ => [] end.
Definition c80_file (b : str) : store := fun k => if eqs k c80_image then Some (FFile true false ($"pixels")) else if eqs k ($"base/b.xml") then Some (FFile true true b) else if eqs k ($"b.xml") then Some (FFile true true []) else None.
Lemma c80_safe s : forallb (fun c => negb (eqc c "-")) s = true -> forallb (fun c => xml_char c && (0 <? code c) && (code c <? 128)) s = true -> comment_safe s.
Proof.
  intros N S. split; [exact S|]. intros a b ->. rewrite !forallb_app in N. cbn in N. rewrite andb_false_r in N. discriminate N.
Qed.
Lemma c80_record : command_line (c70_env true) (fun _ => None) [($"-O", $"b.xml")] [].
Proof. split; [|exact I]. constructor; [|constructor]. split; [cbn; auto 6|]. split; discriminate. Qed.
Lemma c80_compare b : command_line (c70_env true) (c80_file b) [($"-I", $"b.xml"); ($"-R", $"1")] [].
Proof.
  split; [|exact I]. constructor; [|constructor; [|constructor]].
  - split; [cbn; auto 6|]. split; intros E; [vm_compute; auto|discriminate E].
  - split; [cbn; auto 8|]. split; intros E; [discriminate E|]. discriminate E.
Qed.

Lemma c80_stored : c80_recorded false = (fst (c80_recorded false), Ok 0%Z).
Proof. apply pair_fst. vm_compute. reflexivity. Qed.
Example C80_stopped_recording_met n := C80_stopped_recording (c80_itk true) (fun _ => None) (c80_test false) ($"prog") [] [($"-O", $"b.xml")] ($"b.xml")
  (upd (fun _ => None) ($"b.xml") (Some (FFile true true []))) (fst (c80_recorded false)) 0 0 n c80_record eq_refl eq_refl ltac:(vm_compute; repeat split; right; discriminate) ltac:(vm_compute; reflexivity) c80_stored.
Lemma c80_storable fails : Forall storable (map (imeas (c80_itk true) false) (made (script true c80_argv 0%Z (c80_test fails [$"prog"])))).
Proof. destruct fails; repeat constructor; vm_compute; intuition discriminate. Qed.
Lemma c80_rejects : rejects_incomplete_declaration (e_ext (c70_env true)).
Proof. intros p q _ _ _. reflexivity. Qed.
Lemma c80_host : comment_safe (e_host (c70_env true)). Proof. apply c80_safe; reflexivity. Qed.
Lemma c80_time : comment_safe (e_time (c70_env true)). Proof. apply c80_safe; reflexivity. Qed.
(** killed in the middle of the string *)
Example C80_cut_off_noticed_met := C80_cut_off_noticed (c80_itk true) (fun _ => None) (c80_test false) ($"prog") [] [($"-O", $"b.xml")] ($"b.xml")
  (upd (fun _ => None) ($"b.xml") (Some (FFile true true []))) (fst (c80_recorded false)) 0 0 (c80_cut 220) (skipn 220 c80_text)
  (c80_itk true) (c80_file (c80_cut 220)) (c80_test true) ($"prog") [] [($"-I", $"b.xml"); ($"-R", $"1")] ($"b.xml") None (c80_file (c80_cut 220))
  c80_record eq_refl eq_refl ltac:(vm_compute; repeat split; right; discriminate) ltac:(vm_compute; reflexivity) (c80_storable false) c80_host c80_time c80_stored
  (eq_sym (firstn_skipn 220 c80_text)) ltac:(vm_compute; lia) (c80_compare _) eq_refl eq_refl ltac:(vm_compute; reflexivity) c80_rejects.
(** after an exception *)
Lemma c80_failed : c80_recorded true = (fst (c80_recorded true), Ok (-1)%Z).
Proof. apply pair_fst. vm_compute. reflexivity. Qed.
Local Notation c80_half := (written (Some ($"b.xml")) (fst (c80_recorded true))).
Example C80_exception_noticed_met := C80_exception_noticed (c80_itk true) (fun _ => None) (c80_test true) ($"prog") [] [($"-O", $"b.xml")] ($"b.xml")
  (upd (fun _ => None) ($"b.xml") (Some (FFile true true []))) (fst (c80_recorded true)) (-1) ExnOther
  (c80_itk true) (c80_file c80_half) (c80_test false) ($"prog") [] [($"-I", $"b.xml"); ($"-R", $"1")] ($"b.xml") None (c80_file c80_half)
  c80_record eq_refl eq_refl ltac:(vm_compute; repeat split; right; discriminate) ltac:(vm_compute; reflexivity) (c80_storable true) c80_host c80_time c80_failed
  (c80_compare _) eq_refl eq_refl ltac:(vm_compute; reflexivity).
Example C80_newline_not_needed_met := C80_newline_not_needed (c80_itk true) (fun _ => None) (c80_test false) ($"prog") [] [($"-O", $"b.xml")] ($"b.xml")
  (upd (fun _ => None) ($"b.xml") (Some (FFile true true []))) (fst (c80_recorded false)) 0 0 (c80_cut (length c80_text - 1)) (skipn (length c80_text - 1) c80_text) true (e_ext (c70_env true))
  c80_record eq_refl eq_refl ltac:(vm_compute; repeat split; right; discriminate) ltac:(vm_compute; reflexivity) (c80_storable false) c80_host c80_time c80_stored
  (eq_sym (firstn_skipn (length c80_text - 1) c80_text)) ltac:(vm_compute; lia).
Local Notation c80_run asserts b := (snd (itk_Main (c80_itk asserts) (c80_test false) [$"prog"; $"-I"; $"b.xml"] (new_itk_test (c80_itk asserts) (c80_file b)))).
Example C80_case : length c80_text = 249 /\
  map (fun n => c80_run false (c80_cut n)) [0; 60; 170; 220; 247; 248; 249] = [Ok (-1); Ok (-1); Ok (-1); Ok (-1); Ok (-1); Ok 0; Ok 0]%Z /\
  map (fun n => c80_run true (c80_cut n)) [0; 60; 170; 220; 247; 248; 249] = [Ok (-1); Ok (-1); Abort; Abort; Ok (-1); Ok 0; Ok 0]%Z.
Proof. split; [|split]; vm_compute; reflexivity. Qed.

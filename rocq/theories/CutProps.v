(** C70: recordings that were interrupted. *)
From Coq Require Import Floats.SpecFloat.
From Verif Require Import Base Str Dec PathModel PathFacts MeasModel MeasFacts MeasFacts2 MeasProps XmlText XmlModel ReadModel ReadFacts ReadBack ReadProps RegModel ArgFacts ArgProps RegSpec RegFacts RegStart RegMain RegProps RegProps2 RegRound.

(** * The parser on a prefix of a document *)
(** after the document element, outside of any tag *)
Definition outside (st : pstate) : Prop := popen st = [] /\ proot st = true /\
  match pmode st with MText _ _ | MLt | MBang _ | MComment _ | MClose _ | MCloseSp _ | MBad | MOther => True | _ => False end.
Lemma outside_step st c : outside st -> outside (fst (step st c)).
Proof.
  intros (H1 & H2 & H3). destruct st as [m os r]. cbn [popen proot pmode] in *. subst os r. unfold step. cbn [pmode popen proot].
  destruct m; try contradiction; unfold outside, bad, other, go, close_elem; cbn [popen proot pmode];
    repeat match goal with
    | |- context [if ?b then _ else _] => destruct b eqn:?
    | |- context [match ?n with O => _ | S _ => _ end] => destruct n
    | |- context [match ?n with [] => _ | _ :: _ => _ end] => destruct n
    end; cbn; auto; try discriminate.
  all: repeat match goal with H : (_ && _) = true |- _ => apply andb_true_iff in H as [? H]; try discriminate H end.
Qed.
Lemma outside_feed s : forall st, outside st -> outside (fst (feed st s)).
Proof.
  induction s as [|c s IH]; intros st H; [exact H|]. cbn [feed]. pose proof (outside_step st c H) as S. destruct (step st c) as [st1 e1]. cbn [fst] in S.
  specialize (IH st1 S). destruct (feed st1 s). exact IH.
Qed.
Lemma other_feed s : forall st, pmode st = MOther -> pmode (fst (feed st s)) = MOther.
Proof.
  induction s as [|c s IH]; intros st H; [exact H|]. cbn [feed]. unfold step. rewrite H. unfold other.
  specialize (IH (PState MOther (popen st) (proot st)) eq_refl). destruct (feed _ s). exact IH.
Qed.
Lemma strip_app p s : strip_prefix p (p ++ s) = Some s.
Proof. induction p as [|c p IH]; [reflexivity|]. cbn [app strip_prefix]. rewrite eqc_refl. exact IH. Qed.

(** what an incomplete declaration gives is not part of the parser model; expat reports an error without an event *)
Definition rejects_incomplete_declaration (ext : str -> list event * bool) : Prop :=
  forall p q, p <> [] -> q <> [] -> p ++ q = xml_decl -> ext p = ([], false).
Lemma short_declaration ext k : rejects_incomplete_declaration ext -> k < length xml_decl -> expat ext (firstn k xml_decl) = ([], false).
Proof.
  intros H L. destruct k as [|k]; [reflexivity|]. destruct k as [|k]; [reflexivity|].
  assert (E : expat ext (firstn (S (S k)) xml_decl) = ext (firstn (S (S k)) xml_decl)).
  { clear H. repeat (destruct k as [|k]; [reflexivity|]). exfalso. vm_compute in L. lia. }
  rewrite E. apply (H _ (skipn (S (S k)) xml_decl)); [discriminate| |apply firstn_skipn].
  intros Q. apply (f_equal (@length ascii)) in Q. rewrite skipn_length in Q. cbn [length] in Q. lia.
Qed.

Definition cut_off (asserts : bool) (r : res (list meas)) : Prop := r = Throw ExnRuntime \/ asserts = true /\ r = Abort.
Definition pending (p : pdata) : bool := negb (match pm p with None => true | _ => false end).
Lemma rejected (asserts : bool) ext b evs p : expat ext b = (evs, false) -> on_events asserts pd0 evs = Ok p -> cut_off asserts (ReadXMLInput asserts ext b).
Proof.
  intros E O. rewrite read_spec, E, O. cbn [bind]. fold (pending p). destruct asserts; cbn [andb]; [|left; reflexivity].
  destruct (pending p); [right; auto|left; reflexivity].
Qed.
(** at least two characters missing at the end *)
Lemma prefix_rejected (asserts : bool) ext e ms b t : rejects_incomplete_declaration ext ->
  comment_safe (e_host e) -> comment_safe (e_time e) -> Forall storable ms ->
  b ++ t = header e ++ lines_of ms ++ footer -> 2 <= length t -> cut_off asserts (ReadXMLInput asserts ext b).
Proof.
  intros Hx Hh Ht Hm E L.
  set (Y := [nl] ++ before_body e ++ $"<output>" ++ [nl] ++ lines_of ms ++ $"</output").
  assert (D : header e ++ lines_of ms ++ footer = xml_decl ++ Y ++ [">"%char; nl]).
  { unfold header, footer, Y, before_body. rewrite <- !app_assoc. reflexivity. }
  rewrite D in E. clear D.
  assert (SY : supported_bytes (xml_decl ++ Y) = true).
  { unfold Y, before_body. rewrite !sup_app, (comment_sup _ Hh), (comment_sup _ Ht), sup_lines by exact Hm. reflexivity. }
  (* the events up to there *)
  destruct (feed_lines ($"output") [] ms 0 Hm) as [b' E2]. fold stext in E2.
  assert (FY : feed pinit Y = (PState (MClose ($"output")) [$"output"] true, [EStart ($"output") []; EData [nl]] ++ line_events ms)).
  { unfold Y. rewrite (app_assoc [nl]), (feed_step _ _ _ _ _ (feed_header e Hh Ht)).
    assert (E1 : feed pinit ($"<output>" ++ [nl]) = (PState stext [$"output"] true, [EStart ($"output") []; EData [nl]])) by reflexivity.
    rewrite (app_assoc ($"<output>")), (feed_step _ _ _ _ _ E1), (feed_step _ _ _ _ _ E2).
    assert (E3 : feed (PState (MText b' false) [$"output"] true) ($"</output") = (PState (MClose ($"output")) [$"output"] true, [])) by reflexivity.
    rewrite E3, app_nil_r. reflexivity. }
  assert (OY : on_events asserts pd0 ([EStart ($"output") []; EData [nl]] ++ line_events ms) = Ok (PD 1 [] None (map stored ms))).
  { assert (E4 : on_events asserts pd0 [EStart ($"output") []; EData [nl]] = Ok (PD 1 [] None [])) by (destruct asserts; reflexivity).
    rewrite on_events_app, E4. cbn [bind]. rewrite on_lines by exact Hm. reflexivity. }
  (* where the cut is *)
  assert (B : b = firstn (length b) (xml_decl ++ Y)).
  { apply (f_equal (firstn (length b))) in E as E'. rewrite firstn_app, Nat.sub_diag, firstn_all in E'. cbn [firstn] in E'. rewrite app_nil_r in E'.
    rewrite app_assoc, firstn_app in E'. apply (f_equal (@length ascii)) in E. rewrite app_assoc, (app_length (xml_decl ++ Y)), app_length in E. cbn [length] in E.
    replace (length b - length (xml_decl ++ Y)) with 0 in E' by lia. cbn [firstn] in E'. rewrite app_nil_r in E'. exact E'. }
  assert (Lb : length b <= length (xml_decl ++ Y)).
  { apply (f_equal (@length ascii)) in E. rewrite app_assoc, (app_length (xml_decl ++ Y)), app_length in E. cbn [length] in E. lia. }
  destruct (Nat.lt_ge_cases (length b) (length xml_decl)) as [Q|Q].
  - assert (Eb : b = firstn (length b) xml_decl).
    { rewrite B at 1. rewrite firstn_app. replace (length b - length xml_decl) with 0 by lia. cbn [firstn]. apply app_nil_r. }
    rewrite Eb. apply (rejected asserts ext _ [] pd0); [apply short_declaration; assumption|reflexivity].
  - rewrite firstn_app, firstn_all2 in B by exact Q. set (b1 := firstn (length b - length xml_decl) Y) in *.
    assert (EY : Y = b1 ++ skipn (length b - length xml_decl) Y) by (unfold b1; symmetry; apply firstn_skipn).
    set (t1 := skipn (length b - length xml_decl) Y) in *.
    destruct (feed pinit b1) as [st ev] eqn:Fb. pose proof FY as FY'. rewrite EY, (feed_step _ _ _ _ _ Fb) in FY'.
    destruct (feed st t1) as [st2 ev2] eqn:Ft. pose proof (f_equal fst FY') as Es. pose proof (f_equal snd FY') as Ev. cbn [fst snd] in Es, Ev.
    assert (Ob : exists p, on_events asserts pd0 ev = Ok p).
    { rewrite <- Ev, on_events_app in OY.
      destruct (on_events asserts pd0 ev) as [p| | | |]; try discriminate OY. eauto. }
    destruct Ob as [p Ob]. apply (rejected asserts ext b ev p); [|exact Ob].
    unfold expat. rewrite EY, app_assoc, <- B, sup_app in SY. apply andb_true_iff in SY as [-> _].
    rewrite B, strip_app, Fb.
    destruct (pmode st) eqn:Pm; try (f_equal; unfold complete; rewrite Pm; reflexivity).
    + f_equal. unfold complete. rewrite Pm. destruct (popen st) eqn:Po; [|reflexivity]. destruct (proot st) eqn:Pr; [|reflexivity]. exfalso.
      assert (O : outside st) by (repeat split; try assumption; rewrite Pm; exact I). pose proof (outside_feed t1 st O) as (O1 & _). rewrite Ft in O1. cbn [fst] in O1.
      rewrite Es in O1. discriminate O1.
    + exfalso. pose proof (other_feed t1 st Pm) as O1. rewrite Ft in O1. cbn [fst] in O1. rewrite Es in O1. discriminate O1.
Qed.
(** only the last newline missing: everything is there *)
Lemma without_newline (asserts : bool) ext e ms : comment_safe (e_host e) -> comment_safe (e_time e) -> Forall storable ms ->
  ReadXMLInput asserts ext (header e ++ lines_of ms ++ $"</output>") = Ok (map stored ms).
Proof.
  intros Hh Ht Hm. pose proof (read_recorded asserts ext e ms Hh Ht Hm) as R. revert R. rewrite !read_spec. unfold expat.
  set (X := [nl] ++ before_body e ++ $"<output>" ++ [nl] ++ lines_of ms ++ $"</output>").
  assert (D : header e ++ lines_of ms ++ footer = xml_decl ++ X ++ [nl]).
  { unfold header, footer, X, before_body. rewrite <- !app_assoc. reflexivity. }
  assert (D' : header e ++ lines_of ms ++ $"</output>" = xml_decl ++ X).
  { unfold header, footer, X, before_body. rewrite <- !app_assoc. reflexivity. }
  rewrite D, D', !strip_app.
  assert (S : supported_bytes (xml_decl ++ X) = true).
  { unfold X, before_body. rewrite !sup_app, (comment_sup _ Hh), (comment_sup _ Ht), sup_lines by exact Hm. reflexivity. }
  rewrite (app_assoc xml_decl), (sup_app (xml_decl ++ X)), S. cbn [andb supported_bytes forallb].
  destruct (feed_lines ($"output") [] ms 0 Hm) as [b' E2]. fold stext in E2.
  assert (F : exists ev, feed pinit X = (PState stext [] true, ev)).
  { unfold X. rewrite (app_assoc [nl]), (feed_step _ _ _ _ _ (feed_header e Hh Ht)).
    assert (E1 : feed pinit ($"<output>" ++ [nl]) = (PState stext [$"output"] true, [EStart ($"output") []; EData [nl]])) by reflexivity.
    rewrite (app_assoc ($"<output>")), (feed_step _ _ _ _ _ E1), (feed_step _ _ _ _ _ E2).
    assert (E3 : feed (PState (MText b' false) [$"output"] true) ($"</output>") = (PState stext [] true, [EEnd ($"output")])) by reflexivity.
    rewrite E3. eexists. reflexivity. }
  destruct F as [ev F]. rewrite (feed_step _ _ _ _ _ F), F.
  assert (N : feed (PState stext [] true) [nl] = (PState stext [] true, [])) by reflexivity. rewrite N, app_nil_r. intros R. exact R.
Qed.

(** * Runs against a baseline that cannot be read *)
Lemma main_unreadable e f test a0 opts rest inf o f1 b : command_line e f opts rest -> input_of opts = Some inf ->
  opened e f (output_of e f opts) = Some (o, f1) -> contents e f1 (baseline_path e f1 (dirs_of opts) inf) = Some b ->
  (forall i, ReadXMLInput (e_asserts e) (e_ext e) b = Throw i ->
     exists s', Main e test (a0 :: flat opts ++ rest) (new_test f) = (s', Ok (if (-1 =? expected_of opts)%Z then 1%Z else (-1)%Z)) /\ s_files s' = f1 /\ s_stdout s' = []) /\
  (ReadXMLInput (e_asserts e) (e_ext e) b = Abort -> exists s', Main e test (a0 :: flat opts ++ rest) (new_test f) = (s', Abort)).
Proof.
  intros Hc Hi Eo Ec. pose proof (input_of_nonempty e f opts inf (proj1 Hc) Hi) as Hn.
  rewrite Main_unfold, (main_body_launch e f test a0 opts rest Hc).
  pose proof (begin_compare e (launched e f opts) inf eq_refl eq_refl) as B.
  assert (Hin : s_in (launched e f opts) = inf) by (cbn; rewrite Hi; reflexivity). specialize (B Hin Hn).
  change (s_files (launched e f opts)) with f in B. change (s_out (launched e f opts)) with (output_of e f opts) in B.
  change (s_path (launched e f opts)) with (dirs_of opts) in B. rewrite Eo in B. cbv zeta in B.
  set (s1 := set_os (set_files (launched e f opts) f1) o) in *. set (q := baseline_path e f1 (dirs_of opts) inf) in *.
  destruct (can_open e f1 q) eqn:Er.
  2:{ exfalso. revert Er Ec. unfold can_open, contents. destruct (node_at e f1 q) as [[[|] w c|]|]; discriminate. }
  destruct (readable_contents e f1 q Er) as (k & Ek & [(r & w & b' & Eb & Ec' & Ef)|(r & w & x & Eb & Ec')]); rewrite Ec' in Ec; [|discriminate Ec].
  injection Ec as ->.
  unfold mbind. rewrite B, Ek. unfold read_input. cbn [set_is s_is]. change (s_files (set_is s1 (Some k))) with f1. rewrite Eb.
  split; [intros i R|intros R]; rewrite R; cbv iota.
  - unfold finish. cbn [set_unmatched set_is s1 set_os set_files s_expected s_unmatched launched].
    destruct (-1 =? expected_of opts)%Z; cbn [negb].
    + rewrite (compare_mode_open e _ k) by reflexivity. cbn [bind]. eexists. split; [reflexivity|split; reflexivity].
    + eexists. split; [reflexivity|split; reflexivity].
  - eexists. reflexivity.
Qed.

(** * Stopping a test in the middle *)
(** the test stops after [k] steps (measurements, settings, written files) with an exception *)
Fixpoint cut (k : nat) (p : prog) : prog :=
  match k with
  | 0 => Raise ExnRuntime
  | S k' => match p with
            | Return _ | Raise _ => p
            | Call c q => Call c (fun r => cut k' (q r))
            | SetRelativeTolerance t q => SetRelativeTolerance t (cut k' q)
            | SetExpectedReturn z q => SetExpectedReturn z (cut k' q)
            | WriteFile path bytes q => WriteFile path bytes (cut k' q)
            end
  end.
Lemma cut_leaves e o : forall k p, leaves_alone e o p -> leaves_alone e o (cut k p).
Proof.
  induction k as [|k IH]; intros p H; [exact I|]. destruct p; cbn [cut leaves_alone] in *; auto.
  destruct H as [H1 H2]. auto.
Qed.
Lemma cut_records : forall k p,
  (recorded (cut k p) = recorded p /\ ends (cut k p) = ends p) \/
  (exists more, recorded p = recorded (cut k p) ++ more) /\ ends (cut k p) = Throw ExnRuntime.
Proof.
  induction k as [|k IH]; intros p; [right; split; [exists (recorded p)|]; reflexivity|].
  destruct p as [z|i|c q|t q|z q|path b q]; cbn [cut recorded ends]; auto.
  destruct (IH (q 0%Z)) as [[-> ->]|[[m E] ->]]; [auto|]. right. split; [exists m; rewrite E|]; reflexivity.
Qed.

(** Stopped after any number of steps, a recording run leaves a beginning of the document it would have made. *)
Theorem C70_stopped_recording : forall e f test a0 rest opts o f1 s1 z n k,
  command_line e f opts rest -> input_of opts = None -> opened e f (output_of e f opts) = Some (o, f1) ->
  leaves_alone e o (test (a0 :: rest)) -> ends (test (a0 :: rest)) = Ok n ->
  Main e test (a0 :: flat opts ++ rest) (new_test f) = (s1, Ok z) ->
  exists s' z', Main e (fun args => cut k (test args)) (a0 :: flat opts ++ rest) (new_test f) = (s', Ok z') /\
  exists more, written o s1 = written o s' ++ more /\ (length more <> 0 -> 2 <= length more).
Proof.
  intros e f test a0 rest opts o f1 s1 z n k Hc Hi Ho Hl He Hm.
  destruct (C44_recorded_document e f test a0 opts rest o f1 Hc Hi Ho Hl) as (s & z' & ps & M & P & W).
  assert (E1 : (s, Ok z') = (s1, Ok z)) by congruence. apply (f_equal fst) in E1. cbn [fst] in E1. subst s.
  destruct (C44_recorded_document e f (fun args => cut k (test args)) a0 opts rest o f1 Hc Hi Ho (cut_leaves e o k _ Hl)) as (s & z2 & ps' & M' & P' & W').
  exists s, z2. split; [exact M'|]. rewrite He in W. rewrite (lines_prints _ _ P) in W. rewrite (lines_prints _ _ P') in W'. rewrite W, W'.
  destruct (cut_records k (test (a0 :: rest))) as [[E1 E2]|[[m E1] E2]]; rewrite E2.
  - rewrite E1, He. exists []. split; [rewrite app_nil_r; reflexivity|]. cbn. lia.
  - rewrite E1, map_app. unfold lines_of at 1. rewrite flat_map_app. fold (lines_of (map (meas_of (e_io e) false) (recorded (cut k (test (a0 :: rest)))))).
    exists (lines_of (map (meas_of (e_io e) false) m) ++ footer). split; [rewrite app_nil_r, <- !app_assoc; reflexivity|]. intros _. rewrite app_length. change (length footer) with 10. lia.
Qed.
Print Assumptions C70_stopped_recording.

(** A recording that is cut off anywhere before its last two characters is noticed by every run compared with it: the run fails with -1 (with 1 if -1 is
    the expected value), makes no measurement and no output; with assertions compiled in it may be aborted instead. *)
Theorem C70_cut_off_noticed : forall e f old a0 rest opts o f1 s1 z b t e' f' new a0' rest' opts' inf o' f2,
  (* the recording run *)
  command_line e f opts rest -> input_of opts = None -> opened e f (output_of e f opts) = Some (o, f1) ->
  leaves_alone e o (old (a0 :: rest)) -> (exists k, ends (old (a0 :: rest)) = Ok k) ->
  Forall storable (map (meas_of (e_io e) false) (recorded (old (a0 :: rest)))) -> comment_safe (e_host e) -> comment_safe (e_time e) ->
  Main e old (a0 :: flat opts ++ rest) (new_test f) = (s1, Ok z) ->
  (* what is left of its document *)
  written o s1 = b ++ t -> 2 <= length t ->
  (* the comparing run *)
  command_line e' f' opts' rest' -> input_of opts' = Some inf ->
  opened e' f' (output_of e' f' opts') = Some (o', f2) ->
  contents e' f2 (baseline_path e' f2 (dirs_of opts') inf) = Some b -> rejects_incomplete_declaration (e_ext e') ->
  exists s2, (Main e' new (a0' :: flat opts' ++ rest') (new_test f') = (s2, Ok (if (-1 =? expected_of opts')%Z then 1%Z else (-1)%Z)) /\ s_files s2 = f2 /\ s_stdout s2 = []) \/
    (e_asserts e' = true /\ Main e' new (a0' :: flat opts' ++ rest') (new_test f') = (s2, Abort)).
Proof.
  intros e f old a0 rest opts o f1 s1 z b t e' f' new a0' rest' opts' inf o' f2 Hc Hi Ho Hl [k He] Hs Hh Ht Hm Ew Lt Hc' Hi' Ho' Hb Hx.
  destruct (C44_recorded_document e f old a0 opts rest o f1 Hc Hi Ho Hl) as (s & z' & ps & M & P & W).
  assert (E1 : (s, Ok z') = (s1, Ok z)) by congruence. apply (f_equal fst) in E1. cbn [fst] in E1. subst s.
  rewrite He, (lines_prints _ _ P), Ew in W.
  pose proof (prefix_rejected (e_asserts e') (e_ext e') e _ b t Hx Hh Ht Hs W Lt) as R.
  destruct (main_unreadable e' f' new a0' opts' rest' inf o' f2 b Hc' Hi' Ho' Hb) as [A B].
  destruct R as [R|[R1 R2]].
  - destruct (A _ R) as (s2 & A1 & A2). exists s2. left. auto.
  - destruct (B R2) as (s2 & B1). exists s2. right. auto.
Qed.
Print Assumptions C70_cut_off_noticed.
(** The same for the document of a recording run whose test ended with an exception. *)
Theorem C70_exception_noticed : forall e f old a0 rest opts o f1 s1 z i e' f' new a0' rest' opts' inf o' f2,
  command_line e f opts rest -> input_of opts = None -> opened e f (output_of e f opts) = Some (o, f1) ->
  leaves_alone e o (old (a0 :: rest)) -> ends (old (a0 :: rest)) = Throw i ->
  Forall storable (map (meas_of (e_io e) false) (recorded (old (a0 :: rest)))) -> comment_safe (e_host e) -> comment_safe (e_time e) ->
  Main e old (a0 :: flat opts ++ rest) (new_test f) = (s1, Ok z) ->
  command_line e' f' opts' rest' -> input_of opts' = Some inf ->
  opened e' f' (output_of e' f' opts') = Some (o', f2) ->
  contents e' f2 (baseline_path e' f2 (dirs_of opts') inf) = Some (written o s1) -> rejects_incomplete_declaration (e_ext e') ->
  exists s2, Main e' new (a0' :: flat opts' ++ rest') (new_test f') = (s2, Ok (if (-1 =? expected_of opts')%Z then 1%Z else (-1)%Z)) /\ s_files s2 = f2 /\ s_stdout s2 = [].
Proof.
  intros e f old a0 rest opts o f1 s1 z i e' f' new a0' rest' opts' inf o' f2 Hc Hi Ho Hl He Hs Hh Ht Hm Hc' Hi' Ho' Hb Hx.
  destruct (C44_recorded_document e f old a0 opts rest o f1 Hc Hi Ho Hl) as (s & z' & ps & M & P & W).
  assert (E1 : (s, Ok z') = (s1, Ok z)) by congruence. apply (f_equal fst) in E1. cbn [fst] in E1. subst s.
  rewrite He, (lines_prints _ _ P), app_nil_r in W. set (ms := map (meas_of (e_io e) false) (recorded (old (a0 :: rest)))) in *.
  destruct (main_unreadable e' f' new a0' opts' rest' inf o' f2 _ Hc' Hi' Ho' Hb) as [A _]. apply (A ExnRuntime). rewrite W.
  (* complete measurements only: nothing is pending *)
  rewrite read_spec. unfold expat.
  assert (S : supported_bytes (header e ++ lines_of ms) = true).
  { unfold header. rewrite !sup_app, (comment_sup _ Hh), (comment_sup _ Ht), sup_lines by exact Hs. reflexivity. }
  rewrite S.
  assert (D : header e ++ lines_of ms = xml_decl ++ ([nl] ++ before_body e) ++ ($"<output>" ++ [nl]) ++ lines_of ms) by (unfold header, before_body; rewrite <- !app_assoc; reflexivity).
  rewrite D, strip_app, (feed_step _ _ _ _ _ (feed_header e Hh Ht)).
  assert (F1 : feed pinit ($"<output>" ++ [nl]) = (PState stext [$"output"] true, [EStart ($"output") []; EData [nl]])) by reflexivity.
  rewrite (feed_step _ _ _ _ _ F1). destruct (feed_lines ($"output") [] ms 0 Hs) as [b' E2]. fold stext in E2. rewrite E2.
  cbn [pmode complete popen proot]. set (evs := [] ++ _).
  assert (O : on_events (e_asserts e') pd0 evs = Ok (PD 1 [] None (map stored ms))).
  { unfold evs. cbn [app]. change (EStart ($"output") [] :: EData [nl] :: line_events ms) with ([EStart ($"output") []; EData [nl]] ++ line_events ms).
    assert (E4 : on_events (e_asserts e') pd0 [EStart ($"output") []; EData [nl]] = Ok (PD 1 [] None [])) by (destruct (e_asserts e'); reflexivity).
    rewrite on_events_app, E4. cbn [bind]. rewrite on_lines by exact Hs. reflexivity. }
  rewrite O. cbn [bind pm negb]. rewrite andb_false_r. reflexivity.
Qed.
Print Assumptions C70_exception_noticed.
(** Without its last newline the document still is complete. *)
Theorem C70_newline_not_needed : forall e f old a0 rest opts o f1 s1 z b t asserts ext,
  command_line e f opts rest -> input_of opts = None -> opened e f (output_of e f opts) = Some (o, f1) ->
  leaves_alone e o (old (a0 :: rest)) -> (exists k, ends (old (a0 :: rest)) = Ok k) ->
  Forall storable (map (meas_of (e_io e) false) (recorded (old (a0 :: rest)))) -> comment_safe (e_host e) -> comment_safe (e_time e) ->
  Main e old (a0 :: flat opts ++ rest) (new_test f) = (s1, Ok z) ->
  written o s1 = b ++ t -> length t <= 1 -> 
  ReadXMLInput asserts ext b = Ok (map stored (map (meas_of (e_io e) false) (recorded (old (a0 :: rest))))).
Proof.
  intros e f old a0 rest opts o f1 s1 z b t asserts ext Hc Hi Ho Hl [k He] Hs Hh Ht Hm Ew Lt.
  destruct (C44_recorded_document e f old a0 opts rest o f1 Hc Hi Ho Hl) as (s & z' & ps & M & P & W).
  assert (E1 : (s, Ok z') = (s1, Ok z)) by congruence. apply (f_equal fst) in E1. cbn [fst] in E1. subst s.
  rewrite He, (lines_prints _ _ P), Ew in W. destruct t as [|c [|c' t]]; [| |cbn in Lt; lia].
  - rewrite app_nil_r in W. subst b. apply read_recorded; assumption.
  - change footer with ($"</output>" ++ [nl]) in W. rewrite !app_assoc in W. apply app_inj_tail in W as [-> _]. rewrite <- app_assoc. apply without_newline; assumption.
Qed.
Print Assumptions C70_newline_not_needed.

(** a recording killed inside the second measurement *)
Definition ex_recording : list str -> prog := fun _ =>
  Call (TextString ($"a") ($"one")) (fun _ => Call (TextPlain ($"two lines") ($"two")) (fun _ => Return 0)).
Local Notation c70_recorded := (fst (Main ex_env ex_recording [$"prog"; $"-O"; $"b.xml"] (new_test (fun _ => None)))).
Local Notation c70_text := (written (Some ($"b.xml")) c70_recorded).
Definition c70_file (b : str) : store := fun k => if eqs k ($"b.xml") then Some (FFile true true b) else None.
Definition c70_env (asserts : bool) : env := Env true asserts None (e_io ex_env) (fun _ => ([], false)) (fun p => p) (fun _ => true) ($"host") ($"now").
Example C70_case :
  Forall storable (map (meas_of (e_io ex_env) false) (recorded (ex_recording [$"prog"]))) /\ rejects_incomplete_declaration (e_ext (c70_env true)) /\
  (let b := firstn 160 c70_text in c70_text = b ++ skipn 160 c70_text /\ 2 <= length (skipn 160 c70_text) /\
   contents ex_env (c70_file b) (baseline_path ex_env (c70_file b) [] ($"b.xml")) = Some b) /\
  (forall b, command_line (c70_env false) (c70_file b) [($"-I", $"b.xml")] []) /\
  (let run asserts b := snd (Main (c70_env asserts) ex_recording [$"prog"; $"-I"; $"b.xml"] (new_test (c70_file b))) in
   map (fun k => run false (firstn k c70_text)) [0; 10; 60; 100; 160; 200; 233; 234; 235] = [Ok (-1); Ok (-1); Ok (-1); Ok (-1); Ok (-1); Ok (-1); Ok (-1); Ok 0; Ok 0]%Z /\
   map (fun k => run true (firstn k c70_text)) [0; 60; 200; 233; 234] = [Ok (-1); Ok (-1); Abort; Ok (-1); Ok 0]%Z).
Proof.
  split; [repeat constructor|]. split; [intros p q _ _ _; reflexivity|]. split; [|split; [|split; vm_compute; reflexivity]].
  - split; [symmetry; apply firstn_skipn|]. split; [vm_compute; lia|vm_compute; reflexivity].
  - intros b. split; [|exact I]. constructor; [|constructor]. split; [cbn; auto|]. split; intros E; [vm_compute; auto|discriminate E].
Qed.

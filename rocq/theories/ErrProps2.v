(** C77: the messages of the reader; a run compared with its own recording is silent. *)
From Coq Require Import Floats.SpecFloat.
From Verif Require Import Base Str Dec B64Model PathModel PathFacts MeasModel MeasFacts DiffModel VisitModel XmlText XmlModel ReadModel ReadFacts ReadBack ReadProps ElemProps RegModel ArgFacts ArgProps RegSpec RegFacts RegStart RegMain RegProps RegProps2 RegRound RegProps3 LineSpec FullProps FileProps HeapFacts HeapXml ErrModel ErrFacts ErrSpec ErrReader ErrRun ErrProps.

(** * The reader *)
(** A baseline that is read without a crash: each fault of a start tag is reported, nothing else is, in the order of the document; last the XML error, if there is one. *)
Theorem C77_reader_messages : forall asserts ext file, let '(evs, ok) := expat ext file in
  (exists l, ReadXMLInput asserts ext file = Ok l) \/ (exists i, ReadXMLInput asserts ext file = Throw i) ->
  exists faults, reading evs faults /\ read_says asserts ext file = faults ++ (if ok then [] else [ParseError]).
Proof.
  intros asserts ext file. destruct (expat ext file) as [evs ok] eqn:Ex. intros H. exists (says_from 0 evs). split; [apply read_reading|].
  assert (P : exists p, on_events asserts pd0 evs = Ok p).
  { destruct H as [[l H]|[i H]]; [destruct (read_ok _ _ _ _ H) as (p & E & _)|destruct (read_throws _ _ _ _ H) as (p & E & _)]; rewrite Ex in E; eauto. }
  destruct P as [p P]. apply (read_says_spec _ _ _ _ _ _ Ex P).
Qed.
Print Assumptions C77_reader_messages.

(** The reader accepts a document in silence exactly when it is written in the dialect of the framework; then every element stands for its measurement, none is dropped
    but the data elements without type. *)
Theorem C77_silent_reader : forall asserts ext file l, reported (ext file) -> ReadXMLInput asserts ext file = Ok l ->
  (read_says asserts ext file = [] <-> exists its, in_dialect (fst (expat ext file)) its) /\
  (forall its, in_dialect (fst (expat ext file)) its -> exists ls, Forall2 makes its ls /\ l = concat ls).
Proof.
  intros asserts ext file l Hr H. destruct (read_ok _ _ _ _ H) as (p & Ep & Eo & Pl). pose proof (expat_well_formed ext file Hr Eo) as [W D].
  destruct (expat ext file) as [evs ok] eqn:Ex. cbn [fst snd] in *. subst ok. rewrite (read_says_spec _ _ _ _ _ _ Ex Ep), app_nil_r. split; [apply silent_dialect; exact W|].
  intros its I. destruct (dialect_read asserts evs its p I D Ep) as (ls & F & ->). exists ls. split; [exact F|]. symmetry. exact Pl.
Qed.
Print Assumptions C77_silent_reader.

(** * The framework's own documents *)
Lemma back_events ext pre pre' ms :
  Forall storable ms -> supported_bytes pre = true ->
  (forall r, strip_prefix xml_decl (pre ++ $"<output>" ++ r) = Some (pre' ++ $"<output>" ++ r) \/
             pre' = pre /\ strip_prefix xml_decl (pre ++ $"<output>" ++ r) = None) ->
  feed pinit pre' = (pinit, []) ->
  fst (expat ext (pre ++ $"<output>" ++ [nl] ++ lines_of ms ++ $"</output>" ++ [nl])) = EStart ($"output") [] :: EData [nl] :: line_events ms ++ [EEnd ($"output")].
Proof.
  intros H Hs Hp Hf. unfold expat.
  rewrite !sup_app, Hs, sup_lines by exact H.
  change (supported_bytes ($"<output>")) with true. change (supported_bytes [nl]) with true. change (supported_bytes ($"</output>")) with true.
  cbn [andb].
  assert (E : (match strip_prefix xml_decl (pre ++ $"<output>" ++ [nl] ++ lines_of ms ++ $"</output>" ++ [nl]) with
               | Some r => r | None => pre ++ $"<output>" ++ [nl] ++ lines_of ms ++ $"</output>" ++ [nl] end)
              = pre' ++ $"<output>" ++ [nl] ++ lines_of ms ++ $"</output>" ++ [nl]).
  { destruct (Hp ([nl] ++ lines_of ms ++ $"</output>" ++ [nl])) as [-> | [-> ->]]; reflexivity. }
  rewrite E. rewrite (feed_step _ _ _ _ _ Hf).
  assert (E1 : feed pinit ($"<output>" ++ [nl]) = (PState stext [$"output"] true, [EStart ($"output") []; EData [nl]])) by reflexivity.
  rewrite (app_assoc ($"<output>")), (feed_step _ _ _ _ _ E1).
  destruct (feed_lines ($"output") [] ms 0 H) as [b E2]. fold stext in E2. rewrite (feed_step _ _ _ _ _ E2).
  assert (E3 : feed (PState (MText b false) [$"output"] true) ($"</output>" ++ [nl]) = (PState stext [] true, [EEnd ($"output")])) by reflexivity.
  rewrite E3. reflexivity.
Qed.
Lemma recorded_events ext e ms : comment_safe (e_host e) -> comment_safe (e_time e) -> Forall storable ms ->
  fst (expat ext (header e ++ lines_of ms ++ footer)) = EStart ($"output") [] :: EData [nl] :: line_events ms ++ [EEnd ($"output")].
Proof.
  intros Hh Ht Hm.
  assert (E : header e ++ lines_of ms ++ footer = (xml_decl ++ [nl] ++ before_body e) ++ $"<output>" ++ [nl] ++ lines_of ms ++ $"</output>" ++ [nl]).
  { unfold header, footer, before_body. rewrite <- !app_assoc. reflexivity. }
  rewrite E. apply (back_events ext _ ([nl] ++ before_body e)); [exact Hm| | |].
  - unfold before_body. rewrite !sup_app, (comment_sup _ Hh), (comment_sup _ Ht). reflexivity.
  - intros r. left. rewrite <- !app_assoc. reflexivity.
  - apply feed_header; assumption.
Qed.
Lemma chars_silent t d r : says_from d (map (fun c => EData [c]) t ++ r) = says_from d r.
Proof. induction t as [|c t IH]; [reflexivity|]. exact IH. Qed.
Lemma start_silent m : start_says 1 (melem m) (ReadBack.attrs_of m) = [].
Proof.
  destruct m as [d|f]; [|reflexivity]. cbn [melem ReadBack.attrs_of]. unfold start_says. change (eqs data_elem data_elem) with true. cbv iota.
  assert (T : CreateDataMeasurement (type_of (dcls d)) = Some (dcls d)) by (destruct (dcls d); reflexivity).
  set (t := type_of (dcls d)) in *. clearbody t. destruct (eqs (denc d) default_enc), (eqs (dcomp d) default_comp); cbn [app type_says attrs_say]; cbn -[CreateDataMeasurement]; rewrite T; reflexivity.
Qed.
Lemma lines_silent ms r : says_from 1 (line_events ms ++ r) = says_from 1 r.
Proof.
  induction ms as [|m ms IH]; [reflexivity|]. unfold line_events. cbn [flat_map]. fold (line_events ms). unfold events_of. cbn [app says_from]. rewrite start_silent. cbn [app].
  rewrite <- !app_assoc. rewrite chars_silent. cbn [app says_from pred]. exact IH.
Qed.
Lemma recorded_silent ext e ms l : comment_safe (e_host e) -> comment_safe (e_time e) -> Forall storable ms -> reading (fst (expat ext (header e ++ lines_of ms ++ footer))) l -> l = [].
Proof.
  intros Hh Ht Hm R. rewrite (recorded_events ext e ms Hh Ht Hm) in R. destruct l as [|m l]; [reflexivity|]. exfalso.
  pose proof (proj1 (R m) (or_introl eq_refl)) as X. apply (says_from_in _ 0) in X. cbn [says_from start_says] in X. rewrite eqs_refl in X. cbn [app] in X. rewrite lines_silent in X. exact X.
Qed.

(** * Comparing with a recording of the same values *)
Lemma reproducible_silent dir e dirs t f c y : reproducible e dirs t f c -> ~ remark dir e (found e dirs f (stored (meas_of (e_io e) false c)) (meas_of (e_io e) true c)) (c, t, f) y.
Proof.
  intros H R.
  assert (NF : forall d, raw d -> ~ flaw (e_sc e) d y) by (intros d [A B] F; destruct F as [N|N _|N _ _]; [exact (N B)|exact (N A)|rewrite A in N; discriminate N]).
  destruct (meas_of (e_io e) true c) as [x|h] eqn:Em.
  - assert (K : exists d, stored (meas_of (e_io e) false c) = MD d /\ raw d) by (destruct c; try discriminate Em; eexists; split; try reflexivity; split; reflexivity).
    destruct K as (d & K & Rd). rewrite K in R. cbn [found] in R. inversion R; subst; try discriminate; try (rewrite Em in *; discriminate).
    match goal with A : MD _ = MD _ |- _ => injection A as <- end. exact (NF d Rd ltac:(assumption)).
  - destruct c as [| |file n| | | | | |]; try discriminate Em; try contradiction. cbn [reproducible] in H. destruct H as (b & H1 & H2).
    assert (K : found e dirs f (stored (meas_of (e_io e) false (FileTextPlain file n))) (MF h) = MF (Mf n true ($"text/plain") (baseline_path e f dirs (Tail file)))).
    { cbn [meas_of]. unfold file_meas. cbn [stored found ffile]. rewrite tail_tail. unfold baseline_path. destruct (SearchPathList _ _ _) as [[|c p]| | | |]; reflexivity. }
    rewrite K in R. injection Em as <-.
    assert (S1 : sources e f file = Bytes b) by (rewrite <- sources_at; exact (sources_cstr _ _ _ _ H1)).
    assert (S2 : sources e f (baseline_path e f dirs (Tail file)) = Bytes b) by (rewrite <- sources_at; exact (sources_cstr _ _ _ _ H2)).
    assert (NO : forall g, ftype g = $"text/plain" -> sources e f (ffile g) = Bytes b -> ~ opening dir e f (ftype g) (ffile g) y).
    { intros g T S O. destruct O as [M|U _]; [congruence|]. apply (U CPlain). exact T. }
    inversion R; subst; try discriminate.
    + match goal with X : exists text n, _ |- _ => destruct X as (? & ? & [X|X]); discriminate X end.
    + match goal with A : MF _ = MF _, O : opening _ _ _ _ _ _ |- _ => injection A as <-; revert O; apply NO; [reflexivity|exact S2] end.
    + match goal with A : meas_of _ _ _ = MF _, O : opening _ _ _ _ _ _ |- _ => injection A as <-; revert O; apply NO; [reflexivity|exact S1] end.
Qed.
Lemma stored_uncached m : uncached (stored m).
Proof. destruct m; [reflexivity|exact I]. Qed.
Lemma silent_run dir e p : forall x k, s_is (x_s x) = Some k -> s_input (x_s x) = map stored (map (meas_of (e_io e) false) (recorded p)) ->
  repeatable e (s_path (x_s x)) (s_tol (x_s x)) (s_files (x_s x)) p -> x_err (fst (x_run dir e p x)) = x_err x.
Proof.
  induction p as [z|i|c q IH|t q IH|z q IH|path b q IH]; intros x k Hi Hs Hr; cbn [x_run recorded repeatable map] in *.
  - reflexivity.
  - reflexivity.
  - destruct Hr as (Hk & Hc & Hr). unfold xbind at 1.
    pose proof (fo_base _ _ (follows_Measure dir e c) x) as E. rewrite (repeat_measure e c (x_s x) k _ Hi Hs Hc) in E.
    assert (L : x_err (fst (x_Measure dir e c x)) = x_err x).
    { unfold x_Measure. unfold xbind at 1. unfold quiet at 1, GetCompareMode at 1. rewrite (compare_mode_open e (x_s x) k Hi). cbv iota beta.
      set (x0 := Xst (x_s x) (x_err x) (x_what x)). destruct (x_Compare dir e (meas_of (e_io e) true c) (tolerant_of c) x0) as [x1 r] eqn:Ex. cbn [fst].
      destruct (x_Compare_says dir e c x0 x1 r) as (_ & l & L1 & R1); [|exact Ex|].
      { change (x_s x0) with (x_s x). rewrite Hs. apply (Forall_cons _ (stored_uncached _)). apply Forall_forall. intros m Im. apply in_map_iff in Im. destruct Im as (m0 & <- & _). apply stored_uncached. }
      rewrite L1. change (x_err x0) with (x_err x). change (x_s x0) with (x_s x) in R1. rewrite Hs in R1.
      destruct l as [|y l]; [apply app_nil_r|]. exfalso. destruct (proj1 (R1 y) (or_introl eq_refl)) as (b & B & _ & R). cbn [hd_error] in B. injection B as <-. cbn [fst snd] in R.
      exact (reproducible_silent _ _ _ _ _ _ _ Hc R). }
    destruct (x_Measure dir e c x) as [x1 r]. cbn [fst snd] in *. apply pair_equal_spec in E. destruct E as [Es <-]. rewrite Hk, <- L.
    apply (IH 0%Z x1 k); rewrite <- Es; [exact Hi|reflexivity|exact Hr].
  - unfold xbind at 1. apply (IH (Xst (set_tol (x_s x) t) (x_err x) (x_what x)) k Hi Hs Hr).
  - unfold xbind at 1. apply (IH (Xst (set_expected (x_s x) z) (x_err x) (x_what x)) k Hi Hs Hr).
  - unfold xbind at 1. apply (IH (Xst (set_files (x_s x) (write_file e (s_files (x_s x)) path b)) (x_err x) (x_what x)) k Hi Hs Hr).
Qed.

Lemma compare_body dir e f test a0 opts rest inf o f1 baseline bytes : command_line e f opts rest -> input_of opts = Some inf ->
  opened e f (output_of e f opts) = Some (o, f1) -> contents e f1 (baseline_path e f1 (dirs_of opts) inf) = Some bytes ->
  ReadXMLInput (e_asserts e) (e_ext e) bytes = Ok baseline ->
  exists s k, x_body dir e test (a0 :: flat opts ++ rest) (Xst (set_unmatched (new_test f) 1) [] None) = x_run dir e (test (a0 :: rest)) (Xst s (refusals e f opts ++ says_from 0 (fst (expat (e_ext e) bytes))) None) /\
    s_is s = Some k /\ s_input s = baseline /\ s_path s = dirs_of opts /\ s_tol s = default_tol /\ s_files s = f1.
Proof.
  intros Hc Hi Eo Hb Erd. pose proof (input_of_nonempty e f opts inf (proj1 Hc) Hi) as Hn.
  rewrite (x_body_launch dir e f test a0 opts rest None Hc). pose proof (x_begin_compare e f opts inf Hi Hn) as B. cbv zeta in B. rewrite Eo in B.
  set (q := baseline_path e f1 (dirs_of opts) inf) in *. set (s1 := set_os (set_files (launched e f opts) f1) o) in *.
  assert (Er : can_open e f1 q = true) by (revert Hb; unfold can_open, contents; destruct (node_at e f1 q) as [[[|] w b|]|]; auto; discriminate).
  rewrite Er in B. destruct (RegMain.readable_contents e f1 q Er) as (k & Ek & [(r & w & b & Eb & Ec' & Ef)|(r & w & x & Eb & Ec')]); rewrite Hb in Ec'; [|discriminate Ec'].
  injection Ec' as <-. rewrite Ek in B. destruct (read_ok _ _ _ _ Erd) as (p & Ep & Eok & _). set (faults := says_from 0 (fst (expat (e_ext e) bytes))).
  set (s2 := set_input (set_is s1 (Some k)) baseline).
  assert (RI : x_read_input e (Xst (set_is s1 (Some k)) (refusals e f opts) None) = (Xst s2 (refusals e f opts ++ faults) None, Ok tt)).
  { unfold x_read_input, xbind, say, throwing, read_input. cbn [x_s x_err x_what set_is s_is]. change (s_files (set_is s1 (Some k))) with f1. rewrite Eb, Erd. cbv iota beta.
    unfold faults. destruct (expat (e_ext e) bytes) as [evs ok] eqn:Ex. cbn [fst snd] in *. rewrite (read_says_spec _ _ _ _ _ _ Ex Ep), Eok, app_nil_r. reflexivity. }
  exists s2, k. split; [unfold xbind; rewrite B, RI; reflexivity|]. repeat split.
Qed.

(** A test that returns, compared with its own recording on any machine (the conditions of C39): neither run says anything but the refusals of output files. *)
Theorem C77_record_then_compare_silent : forall dir e f test a0 rest opts o f1 s1 z k e' f' opts' inf o' f2,
  command_line e f opts rest -> input_of opts = None -> opened e f (output_of e f opts) = Some (o, f1) ->
  leaves_alone e o (test (a0 :: rest)) -> ends (test (a0 :: rest)) = Ok k ->
  Forall storable (map (meas_of (e_io e) false) (recorded (test (a0 :: rest)))) -> comment_safe (e_host e) -> comment_safe (e_time e) ->
  Main e test (a0 :: flat opts ++ rest) (new_test f) = (s1, Ok z) ->
  command_line e' f' opts' rest -> input_of opts' = Some inf -> expected_of opts' = expected_of opts -> e_io e' = e_io e ->
  opened e' f' (output_of e' f' opts') = Some (o', f2) ->
  contents e' f2 (baseline_path e' f2 (dirs_of opts') inf) = Some (written o s1) ->
  repeatable e' (dirs_of opts') default_tol f2 (test (a0 :: rest)) ->
  says dir e f test (a0 :: flat opts ++ rest) = refusals e f opts /\ says dir e' f' test (a0 :: flat opts' ++ rest) = refusals e' f' opts'.
Proof.
  intros dir e f test a0 rest opts o f1 s1 z k e' f' opts' inf o' f2 Hc Hi Ho Hl He Hs Hh Ht Hm Hc' Hi' Hx Hio Ho' Hb Hr. split.
  { rewrite (C77_record_run dir e f test a0 opts rest Hc Hi), Ho, He, app_nil_r. reflexivity. }
  destruct (C44_recorded_document e f test a0 opts rest o f1 Hc Hi Ho Hl) as (s1' & z' & ps & M & P & W).
  assert (E1 : (s1', Ok z') = (s1, Ok z)) by congruence. injection E1 as -> ->.
  rewrite He in W. rewrite (lines_prints _ _ P) in W. rewrite W in Hb. set (ms := map (meas_of (e_io e) false) (recorded (test (a0 :: rest)))) in *.
  pose proof (read_recorded (e_asserts e') (e_ext e') e ms Hh Ht Hs) as Rd.
  destruct (compare_body dir e' f' test a0 opts' rest inf o' f2 (map stored ms) _ Hc' Hi' Ho' Hb Rd) as (s & ki & B & I1 & I2 & I3 & I4 & I5).
  rewrite says_body, B.
  rewrite (recorded_silent (e_ext e') e ms (says_from 0 _) Hh Ht Hs (read_reading _)), app_nil_r. set (x := Xst s (refusals e' f' opts') None).
  assert (Hin : s_input (x_s x) = map stored (map (meas_of (e_io e') false) (recorded (test (a0 :: rest))))) by (rewrite Hio; exact I2).
  assert (Hre : repeatable e' (s_path (x_s x)) (s_tol (x_s x)) (s_files (x_s x)) (test (a0 :: rest))) by (cbn [x x_s]; rewrite I3, I4, I5; exact Hr).
  unfold said. rewrite (silent_run dir e' _ x ki I1 Hin Hre).
  pose proof (fo_base _ _ (follows_run dir e' (test (a0 :: rest))) x) as FR.
  destruct (repeat_run e' (test (a0 :: rest)) (x_s x) ki I1 Hin Hre) as (s' & E & _). rewrite E in FR. apply pair_equal_spec in FR. destruct FR as [_ FR]. rewrite <- FR, He. apply app_nil_r.
Qed.
Print Assumptions C77_record_then_compare_silent.

(** * Cases *)
Definition q1 : str := [chr 34].
Definition c77_doc : str :=
  $"<output><Other><b/></Other><DartMeasurement name=" ++ q1 ++ $"x" ++ q1 ++ $" type=" ++ q1 ++ $"text/string" ++ q1 ++ $" color=" ++ q1 ++ $"red" ++ q1 ++ $">a</DartMeasurement>" ++
  $"<DartMeasurement name=" ++ q1 ++ $"y" ++ q1 ++ $" type=" ++ q1 ++ $"text/string" ++ q1 ++ $" encoding=" ++ q1 ++ $"hex" ++ q1 ++ $">b</DartMeasurement>" ++
  $"<DartMeasurementFile name=" ++ q1 ++ $"z" ++ q1 ++ $" type=" ++ q1 ++ $"text/plain" ++ q1 ++ $">gone</DartMeasurementFile>" ++
  $"<DartMeasurement type=" ++ q1 ++ $"odd" ++ q1 ++ $"/>" ++ $"</output>".
Definition c77_files (base : str) : store := fun k =>
  if eqs k ($"b.xml") then Some (FFile true true base) else if eqs k ($"ro.xml") then Some (FFile true false []) else if eqs k ($"t") then Some (FFile true true ($"text"))
  else if eqs k ($"a.png") then Some (FFile true true ($"bytes")) else None.
Definition c77_test (_ : list str) : prog :=
  Call (TextString ($"a") ($"x")) (fun _ => Call (TextString ($"b") ($"y")) (fun _ => Call (FileTextPlain ($"t") ($"z")) (fun _ => Raise ExnOther))).
Definition c77_opts : list (str * str) := [($"-O", $"ro.xml"); ($"-I", $"b.xml")].
(** refusal, faults of the document, remarks, exception *)
Example C77_case : says false ex_env (c77_files c77_doc) c77_test ($"prog" :: flat c77_opts ++ []) =
  [NotWritable ($"ro.xml"); UnknownElement ($"Other"); TooDeep; UnknownAttribute ($"color"); UnknownType ($"odd"); BadEncoding ($"hex"); BadEncoding ($"hex"); BadEncoding ($"hex"); CannotOpen ($"gone"); Caught None ExnOther].
Proof. vm_compute. reflexivity. Qed.
(** the texts *)
Example C77_texts : map (text_of [] []) [NotWritable ($"o"); ExpectedOutput; UnknownType ($"t"); UnknownAttribute ($"a"); UnknownElement ($"e"); TooDeep; Caught (Some ($"parse error")) ExnRuntime; Caught None ExnOther; CannotOpen ($"f"); UnknownFileType ($"t"); BadCompression ($"c"); NotBase64; BadEncoding ($"c")] =
  map (fun l => l ++ [nl]) [$"unable to write to file " ++ q1 ++ $"o" ++ q1 ++ $"!"; $"XML: expected " ++ q1 ++ $"output" ++ q1 ++ $" document element type"; $"XML: unknow dart measurement type " ++ q1 ++ $"t" ++ q1;
   $"XML: unknow attribute " ++ q1 ++ $"a" ++ q1; $"XML: unknown element type " ++ q1 ++ $"e" ++ q1; $"XML: depth is too deep"; $"std::runtime_error: " ++ q1 ++ $"parse error" ++ q1; $"unknow exception"; $"error opening file " ++ q1 ++ $"f" ++ q1 ++ $"."; $"Unknown measurement type " ++ q1 ++ $"t" ++ q1 ++ $".";
   $"unsupported compression " ++ q1 ++ $"c" ++ q1 ++ $" used."; $"error decodeing base64"; $"unsupported encoding " ++ q1 ++ $"c" ++ q1 ++ $" used."].
Proof. vm_compute. reflexivity. Qed.
(** the hypotheses of C77_compare_run *)
Example C77_hyps :
  (command_line ex_env (c77_files c77_doc) c77_opts [] /\ input_of c77_opts = Some ($"b.xml")) /\
  (exists baseline, started ex_env (c77_files c77_doc) (output_of ex_env (c77_files c77_doc) c77_opts) (dirs_of c77_opts) ($"b.xml") = Some (None, c77_files c77_doc, baseline) /\ length baseline = 4) /\
  contents ex_env (c77_files c77_doc) (baseline_path ex_env (c77_files c77_doc) (dirs_of c77_opts) ($"b.xml")) = Some c77_doc /\
  snd (Main ex_env c77_test ($"prog" :: flat c77_opts ++ []) (new_test (c77_files c77_doc))) = Ok (-1)%Z.
Proof.
  split; [split; [split; [|exact I]|reflexivity]|split; [eexists; split; [vm_compute; reflexivity|reflexivity]|split; [vm_compute; reflexivity|vm_compute; reflexivity]]].
  constructor; [split; [left; reflexivity|split; intros X; discriminate X]|]. constructor; [|constructor]. split; [right; left; reflexivity|]. split; [|discriminate]. intros _. vm_compute. auto.
Qed.
(** C77_not_started: no output file, no baseline any more (the output is created over it: a directory in its place), a directory, a document that is not closed *)
Example C77_starts :
  says false ex_env (c77_files c77_doc) c77_test [$"prog"; $"-I"; $"gone"] = [Caught (Some ($"unable to read input file " ++ q1 ++ $"gone" ++ q1 ++ $"!")) ExnRuntime] /\
  says false ex_env (c77_files c77_doc) c77_test [$"prog"; $"-P"; $"t"] = [Caught (Some ($"unable to read input path " ++ q1 ++ $"t" ++ q1 ++ $"!")) ExnRuntime] /\
  says false ex_env (c77_files ($"<output><Other>")) c77_test [$"prog"; $"-I"; $"b.xml"] = [UnknownElement ($"Other"); ParseError; Caught (Some ($"parse error")) ExnRuntime] /\
  says false ex_env (c77_files ($"<output><Other>")) c77_test [$"prog"; $"-I"; $"b.xml"; $"-O"; $"b.xml"] = [ParseError; Caught (Some ($"parse error")) ExnRuntime].
Proof. vm_compute. auto. Qed.
(** a recording *)
Example C77_recording : says false ex_env (c77_files c77_doc) c77_test ($"prog" :: flat [($"-O", $"ro.xml"); ($"-O", $"new.xml")] ++ []) = [NotWritable ($"ro.xml"); Caught None ExnOther].
Proof. vm_compute. reflexivity. Qed.
(** the hypothesis of C77_silent_reader, and a document in the dialect *)
Example C77_dialect : exists l its, reported (e_ext ex_env c77_doc) /\ ReadXMLInput true (e_ext ex_env) ($"<output>" ++ string_element ($"x") ($"a") ++ $"<DartMeasurement/></output>") = Ok l /\ length l = 1 /\
  in_dialect (fst (expat (e_ext ex_env) ($"<output>" ++ string_element ($"x") ($"a") ++ $"<DartMeasurement/></output>"))) its /\ length its = 2.
Proof.
  exists [MD (Dm ($"x") true CString ($"none") ($"none") ($"a") None)], [($"DartMeasurement", [($"name", $"x"); ($"type", $"text/string")], $"a"); ($"DartMeasurement", [], [])].
  split; [intros X; discriminate X|]. split; [vm_compute; reflexivity|]. split; [reflexivity|]. split; [|reflexivity].
  exists [], [], [EStart ($"DartMeasurement") [($"name", $"x"); ($"type", $"text/string")]; EData ($"a"); EEnd ($"DartMeasurement"); EStart ($"DartMeasurement") []; EEnd ($"DartMeasurement")], []. split; [vm_compute; reflexivity|].
  apply (items_element _ _ [$"a"]); [apply nil_no_complaint; vm_compute; reflexivity|]. apply (items_element _ _ []); [apply nil_no_complaint; vm_compute; reflexivity|]. constructor.
Qed.
(** A run with the recording of itself (C39_case shows the hypotheses of C77_record_then_compare_silent) *)
Example C77_round :
  let s1 := fst (Main ex_env ex_test [$"prog"; $"-O"; $"b.xml"] (new_test (fun _ => None))) in
  says false ex_env (fun _ => None) ex_test [$"prog"; $"-O"; $"b.xml"] = [] /\ says false ex_env (s_files s1) ex_test [$"prog"; $"-I"; $"b.xml"] = [].
Proof. vm_compute. auto. Qed.

(** * What a reader of the standard error might expect, and does not hold *)
(** silence does not mean success, and a complaint does not mean failure: a difference is not reported here, and a baseline that is no "output" document is used *)
Definition rooted (root elements : str) : store := c77_files ($"<" ++ root ++ $">" ++ elements ++ $"</" ++ root ++ $">").
Theorem C77_not_the_status_refuted : exists e f f' test argv,
  says false e f test argv = [] /\ snd (Main e test argv (new_test f)) = Ok 1%Z /\
  says false e f' test argv = [ExpectedOutput] /\ snd (Main e test argv (new_test f')) = Ok 0%Z.
Proof.
  exists ex_env, (rooted ($"output") (string_element ($"x") ($"b"))), (rooted ($"other") (string_element ($"x") ($"a"))), (fun _ => Call (TextString ($"a") ($"x")) (fun _ => Return 0%Z)), [$"prog"; $"-I"; $"b.xml"].
  vm_compute. auto.
Qed.
Print Assumptions C77_not_the_status_refuted.
(** two files that cannot be opened agree if their measurement has no name *)
Theorem C77_missing_files_refuted : exists e f test argv p, (forall l, test l = Call (FileTextPlain ($"gone") []) (fun _ => Return 0%Z)) /\ contents e f ($"gone") = None /\
  says false e f test argv = [CannotOpen p; CannotOpen ($"gone")] /\ snd (Main e test argv (new_test f)) = Ok 0%Z.
Proof.
  exists ex_env, (rooted ($"output") ($"<DartMeasurementFile name=" ++ q1 ++ q1 ++ $" type=" ++ q1 ++ $"text/plain" ++ q1 ++ $">lost</DartMeasurementFile>")), (fun _ => Call (FileTextPlain ($"gone") []) (fun _ => Return 0%Z)), [$"prog"; $"-I"; $"b.xml"], ($"lost").
  split; [reflexivity|]. vm_compute. auto.
Qed.
Print Assumptions C77_missing_files_refuted.
(** Image files: the types the framework itself uses are unknown to it.  A comparison of an image file with a baseline file of the same name and type that can be opened says so. *)
Theorem C77_image_types : forall dir e dirs b bs t f c ms l file n type g bytes, c = FileImagePNG file n /\ type = $"image/png" \/ c = FileImageJPEG file n /\ type = $"image/jpeg" ->
  remarks dir e dirs (MF b :: bs) ((c, t, f) :: ms) l -> fname b = n -> ftype b = type ->
  found e dirs f (MF b) (meas_of (e_io e) true c) = MF g -> contents e f (ffile g) = Some bytes -> In (UnknownFileType type) l.
Proof.
  intros dir e dirs b bs t f c ms l file n type g bytes Hc R Hn Ht Hg Hb. inversion R as [|? ? ? l1 ls R1 R2]; subst. apply in_or_app. left. apply (R1 (UnknownFileType (ftype b))). exists (MF b).
  split; [reflexivity|]. cbn [fst snd]. rewrite Hg.
  assert (Tg : ftype g = ftype b). { pose proof (proj2 (found_kind e dirs f (MF b) (meas_of (e_io e) true c))) as K. rewrite Hg in K. exact K. }
  assert (S : sources e f (ffile g) = Bytes bytes) by (rewrite <- sources_at; exact (sources_cstr _ _ _ _ Hb)).
  assert (N : forall k, ftype b <> type_of k) by (intros k X; rewrite X in Hc; destruct Hc as [[_ Y]|[_ Y]]; destruct k; discriminate Y).
  split; [unfold kind_of_moment, same_kind; cbn [fst]; destruct Hc as [[-> E]|[-> E]]; cbn; rewrite E, !eqs_refl; reflexivity|].
  assert (M : exists h, meas_of (e_io e) true c = MF h) by (destruct Hc as [[-> _]|[-> _]]; eexists; reflexivity). destruct M as [h M].
  rewrite <- Tg. apply (remark_files dir e _ g c t f h); [reflexivity|exact M|]. apply opening_type; [rewrite Tg; exact N|]. left. exists bytes. exact S.
Qed.
Print Assumptions C77_image_types.
Example C77_image_case : says false ex_env (rooted ($"output") ($"<DartMeasurementFile name=" ++ q1 ++ $"i" ++ q1 ++ $" type=" ++ q1 ++ $"image/png" ++ q1 ++ $">a.png</DartMeasurementFile>"))
  (fun _ => Call (FileImagePNG ($"a.png") ($"i")) (fun _ => Return 0%Z)) [$"prog"; $"-I"; $"b.xml"] = [UnknownFileType ($"image/png")] /\
  exists g, found ex_env [] (c77_files []) (MF (Mf ($"i") true ($"image/png") ($"a.png"))) (meas_of (e_io ex_env) true (FileImagePNG ($"a.png") ($"i"))) = MF g /\ contents ex_env (c77_files []) (ffile g) = Some ($"bytes").
Proof. split; [vm_compute; reflexivity|]. eexists. split; vm_compute; reflexivity. Qed.

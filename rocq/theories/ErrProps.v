(** C77: what the driver says on the standard error.  [says]: ErrModel; the specification is in ErrSpec. *)
From Coq Require Import Floats.SpecFloat.
From Verif Require Import Base Str Dec B64Model PathModel PathFacts MeasModel MeasFacts DiffModel VisitModel XmlText XmlModel ReadModel ReadFacts ReadBack ReadProps ElemProps RegModel ArgFacts ArgProps RegSpec RegFacts RegStart RegMain RegProps RegProps2 RegRound RegProps3 HeapFacts HeapXml ErrModel ErrFacts ErrSpec ErrReader ErrRun.

(** The driver with its messages is the driver of RegModel: C36, C37, C66 and all other theorems about [Main] hold for it. *)
Theorem C77_same_driver : forall dir e test argv x,
  Main e test argv (x_s x) = (x_s (fst (x_Main dir e test argv x)), snd (x_Main dir e test argv x)).
Proof. exact follows_Main. Qed.
Print Assumptions C77_same_driver.

Definition said (r : xst * res Z) : list msg := x_err (fst r) ++ match snd r with Throw i => [Caught (x_what (fst r)) i] | _ => [] end.
Lemma says_body dir e f test argv : says dir e f test argv = said (x_body dir e test argv (Xst (set_unmatched (new_test f) 1) [] None)).
Proof. unfold says. rewrite x_Main_says. reflexivity. Qed.

(** An exception that ends the body of [Main] (arguments, start, test) is reported, once and last; nothing else is called an exception. *)
Theorem C77_exception_reported : forall dir e f test argv,
  exists l w, (forall v i, ~ In (Caught v i) l) /\
    says dir e f test argv = l ++ match snd (main_body e test argv (set_unmatched (new_test f) 1)) with Throw i => [Caught w i] | _ => [] end.
Proof.
  intros dir e f test argv. rewrite says_body. unfold said. set (x := Xst (set_unmatched (new_test f) 1) [] None).
  destruct (fo_says _ _ (follows_body dir e test argv) x) as (l & E & U). pose proof (fo_base _ _ (follows_body dir e test argv) x) as B. change (x_s x) with (set_unmatched (new_test f) 1) in B.
  exists l, (x_what (fst (x_body dir e test argv x))). split; [exact U|]. rewrite B. cbn [snd]. rewrite E. reflexivity.
Qed.
Print Assumptions C77_exception_reported.

(** * The command line *)
Theorem C77_rejected : forall dir e f test a0 opts k v rest, Forall (accepted e f) opts ->
  (k = $"-I" /\ is_file e f v && is_readable e f v = false -> says dir e f test (a0 :: flat opts ++ k :: v :: rest) =
     refusals e f opts ++ [Caught (Some ($"unable to read input file " ++ [chr 34] ++ v ++ [chr 34] ++ $"!")) ExnRuntime]) /\
  (k = $"-P" /\ is_directory e f v && is_readable e f v = false -> says dir e f test (a0 :: flat opts ++ k :: v :: rest) =
     refusals e f opts ++ [Caught (Some ($"unable to read input path " ++ [chr 34] ++ v ++ [chr 34] ++ $"!")) ExnRuntime]).
Proof.
  intros dir e f test a0 opts k v rest Ha.
  assert (G : (k = $"-I" /\ is_file e f v && is_readable e f v = false \/ k = $"-P" /\ is_directory e f v && is_readable e f v = false) ->
     says dir e f test (a0 :: flat opts ++ k :: v :: rest) = refusals e f opts ++ [Caught (Some (rejection k v)) ExnRuntime]).
  { intros H. rewrite says_body. set (argv := a0 :: flat opts ++ k :: v :: rest).
    assert (E : exists s, x_body dir e test argv (Xst (set_unmatched (new_test f) 1) [] None) = (Xst s (refusals e f opts) (Some (rejection k v)), Throw ExnRuntime)).
    { unfold x_body. unfold xbind at 1. unfold x_Parse. unfold xbind at 1.
      destruct (x_parse_prefix e a0 (k :: v :: rest) opts (S (length argv) - length opts) [] None None (set_unmatched (new_test f) 1) [] None Ha) as (tail' & P & E).
      assert (L : length argv = 1 + 2 * length opts + length (k :: v :: rest)) by (unfold argv; cbn [length]; rewrite app_length, flat_length; cbn [length]; lia).
      replace (length opts + (S (length argv) - length opts)) with (S (length argv)) in E by lia. rewrite app_nil_r in E. rewrite <- L in E. change (a0 :: flat opts ++ k :: v :: rest) with argv in E. rewrite E.
      destruct (S (length argv) - length opts) as [|f'] eqn:Ef; [lia|].
      pose proof (x_parse_reject e a0 k v rest tail' f' (in_after opts None) (out_after e (s_files (set_unmatched (new_test f) 1)) opts None) (after opts (set_unmatched (new_test f) 1)) ([] ++ refusals e (s_files (set_unmatched (new_test f) 1)) opts) None) as R.
      rewrite after_files in R. specialize (R H). change (1 + length (k :: v :: rest)) with (3 + length rest). cbn [app] in R |- *. rewrite R. eexists. reflexivity. }
    destruct E as [s ->]. reflexivity. }
  unfold rejection in G. split; intros H; rewrite G by auto; destruct H as [-> _]; reflexivity.
Qed.
Print Assumptions C77_rejected.

(** * Recording *)
(** A recording run says nothing but the refusals of output files, and the exception that ends it: the output file that cannot be opened, or the test's own. *)
Theorem C77_record_run : forall dir e f test a0 opts rest, command_line e f opts rest -> input_of opts = None ->
  says dir e f test (a0 :: flat opts ++ rest) = refusals e f opts ++
    match opened e f (output_of e f opts) with
    | None => [Caught (Some ($"unable to open output file " ++ [chr 34] ++ output_of e f opts ++ [chr 34] ++ $"!")) ExnRuntime]
    | Some _ => match ends (test (a0 :: rest)) with Throw i => [Caught None i] | _ => [] end
    end.
Proof.
  intros dir e f test a0 opts rest Hc Hi. rewrite says_body. rewrite (x_body_launch dir e f test a0 opts rest None Hc).
  assert (Hin : s_in (launched e f opts) = []) by (cbn; rewrite Hi; reflexivity).
  unfold xbind at 1. unfold x_Begin. unfold xbind at 1. unfold throwing at 1. cbn [x_s x_err x_what]. rewrite (open_output_spec e (launched e f opts) eq_refl).
  change (s_files (launched e f opts)) with f. change (s_out (launched e f opts)) with (output_of e f opts).
  destruct (opened e f (output_of e f opts)) as [[o f1]|]; [|reflexivity].
  set (s1 := set_os (set_files (launched e f opts) f1) o). cbv iota beta. unfold xbind at 1. unfold throwing at 1, open_input. cbn [x_s x_err x_what].
  change (s_in s1) with (s_in (launched e f opts)). rewrite Hin. cbv iota beta. unfold xbind at 1. unfold quiet at 1, GetCompareMode. cbn [x_s x_err x_what].
  rewrite (record_mode e s1 eq_refl Hin). cbv iota beta. unfold quiet at 1, put, modify. cbn [x_s x_err x_what]. cbv iota beta.
  destruct (put_text_any (header e) s1) as ((F1 & F2 & F3 & F4 & F5) & _).
  destruct (x_run_record dir e (test (a0 :: rest)) (Xst (put_text (header e) s1) (refusals e f opts) None)) as (s' & E & _); [cbn [x_s]; rewrite F5; reflexivity|cbn [x_s]; rewrite F1; exact Hin|].
  rewrite E. cbn [fst snd x_err x_what]. reflexivity.
Qed.
Print Assumptions C77_record_run.

(** * Comparing *)
(** the start of a comparing run *)
Lemma x_begin_compare e f opts inf : let err := refusals e f opts in let s := launched e f opts in
  input_of opts = Some inf -> inf <> [] ->
  match opened e f (output_of e f opts) with
  | None => x_Begin e (Xst s err None) = (Xst s err (Some (between' ($"unable to open output file ") (output_of e f opts))), Throw ExnRuntime)
  | Some (o, f1) =>
      let s1 := set_os (set_files s f1) o in
      let q := baseline_path e f1 (dirs_of opts) inf in
      if can_open e f1 q then x_Begin e (Xst s err None) = x_read_input e (Xst (set_is s1 (slot e q)) err None)
      else x_Begin e (Xst s err None) = (Xst s1 err (Some (between' ($"unable to open input file ") inf)), Throw ExnRuntime)
  end.
Proof.
  cbv zeta. intros Hi Hn. set (s := launched e f opts). set (err := refusals e f opts). remember (x_Begin e (Xst s err None)) as bm eqn:Eb. unfold x_Begin in Eb. unfold xbind at 1 in Eb. unfold throwing at 1 in Eb. cbn [x_s x_err x_what] in Eb. rewrite (open_output_spec e s eq_refl) in Eb.
  change (s_files s) with f in *. change (s_out s) with (output_of e f opts) in *. destruct (opened e f (output_of e f opts)) as [[o f1]|]; [|exact Eb]. cbv iota beta in Eb.
  set (s1 := set_os (set_files s f1) o) in *.
  assert (Hin : s_in s1 = inf) by (cbn; rewrite Hi; reflexivity).
  assert (Q : open_input e s1 = if can_open e f1 (baseline_path e f1 (dirs_of opts) inf)
     then (set_is s1 (slot e (baseline_path e f1 (dirs_of opts) inf)), Ok tt) else (s1, Throw ExnRuntime)).
  { unfold open_input. rewrite Hin.
    destruct (baseline_path_search e s1 inf) as (p & E & B). change (s_files s1) with f1 in *. change (s_path s1) with (dirs_of opts) in *.
    destruct inf as [|c r] eqn:Einf; [contradiction|]. rewrite E. cbv zeta. rewrite <- B.
    destruct (can_open e f1 (baseline_path e f1 (dirs_of opts) (c :: r))); reflexivity. }
  unfold xbind at 1 in Eb. unfold throwing at 1 in Eb. cbn [x_s x_err x_what] in Eb. rewrite Q, Hin in Eb. destruct (can_open e f1 (baseline_path e f1 (dirs_of opts) inf)) eqn:R.
  - unfold xbind, quiet, GetCompareMode in Eb. cbn [x_s x_err x_what] in Eb. destruct (readable_slot _ _ _ R) as (k & K & _). rewrite K in *.
    rewrite (compare_mode_open e (set_is s1 (Some k)) k eq_refl) in Eb. exact Eb.
  - exact Eb.
Qed.
Lemma read_throws asserts ext bytes i : ReadXMLInput asserts ext bytes = Throw i -> exists p, on_events asserts pd0 (fst (expat ext bytes)) = Ok p /\ snd (expat ext bytes) = false.
Proof.
  rewrite read_spec. destruct (expat ext bytes) as [evs ok]. cbn [fst snd].
  assert (NT : forall evs p x, on_events asserts p evs <> Throw x).
  { clear. induction evs as [|ev evs IH]; intros p x; cbn [on_events]; [discriminate|].
    destruct (on_event asserts p ev) as [p'|y| | |] eqn:E; cbn [bind]; try discriminate; [apply IH|]. exfalso.
    destruct ev as [n al|n|s]; cbn [on_event] in E; try discriminate. unfold on_start in E. destruct (asserts && _); [discriminate|]. destruct (asserts && _); [discriminate|].
    destruct (pdepth p =? 1); [|discriminate]. destruct (eqs n data_elem || eqs n file_elem); [|discriminate]. unfold start_measurement in E.
    assert (NS : forall al d y, set_attrs al d <> Throw y).
    { clear. induction al as [|[k v] al IH]; intros d y; cbn [set_attrs]; [discriminate|]. destruct d as [d|].
      - destruct (eqs k ($"name")); [|destruct (eqs k ($"type")); [|destruct (eqs k ($"encoding")); [|destruct (eqs k ($"compression"))]]]; cbn [bind]; apply IH.
      - destruct (eqs k ($"name")); [|destruct (eqs k ($"type")); [|destruct (eqs k ($"encoding")); [|destruct (eqs k ($"compression"))]]]; cbn [bind]; try discriminate; apply IH. }
    destruct (eqs n data_elem).
    - destruct (set_attrs al (find_type al None)) eqn:Es; cbn [bind] in E; try discriminate. exact (NS _ _ _ Es).
    - destruct (eqs n file_elem); cbn [bind] in E; discriminate. }
  destruct (on_events asserts pd0 evs) as [p|x| | |] eqn:E; cbn [bind]; try discriminate.
  - destruct (asserts && _); [discriminate|]. destruct ok; [discriminate|]. intros _. exists p. auto.
  - exfalso. exact (NT _ _ _ E).
Qed.
Lemma read_ok asserts ext bytes l : ReadXMLInput asserts ext bytes = Ok l -> exists p, on_events asserts pd0 (fst (expat ext bytes)) = Ok p /\ snd (expat ext bytes) = true /\ plist p = l.
Proof.
  rewrite read_spec. destruct (expat ext bytes) as [evs ok]. cbn [fst snd]. destruct (on_events asserts pd0 evs) as [p|x| | |]; cbn [bind]; try discriminate.
  destruct (asserts && _); [discriminate|]. destruct ok; [|discriminate]. intros H. injection H as <-. exists p. auto.
Qed.
Lemma read_reading evs : reading evs (says_from 0 evs).
Proof. intros m. apply says_from_in. Qed.

(** A comparing run that does not get to its test: why. *)
Theorem C77_not_started : forall dir e f test a0 opts rest inf, command_line e f opts rest -> input_of opts = Some inf ->
  let all := says dir e f test (a0 :: flat opts ++ rest) in
  let quote := fun s => [chr 34] ++ s ++ [chr 34] ++ $"!" in
  match opened e f (output_of e f opts) with
  | None => all = refusals e f opts ++ [Caught (Some ($"unable to open output file " ++ quote (output_of e f opts))) ExnRuntime]
  | Some (_, f1) =>
      let q := baseline_path e f1 (dirs_of opts) inf in
      (sources e f1 q = Missing -> all = refusals e f opts ++ [Caught (Some ($"unable to open input file " ++ quote inf)) ExnRuntime]) /\
      (sources e f1 q = Unreadable -> all = refusals e f opts ++ [Caught (Some ($"XML:read error")) ExnRuntime]) /\
      (forall bytes i, contents e f1 q = Some bytes -> ReadXMLInput (e_asserts e) (e_ext e) bytes = Throw i ->
         exists l, reading (fst (expat (e_ext e) bytes)) l /\ all = refusals e f opts ++ l ++ [ParseError; Caught (Some ($"parse error")) i])
  end.
Proof.
  intros dir e f test a0 opts rest inf Hc Hi. cbv zeta. rewrite says_body. rewrite (x_body_launch dir e f test a0 opts rest None Hc).
  pose proof (x_begin_compare e f opts inf Hi (input_of_nonempty e f opts inf (proj1 Hc) Hi)) as B. cbv zeta in B.
  destruct (opened e f (output_of e f opts)) as [[o f1]|].
  2:{ unfold xbind. rewrite B. reflexivity. }
  set (q := baseline_path e f1 (dirs_of opts) inf) in *. set (s1 := set_os (set_files (launched e f opts) f1) o) in *.
  unfold can_open in B. unfold sources, contents. unfold xbind. split; [|split].
  - intros M. assert (N : match node_at e f1 q with Some (FFile r _ _) => r | Some (FDir r _ _) => r | None => false end = false) by (destruct (node_at e f1 q) as [[[|] w b|[|] w x]|]; try discriminate M; reflexivity).
    rewrite N in B. rewrite B. reflexivity.
  - intros M. unfold node_at in *. destruct (slot e q) as [k|]; [|discriminate M]. destruct (f1 k) as [[[|] w b|[|] w x]|] eqn:Ek; try discriminate M. rewrite B.
    unfold x_read_input, xbind, say, throwing, read_input. cbn [x_s x_err x_what set_is s_is]. change (s_files (set_is s1 (Some k))) with f1. rewrite Ek. cbn [fst snd x_err x_what]. rewrite app_nil_r. reflexivity.
  - intros bytes i M R. unfold node_at in *. destruct (slot e q) as [k|]; [|discriminate M]. destruct (f1 k) as [[[|] w b|]|] eqn:Ek; try discriminate M. injection M as ->. rewrite B.
    unfold x_read_input, xbind, say, throwing, read_input. cbn [x_s x_err x_what set_is s_is]. change (s_files (set_is s1 (Some k))) with f1. rewrite Ek, R. cbn [fst snd x_err x_what].
    destruct (read_throws _ _ _ _ R) as (p & Ep & Eo). exists (says_from 0 (fst (expat (e_ext e) bytes))). split; [apply read_reading|].
    destruct (expat (e_ext e) bytes) as [evs ok] eqn:Ex. cbn [fst snd] in *. rewrite (read_says_spec _ _ _ _ _ _ Ex Ep), Eo. unfold said. cbn [fst snd x_err x_what]. rewrite <- !app_assoc. reflexivity.
Qed.
Print Assumptions C77_not_started.

(** A comparing run says, in this order: the refusals; the faults of the baseline document; for each measurement the remarks about it and its partner; the exception that
    ended the test.  It is the same sequence of measurements that determines the status (C37). *)
Theorem C77_compare_run : forall dir e f test a0 opts rest inf o f1 baseline bytes s' z,
  command_line e f opts rest -> input_of opts = Some inf ->
  started e f (output_of e f opts) (dirs_of opts) inf = Some (o, f1, baseline) ->
  contents e f1 (baseline_path e f1 (dirs_of opts) inf) = Some bytes ->
  Main e test (a0 :: flat opts ++ rest) (new_test f) = (s', Ok z) ->
  exists ms rs x out faults ls,
    unfolds e o default_tol f1 (expected_of opts) (test (a0 :: rest)) ms rs x out /\
    rs = results e (dirs_of opts) baseline (firstn (length rs) ms) /\
    z = status out x (mismatches e (dirs_of opts) baseline (firstn (length rs) ms)) /\
    reading (fst (expat (e_ext e) bytes)) faults /\ remarks dir e (dirs_of opts) baseline ms ls /\
    says dir e f test (a0 :: flat opts ++ rest) = refusals e f opts ++ faults ++ ls ++ match out with Throw i => [Caught None i] | _ => [] end.
Proof.
  intros dir e f test a0 opts rest inf o f1 baseline bytes s' z Hc Hi Hs Hb Hm. pose proof (input_of_nonempty e f opts inf (proj1 Hc) Hi) as Hn.
  rewrite says_body. rewrite (x_body_launch dir e f test a0 opts rest None Hc).
  pose proof (fo_base _ _ (follows_body dir e test (a0 :: flat opts ++ rest)) (Xst (set_unmatched (new_test f) 1) [] None)) as FB. cbn [x_s] in FB. rewrite (x_body_launch dir e f test a0 opts rest None Hc) in FB.
  pose proof (x_begin_compare e f opts inf Hi Hn) as B. cbv zeta in B. unfold started in Hs.
  destruct (opened e f (output_of e f opts)) as [[o' f1']|] eqn:Eo; [|discriminate Hs].
  destruct (contents e f1' (baseline_path e f1' (dirs_of opts) inf)) as [bytes'|] eqn:Ec; [|discriminate Hs].
  destruct (ReadXMLInput (e_asserts e) (e_ext e) bytes') as [l| | | |] eqn:Erd; try discriminate Hs. injection Hs as -> -> ->.
  rewrite Hb in Ec. injection Ec as <-. set (q := baseline_path e f1 (dirs_of opts) inf) in *. set (s1 := set_os (set_files (launched e f opts) f1) o) in *.
  assert (Er : can_open e f1 q = true).
  { revert Hb. unfold can_open, contents. destruct (node_at e f1 q) as [[[|] w b|]|]; auto; discriminate. }
  rewrite Er in B.
  destruct (RegMain.readable_contents e f1 q Er) as (k & Ek & [(r & w & b & Eb & Ec' & Ef)|(r & w & x & Eb & Ec')]); rewrite Hb in Ec'; [|discriminate Ec'].
  injection Ec' as <-. rewrite Ek in B.
  destruct (read_ok _ _ _ _ Erd) as (p & Ep & Eok & _). set (faults := says_from 0 (fst (expat (e_ext e) bytes))).
  set (s2 := set_input (set_is s1 (Some k)) baseline).
  assert (RI : x_read_input e (Xst (set_is s1 (Some k)) (refusals e f opts) None) = (Xst s2 (refusals e f opts ++ faults) None, Ok tt)).
  { unfold x_read_input, xbind, say, throwing, read_input. cbn [x_s x_err x_what set_is s_is]. change (s_files (set_is s1 (Some k))) with f1. rewrite Eb, Erd. cbv iota beta.
    unfold faults. destruct (expat (e_ext e) bytes) as [evs ok] eqn:Ex. cbn [fst snd] in *. rewrite (read_says_spec _ _ _ _ _ _ Ex Ep), Eok, app_nil_r. reflexivity. }
  set (x2 := Xst s2 (refusals e f opts ++ faults) None) in RI.
  assert (XB : (_ <! x_Begin e;; x_run dir e (test (a0 :: rest))) (Xst (launched e f opts) (refusals e f opts) None) = x_run dir e (test (a0 :: rest)) x2) by (unfold xbind; rewrite B, RI; reflexivity).
  rewrite XB in FB |- *. destruct (x_run dir e (test (a0 :: rest)) x2) as [x3 out] eqn:Erun. cbn [fst snd] in *.
  rewrite Main_unfold, FB in Hm.
  assert (Hout : (exists z, out = Ok z) \/ (exists i, out = Throw i)).
  { destruct out as [v|i| | |]; try (discriminate Hm); eauto. }
  destruct (x_run_compare dir e (test (a0 :: rest)) x2 x3 out k eq_refl (read_uncached _ _ _ _ Erd) Erun Hout) as (ms & rs & ls & W & R & U & Rm & L & Wh & F).
  exists ms, rs, (s_expected (x_s x3)), out, faults, ls. split; [exact W|]. split; [exact R|]. split.
  2:{ split; [apply read_reading|]. split; [exact Rm|]. unfold said. cbn [fst snd]. rewrite L, Wh. cbn [x2 x_err x_what]. rewrite <- !app_assoc. reflexivity. }
  change (s_unmatched (x_s x2)) with 1%Z in U. change (s_path (x_s x2)) with (dirs_of opts) in U. change (s_input (x_s x2)) with baseline in U.
  set (n := mismatches e (dirs_of opts) baseline (firstn (length rs) ms)) in *.
  destruct F as (F1 & F2 & F3 & F4 & F5).
  assert (Hi3 : s_is (x_s x3) = Some k) by (rewrite F5; reflexivity).
  pose proof (fo_base _ _ (follows_run dir e (test (a0 :: rest))) x2) as FR. rewrite Erun in FR. cbn [fst snd] in FR. change (x_s x2) with s2 in FR.
  pose proof (keeps_run e (test (a0 :: rest)) s2) as K. rewrite FR in K. cbn [fst] in K.
  assert (Hfin : forall s4, s_is s4 = None -> s_in s4 = inf -> s_path s4 = dirs_of opts -> s_files s4 = s_files (x_s x3) -> compare_mode e s4 = Ok true).
  { intros s4 A1 A2 A3 A4. rewrite (compare_mode_closed e s4 inf A1 A2 Hn), A3, A4. f_equal.
    apply (keeps_baseline e f1); [exact K|]. unfold readable_file. fold q. rewrite Ef, (file_can_open _ _ _ Ef), Er. reflexivity. }
  destruct Hout as [[v ->]|[i ->]].
  - unfold EndMeasurement, GetCompareMode, mbind in Hm. rewrite (compare_mode_open e (x_s x3) k Hi3) in Hm. unfold modify in Hm. cbv iota in Hm.
    unfold finish in Hm. cbn [set_unmatched set_is set_os set_input s_expected s_unmatched] in Hm. unfold status.
    destruct (v =? s_expected (x_s x3))%Z; cbn [negb] in Hm.
    + rewrite Hfin in Hm.
      * cbn [bind] in Hm. injection Hm as _ <-. rewrite U. lia.
      * reflexivity.
      * change (s_in (x_s x3) = inf). rewrite F1. change (s_in (x_s x2)) with (s_in (launched e f opts)). cbn. rewrite Hi. reflexivity.
      * change (s_path (x_s x3) = dirs_of opts). rewrite F3. reflexivity.
      * reflexivity.
    + injection Hm as _ <-. reflexivity.
  - unfold finish in Hm. unfold status. destruct (-1 =? s_expected (x_s x3))%Z; cbn [negb] in Hm.
    + rewrite (compare_mode_open e (x_s x3) k Hi3) in Hm. cbn [bind] in Hm. injection Hm as _ <-. rewrite U. lia.
    + injection Hm as _ <-. reflexivity.
Qed.
Print Assumptions C77_compare_run.

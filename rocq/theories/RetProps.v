(** C90: when a comparing run comes to an end. *)
From Coq Require Import Floats.SpecFloat.
From Verif Require Import Base Str Dec PathModel PathFacts MeasModel MeasFacts MeasFacts2 MeasProps DiffModel VisitModel NumModel DiffSpec DiffProps XmlText XmlModel ReadModel ReadFacts ReadBack RegModel ArgFacts ArgProps RegSpec RegFacts RegStart RegMain RegProps ReadProps LineSpec ElemProps ErrRun RetSpec RetFacts CasesBase ReuseProps CasesRead.
Import RegModel.
Local Open Scope Z_scope.

(** A run against a baseline that could be read ends, with the status that counts the mismatches, if whatever measurement of the baseline has
    the name and type of a measurement the test makes can be compared with it. *)
Theorem C90_run_returns : forall e f test a0 opts rest inf o f1 baseline,
  command_line e f opts rest -> input_of opts = Some inf ->
  started e f (output_of e f opts) (dirs_of opts) inf = Some (o, f1, baseline) ->
  can_be_compared e baseline (test (a0 :: rest)) ->
  exists s' z ms rs x out, Main e test (a0 :: flat opts ++ rest) (new_test f) = (s', Ok z) /\
    unfolds e o default_tol f1 (expected_of opts) (test (a0 :: rest)) ms rs x out /\
    z = status out x (mismatches e (dirs_of opts) baseline (firstn (length rs) ms)).
Proof.
  intros e f test a0 opts rest inf o f1 baseline Hc Hi Hs Hb.
  destruct (ApiRun.begin_started e f opts rest inf o f1 baseline Hc Hi Hs) as [k B].
  assert (Hf : Forall fresh_meas baseline).
  { unfold started in Hs. destruct (opened e f (output_of e f opts)) as [[o1 f2]|]; [|discriminate].
    destruct (contents e f2 (baseline_path e f2 (dirs_of opts) inf)) as [bytes|]; [|discriminate].
    destruct (ReadXMLInput (e_asserts e) (e_ext e) bytes) as [l| | | |] eqn:R; try discriminate. injection Hs as _ _ <-.
    apply read_uncached in R. eapply Forall_impl; [|exact R]. intros [d|g] H; exact H. }
  set (s2 := Rst f1 [] baseline inf (output_of e f opts) (dirs_of opts) o (Some k) default_tol 1 (expected_of opts)) in *.
  destruct (run e (test (a0 :: rest)) s2) as [s3 r] eqn:R.
  assert (M : main_body e test (a0 :: flat opts ++ rest) (set_unmatched (new_test f) 1) = (s3, r)).
  { rewrite (main_body_launch e f test a0 opts rest Hc). unfold mbind. rewrite B. exact R. }
  pose proof (run_returns e (test (a0 :: rest)) s2 s3 r k eq_refl Hf Hb R) as N.
  destruct (Main_returns e f test _ s3 r M N) as (s' & z & E).
  pose proof (C37_compare_status e f test a0 opts rest inf s' z Hc Hi E) as H. rewrite Hs in H. destruct H as (ms & rs & x & out & W & _ & _ & Z).
  exists s', z, ms, rs, x, out. auto.
Qed.
Print Assumptions C90_run_returns.

(** A run whose output or baseline cannot be opened, or whose baseline is not well-formed, ends as a failure of the test. *)
Theorem C90_unread_baseline_returns : forall e f test a0 opts rest inf,
  command_line e f opts rest -> input_of opts = Some inf ->
  started e f (output_of e f opts) (dirs_of opts) inf = None ->
  (forall o f1 bytes, opened e f (output_of e f opts) = Some (o, f1) -> contents e f1 (baseline_path e f1 (dirs_of opts) inf) = Some bytes ->
     exists i, ReadXMLInput (e_asserts e) (e_ext e) bytes = Throw i) ->
  exists s' z, Main e test (a0 :: flat opts ++ rest) (new_test f) = (s', Ok z) /\ (z = -1 \/ expected_of opts = -1 /\ 0 <= z <= 1).
Proof.
  intros e f test a0 opts rest inf Hc Hi Hs Hr. pose proof (input_of_nonempty e f opts inf (proj1 Hc) Hi) as Hn.
  assert (X : exists s i, main_body e test (a0 :: flat opts ++ rest) (set_unmatched (new_test f) 1) = (s, Throw i)).
  { rewrite (main_body_launch e f test a0 opts rest Hc).
    pose proof (begin_compare e (launched e f opts) inf eq_refl eq_refl) as B.
    assert (Hin : s_in (launched e f opts) = inf) by (cbn; rewrite Hi; reflexivity). specialize (B Hin Hn).
    change (s_files (launched e f opts)) with f in B. change (s_out (launched e f opts)) with (output_of e f opts) in B.
    change (s_path (launched e f opts)) with (dirs_of opts) in B. cbv zeta in B. unfold mbind.
    destruct (opened e f (output_of e f opts)) as [[o f1]|] eqn:Eo; [|rewrite B; do 2 eexists; reflexivity].
    set (s1 := set_os (set_files (launched e f opts) f1) o) in *. set (q := baseline_path e f1 (dirs_of opts) inf) in *.
    destruct (can_open e f1 q) eqn:Er; [|rewrite B; do 2 eexists; reflexivity].
    destruct (readable_contents e f1 q Er) as (k & Ek & [(r & w & b & Eb & Ec & Ef)|(r & w & x & Eb & Ec)]).
    - destruct (Hr o f1 b eq_refl Ec) as [i Ri]. rewrite B, Ek. unfold read_input. cbn [set_is s_is]. change (s_files (set_is s1 (Some k))) with f1. rewrite Eb, Ri.
      do 2 eexists. reflexivity.
    - rewrite B, Ek. unfold read_input. cbn [set_is s_is]. change (s_files (set_is s1 (Some k))) with f1. rewrite Eb. do 2 eexists. reflexivity. }
  destruct X as (s & i & X). destruct (Main_returns e f test _ s _ X (or_intror (ex_intro _ i eq_refl))) as (s' & z & E).
  exists s', z. split; [exact E|]. pose proof (C37_compare_status e f test a0 opts rest inf s' z Hc Hi E) as H. rewrite Hs in H.
  destruct (Z.eqb_spec (-1) (expected_of opts)); [right; auto|left; exact H].
Qed.
Print Assumptions C90_unread_baseline_returns.

(** The reader never runs forever; compiled with NDEBUG no assertion fails; and then it ends with measurements or an error for every document
    whose data elements all have a type attribute. *)
Lemma find_type_some : forall al d, (exists x, d = Some x) \/ In ($"type") (map fst al) -> exists x, find_type al d = Some x.
Proof.
  induction al as [|[k v] al IH]; intros d H; cbn [find_type map fst In] in *.
  - destruct H as [[x ->]|[]]. eauto.
  - apply IH. destruct (eqs_spec k ($"type")) as [E|E]; [left; eauto|]. destruct H as [H|[H|H]]; [left; exact H|contradiction|right; exact H].
Qed.
Lemma set_attrs_some : forall al x, exists y, set_attrs al (Some x) = Ok (Some y).
Proof.
  induction al as [|[k v] al IH]; intros x; cbn [set_attrs]; [eauto|].
  destruct (eqs k ($"name")); [apply IH|]. destruct (eqs k ($"type")); [apply IH|]. destruct (eqs k ($"encoding")); [apply IH|]. destruct (eqs k ($"compression")); apply IH.
Qed.
Theorem C90_reader_ends : forall asserts ext bytes,
  ReadXMLInput asserts ext bytes <> Hang /\
  (asserts = false -> ReadXMLInput asserts ext bytes <> Abort /\
     ((forall al, In (EStart ($"DartMeasurement") al) (fst (expat ext bytes)) -> In ($"type") (map fst al)) ->
      if snd (expat ext bytes) then exists l, ReadXMLInput asserts ext bytes = Ok l else ReadXMLInput asserts ext bytes = Throw ExnRuntime)).
Proof.
  intros asserts ext bytes. rewrite read_spec. destruct (expat ext bytes) as [evs ok]. cbn [fst snd].
  assert (SA : forall al d, set_attrs al d <> Hang /\ set_attrs al d <> Abort).
  { induction al as [|[k v] al IH]; intros d; cbn [set_attrs]; [split; discriminate|].
    destruct (eqs k ($"name")), (eqs k ($"type")), (eqs k ($"encoding")), (eqs k ($"compression")), d; cbn [bind]; try apply IH; split; discriminate. }
  assert (V : forall p ev, on_event asserts p ev <> Hang /\ (asserts = false -> on_event asserts p ev <> Abort /\
      ((forall al, ev = EStart ($"DartMeasurement") al -> In ($"type") (map fst al)) -> exists p', on_event asserts p ev = Ok p'))).
  { intros p [n al|n|t]; cbn [on_event]; try (split; [discriminate|intros _; split; [discriminate|intros _; eexists; reflexivity]]).
    unfold on_start. destruct (asserts && negb (match pm p with None => true | _ => false end)) eqn:A1; [split; [discriminate|intros ->; cbn in A1; discriminate A1]|].
    destruct (asserts && negb (length (ptext p) =? 0)%nat) eqn:A2; [split; [discriminate|intros ->; cbn in A2; discriminate A2]|]. clear A1 A2.
    destruct (pdepth p =? 1)%nat; [|split; [discriminate|intros _; split; [discriminate|intros _; eexists; reflexivity]]].
    destruct (eqs n data_elem || eqs n file_elem); [|split; [discriminate|intros _; split; [discriminate|intros _; eexists; reflexivity]]].
    unfold start_measurement. destruct (eqs_spec n data_elem) as [->|En].
    - destruct (SA al (find_type al None)) as [S1 S2].
      destruct (set_attrs al (find_type al None)) as [d|i| | |] eqn:Es; cbn [bind]; try contradiction; split; try discriminate; intros _; (split; [discriminate|]); intros H;
        [eexists; reflexivity| |];
        destruct (find_type_some al None (or_intror (H al eq_refl))) as [x Ex]; rewrite Ex in Es; destruct (set_attrs_some al x) as [y Ey]; rewrite Ey in Es; discriminate.
    - destruct (eqs n file_elem); cbn [bind]; (split; [discriminate|intros _; split; [discriminate|intros _; eexists; reflexivity]]). }
  assert (L : forall evs p, on_events asserts p evs <> Hang /\ (asserts = false -> on_events asserts p evs <> Abort /\
      ((forall al, In (EStart ($"DartMeasurement") al) evs -> In ($"type") (map fst al)) -> exists p', on_events asserts p evs = Ok p'))).
  { clear evs. induction evs as [|ev evs IH]; intros p; cbn [on_events]; [split; [discriminate|intros _; split; [discriminate|eauto]]|].
    destruct (V p ev) as [V1 V2]. destruct (on_event asserts p ev) as [p1|i| | |] eqn:Ev; cbn [bind]; try contradiction.
    - destruct (IH p1) as [I1 I2]. split; [exact I1|]. intros Ha. destruct (I2 Ha) as [I3 I4]. split; [exact I3|]. intros H. apply I4. intros al Hal. apply H. right. exact Hal.
    - split; [discriminate|]. intros Ha. split; [discriminate|]. intros H. destruct (V2 Ha) as [_ V3]. destruct V3 as [p' E]; [|discriminate E]. intros al ->. apply H. left. reflexivity.
    - split; [discriminate|]. intros Ha. split; [discriminate|]. intros H. destruct (V2 Ha) as [_ V3]. destruct V3 as [p' E]; [|discriminate E]. intros al ->. apply H. left. reflexivity.
    - split; [discriminate|]. intros Ha. destruct (V2 Ha) as [V3 _]. contradiction. }
  destruct (L evs pd0) as [L1 L2]. split.
  - destruct (on_events asserts pd0 evs); cbn [bind]; try discriminate; try contradiction. destruct (asserts && _); [discriminate|]. destruct ok; discriminate.
  - intros ->. destruct (L2 eq_refl) as [L3 L4]. split.
    + destruct (on_events false pd0 evs); cbn [bind andb]; try discriminate; try contradiction. destruct ok; discriminate.
    + intros H. destruct (L4 H) as [p' ->]. cbn [bind andb]. destruct ok; [eexists; reflexivity|reflexivity].
Qed.
Print Assumptions C90_reader_ends.

(** * Runs that do not end *)
Definition int_base (s : str) : list meas := [MD (SetContent (SetAttributeName (new_dm CInt) ($"n")) s)].
Definition coded_base : list meas := [MD (SetContent (SetAttributeEncoding (SetAttributeName (new_dm CString) ($"n")) ($"base64")) ($"QUJD"))].
Definition measures (c : call) : list str -> prog := fun _ => Call c (fun _ => Return 0).
Local Notation run_with base c := (snd (Main ex_env (measures c) [$"prog"; $"-I"; $"b.xml"] (new_test (base_of base)))).
(** Nothing less is enough: one measurement of the baseline that was read without any complaint makes the behaviour of the run undefined. *)
Theorem C90_every_run_returns_refuted :
  started ex_env (base_of (int_base ($"-2147483648"))) [] [] ($"b.xml") <> None /\ run_with (int_base ($"-2147483648")) (NumericInteger 0 ($"n") true) = UB /\
  started ex_env (base_of (int_base ($"2000000000"))) [] [] ($"b.xml") <> None /\ run_with (int_base ($"2000000000")) (NumericInteger (-2000000000) ($"n") true) = UB /\
  started ex_env (base_of (int_base ($" "))) [] [] ($"b.xml") <> None /\ run_with (int_base ($" ")) (NumericInteger 0 ($"n") true) = UB /\
  started ex_env (base_of coded_base) [] [] ($"b.xml") <> None /\ run_with coded_base (TextString ($"QUJD") ($"n")) = UB.
Proof. repeat split; try (vm_compute; discriminate); vm_compute; reflexivity. Qed.
Print Assumptions C90_every_run_returns_refuted.

(** * Concrete cases *)
Definition c90_env : env := Env true true (Some (fun _ _ => 0)) NumModel.std_io (fun _ => ([], false)) (fun p => p) (fun _ => true) ($"host") ($"now" ++ [nl]).
Definition mixed_base : list meas := [MD (SetContent (SetAttributeName (new_dm CPlain) ($"t")) ($"a" ++ [nl] ++ $"b")); MD (SetContent (SetAttributeName (new_dm CInt) ($"n")) ($"100"));
  MD (SetContent (SetAttributeName (new_dm CBool) ($"y")) ($"1")); MF (Mf ($"log") true ($"text/plain") ($"log.txt")); MD (SetContent (SetAttributeName (new_dm CDouble) ($"x")) ($"0.75"))].
Definition mixed_test : list str -> prog := fun _ =>
  Call (TextPlain ($"a" ++ [nl] ++ $"c") ($"t")) (fun _ => SetRelativeTolerance (binary_normalize p64 x64 1 (-4) false) (Call (NumericInteger 103 ($"n") true) (fun _ =>
  Call (NumericBoolean true ($"y") true) (fun _ => Call (FileTextPlain ($"out/log.txt") ($"log")) (fun r => Call (NumericDouble (binary_normalize p64 x64 3 (-2) false) ($"x") true) (fun _ => Return r)))))).
Lemma mixed_can args : can_be_compared c90_env mixed_base (mixed_test args).
Proof.
  split; [|intros _; split; [|intros _; split; [|intros _; split; [|intros r; split; [|intros _; exact Logic.I]]]]].
  all: intros b Hb Hk; cbn [In mixed_base] in Hb; repeat (destruct Hb as [<-|Hb]; [|]); try contradiction; try (vm_compute in Hk; discriminate Hk).
  - split; [split; [discriminate|exact Logic.I]|]. split; [eexists; reflexivity|]. split; [vm_compute; reflexivity|].
    intros x y Hx Hy Hh.
    change (lines (mcontent (MD (SetContent (SetAttributeName (new_dm CPlain) ($"t")) ($"a" ++ [nl] ++ $"b")))) ++ lines ($"a" ++ [nl] ++ $"c")) with [$"a"; $"b"; $"a"; $"c"] in *.
    cbn [In] in Hx, Hy. repeat destruct Hx as [<-|Hx]; try contradiction; repeat destruct Hy as [<-|Hy]; try contradiction; try reflexivity; vm_compute in Hh; discriminate Hh.
  - split; [|exact Logic.I]. split; [discriminate|]. exists 100. split; [vm_compute; reflexivity|]. cbv zeta. change (wrap32 103) with 103. lia.
  - split; [|exact Logic.I]. split; [discriminate|]. exists true. vm_compute. reflexivity.
  - split; exact Logic.I.
  - split; [|exact Logic.I]. split; [discriminate|]. split; eexists; vm_compute; reflexivity.
Qed.
Lemma line_mixed : command_line c90_env (base_of mixed_base) [($"-I", $"b.xml")] [].
Proof. line. Qed.
Example C90_run_returns_met := C90_run_returns c90_env (base_of mixed_base) mixed_test ($"prog") [($"-I", $"b.xml")] [] ($"b.xml") None (base_of mixed_base) mixed_base
  line_mixed eq_refl ltac:(vm_compute; reflexivity) (mixed_can _).
Example C90_mixed_result : snd (Main c90_env mixed_test [$"prog"; $"-I"; $"b.xml"] (new_test (base_of mixed_base))) = Ok 2.
Proof. vm_compute. reflexivity. Qed.
Definition cut_base : store := fun k => if eqs k ($"b.xml") then Some (FFile true true ($"<output><DartMeasurement>")) else None.
Lemma line_cut : command_line c90_env cut_base [($"-I", $"b.xml")] [].
Proof. line. Qed.
Example C90_unread_baseline_returns_met := C90_unread_baseline_returns c90_env cut_base mixed_test ($"prog") [($"-I", $"b.xml")] [] ($"b.xml")
  line_cut eq_refl ltac:(vm_compute; reflexivity).
Example C90_unread_result : snd (Main c90_env mixed_test [$"prog"; $"-I"; $"b.xml"] (new_test cut_base)) = Ok (-1).
Proof. vm_compute. reflexivity. Qed.
Example C90_reader_ends_met := proj2 (proj2 (C90_reader_ends false no_ext (ReadProps.document (lines_of mixed_base))) eq_refl).

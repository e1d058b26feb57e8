(** Property C52: tfPipeToXML. *)
From Coq Require Import Floats.SpecFloat.
From Verif Require Import Base Str Dec PathModel PathFacts MeasModel MeasFacts MeasFacts2 XmlText XmlModel ReadModel ReadFacts ReadBack ReadProps RegModel ArgFacts ArgProps RegSpec RegFacts RegStart RegMain RegProps RegProps2 RegRound RegProps3 ImgModel ItkModel ItkSpec ItkSim ItkRun ItkMain.

(** * Specification *)
(** everything the child printed, in order of arrival *)
Definition printed (c : child) : str := concat (map snd (ch_chunks c)).
Definition exit_value (c : child) : Z := match ch_end c with Exited v => v | Otherwise => (-1)%Z end.
(** the test of the base class that measures a text and returns a value *)
Definition text_test (text : str) (v : Z) : list str -> prog := fun _ => Call (TextPlain text ($"stdout")) (fun _ => Return v).

Lemma drain_all l : forall acc, drain l acc = acc ++ concat (map snd l).
Proof.
  induction l as [|[b d] l IH]; intros acc; [symmetry; apply app_nil_r|]. cbn [drain map snd concat]. rewrite IH, <- app_assoc. reflexivity.
Qed.
Lemma launch_eq e b1 b2 f dirs0 a0 opts rest : command_line e f opts rest -> b1 (a0 :: rest) = b2 (a0 :: rest) ->
  Main_with e b1 (a0 :: flat opts ++ rest) (fresh f dirs0) = Main_with e b2 (a0 :: flat opts ++ rest) (fresh f dirs0).
Proof.
  intros Hc E. rewrite !Main_with_unfold.
  change (set_unmatched (fresh f dirs0) (s_unmatched (fresh f dirs0) + 1)) with (set_unmatched (fresh f dirs0) 1).
  rewrite !(main_with_launch e _ f dirs0 a0 opts rest Hc). rewrite E. reflexivity.
Qed.
Lemma fresh_nil f : fresh f [] = new_test f.
Proof. reflexivity. Qed.

(** * Theorems *)
(** The run is one of the driver's runs, with the test that measures all the child printed as plain text named "stdout" and returns the
    child's exit value (-1 if it did not exit); the child is started with exactly the arguments the driver leaves.  Only standard
    output is different: C36-C44 hold as they are. *)
Theorem C52_is_a_text_measurement : forall ie launch f a0 opts rest, command_line (i_env ie) f opts rest ->
  let '(s1, r1) := pipe_Main ie launch (a0 :: flat opts ++ rest) (new_test f) in
  let '(s2, r2) := Main (i_env ie) (text_test (printed (launch rest)) (exit_value (launch rest))) (a0 :: flat opts ++ rest) (new_test f) in
  r1 = r2 /\ s1 = set_stdout s2 (s_stdout s1).
Proof.
  intros ie launch f a0 opts rest Hc. set (argv := a0 :: flat opts ++ rest).
  set (body := fun args : list str => irun ie argv (tfPipeToXML launch (a0 :: rest)) no_tolerance 0%Z).
  assert (E : pipe_Main ie launch argv (new_test f) = Main_with (i_env ie) body argv (new_test f)).
  { unfold pipe_Main. rewrite <- fresh_nil. apply launch_eq; [exact Hc|reflexivity]. }
  rewrite E, Main_is_with.
  assert (S : simM (Main_with (i_env ie) body argv) (Main_with (i_env ie) (fun args => run (i_env ie) (text_test (printed (launch rest)) (exit_value (launch rest)) args)) argv)).
  { apply sim_Main. intros args. apply sim_run. unfold tfPipeToXML, text_test. cbn [tl]. apply p_say. cbv zeta.
    rewrite (drain_all _ []). apply p_call. intros r. apply p_return. }
  destruct (S _ _ (sim_refl (new_test f))) as [S1 R]. destruct (Main_with (i_env ie) body argv (new_test f)) as [s1 r1].
  destruct (Main_with (i_env ie) _ argv (new_test f)) as [s2 r2] in *. cbn [fst snd] in *. split; [exact R|exact S1].
Qed.
Print Assumptions C52_is_a_text_measurement.
(** How the output arrives, in which pieces and from which stream, makes no difference; nor what the child would do with other arguments. *)
Theorem C52_pieces_do_not_matter : forall ie launch launch' f a0 opts rest, command_line (i_env ie) f opts rest ->
  printed (launch rest) = printed (launch' rest) -> ch_end (launch rest) = ch_end (launch' rest) ->
  pipe_Main ie launch (a0 :: flat opts ++ rest) (new_test f) = pipe_Main ie launch' (a0 :: flat opts ++ rest) (new_test f).
Proof.
  intros ie launch launch' f a0 opts rest Hc P X. unfold pipe_Main. rewrite <- fresh_nil. apply launch_eq; [exact Hc|].
  unfold tfPipeToXML. cbn [tl]. cbv zeta. rewrite !drain_all. unfold printed in P. rewrite P, X. reflexivity.
Qed.
Print Assumptions C52_pieces_do_not_matter.
(** What a recording run leaves.  [o = Some k]: -O was given and k is the file. *)
Theorem C52_recorded : forall ie launch f a0 opts rest o f1, let e := i_env ie in
  command_line e f opts rest -> input_of opts = None -> opened e f (output_of e f opts) = Some (o, f1) ->
  exists s' text m, pipe_Main ie launch (a0 :: flat opts ++ rest) (new_test f) =
      (s', Ok (if (exit_value (launch rest) =? expected_of opts)%Z then 0%Z else exit_value (launch rest))) /\
    Print (meas_of (e_io e) false (TextPlain (printed (launch rest)) ($"stdout"))) = Ok m /\
    text = $"Redirecting output from: " ++ quote ++ spaced rest ++ quote ++ [nl] /\
    match o with
    | Some _ => written o s' = header e ++ m ++ [nl] ++ footer /\ s_stdout s' = text
    | None => s_stdout s' = header e ++ text ++ m ++ [nl] ++ footer
    end.
Proof.
  intros ie launch f a0 opts rest o f1 e Hc Hi Ho.
  destruct (record_in ie f [] (tfPipeToXML launch) a0 opts rest o f1 Hc Hi Ho) as (s' & M & W & S).
  { unfold tfPipeToXML. cbn. exact I. }
  exists s'. eexists. exists (print_of (meas_of (e_io e) false (TextPlain (printed (launch rest)) ($"stdout")))).
  split; [|split; [apply print_print_of|split; [reflexivity|]]].
  - unfold pipe_Main. rewrite <- fresh_nil. unfold itk_body in M. fold e in M. fold e. rewrite M. reflexivity.
  - unfold tfPipeToXML in W, S. cbn [tl script iends flat_map shown said imeas] in W, S. cbv zeta in W, S. rewrite drain_all in W. cbn [app] in W.
    rewrite !app_nil_r in S. fold e in W. fold (printed (launch rest)) in W.
    destruct o as [k|].
    + cbn [app] in W. split; [|apply S; discriminate]. rewrite <- !app_assoc in W. cbn [app] in W. exact W.
    + cbn [written_to] in W. rewrite W. rewrite !app_nil_r. rewrite <- !app_assoc. reflexivity.
Qed.
Print Assumptions C52_recorded.
(** Comparing: with a baseline that starts with a plain text "stdout" the value returned is 0 exactly if the text is the same
    and the child exits as expected (with 0). *)
Theorem C52_comparison : forall ie launch f a0 opts rest inf o f1 b baseline s' z, let e := i_env ie in
  command_line e f opts rest -> input_of opts = Some inf ->
  started e f (output_of e f opts) (dirs_of opts) inf = Some (o, f1, MD b :: baseline) ->
  dname b = $"stdout" -> dcls b = CPlain -> ddata b = None -> denc b <> $"base64" ->
  pipe_Main ie launch (a0 :: flat opts ++ rest) (new_test f) = (s', Ok z) ->
  z = if (exit_value (launch rest) =? expected_of opts)%Z then (if eqs (dcontent b) (printed (launch rest)) then 0%Z else 1%Z)
      else exit_value (launch rest).
Proof.
  intros ie launch f a0 opts rest inf o f1 b baseline s' z e Hc Hi Hs Bn Bc Bd Be H.
  pose proof (C52_is_a_text_measurement ie launch f a0 opts rest Hc) as E. rewrite H in E. fold e in E.
  set (test := text_test (printed (launch rest)) (exit_value (launch rest))) in *.
  destruct (Main e test (a0 :: flat opts ++ rest) (new_test f)) as [s2 r2] eqn:M. destruct E as [<- _].
  pose proof (C37_compare_status e f test a0 opts rest inf s2 z Hc Hi M) as C. rewrite Hs in C.
  destruct C as (ms & rs & x & out & W & _ & St & Z).
  assert (V : forall t0 f0, kind_of_moment e (MD b) (TextPlain (printed (launch rest)) ($"stdout"), t0, f0) &&
     same_value e (dirs_of opts) (MD b) (TextPlain (printed (launch rest)) ($"stdout"), t0, f0) = eqs (dcontent b) (printed (launch rest))).
  { intros t0 f0. rewrite (exact_verdict e (dirs_of opts) (MD b) _ t0 f0); [|reflexivity|split; assumption|reflexivity].
    unfold eq3, triple. cbn [fst snd mname mtype mcontent meas_of]. cbn [named SetContent dname dcls dcontent]. rewrite Bn, Bc. reflexivity. }
  unfold test, text_test in W. inversion W; subst.
  - match goal with X : unfolds _ _ _ _ _ (Return _) _ _ _ _ |- _ => inversion X; subst end.
    cbn [length firstn mismatches]. rewrite V. unfold status. destruct (_ =? _)%Z; [|reflexivity]. destruct (eqs _ _); reflexivity.
  - exfalso. cbn [length nth_error] in St. destruct (St _ eq_refl) as (b' & i' & Ei & Nb & K & Vt). injection Nb as <-.
    unfold verdict in Vt. cbn [tolerant_of meas_of found] in Vt.
    rewrite (compare_exact (e_sc e) (sources e f1) (e_io e) new_cmp b _ (dcontent b) (printed (launch rest)) eq_refl) in Vt.
    + discriminate Vt.
    + right. auto.
    + right. split; [reflexivity|]. split; [discriminate|reflexivity].
Qed.
Print Assumptions C52_comparison.
(** Recording with -O, then comparing a child that prints and ends alike. *)
Theorem C52_record_then_compare : forall ie launch f a0 rest opts k f1 s1 z ie' launch' f' opts' inf o' f2,
  let e := i_env ie in let e' := i_env ie' in
  command_line e f opts rest -> input_of opts = None -> opened e f (output_of e f opts) = Some (Some k, f1) ->
  text_safe (printed (launch rest)) -> comment_safe (e_host e) -> comment_safe (e_time e) ->
  pipe_Main ie launch (a0 :: flat opts ++ rest) (new_test f) = (s1, Ok z) ->
  command_line e' f' opts' rest -> input_of opts' = Some inf -> expected_of opts' = expected_of opts -> e_io e' = e_io e ->
  opened e' f' (output_of e' f' opts') = Some (o', f2) ->
  contents e' f2 (baseline_path e' f2 (dirs_of opts') inf) = Some (written (Some k) s1) ->
  printed (launch' rest) = printed (launch rest) -> ch_end (launch' rest) = ch_end (launch rest) ->
  exists s2, pipe_Main ie' launch' (a0 :: flat opts' ++ rest) (new_test f') = (s2, Ok z) /\ s_files s2 = f2.
Proof.
  intros ie launch f a0 rest opts k f1 s1 z ie' launch' f' opts' inf o' f2 e e' Hc Hi Ho Hs Hh Ht H Hc' Hi' Hx Hio Ho' Hb P X.
  pose proof (C52_is_a_text_measurement ie launch f a0 opts rest Hc) as E. rewrite H in E. fold e in E.
  pose proof (C52_is_a_text_measurement ie' launch' f' a0 opts' rest Hc') as E'. fold e' in E'.
  assert (XV : exit_value (launch' rest) = exit_value (launch rest)) by (unfold exit_value; rewrite X; reflexivity).
  rewrite P, XV in E'. set (test := text_test (printed (launch rest)) (exit_value (launch rest))) in *.
  destruct (Main e test (a0 :: flat opts ++ rest) (new_test f)) as [s3 r3] eqn:M. destruct E as [<- E].
  assert (W : written (Some k) s1 = written (Some k) s3) by (rewrite E; reflexivity). rewrite W in Hb.
  destruct (C39_record_then_compare e f test a0 rest opts (Some k) f1 s3 z (exit_value (launch rest)) e' f' opts' inf o' f2) as (s2 & M2 & _ & F2); try assumption.
  - cbn. intros _. exact I.
  - reflexivity.
  - constructor; [|constructor]. cbn [map meas_of storable recorded]. split; [reflexivity|]. split; [reflexivity|]. split; [reflexivity|]. split; [reflexivity|exact Hs].
  - cbn. auto.
  - rewrite M2 in E'. destruct (pipe_Main ie' launch' (a0 :: flat opts' ++ rest) (new_test f')) as [s4 r4]. destruct E' as [-> E'].
    exists s4. split; [reflexivity|]. rewrite E'. cbn. exact F2.
Qed.
Print Assumptions C52_record_then_compare.

(** * Claims that fail *)
Definition ex_ienv : ienv := IEnv ex_env (fun _ _ => None) (fun _ _ => None) (fun _ _ _ => 0%Z) (fun _ a _ => a) (fun _ => []) (fun _ => []) (fun _ => []) (fun _ => None)
  (fun _ => None) ($"out") ($"base").
(** The comment in the source says that standard output is captured; standard error is as well. *)
Theorem C52_standard_output_only_refuted : exists ie launch argv f s' z b,
  pipe_Main ie launch argv (new_test f) = (s', Ok z) /\ written (Some ($"b.xml")) s' = b /\
  (forall l, ch_chunks (launch l) = [(true, $"result"); (false, $"warning 17")]) /\   (* true: from standard output *)
  (exists u v, b = u ++ $"warning 17" ++ v).
Proof.
  exists ex_ienv, (fun _ => Child [(true, $"result"); (false, $"warning 17")] (Exited 0)), [$"pipe"; $"-O"; $"b.xml"; $"child"], (fun _ => None).
  do 3 eexists. split; [vm_compute; reflexivity|]. split; [vm_compute; reflexivity|]. split; [reflexivity|].
  exists (firstn 147 (header ex_env ++ $"<DartMeasurement name=" ++ quote ++ $"stdout" ++ quote ++ $" type=" ++ quote ++ $"text/plain" ++ quote ++ $">result")). eexists. vm_compute. reflexivity.
Qed.
Print Assumptions C52_standard_output_only_refuted.
(** Without -O the arguments are printed unescaped inside the recorded document, which may then be unreadable. *)
Theorem C52_readable_without_output_file_refuted : exists ie launch argv f s' z,
  pipe_Main ie launch argv (new_test f) = (s', Ok z) /\ z = 0%Z /\
  ReadXMLInput (e_asserts (i_env ie)) (e_ext (i_env ie)) (s_stdout s') = Throw ExnRuntime /\
  (forall l, printed (launch l) = $"text").
Proof.
  exists ex_ienv, (fun _ => Child [(true, $"text")] (Exited 0)), [$"pipe"; $"child"; $"a<b"], (fun _ => None).
  do 2 eexists. split; [vm_compute; reflexivity|]. split; [reflexivity|]. split; [vm_compute; reflexivity|reflexivity].
Qed.
Print Assumptions C52_readable_without_output_file_refuted.
(** Non-vacuity: recording and comparing, the child's output arriving in different pieces. *)
Example C52_example : exists s1 s2, let f0 : store := fun _ => None in
  let whole := fun _ : list str => Child [(true, $"a<b")] (Exited 3) in let pieces := fun _ : list str => Child [(false, $"a"); (true, []); (true, $"<b")] (Exited 3) in
  pipe_Main ex_ienv whole [$"pipe"; $"-O"; $"b.xml"; $"-R"; $"3"; $"child"] (new_test f0) = (s1, Ok 0%Z) /\
  pipe_Main ex_ienv pieces [$"pipe"; $"-I"; $"b.xml"; $"-R"; $"3"; $"child"] (new_test (s_files s1)) = (s2, Ok 0%Z) /\
  command_line ex_env f0 [($"-O", $"b.xml"); ($"-R", $"3")] [$"child"] /\ comment_safe (e_host ex_env) /\ comment_safe (e_time ex_env) /\ text_safe ($"a<b").
Proof.
  do 2 eexists. cbv zeta. split; [vm_compute; reflexivity|]. split; [vm_compute; reflexivity|].
  split; [|split; [|split; [|reflexivity]]].
  - split.
    + constructor; [|constructor; [|constructor]]; (split; [cbn; auto|]); (split; [intros E; discriminate E|]); intros E; try discriminate E; vm_compute; congruence.
    + vm_compute. intuition congruence.
  - split; [reflexivity|]. intros a b E. apply (f_equal (fun l => existsb (fun c => eqc c "-") l)) in E. rewrite !existsb_app in E. cbn in E. rewrite orb_true_r in E. discriminate.
  - split; [reflexivity|]. intros a b E. apply (f_equal (fun l => existsb (fun c => eqc c "-") l)) in E. rewrite !existsb_app in E. cbn in E. rewrite orb_true_r in E. discriminate.
Qed.

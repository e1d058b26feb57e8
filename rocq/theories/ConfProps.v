(** C62: settings made in the constructor of a test (tests/tfRegressionTestTest4.cxx 11-15) instead of on the command line. *)
From Coq Require Import Floats.SpecFloat.
From Verif Require Import Base Str Dec PathModel MeasModel XmlModel ReadModel RegModel ArgFacts ArgProps RegSpec RegFacts RegStart RegMain RegProps RegProps2 ItkModel ItkSim ApiModel.
Local Open Scope Z_scope.

(** the object after SetInFileName, SetOutFileName, SetInFileSearchPath and SetExpectedReturn (tfRegressionTest.cpp 71-136) *)
Definition configured (f : store) (inf outf : str) (dirs : list str) (x : Z) : rst :=
  set_expected (set_path (set_out (set_in (new_test f) inf) outf) dirs) x.
(** the same as options *)
Definition option_for (flag v : str) : list (str * str) := match v with [] => [] | _ => [(flag, v)] end.
Definition as_options (inf outf : str) (dirs : list str) (x : Z) : list (str * str) :=
  option_for ($"-I") inf ++ option_for ($"-O") outf ++ map (fun d => ($"-P", d)) (rev dirs) ++ [($"-R", print_int x)].
(** an output file the program does not refuse *)
Definition output_accepted (e : env) (f : store) (o : str * str) : Prop := fst o = $"-O" -> out_choice e f (snd o) = Some (snd o).

Lemma values_app k a b : values k (a ++ b) = values k a ++ values k b.
Proof. unfold values. rewrite filter_app, map_app. reflexivity. Qed.
Lemma values_option k k' v : values k (option_for k' v) = if eqs k' k then match v with [] => [] | _ => [v] end else [].
Proof. unfold option_for, values. destruct v as [|c v]; [destruct (eqs k' k); reflexivity|]. cbn [filter fst]. destruct (eqs k' k); reflexivity. Qed.
Lemma values_dirs k l : values k (map (fun d => ($"-P", d)) l) = if eqs ($"-P") k then l else [].
Proof.
  unfold values. induction l as [|d l IH]; [destruct (eqs ($"-P") k); reflexivity|]. cbn [map filter fst].
  destruct (eqs ($"-P") k); cbn [map snd]; rewrite IH; reflexivity.
Qed.
Lemma last_value_app {A} (a b : list A) d : last_value (a ++ b) d = last_value b (last_value a d).
Proof. revert d. induction a as [|x a IH]; intros d; [reflexivity|apply IH]. Qed.
Lemma last_value_some {A} (l : list A) d : last_value (map Some l) (Some d) = Some (last_value l d).
Proof. revert d. induction l as [|x l IH]; intros d; [reflexivity|apply IH]. Qed.
Lemma choice_values e f opts : Forall (output_accepted e f) opts -> map (out_choice e f) (values ($"-O") opts) = map Some (values ($"-O") opts).
Proof.
  unfold values. induction 1 as [|[k v] l H _ IH]; [reflexivity|]. cbn [filter fst]. destruct (eqs_spec k ($"-O")) as [->|N]; [|exact IH].
  cbn [map snd]. rewrite IH. specialize (H eq_refl). cbn [snd] in H. rewrite H. reflexivity.
Qed.
Lemma last_or (l : list str) (v : str) : match last_value (map Some l) None with Some x => x | None => v end =
  match last_value (map Some l) (match v with [] => None | _ => Some v end) with Some x => x | None => [] end.
Proof.
  destruct l as [|x l]; [destruct v; reflexivity|]. cbn [map last_value]. rewrite !last_value_some. reflexivity.
Qed.

(** Settings made in the constructor that would be accepted on the command line have exactly the effect of options in front of those given. *)
Theorem C62_constructor_is_options : forall e f body a0 opts rest inf outf dirs x,
  Forall (accepted e f) (as_options inf outf dirs x) -> Forall (output_accepted e f) (as_options inf outf dirs x ++ opts) -> in_int x ->
  command_line e f opts rest ->
  Main_with e body (a0 :: flat opts ++ rest) (configured f inf outf dirs x) =
  Main_with e body (a0 :: flat (as_options inf outf dirs x ++ opts) ++ rest) (new_test f).
Proof.
  intros e f body a0 opts rest inf outf dirs x Ha Ho Hx [Hc Hr]. rewrite !Main_with_unfold. f_equal.
  set (s1 := set_unmatched (configured f inf outf dirs x) _). set (s2 := set_unmatched (new_test f) _). set (all := as_options inf outf dirs x ++ opts).
  assert (Hall : Forall (accepted e f) all) by (apply Forall_app; split; assumption).
  apply Forall_app in Ho as Ho'. destruct Ho' as [_ Ho'].
  destruct (C36_arguments_removed e s1 a0 opts rest (S (length (a0 :: flat opts ++ rest)))) as (argc1 & argv1 & s1' & E1 & F1 & _ & A1 & B1 & C1 & D1 & G1);
    [exact Hc|exact Hr|cbn [length]; rewrite app_length, flat_length; lia|].
  destruct (C36_arguments_removed e s2 a0 all rest (S (length (a0 :: flat all ++ rest)))) as (argc2 & argv2 & s2' & E2 & F2 & _ & A2 & B2 & C2 & D2 & G2);
    [exact Hall|exact Hr|cbn [length]; rewrite app_length, flat_length; lia|].
  unfold main_body_with. unfold mbind at 1. unfold mbind at 2. rewrite E1, E2. cbv beta iota. rewrite F1, F2.
  enough (Es : s1' = s2') by (rewrite Es; reflexivity).
  assert (In : s_in s1' = s_in s2').
  { rewrite A1, A2. unfold all, as_options. rewrite !values_app, !values_option, values_dirs. cbn [eqs]. 
    change (eqs ($"-I") ($"-I")) with true. change (eqs ($"-O") ($"-I")) with false. change (eqs ($"-P") ($"-I")) with false. cbn iota.
    change (values ($"-I") [($"-R", print_int x)]) with (@nil str). rewrite !app_nil_l, app_nil_r, map_app, last_value_app.
    change (s_in s1) with inf. change (s_in s2) with (@nil ascii). rewrite last_or. destruct inf; reflexivity. }
  assert (Out : s_out s1' = s_out s2').
  { rewrite B1, B2. change (s_files s1) with f. change (s_files s2) with f. rewrite (choice_values e f opts Ho'), (choice_values e f all Ho).
    unfold all, as_options. rewrite !values_app, !values_option, values_dirs.
    change (eqs ($"-I") ($"-O")) with false. change (eqs ($"-O") ($"-O")) with true. change (eqs ($"-P") ($"-O")) with false. cbn iota.
    change (values ($"-O") [($"-R", print_int x)]) with (@nil str). rewrite !app_nil_l, app_nil_r, map_app, last_value_app.
    change (s_out s1) with outf. change (s_out s2) with (@nil ascii). rewrite last_or. destruct outf; reflexivity. }
  assert (Pa : s_path s1' = s_path s2').
  { rewrite D1, D2. unfold all, as_options. rewrite !values_app, !values_option, values_dirs.
    change (eqs ($"-I") ($"-P")) with false. change (eqs ($"-O") ($"-P")) with false. change (eqs ($"-P") ($"-P")) with true. cbn iota.
    change (values ($"-P") [($"-R", print_int x)]) with (@nil str). rewrite !app_nil_l, (app_nil_r (rev dirs)), rev_app_distr, rev_involutive.
    change (s_path s1) with dirs. change (s_path s2) with (@nil str). rewrite app_nil_r. reflexivity. }
  assert (Ex : s_expected s1' = s_expected s2').
  { rewrite C1, C2. unfold all, as_options. rewrite !values_app, !values_option, values_dirs.
    change (eqs ($"-I") ($"-R")) with false. change (eqs ($"-O") ($"-R")) with false. change (eqs ($"-P") ($"-R")) with false. cbn iota.
    change (values ($"-R") [($"-R", print_int x)]) with [print_int x]. rewrite !app_nil_l, map_app, last_value_app. cbn [map last_value].
    rewrite (C36_expected_value x Hx). reflexivity. }
  rewrite G1, G2, In, Out, Pa, Ex. reflexivity.
Qed.
Print Assumptions C62_constructor_is_options.
Theorem C62_constructor_is_options_Main : forall e f test a0 opts rest inf outf dirs x,
  Forall (accepted e f) (as_options inf outf dirs x) -> Forall (output_accepted e f) (as_options inf outf dirs x ++ opts) -> in_int x ->
  command_line e f opts rest ->
  Main e test (a0 :: flat opts ++ rest) (configured f inf outf dirs x) =
  Main e test (a0 :: flat (as_options inf outf dirs x ++ opts) ++ rest) (new_test f).
Proof. intros. rewrite !Main_is_with. apply C62_constructor_is_options; assumption. Qed.
Theorem C62_constructor_is_options_api : forall e f test a0 opts rest inf outf dirs x,
  Forall (accepted e f) (as_options inf outf dirs x) -> Forall (output_accepted e f) (as_options inf outf dirs x ++ opts) -> in_int x ->
  command_line e f opts rest ->
  api_Main e test (a0 :: flat opts ++ rest) (configured f inf outf dirs x) =
  api_Main e test (a0 :: flat (as_options inf outf dirs x ++ opts) ++ rest) (new_test f).
Proof. intros. unfold api_Main. apply C62_constructor_is_options; assumption. Qed.

(** * The tolerance *)
(** computations that neither read nor change the tolerance *)
Definition tolfree {A} (m : M A) : Prop := forall s t, m (set_tol s t) = (set_tol (fst (m s)) t, snd (m s)).
Lemma tf_ret {A} (a : A) : tolfree (mret a). Proof. intros s t. reflexivity. Qed.
Lemma tf_lift {A} (r : res A) : tolfree (mlift r). Proof. intros s t. reflexivity. Qed.
Lemma tf_bind {A B} (m : M A) (k : A -> M B) : tolfree m -> (forall a, tolfree (k a)) -> tolfree (mbind m k).
Proof. intros Hm Hk s t. unfold mbind. rewrite Hm. destruct (m s) as [s' r]. cbn [fst snd]. destruct r; try reflexivity. apply Hk. Qed.
Lemma tf_modify g : (forall s t, g (set_tol s t) = set_tol (g s) t) -> tolfree (modify g).
Proof. intros H s t. unfold modify. rewrite H. reflexivity. Qed.
Lemma tf_gets {A} (g : rst -> A) : (forall s t, g (set_tol s t) = g s) -> tolfree (gets g).
Proof. intros H s t. unfold gets. rewrite H. reflexivity. Qed.
Lemma tf_if {A} (b : bool) (x y : M A) : tolfree x -> tolfree y -> tolfree (if b then x else y).
Proof. destruct b; trivial. Qed.
Lemma tf_eq {A} (m m' : M A) : (forall s, m s = m' s) -> tolfree m' -> tolfree m.
Proof. intros E H s t. rewrite !E. apply H. Qed.
Lemma tf_put text : tolfree (put text).
Proof.
  apply tf_modify. intros s t. unfold put_text. cbn [set_tol s_os s_files s_stdout]. destruct (s_os s) as [k|]; [|reflexivity].
  destruct (s_files s k) as [[r w b|]|]; reflexivity.
Qed.
Lemma tf_parse e : forall fuel argc argv inf outf, tolfree (parse_loop e fuel argc argv inf outf).
Proof.
  induction fuel as [|fuel IH]; intros argc argv inf outf; [intros s t; reflexivity|].
  eapply (tf_eq _ (fun s => _)); [intros s; cbn [parse_loop]; reflexivity|].
  destruct (argc <=? 1)%nat; [intros s t; reflexivity|]. cbv beta.
  match goal with |- tolfree (fun s => ?m s) => apply (tf_eq _ m); [reflexivity|] end.
  repeat first [apply IH | apply tf_ret | apply tf_lift | apply tf_if | apply tf_bind; [|intros ?] | apply tf_modify; intros; reflexivity | apply tf_gets; intros; reflexivity].
Qed.
Lemma tf_begin e : tolfree (BeginMeasurement e).
Proof.
  unfold BeginMeasurement. apply tf_bind; [|intros _; apply tf_bind; [|intros _; apply tf_bind; [|intros cm; apply tf_if]]].
  - intros s t. unfold open_output. cbn [set_tol s_out s_files]. destruct (s_out s) as [|c n]; [reflexivity|]. destruct (slot e (c :: n)) as [k|]; [|reflexivity].
    destruct (s_files s k) as [[r w b|r w b]|]; [destruct w|..|destruct (e_cancreate e _)]; reflexivity.
  - intros s t. unfold open_input. cbn [set_tol s_in s_files]. destruct (s_in s) as [|c n]; [reflexivity|].
    change (search e (set_tol s t) (c :: n)) with (search e s (c :: n)). destruct (search e s (c :: n)) as [p|x| | |]; try reflexivity. destruct (can_open e _ _); reflexivity.
  - intros s t. reflexivity.
  - intros s t. unfold read_input. cbn [set_tol s_is s_files]. destruct (s_is s) as [k|]; [|reflexivity].
    destruct (s_files s k) as [[r w b|r w b]|]; try reflexivity. destruct (ReadXMLInput _ _ b); reflexivity.
  - apply tf_put.
Qed.
Lemma tf_end e : tolfree (EndMeasurement e).
Proof.
  unfold EndMeasurement. apply tf_bind; [intros s t; reflexivity|]. intros cm. apply tf_bind; [apply tf_if; [apply tf_modify; reflexivity|apply tf_put]|].
  intros _. apply tf_modify. reflexivity.
Qed.
Lemma set_tol_twice s t t' : set_tol (set_tol s t) t' = set_tol s t'. Proof. reflexivity. Qed.
Lemma finish_tol e ret s t : finish_with e ret (set_tol s t) = (set_tol (fst (finish_with e ret s)) t, snd (finish_with e ret s)).
Proof.
  unfold finish_with. change (s_expected (set_tol s t)) with (s_expected s). change (compare_mode e (set_tol s t)) with (compare_mode e s).
  change (s_unmatched (set_tol s t)) with (s_unmatched s). destruct (negb _); reflexivity.
Qed.
Lemma ends_tol e x t : ends_with e (set_tol (fst x) t, snd x) = (set_tol (fst (ends_with e x)) t, snd (ends_with e x)).
Proof.
  destruct x as [s r]. cbn [fst snd]. unfold ends_with. destruct r as [ret|x| | |]; try reflexivity; [|apply finish_tol].
  rewrite tf_end. destruct (EndMeasurement e s) as [s' r']. cbn [fst snd]. destruct r'; try reflexivity; [|apply finish_tol].
  change (set_unmatched (set_tol s' t) (s_unmatched (set_tol s' t) - 1)) with (set_tol (set_unmatched s' (s_unmatched s' - 1)) t). apply finish_tol.
Qed.
Lemma step_bind {A B} (m : M A) (k : A -> M B) s : mbind m k s =
  let x := m s in match snd x with Ok a => k a (fst x) | Throw y => (fst x, Throw y) | UB => (fst x, UB) | Abort => (fst x, Abort) | Hang => (fst x, Hang) end.
Proof. unfold mbind. destruct (m s). reflexivity. Qed.
(** A tolerance set in the constructor is the tolerance set at the beginning of the test. *)
Theorem C62_constructor_tolerance : forall e (test : list str -> prog) argv s t,
  let made := Main e test argv (set_tol s t) in
  let tested := Main e (fun args => SetRelativeTolerance t (test args)) argv s in
  snd made = snd tested /\ set_tol (fst made) t = set_tol (fst tested) t.
Proof.
  intros e test argv s t. cbv zeta. rewrite !Main_is_with, !Main_with_unfold.
  change (set_unmatched (set_tol s t) _) with (set_tol (set_unmatched s (s_unmatched s + 1)) t). set (s0 := set_unmatched s _).
  assert (H : main_body_with e (fun args => run e (test args)) argv (set_tol s0 t) =
    (set_tol (fst (main_body_with e (fun args => run e (SetRelativeTolerance t (test args))) argv s0)) t, snd (main_body_with e (fun args => run e (SetRelativeTolerance t (test args))) argv s0)) \/
    main_body_with e (fun args => run e (test args)) argv (set_tol s0 t) = main_body_with e (fun args => run e (SetRelativeTolerance t (test args))) argv s0).
  { unfold main_body_with. rewrite !(step_bind (ParseAndRemoveArguments e (S (length argv)) argv)).
    assert (P : tolfree (ParseAndRemoveArguments e (S (length argv)) argv)).
    { unfold ParseAndRemoveArguments. apply tf_bind; [apply tf_parse|]. intros [[[argc l] inf] outf].
      apply tf_bind; [apply tf_modify; intros; destruct inf; reflexivity|intros _]. apply tf_bind; [apply tf_modify; intros; destruct outf; reflexivity|intros _]. apply tf_ret. }
    rewrite P. destruct (ParseAndRemoveArguments _ _ _ s0) as [s1 r1]. cbn [fst snd]. destruct r1 as [[argc l]|x| | |]; try (left; reflexivity).
    rewrite !(step_bind (BeginMeasurement e)), (tf_begin e). destruct (BeginMeasurement e s1) as [s2 r2]. cbn [fst snd]. destruct r2 as [[]|x| | |]; try (left; reflexivity).
    right. reflexivity. }
  destruct H as [-> | ->]; [|split; reflexivity]. set (mb := main_body_with _ _ _ _). rewrite (ends_tol e mb t). cbn [fst snd]. rewrite set_tol_twice. split; reflexivity.
Qed.
Print Assumptions C62_constructor_tolerance.

(** * Where constructor and option differ *)
(** An output file that exists and cannot be written: named in the constructor the test fails, named on the command line it is as if no file was given. *)
Theorem C62_refused_output : forall e f (test : list str -> prog) a0 rest o r b,
  node_at e f o = Some (FFile r false b) -> match rest with [] => True | a :: _ => ~ In a flags end ->
  snd (Main e test (a0 :: rest) (set_out (new_test f) o)) = Ok (-1) /\
  Main e test (a0 :: $"-O" :: o :: rest) (new_test f) = Main e test (a0 :: rest) (new_test f).
Proof.
  intros e f test a0 rest o r b Ho Hr. rewrite !Main_is_with, !Main_with_unfold. split.
  - destruct (C36_arguments_removed e (set_unmatched (set_out (new_test f) o) 1) a0 [] rest (S (length (a0 :: rest)))) as (argc1 & argv1 & s1' & E1 & F1 & _ & A1 & B1 & C1 & D1 & G1);
      [constructor|exact Hr|cbn [length]; lia|]. change (flat [] ++ rest) with rest in E1, F1.
    change (set_unmatched (set_out (new_test f) o) (s_unmatched (set_out (new_test f) o) + 1)) with (set_unmatched (set_out (new_test f) o) 1).
    unfold main_body_with. rewrite step_bind. cbv zeta. rewrite E1. cbn [fst snd]. cbv beta iota. rewrite step_bind. cbv zeta.
    unfold BeginMeasurement. rewrite step_bind. cbv zeta.
    assert (Eo : s_out s1' = o) by (rewrite B1; reflexivity). assert (Ef : s_files s1' = f) by (rewrite G1; reflexivity).
    assert (Ex : s_expected s1' = 0) by (rewrite C1; reflexivity).
    unfold open_output. rewrite Eo, Ef. unfold node_at in Ho. destruct (slot e o) as [k|] eqn:Sk; [|discriminate].
    destruct o as [|c o]; [discriminate Sk|]. rewrite Sk, Ho. cbn [fst snd ends_with]. unfold finish_with. cbn [set_os s_expected]. rewrite Ex. reflexivity.
  - f_equal. set (s0 := set_unmatched (new_test f) _).
    destruct (C36_arguments_removed e s0 a0 [] rest (S (length (a0 :: rest)))) as (argc1 & argv1 & s1' & E1 & F1 & _ & A1 & B1 & C1 & D1 & G1);
      [constructor|exact Hr|cbn [length]; lia|]. change (flat [] ++ rest) with rest in E1, F1.
    destruct (C36_arguments_removed e s0 a0 [($"-O", o)] rest (S (length (a0 :: $"-O" :: o :: rest)))) as (argc2 & argv2 & s2' & E2 & F2 & _ & A2 & B2 & C2 & D2 & G2);
      [constructor; [split; [left; reflexivity|split; intros E; discriminate E]|constructor]|exact Hr|cbn [length]; lia|]. change (flat [($"-O", o)] ++ rest) with ($"-O" :: o :: rest) in E2, F2.
    unfold main_body_with. rewrite !(step_bind (ParseAndRemoveArguments _ _ _)). cbv zeta. rewrite E1, E2. cbn [fst snd]. cbv beta iota. rewrite F1, F2.
    enough (Es : s2' = s1') by (rewrite Es; reflexivity). rewrite G1, G2, A1, A2, B1, B2, C1, C2, D1, D2.
    change (values ($"-O") [($"-O", o)]) with [o]. cbn [map last_value]. change (s_files s0) with f. unfold out_choice, is_file, is_writable. rewrite Ho. reflexivity.
Qed.
Print Assumptions C62_refused_output.

(** * Examples *)
Definition conf_files : store := fun k =>
  if eqs k ($"d") then Some (FDir true true true) else
  if eqs k ($"d/b.xml") then Some (FFile true true ($"<output></output>")) else
  if eqs k ($"locked.xml") then Some (FFile true false ($"old")) else None.
Definition conf_test (args : list str) : prog := Call (TextString ($"a") ($"t")) (fun _ => Return 3).
Example C62_hypotheses : Forall (accepted ex_env conf_files) (as_options ($"d/b.xml") ($"o.xml") [$"d"] 3) /\
  Forall (output_accepted ex_env conf_files) (as_options ($"d/b.xml") ($"o.xml") [$"d"] 3 ++ [($"-R", $"3")]) /\ in_int 3 /\
  command_line ex_env conf_files [($"-R", $"3")] [$"one"].
Proof.
  assert (flag : forall k v, In k flags -> (k = $"-I" -> is_file ex_env conf_files v = true /\ is_readable ex_env conf_files v = true) ->
    (k = $"-P" -> is_directory ex_env conf_files v = true /\ is_readable ex_env conf_files v = true) -> accepted ex_env conf_files (k, v)) by (intros k v A B C; split; [exact A|split; assumption]).
  split; [|split; [|split; [split; vm_compute; discriminate|split]]].
  - repeat (apply Forall_cons; [apply flag; [vm_compute; auto 10|intros E; try discriminate E; vm_compute; auto|intros E; try discriminate E; vm_compute; auto]|]). apply Forall_nil.
  - repeat (apply Forall_cons; [intros E; try discriminate E; reflexivity|]). apply Forall_nil.
  - repeat (apply Forall_cons; [apply flag; [vm_compute; auto 10|intros E; try discriminate E; vm_compute; auto|intros E; try discriminate E; vm_compute; auto]|]). apply Forall_nil.
  - vm_compute. intros [E|[E|[E|[E|[]]]]]; discriminate E.
Qed.
(** the value expected and the baseline were set: one measurement is unmatched *)
Example C62_runs : snd (Main ex_env conf_test [$"t"; $"one"] (configured conf_files ($"d/b.xml") ($"o.xml") [] 3)) = Ok 1.
Proof. vm_compute. reflexivity. Qed.
(** a baseline in the search path: found when it is named in the constructor, refused as an option *)
Example C62_searched_in_constructor :
  snd (Main ex_env conf_test [$"t"] (configured conf_files ($"b.xml") [] [$"d"] 3)) = Ok 1 /\
  snd (Main ex_env conf_test [$"t"; $"-R"; $"3"; $"-P"; $"d"; $"-I"; $"b.xml"] (new_test conf_files)) = Ok (-1).
Proof. split; vm_compute; reflexivity. Qed.
Example C62_refused : node_at ex_env conf_files ($"locked.xml") = Some (FFile true false ($"old")) /\
  snd (Main ex_env (fun _ => Return 0) [$"t"; $"-O"; $"locked.xml"] (new_test conf_files)) = Ok 0.
Proof. split; vm_compute; reflexivity. Qed.

(** Property C36: the command line. *)
From Coq Require Import Permutation.
From Verif Require Import Base Str Dec PathModel MeasModel RegModel ArgFacts.

Lemma flat_length opts : length (flat opts) = 2 * length opts.
Proof. induction opts as [|o opts IH]; [reflexivity|]. cbn [flat flat_map app length]. fold (flat opts). lia. Qed.

(** The options in front of the first other argument are removed and take effect, the last one of each kind winning (all search
    directories are kept, the last one first); everything else stays in order.  The array is only permuted. *)
Theorem C36_arguments_removed : forall e s a0 opts rest fuel,
  Forall (accepted e (s_files s)) opts -> (match rest with [] => True | a :: _ => ~ In a flags end) -> length opts < fuel ->
  exists argc argv s', ParseAndRemoveArguments e fuel (a0 :: flat opts ++ rest) s = (s', Ok (argc, argv)) /\
    firstn argc argv = a0 :: rest /\ Permutation argv (a0 :: flat opts ++ rest) /\
    s_in s' = match last_value (map Some (values ($"-I") opts)) None with Some v => v | None => s_in s end /\
    s_out s' = match last_value (map (out_choice e (s_files s)) (values ($"-O") opts)) None with Some v => v | None => s_out s end /\
    s_expected s' = last_value (map (fun v => wrap32 (strtol10 v)) (values ($"-R") opts)) (s_expected s) /\
    s_path s' = rev (values ($"-P") opts) ++ s_path s /\
    s' = set_in (set_out (set_expected (set_path s (s_path s')) (s_expected s')) (s_out s')) (s_in s').
Proof.
  intros e s a0 opts rest fuel Ha Hr Hf.
  destruct (parse_prefix e a0 rest opts (fuel - length opts) [] None None s Ha) as (tail' & P & E).
  replace (length opts + (fuel - length opts)) with fuel in E by lia. rewrite app_nil_r in E.
  destruct (fuel - length opts) as [|f'] eqn:Ef; [lia|]. rewrite parse_stop in E by exact Hr.
  unfold ParseAndRemoveArguments. unfold mbind.
  replace (length (a0 :: flat opts ++ rest)) with (1 + 2 * length opts + length rest)
    by (cbn [length]; rewrite app_length, flat_length; lia).
  rewrite E. unfold modify, mret. cbv iota beta.
  rewrite in_after_values, out_after_values.
  set (I := last_value (map Some (values ($"-I") opts)) None).
  set (O := last_value (map (out_choice e (s_files s)) (values ($"-O") opts)) None).
  destruct (after_spec opts s) as (A & B & C). cbv zeta in C.
  do 3 eexists. split; [reflexivity|].
  split. { cbn [firstn Nat.add app]. rewrite firstn_app, firstn_all, Nat.sub_diag. cbn [firstn]. rewrite app_nil_r. reflexivity. }
  split. { rewrite app_nil_r in P. constructor. eapply Permutation_trans; [apply Permutation_app_comm|]. apply Permutation_app_tail. apply Permutation_sym. exact P. }
  revert A B C. generalize (after opts s). intros s0 A B C. rewrite <- A, <- B. clearbody I O. clear E P.
  revert C. generalize (s_path s0) (s_expected s0). intros pp ex ->. destruct I, O, s; repeat split.
Qed.
Print Assumptions C36_arguments_removed.

(** less fuel can only end earlier *)
Lemma parse_less_fuel e : forall n m argc (av : list str) (i o : option str) s0 s1, parse_loop e (n + m) argc av i o s0 = (s1, Hang) ->
       exists s2, parse_loop e n argc av i o s0 = (s2, Hang).
Proof.
  induction n as [|n IH]; intros m argc av i o s0 s1 H; [exists s0; reflexivity|].
      cbn [Nat.add parse_loop] in *. destruct (argc <=? 1); [discriminate H|].
      unfold mbind, mlift, gets, modify, mret in *.
      destruct (rd 1 av) as [a| | | |]; try (eexists; exact H); cbv iota beta in *.
      destruct (eqs a ($"-O")).
      { destruct (2 <? argc); [|eapply IH; exact H]. destruct (rd 2 av) as [v| | | |]; try (eexists; exact H).
        destruct (swap_loop (argc - 3) 1 av) as [av'| | | |]; try (eexists; exact H). eapply IH; exact H. }
      destruct (eqs a ($"-I")).
      { destruct (2 <? argc); [|eapply IH; exact H]. destruct (rd 2 av) as [v| | | |]; try (eexists; exact H).
        destruct (is_file e (s_files s0) v && is_readable e (s_files s0) v); [|discriminate H].
        destruct (swap_loop (argc - 3) 1 av) as [av'| | | |]; try (eexists; exact H). eapply IH; exact H. }
      destruct (eqs a ($"-R")).
      { destruct (2 <? argc); [|eapply IH; exact H]. destruct (rd 2 av) as [v| | | |]; try (eexists; exact H).
        destruct (swap_loop (argc - 3) 1 av) as [av'| | | |]; try (eexists; exact H). eapply IH; exact H. }
      destruct (eqs a ($"-P")); [|discriminate H].
      { destruct (2 <? argc); [|eapply IH; exact H]. destruct (rd 2 av) as [v| | | |]; try (eexists; exact H).
        destruct (is_directory e (s_files s0) v && is_readable e (s_files s0) v); [|discriminate H].
        destruct (swap_loop (argc - 3) 1 av) as [av'| | | |]; try (eexists; exact H). eapply IH; exact H. }
Qed.
(** An option without its parameter at the end of the command line: the program never ends. *)
Theorem C36_lone_option_hangs : forall e s a0 opts k fuel,
  Forall (accepted e (s_files s)) opts -> In k flags ->
  exists s', ParseAndRemoveArguments e fuel (a0 :: flat opts ++ [k]) s = (s', Hang).
Proof.
  intros e s a0 opts k fuel Ha Hk. unfold ParseAndRemoveArguments, mbind.
  destruct (parse_prefix e a0 [k] opts fuel [] None None s Ha) as (tail' & P & E). rewrite app_nil_r in E.
  change (1 + length [k]) with 2 in E. change (a0 :: [k] ++ tail') with (a0 :: k :: tail') in E. rewrite (parse_lone e a0 k) in E by exact Hk.
  replace (1 + 2 * length opts + length [k]) with (length (a0 :: flat opts ++ [k])) in E by (cbn [length]; rewrite app_length, flat_length; cbn [length]; lia).
  rewrite Nat.add_comm in E. apply parse_less_fuel in E. destruct E as [s2 E]. rewrite E. eexists. reflexivity.
Qed.
Print Assumptions C36_lone_option_hangs.

(** A baseline that is not a readable file, or a search directory that is not one, is an error; the file names given so far are
    forgotten, expected values and search directories are not. *)
Theorem C36_rejected : forall e s a0 opts k v rest fuel,
  Forall (accepted e (s_files s)) opts -> length opts < fuel ->
  (k = $"-I" /\ is_file e (s_files s) v && is_readable e (s_files s) v = false \/
   k = $"-P" /\ is_directory e (s_files s) v && is_readable e (s_files s) v = false) ->
  exists s', ParseAndRemoveArguments e fuel (a0 :: flat opts ++ k :: v :: rest) s = (s', Throw ExnRuntime) /\
    s_in s' = s_in s /\ s_out s' = s_out s /\
    s_expected s' = last_value (map (fun v => wrap32 (strtol10 v)) (values ($"-R") opts)) (s_expected s) /\
    s_path s' = rev (values ($"-P") opts) ++ s_path s.
Proof.
  intros e s a0 opts k v rest fuel Ha Hf Hk.
  destruct (parse_prefix e a0 (k :: v :: rest) opts (fuel - length opts) [] None None s Ha) as (tail' & P & E).
  replace (length opts + (fuel - length opts)) with fuel in E by lia. rewrite app_nil_r in E.
  destruct (fuel - length opts) as [|f'] eqn:Ef; [lia|].
  change (1 + length (k :: v :: rest)) with (3 + length rest) in E. change (a0 :: (k :: v :: rest) ++ tail') with (a0 :: k :: v :: rest ++ tail') in E.
  rewrite parse_reject in E by (rewrite after_files; exact Hk).
  unfold ParseAndRemoveArguments, mbind.
  replace (length (a0 :: flat opts ++ k :: v :: rest)) with (1 + 2 * length opts + length (k :: v :: rest))
    by (cbn [length]; rewrite app_length, flat_length; cbn [length]; lia).
  rewrite E. destruct (after_spec opts s) as (A & B & C). cbv zeta in C.
  eexists. split; [reflexivity|]. split; [rewrite C; reflexivity|]. split; [rewrite C; reflexivity|]. auto.
Qed.
Print Assumptions C36_rejected.
(** The documentation knows -I and -O only "from the beginning of the command line": an option after another argument is not seen. *)
Theorem C36_only_leading_options : forall e s a0 a rest fuel, ~ In a flags ->
  ParseAndRemoveArguments e (S fuel) (a0 :: a :: rest) s = (s, Ok (2 + length rest, a0 :: a :: rest)).
Proof.
  intros e s a0 a rest fuel H. unfold ParseAndRemoveArguments, mbind.
  pose proof (parse_stop e a0 (a :: rest) [] fuel None None s H) as E. rewrite app_nil_r in E.
  change (1 + length (a :: rest)) with (length (a0 :: a :: rest)) in E. rewrite E. reflexivity.
Qed.
Print Assumptions C36_only_leading_options.
(** -R reads a decimal number like [strtol] and keeps its low 32 bits *)
Theorem C36_expected_value : forall v, in_int v -> wrap32 (strtol10 (print_int v)) = v.
Proof.
  intros v H. unfold strtol10. pose proof (read_print LONG_MIN LONG_MAX v []) as R. rewrite app_nil_r in R. rewrite R; [|unfold in_int, INT_MIN, INT_MAX in H; unfold LONG_MIN, LONG_MAX; lia|exact I].
  unfold wrap32. unfold in_int, INT_MIN, INT_MAX in H. rewrite Z.mod_small by lia. lia.
Qed.
Print Assumptions C36_expected_value.

Definition ex_env : env := Env true true None (NumIO (fun _ => []) (fun _ => UB) (fun _ => []) (fun _ => UB)) (fun _ => ([], false))
  (fun p => p) (fun _ => true) ($"host") ($"now" ++ [nl]).
Definition ex_files : store := fun k =>
  if eqs k ($"base.xml") then Some (FFile true true ($"<output></output>"))
  else if eqs k ($"ro.xml") then Some (FFile true false [])
  else if eqs k ($"dir") then Some (FDir true true true) else None.
Example C36_case : exists argv s', ParseAndRemoveArguments ex_env 9 ($"prog" :: flat [($"-P", $"dir"); ($"-I", $"base.xml"); ($"-R", $"7"); ($"-O", $"out.xml"); ($"-O", $"ro.xml")] ++ [$"x"; $"-I"; $"y"]) (new_test ex_files)
   = (s', Ok (4, argv)) /\ firstn 4 argv = [$"prog"; $"x"; $"-I"; $"y"] /\ s_in s' = $"base.xml" /\ s_out s' = [] /\ s_expected s' = 7%Z /\ s_path s' = [$"dir"].
Proof. do 2 eexists. split; [vm_compute; reflexivity|]. vm_compute. auto 7. Qed.
Example C36_case_accepted : Forall (accepted ex_env (s_files (new_test ex_files))) [($"-P", $"dir"); ($"-I", $"base.xml"); ($"-R", $"7"); ($"-O", $"out.xml"); ($"-O", $"ro.xml")].
Proof. repeat apply Forall_cons; try apply Forall_nil; (split; [cbn; auto 6|split; intros H; vm_compute in H |- *; try discriminate H; auto]). Qed.

(** C72: one [itk::Regression] object used for several runs. *)
From Coq Require Import Floats.SpecFloat.
From Verif Require Import Base Str Dec PathModel PathFacts MeasModel VisitModel RegModel ImgModel ItkModel ItkReuseModel ArgFacts ArgProps RegSpec RegFacts RegStart RegMain RegProps ReuseProps ItkSpec ItkRunProps ItkNames ItkReuseFacts.
Local Open Scope Z_scope.

(** * Specification *)
(** a new object with the settings of the base class, the image tolerances and the number of names generated that [o] has now *)
Definition iwith_settings_of (o : iobject) : iobject := IObject (with_settings_of (o_base o)) (o_tol o) (o_count o) [].
(** what the user sees of an object *)
Definition isettings (o : iobject) := (settings (o_base o), o_tol o, o_count o, o_args o).
(** a name that has been generated: the arguments of the latest call of [Main] before, and the name with what was asked for *)
Definition generated : Type := list str * gen.
(** [o] is an object on which calls of [Main] that did not end in undefined behaviour, an abort or an endless loop have been made, without empty arguments.  Between the calls
    files may change, settings may be changed (but names not to the empty one) and names generated.
    [counts]: the failures each of the runs, the last one first, would have counted on a new object with the settings at that time.
    [names]: all the names generated by the object, in order. *)
Inductive iused (sc : bool) : iobject -> list Z -> list generated -> Prop :=
| iused_new ie f : iused sc (new_itk_object ie f) [] []
| iused_run ie test argv o counts names o' z ns : iused sc o counts names -> e_sc (i_env ie) = sc -> ~ In [] argv -> object_Main ie test argv o = (o', Ok z, ns) ->
    iused sc o' (s_unmatched (o_base (fst (fst (object_Main ie test argv (iwith_settings_of o))))) :: counts) (names ++ map (fun g => (argv, g)) ns)
| iused_files o counts names f : iused sc o counts names -> iused sc (IObject (set_files (o_base o) f) (o_tol o) (o_count o) (o_args o)) counts names
| iused_set o counts names inf outf dirs t x : iused sc o counts names -> inf = s_in (o_base o) \/ inf <> [] -> outf = s_out (o_base o) \/ outf <> [] ->
    iused sc (object_Set o inf outf dirs t x) counts names
| iused_tolerance o counts names t : iused sc o counts names -> iused sc (object_SetTolerance o t) counts names
| iused_generate o counts names ext root o' name : iused sc o counts names -> object_GenerateFileName sc o ext root = (o', Ok name) ->
    iused sc o' counts (names ++ [(o_args o, (ext, root, name))]).

(** the test that receives the given names instead of generating names *)
Fixpoint supplied (names : list str) (p : iprog) : iprog :=
  match p with
  | IReturn z => IReturn z
  | IRaise x => IRaise x
  | ICall c k => ICall c (fun r => supplied names (k r))
  | IImage f n k => IImage f n (fun r => supplied names (k r))
  | ITolerance t k => ITolerance t (supplied names k)
  | IGenerate _ _ k => match names with n :: rest => supplied rest (k n) | [] => IRaise ExnRuntime end
  | ISay t k => ISay t (supplied names k)
  | IRelativeTolerance t k => IRelativeTolerance t (supplied names k)
  | IExpectedReturn z k => IExpectedReturn z (supplied names k)
  | IWriteFile path b k => IWriteFile path b (supplied names k)
  end.

(** * The first run *)
Theorem C72_first_run : forall ie f test argv, let '(o', r, _) := object_Main ie test argv (new_itk_object ie f) in
  (o_base o', r) = itk_Main ie test argv (new_itk_test ie f) /\ o_args o' = argv.
Proof.
  intros ie f test argv. unfold object_Main, itk_Main. cbn [o_tol o_count o_base new_itk_object]. destruct (Main_with _ _ _ _) as [s' r].
  destruct (match begun _ _ _ with (s1, Ok args) => _ | _ => _ end) as [[t c] ns]. split; reflexivity.
Qed.
Print Assumptions C72_first_run.

(** * Further runs *)
Lemma irun_follows ie argv test tol count s : ~ In [] argv -> tidy s ->
  let main := Main_with (i_env ie) (fun args => irun ie argv (test args) tol count) argv in
  let n := s_unmatched s in let p := s_stdout s in
  follows (i_env ie) n p (main (with_settings_of s)) (main s) /\ tidy (fst (main s)) /\
  (snd (main s) = snd (main (with_settings_of s)) /\ not_ok (snd (main s)) \/
   exists ret, snd (main (with_settings_of s)) = returned (i_env ie) (fst (main (with_settings_of s))) ret /\
     (snd (main s) = returned (i_env ie) (later n p (fst (main (with_settings_of s)))) ret \/ ret = -1 /\ snd (main s) = returned (i_env ie) (fst (main s)) ret)).
Proof.
  intros N T main n p.
  destruct (follows_main_with (i_env ie) (fun args => irun ie argv (test args) tol count) (fun n p a => later_irun n p ie argv (test a) tol count) (fun a => iok_irun ie argv (test a) tol count) argv s N T) as [F R].
  split; [exact F|]. split; [apply with_tidy; [intros a; apply iok_irun|exact N|exact T]|]. destruct R as [[R1 R2]|R]; [left|right; exact R]. split; [exact R1|]. unfold main. rewrite R1. exact R2.
Qed.
Definition left_by (ie : ienv) (test : list str -> iprog) (argv : list str) (o : iobject) : tolerances * Z * list gen :=
  match begun (i_env ie) argv (bump 1 (o_base o)) with (s1, Ok args) => leaves ie argv (test args) (o_tol o) (o_count o) s1 | _ => (o_tol o, o_count o, []) end.
Lemma object_Main_eq ie test argv o : object_Main ie test argv o =
  let X := Main_with (i_env ie) (fun args => irun ie argv (test args) (o_tol o) (o_count o)) argv (o_base o) in
  let L := left_by ie test argv o in (IObject (fst X) (fst (fst L)) (snd (fst L)) argv, snd X, snd L).
Proof.
  unfold object_Main, left_by, bump. cbv zeta. destruct (Main_with _ _ _ _) as [s' r]. destruct (match begun _ _ _ with (s1, Ok args) => _ | _ => _ end) as [[t c] ns]. reflexivity.
Qed.
Lemma left_alone ie test argv o : ~ In [] argv -> tidy (o_base o) -> left_by ie test argv o = left_by ie test argv (iwith_settings_of o).
Proof.
  intros N T. unfold left_by. cbn [o_base o_tol o_count iwith_settings_of]. pose proof (begun_later (i_env ie) argv (o_base o) N T) as B.
  destruct (begun (i_env ie) argv (bump 1 (o_base o))) as [s1 [a| | | |]]; destruct (begun (i_env ie) argv (bump 1 (with_settings_of (o_base o)))) as [s2 [a'| | | |]]; try contradiction; try reflexivity.
  destruct B as [-> ->]. apply later_leaves.
Qed.
Lemma tidy_set s inf outf dirs t x : tidy s -> inf = s_in s \/ inf <> [] -> outf = s_out s \/ outf <> [] ->
  tidy (set_expected (set_tol (set_path (set_out (set_in s inf) outf) dirs) t) x).
Proof.
  intros [A B] Hi Ho. split; cbn; intros E.
  - apply A. destruct Ho as [->|Ho]; [exact E|contradiction].
  - apply B. destruct Hi as [->|Hi]; [exact E|contradiction].
Qed.
Lemma iused_facts sc o counts names : iused sc o counts names -> tidy (o_base o) /\ s_unmatched (o_base o) = sum counts.
Proof.
  induction 1 as [ie f|ie test argv o counts names o' z ns U [T S] Es N E|o counts names f U [T S]|o counts names inf outf dirs t x U [T S] Hi Ho|o counts names t U [T S]|o counts names ext root o' name U [T S] E].
  - split; [split; cbn; auto|reflexivity].
  - destruct (irun_follows ie argv test (o_tol o) (o_count o) (o_base o) N T) as [(_ & _ & _ & C) [T' _]]. rewrite object_Main_eq in *. cbv zeta in *. cbn [fst o_base iwith_settings_of o_tol o_count] in *.
    injection E as <- _ _. cbn [o_base]. split; [exact T'|]. cbn [sum fold_right]. rewrite C, S. unfold sum. lia.
  - split; [exact T|exact S].
  - split; [apply tidy_set; assumption|exact S].
  - split; [exact T|exact S].
  - unfold object_GenerateFileName in E. injection E as <- _. split; [exact T|exact S].
Qed.

(** A further run does with the files, the output, the settings, the image tolerances and the names what it would do on a new object with the present ones; the failures counted
    are those of this run and of all earlier ones together, and unless -1 is expected the value returned is what this run alone would return with that count. *)
Theorem C72_next_run : forall sc o counts names ie test argv, iused sc o counts names -> ~ In [] argv ->
  let '(alone, r, ns) := object_Main ie test argv (iwith_settings_of o) in let '(next, r', ns') := object_Main ie test argv o in
  let a := o_base alone in let b := o_base next in let e := i_env ie in
  s_files b = s_files a /\ s_stdout b = s_stdout (o_base o) ++ s_stdout a /\ isettings next = isettings alone /\ ns' = ns /\
  s_unmatched b = s_unmatched a + sum counts /\
  (s_expected a <> -1 ->
   r' = r /\ not_ok r \/
   exists ret, r = (if ret =? s_expected a then cm <-- compare_mode e a ;; Ok (if (cm : bool) then s_unmatched a else 0) else Ok ret) /\
               r' = (if ret =? s_expected a then cm <-- compare_mode e a ;; Ok (if (cm : bool) then s_unmatched a + sum counts else 0) else Ok ret)).
Proof.
  intros sc o counts names ie test argv U N. destruct (iused_facts sc o counts names U) as [T S].
  destruct (irun_follows ie argv test (o_tol o) (o_count o) (o_base o) N T) as [(A & B & C & D) [_ R]]. rewrite !object_Main_eq. cbv zeta.
  rewrite (left_alone ie test argv o N T). cbn [o_base o_tol o_count iwith_settings_of]. rewrite S in *.
  split; [exact A|]. split; [exact B|]. split; [unfold isettings; cbn [o_base o_tol o_count o_args]; rewrite C; reflexivity|]. split; [reflexivity|]. split; [exact D|].
  intros H. destruct R as [[R1 R2]|(ret & R1 & R2)]; [left; split; [exact R1|rewrite <- R1; exact R2]|]. right. exists ret. split; [exact R1|].
  destruct R2 as [R2|[-> R2]]; rewrite R2; [reflexivity|].
  unfold returned. match goal with |- context [s_expected (fst ?X)] => match X with Main_with _ _ _ (o_base o) => assert (X0 : s_expected (fst X) = s_expected (fst (Main_with (i_env ie) (fun args => irun ie argv (test args) (o_tol o) (o_count o)) argv (with_settings_of (o_base o))))) by (injection C; auto) end end.
  rewrite X0. destruct (Z.eqb_spec (-1) (s_expected (fst (Main_with (i_env ie) (fun args => irun ie argv (test args) (o_tol o) (o_count o)) argv (with_settings_of (o_base o)))))); [congruence|reflexivity].
Qed.
Print Assumptions C72_next_run.

(** * Names over the life of an object *)
Lemma leaves_names ie args q : forall tol count s t c ns z s', leaves ie args q tol count s = (t, c, ns) -> irun ie args q tol count s = (s', z) -> (exists v, z = Ok v) \/ (exists x, z = Throw x) ->
  c = count + Z.of_nat (length ns) /\
  forall i ext root name, nth_error ns i = Some (ext, root, name) -> GenerateFileName (e_sc (i_env ie)) args (count + Z.of_nat i) ext root = Ok name.
Proof.
  assert (NIL : forall (tol : tolerances) count t c (ns : list gen), (tol, count, []) = (t, c, ns) -> c = count + Z.of_nat (length ns) /\
    forall i ext root name, nth_error ns i = Some (ext, root, name) -> GenerateFileName (e_sc (i_env ie)) args (count + Z.of_nat i) ext root = Ok name).
  { intros tol count t c ns E. injection E as _ <- <-. split; [cbn; lia|]. intros [|i] ext root name H; discriminate. }
  induction q as [z0|x|cl k IH|f nm k IH|t0 k IH|ext root k IH|t0 k IH|t0 k IH|z0 k IH|path b k IH]; intros tol count s t c ns z s' L R G; cbn [leaves irun] in L, R.
  - exact (NIL _ _ _ _ _ L).
  - exact (NIL _ _ _ _ _ L).
  - unfold mbind in R. destruct (itk_Measure ie tol cl s) as [s1 [r| | | |]]; try exact (NIL _ _ _ _ _ L). eapply IH; eassumption.
  - unfold mbind in R. destruct (MeasurementInsightFileImage ie tol f nm s) as [s1 [r| | | |]]; try exact (NIL _ _ _ _ _ L). eapply IH; eassumption.
  - eapply IH; eassumption.
  - unfold mbind, mlift in R. destruct (GenerateFileName (e_sc (i_env ie)) args count ext root) as [m| x| | |] eqn:EG.
    + destruct (leaves ie args (k m) tol (count + 1) s) as [[t1 c1] ns1] eqn:L1. destruct (IH m _ _ _ _ _ _ _ _ L1 R G) as [I1 I2]. injection L as <- <- <-. split; [cbn [length]; lia|].
      intros [|i] ext' root' name H; cbn [nth_error] in H.
      * injection H as <- <- <-. rewrite Z.add_0_r. exact EG.
      * replace (count + Z.of_nat (S i)) with (count + 1 + Z.of_nat i) by lia. apply I2. exact H.
    + exfalso. unfold GenerateFileName in EG. destruct args as [|a0 args]; [discriminate|]. destruct root as [|rc rr]; [discriminate|]. destruct (append_ok (rc :: rr) (a0 ++ $"_" ++ print_hex (hash_of (e_sc (i_env ie)) (a0 :: args)) ++ $"_" ++ print_hex ((count + 1) mod 4294967296) ++ $"." ++ ext)) as [w W]. rewrite W in EG. discriminate.
    + exfalso. injection R as _ <-. destruct G as [[v G]|[v G]]; discriminate.
    + exfalso. injection R as _ <-. destruct G as [[v G]|[v G]]; discriminate.
    + exfalso. injection R as _ <-. destruct G as [[v G]|[v G]]; discriminate.
  - eapply IH; [exact L|exact R|exact G].
  - eapply IH; [exact L|exact R|exact G].
  - eapply IH; [exact L|exact R|exact G].
  - eapply IH; [exact L|exact R|exact G].
Qed.

Lemma main_ends e body argv s s' z : Main_with e body argv s = (s', Ok z) ->
  match begun e argv (bump 1 s) with (s1, Ok a) => match snd (body a s1) with Ok _ | Throw _ => True | _ => False end | _ => True end.
Proof.
  rewrite Main_with_cases. unfold mbind. destruct (begun e argv (bump 1 s)) as [s1 [a| | | |]]; auto. destruct (body a s1) as [s2 [r| | | |]]; cbn [snd]; auto; discriminate.
Qed.
Lemma iused_names sc o counts names : iused sc o counts names -> o_count o = Z.of_nat (length names) /\
  forall i argv ext root name, nth_error names i = Some (argv, (ext, root, name)) -> GenerateFileName sc argv (Z.of_nat i) ext root = Ok name.
Proof.
  induction 1 as [ie f|ie test argv o counts names o' z ns U [C G] Es N E|o counts names f U [C G]|o counts names inf outf dirs t x U [C G] Hi Ho|o counts names t U [C G]|o counts names ext root o' name U [C G] E].
  - split; [reflexivity|]. intros [|i]; discriminate.
  - rewrite object_Main_eq in E. cbv zeta in E.
    destruct (Main_with (i_env ie) (fun args => irun ie argv (test args) (o_tol o) (o_count o)) argv (o_base o)) as [s' r] eqn:EM. cbn [fst snd] in E.
    destruct (left_by ie test argv o) as [[t c] ns0] eqn:EL. cbn [fst snd] in E. injection E as <- -> <-. pose proof (main_ends _ _ _ _ _ _ EM) as P. cbn [o_count].
    assert (L : c = o_count o + Z.of_nat (length ns0) /\ forall i ext root name, nth_error ns0 i = Some (ext, root, name) -> GenerateFileName (e_sc (i_env ie)) argv (o_count o + Z.of_nat i) ext root = Ok name).
    { unfold left_by in EL. destruct (begun (i_env ie) argv (bump 1 (o_base o))) as [s1 [a| | | |]]; try (injection EL as _ <- <-; split; [cbn; lia|intros [|i]; discriminate]).
      destruct (irun ie argv (test a) (o_tol o) (o_count o) s1) as [s2 r2] eqn:ER. eapply leaves_names; [exact EL|exact ER|]. cbn [snd] in P. destruct r2; try contradiction; eauto. }
    destruct L as [L1 L2]. split; [rewrite app_length, map_length, Nat2Z.inj_add; lia|].
    intros i argv' ext root name H. destruct (Nat.lt_ge_cases i (length names)) as [Hl|Hl].
    + rewrite nth_error_app1 in H by exact Hl. apply G. exact H.
    + rewrite nth_error_app2 in H by exact Hl. rewrite nth_error_map in H. destruct (nth_error ns0 (i - length names)) as [[[x y] w]|] eqn:En; [|discriminate].
      cbn [option_map] in H. injection H as <- <- <- <-. specialize (L2 _ _ _ _ En). rewrite Es in L2. rewrite <- L2. f_equal. lia.
  - split; [exact C|exact G].
  - split; [exact C|exact G].
  - split; [exact C|exact G].
  - unfold object_GenerateFileName in E. apply pair_equal_spec in E. destruct E as [<- E]. cbn [o_count]. split; [rewrite app_length; cbn [length]; lia|].
    intros i argv' ext' root' name' H. destruct (Nat.lt_ge_cases i (length names)) as [Hl|Hl].
    + rewrite nth_error_app1 in H by exact Hl. apply G. exact H.
    + rewrite nth_error_app2 in H by exact Hl. destruct (i - length names)%nat as [|d] eqn:Ed; [|destruct d; discriminate]. cbn [nth_error] in H. injection H as <- <- <- <-.
      rewrite <- E, C. f_equal. lia.
Qed.

(** The names listed are those the test receives: it runs as if they had been given to it. *)
Lemma leaves_supplied ie args q : forall tol count s count' s' r, irun ie args q tol count s = (s', r) -> (exists v, r = Ok v) \/ (exists x, r = Throw x) ->
  irun ie args (supplied (map snd (snd (leaves ie args q tol count s))) q) tol count' s = (s', r).
Proof.
  induction q as [z0|x|cl k IH|f nm k IH|t0 k IH|ext root k IH|t0 k IH|t0 k IH|z0 k IH|path b k IH]; intros tol count s count' s' r R G; cbn [leaves irun supplied] in *; try exact R.
  - unfold mbind in *. destruct (itk_Measure ie tol cl s) as [s1 [v| | | |]]; try exact R. apply IH; assumption.
  - unfold mbind in *. destruct (MeasurementInsightFileImage ie tol f nm s) as [s1 [v| | | |]]; try exact R. apply IH; assumption.
  - apply IH; assumption.
  - unfold mbind, mlift in R. destruct (GenerateFileName (e_sc (i_env ie)) args count ext root) as [m|x| | |] eqn:EG.
    + specialize (IH m tol (count + 1) s count' s' r R G). destruct (leaves ie args (k m) tol (count + 1) s) as [[t1 c1] ns1]. exact IH.
    + exfalso. unfold GenerateFileName in EG. destruct args as [|a0 args]; [discriminate|]. destruct root as [|rc rr]; [discriminate|].
      destruct (append_ok (rc :: rr) (a0 ++ $"_" ++ print_hex (hash_of (e_sc (i_env ie)) (a0 :: args)) ++ $"_" ++ print_hex ((count + 1) mod 4294967296) ++ $"." ++ ext)) as [w W]. rewrite W in EG. discriminate.
    + exfalso. injection R as _ <-. destruct G as [[v G]|[v G]]; discriminate.
    + exfalso. injection R as _ <-. destruct G as [[v G]|[v G]]; discriminate.
    + exfalso. injection R as _ <-. destruct G as [[v G]|[v G]]; discriminate.
  - unfold mbind in *. apply IH; assumption.
  - unfold mbind in *. apply IH; assumption.
  - unfold mbind in *. apply IH; assumption.
  - unfold mbind in *. apply IH; assumption.
Qed.
Theorem C72_names_received : forall ie test argv o o' z ns, object_Main ie test argv o = (o', Ok z, ns) ->
  Main_with (i_env ie) (fun args => irun ie argv (supplied (map snd ns) (test args)) (o_tol o) 0) argv (o_base o) = (o_base o', Ok z).
Proof.
  intros ie test argv o o' z ns E. rewrite object_Main_eq in E. cbv zeta in E.
  destruct (Main_with (i_env ie) (fun args => irun ie argv (test args) (o_tol o) (o_count o)) argv (o_base o)) as [s' r] eqn:EM. cbn [fst snd] in E.
  destruct (left_by ie test argv o) as [[t c] ns0] eqn:EL. cbn [fst snd] in E. injection E as <- -> <-. cbn [o_base]. pose proof (main_ends _ _ _ _ _ _ EM) as P.
  rewrite Main_with_cases in *. unfold left_by in EL. unfold mbind in *. destruct (begun (i_env ie) argv (bump 1 (o_base o))) as [s1 [a| | | |]]; try exact EM.
  destruct (irun ie argv (test a) (o_tol o) (o_count o) s1) as [s2 r2] eqn:ER.
  pose proof (leaves_supplied ie argv (test a) (o_tol o) (o_count o) s1 0 s2 r2 ER) as L. rewrite EL in L. cbn [snd] in L, P. rewrite L; [exact EM|]. destruct r2; try contradiction; eauto.
Qed.
Print Assumptions C72_names_received.

(** Over the life of the object, the k-th name generated is made of the program name and the arguments of the latest run, and of k: the numbers go on from one run to the next. *)
Theorem C72_names : forall sc o counts names, iused sc o counts names -> forall i argv ext root name, nth_error names i = Some (argv, (ext, root, name)) ->
  Z.of_nat i + 1 < 4294967296 ->
  exists a0 args base, argv = a0 :: args /\ kth_name sc a0 args (Z.of_nat i + 1) ext base /\ Ok name = match root with [] => Ok base | _ => Append root base end.
Proof.
  intros sc o counts names U i argv ext root name H B. destruct (iused_names sc o counts names U) as [_ G]. specialize (G i argv ext root name H).
  destruct argv as [|a0 args]; [discriminate|]. destruct (generate_ok sc a0 args (Z.of_nat i) ext root) as (base & K & E); [lia|]. exists a0, args, base. rewrite <- E, G. auto.
Qed.
Print Assumptions C72_names.
Lemma underscore_free n s : is_hex n s -> free "_"%char s.
Proof. intros H. eapply is_hex_free; [exact H|reflexivity]. Qed.
Lemma kth_inj_any sc a0 args args' k k' ext ext' name : kth_name sc a0 args k ext name -> kth_name sc a0 args' k' ext' name -> k = k'.
Proof.
  intros (h & d & H & D & E) (h' & d' & H' & D' & E'). rewrite E in E'. do 2 apply app_inv_head in E'.
  change ($"_" ++ d ++ $"." ++ ext) with ("_"%char :: d ++ $"." ++ ext) in E'. change ($"_" ++ d' ++ $"." ++ ext') with ("_"%char :: d' ++ $"." ++ ext') in E'.
  apply app_free_inj in E'; [|eapply underscore_free; exact H|eapply underscore_free; exact H']. destruct E' as [_ E'].
  change ($"." ++ ext) with ("."%char :: ext) in E'. change ($"." ++ ext') with ("."%char :: ext') in E'.
  apply app_free_inj in E'; [|eapply is_hex_free; [exact D|reflexivity]|eapply is_hex_free; [exact D'|reflexivity]]. destruct E' as [-> _]. eapply is_hex_inj; eassumption.
Qed.
(** Two names generated by one object are different, in one run or in two, whatever the other arguments and the extensions, if the program name and the root path are the same. *)
Theorem C72_names_differ : forall sc o counts names, iused sc o counts names -> forall i j a0 args args' ext ext' root name name', i <> j ->
  nth_error names i = Some (a0 :: args, (ext, root, name)) -> nth_error names j = Some (a0 :: args', (ext', root, name')) ->
  Z.of_nat i + 1 < 4294967296 -> Z.of_nat j + 1 < 4294967296 -> name <> name'.
Proof.
  intros sc o counts names U i j a0 args args' ext ext' root name name' D Hi Hj Bi Bj <-.
  destruct (C72_names sc o counts names U i _ _ _ _ Hi Bi) as (b0 & bs & x & E1 & K1 & R1). destruct (C72_names sc o counts names U j _ _ _ _ Hj Bj) as (c0 & cs & y & E2 & K2 & R2).
  injection E1 as <- <-. injection E2 as <- <-. assert (A : forall args k ext n, kth_name sc a0 args k ext n -> is_absolute n = is_absolute a0) by (intros ? ? ? ? (h & d & _ & _ & ->); destruct a0; reflexivity).
  assert (X : x = y).
  { destruct root as [|c r]; [congruence|]. apply (append_inj (c :: r) x y name); [congruence|congruence|]. rewrite (A _ _ _ _ K1), (A _ _ _ _ K2). reflexivity. }
  subst y. pose proof (kth_inj_any _ _ _ _ _ _ _ _ _ K1 K2). lia.
Qed.
Print Assumptions C72_names_differ.
(** Under any root paths they differ in their last path component if the extensions have no slash. *)
Theorem C72_names_differ_tails : forall sc o counts names, iused sc o counts names -> forall i j a0 args args' ext ext' root root' name name', i <> j ->
  nth_error names i = Some (a0 :: args, (ext, root, name)) -> nth_error names j = Some (a0 :: args', (ext', root', name')) ->
  Z.of_nat i + 1 < 4294967296 -> Z.of_nat j + 1 < 4294967296 -> ~ In slash ext -> ~ In slash ext' -> Tail name <> Tail name'.
Proof.
  intros sc o counts names U i j a0 args args' ext ext' root root' name name' D Hi Hj Bi Bj F F' E.
  destruct (C72_names sc o counts names U i _ _ _ _ Hi Bi) as (b0 & bs & x & E1 & K1 & R1). destruct (C72_names sc o counts names U j _ _ _ _ Hj Bj) as (c0 & cs & y & E2 & K2 & R2).
  injection E1 as <- <-. injection E2 as <- <-.
  assert (Tx : Tail name = Tail x) by (destruct root; [congruence|symmetry in R1; exact (tail_append _ _ _ R1)]).
  assert (Ty : Tail name' = Tail y) by (destruct root'; [congruence|symmetry in R2; exact (tail_append _ _ _ R2)]).
  destruct (kth_tail _ _ _ _ _ _ F K1) as (h & d & H1 & H2 & Ed). destruct (kth_tail _ _ _ _ _ _ F' K2) as (h' & d' & H1' & H2' & Ed').
  rewrite Tx, Ty, Ed, Ed' in E. do 2 apply app_inv_head in E.
  change ($"_" ++ d ++ $"." ++ ext) with ("_"%char :: d ++ $"." ++ ext) in E. change ($"_" ++ d' ++ $"." ++ ext') with ("_"%char :: d' ++ $"." ++ ext') in E.
  apply app_free_inj in E; [|eapply underscore_free; exact H1|eapply underscore_free; exact H1']. destruct E as [_ E].
  change ($"." ++ ext) with ("."%char :: ext) in E. change ($"." ++ ext') with ("."%char :: ext') in E.
  apply app_free_inj in E; [|eapply is_hex_free; [exact H2|reflexivity]|eapply is_hex_free; [exact H2'|reflexivity]]. destruct E as [-> _]. pose proof (is_hex_inj _ _ _ H2 H2'). lia.
Qed.
Print Assumptions C72_names_differ_tails.

(** * Cases *)
Definition mains {A B C} (x : A * B * C) : A := fst (fst x).
Definition gives {A B C} (x : A * B * C) : B := snd (fst x).
Definition tolerates (args : list str) : iprog := ITolerance (Tolerances (S754_zero false) 5 0) (IReturn 0).
Definition both_images : list str -> iprog := two_images ($"one/x.mha") ($"two/x.mha").
Definition c72_new : iobject := new_itk_object ex_itk ex_image_files.
(** "each run compares with the tolerances set in it": those of an earlier run stay in force, and a run that fails alone passes *)
Theorem C72_own_tolerance_refuted : exists ie f test test' argv argv' o, gives (object_Main ie test argv (new_itk_object ie f)) = Ok 0 /\ mains (object_Main ie test argv (new_itk_object ie f)) = o /\
  gives (object_Main ie test' argv' (new_itk_object ie (s_files (o_base o)))) = Ok 2 /\ gives (object_Main ie test' argv' o) = Ok 0.
Proof.
  exists ex_itk, ex_image_files, tolerates, both_images, [$"prog"], [$"prog"; $"-I"; $"b.xml"]. eexists. split; [vm_compute; reflexivity|]. split; [reflexivity|]. split; vm_compute; reflexivity.
Qed.
Print Assumptions C72_own_tolerance_refuted.
(** "the names depend on the arguments of [Main]" only: not in a second run with the same arguments *)
Definition c72_image : list str -> iprog := fun _ => InsightImage ($"a") ($"one") (fun _ => IReturn 0).
Theorem C72_same_names_refuted : exists ie test argv o n n', gives (object_Main ie test argv (new_itk_object ie (fun _ => None))) = Ok 0 /\ mains (object_Main ie test argv (new_itk_object ie (fun _ => None))) = o /\
  snd (object_Main ie test argv (new_itk_object ie (fun _ => None))) = [n] /\ snd (object_Main ie test argv o) = [n'] /\ n <> n'.
Proof.
  exists ex_itk, c72_image, [$"prog"]. eexists. exists ($"mha", [], $"prog_864c_1.mha"), ($"mha", [], $"prog_864c_2.mha").
  split; [vm_compute; reflexivity|]. split; [reflexivity|]. split; [vm_compute; reflexivity|]. split; [vm_compute; reflexivity|discriminate].
Qed.
Print Assumptions C72_same_names_refuted.
(** "without the name of an output file the measurements go to standard output": not after a run that ended with an exception, whose file is still open *)
Definition c72_raise : list str -> iprog := fun _ => IRaise ExnRuntime.
Definition c72_text : list str -> iprog := fun _ => ICall (TextString ($"late") ($"name")) (fun _ => IReturn 0).
Theorem C72_no_output_name_refuted : exists ie argv o o1 o2, mains (object_Main ie c72_raise argv (new_itk_object ie (fun _ => None))) = o /\ gives (object_Main ie c72_raise argv (new_itk_object ie (fun _ => None))) = Ok (-1) /\
  o1 = object_Set o (s_in (o_base o)) [] (s_path (o_base o)) (s_tol (o_base o)) (s_expected (o_base o)) /\
  mains (object_Main ie c72_text [$"prog"] o1) = o2 /\ gives (object_Main ie c72_text [$"prog"] o1) = Ok 0 /\
  s_stdout (o_base o2) = s_stdout (o_base o1) /\ s_files (o_base o2) ($"b.xml") <> s_files (o_base o1) ($"b.xml") /\
  s_stdout (o_base (mains (object_Main ie c72_text [$"prog"] (iwith_settings_of o1)))) <> [].
Proof.
  exists ex_itk, [$"prog"; $"-O"; $"b.xml"]. eexists. eexists. eexists. split; [reflexivity|]. split; [vm_compute; reflexivity|]. split; [reflexivity|]. split; [reflexivity|].
  split; [vm_compute; reflexivity|]. split; [vm_compute; reflexivity|]. split; vm_compute; discriminate.
Qed.
Print Assumptions C72_no_output_name_refuted.

(** an object that generated a name in a run, raised an exception in the next, had a name generated from outside and failed a comparison *)
Definition c72_argv : list str := [$"prog"; $"-I"; $"b.xml"].
Local Notation run1 := (object_Main ex_itk c72_image [$"prog"; $"-O"; $"r.xml"] c72_new).
Local Notation run2 := (object_Main ex_itk c72_raise c72_argv (mains run1)).
Local Notation after2 := (object_GenerateFileName (e_sc ex_env) (mains run2) ($"txt") ($"dir")).
Local Notation run3 := (object_Main ex_itk both_images c72_argv (fst after2)).
Lemma triple {A B C} (x : A * B * C) r : gives x = r -> x = (mains x, r, snd x).
Proof. destruct x as [[a b] c]. cbn. intros ->. reflexivity. Qed.
Example C72_case : exists o names, iused (e_sc ex_env) o [2; 1; 0] names /\ ~ In [] c72_argv /\
  map (fun g => snd (snd g)) names = [$"prog_a9d4_1.mha"; $"dir/prog_a9e5_2.txt"] /\
  gives (object_Main ex_itk (two_images ($"same/x.mha") ($"same/x.mha")) c72_argv (iwith_settings_of o)) = Ok 0 /\
  gives (object_Main ex_itk (two_images ($"same/x.mha") ($"same/x.mha")) c72_argv o) = Ok 3.
Proof.
  assert (N : ~ In [] c72_argv) by (intros [H|[H|[H|[]]]]; discriminate). assert (N1 : ~ In [] [$"prog"; $"-O"; $"r.xml"]) by (intros [H|[H|[H|[]]]]; discriminate).
  pose proof (iused_new (e_sc ex_env) ex_itk ex_image_files) as U0.
  assert (U1 := iused_run _ ex_itk c72_image [$"prog"; $"-O"; $"r.xml"] c72_new [] [] _ 0 _ U0 eq_refl N1 (triple run1 (Ok 0) ltac:(vm_compute; reflexivity))).
  assert (U2 := iused_run _ ex_itk c72_raise c72_argv (mains run1) _ _ _ (-1) _ U1 eq_refl N (triple run2 (Ok (-1)) ltac:(vm_compute; reflexivity))).
  assert (G : after2 = (fst after2, Ok ($"dir/prog_a9e5_2.txt"))) by (apply pair_fst; vm_compute; reflexivity).
  assert (U3 := iused_generate _ _ _ _ _ _ _ _ U2 G).
  assert (U4 := iused_run _ ex_itk both_images c72_argv (fst after2) _ _ _ 3 _ U3 eq_refl N (triple run3 (Ok 3) ltac:(vm_compute; reflexivity))).
  eexists. eexists. split; [|split; [exact N|split; [|split]]].
  - match type of U4 with iused _ ?o (?c :: ?l) ?ns => assert (C : (c :: l) = [2; 1; 0]) by (vm_compute; reflexivity); rewrite C in U4; exact U4 end.
  - vm_compute. reflexivity.
  - vm_compute. reflexivity.
  - vm_compute. reflexivity.
Qed.

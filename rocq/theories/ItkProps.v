(** Properties C50 (generated file names), C52 (piped process), C55 (tests on the ITK driver). *)
From Coq Require Import Floats.SpecFloat.
From Verif Require Import Base Str Dec PathModel PathFacts MeasModel MeasFacts XmlText XmlModel ReadModel ReadFacts ReadBack ReadProps RegModel ArgFacts ArgProps RegSpec RegFacts RegStart RegMain RegProps RegProps2 RegRound ImgModel ItkModel ItkSpec ItkSim ItkRun ItkMain ItkNames.

(** * C50 *)
(** The k-th name of a run is the program name, the 16-bit hash of all arguments and k, both in hexadecimal, and the extension,
    appended to the root path. *)
Theorem C50_kth_name : forall sc a0 args k ext root, (1 <= k < 4294967296)%Z ->
  exists name, kth_name sc a0 args k ext name /\
    GenerateFileName sc (a0 :: args) (k - 1) ext root = match root with [] => Ok name | _ => Append root name end.
Proof.
  intros sc a0 args k ext root H. destruct (generate_ok sc a0 args (k - 1) ext root) as (name & K & G); [lia|].
  replace (k - 1 + 1)%Z with k in K by lia. exists name. auto.
Qed.
Print Assumptions C50_kth_name.
(** Without arguments (the test has not been started by [Main]) the behaviour is undefined. *)
Theorem C50_needs_arguments : forall sc k ext root, GenerateFileName sc [] k ext root = UB.
Proof. reflexivity. Qed.
Print Assumptions C50_needs_arguments.

Lemma kth_absolute sc a0 args k ext name : kth_name sc a0 args k ext name -> is_absolute name = is_absolute a0.
Proof. intros (h & d & _ & _ & ->). destruct a0; reflexivity. Qed.
(** Different names in one run: under the same root whatever the extensions; under any roots if the extensions have no slash, even
    in their last path component. *)
Theorem C50_distinct : forall sc a0 args i j ext ext' root a b, (1 <= i < 4294967296)%Z -> (1 <= j < 4294967296)%Z -> i <> j ->
  GenerateFileName sc (a0 :: args) (i - 1) ext root = Ok a -> GenerateFileName sc (a0 :: args) (j - 1) ext' root = Ok b -> a <> b.
Proof.
  intros sc a0 args i j ext ext' root a b Hi Hj N Ha Hb ->.
  destruct (C50_kth_name sc a0 args i ext root Hi) as (x & X & Ex). destruct (C50_kth_name sc a0 args j ext' root Hj) as (y & Y & Ey).
  rewrite Ha in Ex. rewrite Hb in Ey. assert (x = y).
  { destruct root as [|c r]; [congruence|]. apply (append_inj (c :: r) x y b); [congruence|congruence|].
    rewrite (kth_absolute _ _ _ _ _ _ X), (kth_absolute _ _ _ _ _ _ Y). reflexivity. }
  subst y. apply N. exact (proj1 (kth_inj _ _ _ _ _ _ _ _ X Y)).
Qed.
Print Assumptions C50_distinct.
Theorem C50_distinct_tails : forall sc a0 args i j ext ext' root root' a b, (1 <= i < 4294967296)%Z -> (1 <= j < 4294967296)%Z -> i <> j ->
  free slash ext -> free slash ext' ->
  GenerateFileName sc (a0 :: args) (i - 1) ext root = Ok a -> GenerateFileName sc (a0 :: args) (j - 1) ext' root' = Ok b -> Tail a <> Tail b.
Proof.
  intros sc a0 args i j ext ext' root root' a b Hi Hj N F F' Ha Hb E.
  destruct (C50_kth_name sc a0 args i ext root Hi) as (x & X & Ex). destruct (C50_kth_name sc a0 args j ext' root' Hj) as (y & Y & Ey).
  rewrite Ha in Ex. rewrite Hb in Ey.
  assert (Tx : Tail a = Tail x) by (destruct root; [congruence|symmetry in Ex; exact (tail_append _ _ _ Ex)]).
  assert (Ty : Tail b = Tail y) by (destruct root'; [congruence|symmetry in Ey; exact (tail_append _ _ _ Ey)]).
  destruct (kth_tail _ _ _ _ _ _ F X) as (h & d & H & D & Ed). destruct (kth_tail _ _ _ _ _ _ F' Y) as (h' & d' & H' & D' & Ed').
  assert (h = h') by exact (is_hex_unique _ _ _ H H'). subst h'. rewrite Tx, Ty, Ed, Ed' in E. do 4 apply app_inv_head in E.
  change ($"." ++ ext) with ("."%char :: ext) in E. change ($"." ++ ext') with ("."%char :: ext') in E.
  apply app_free_inj in E; [|eapply is_hex_free; [exact D|reflexivity]|eapply is_hex_free; [exact D'|reflexivity]].
  destruct E as [-> _]. apply N. eapply is_hex_inj; eassumption.
Qed.
Print Assumptions C50_distinct_tails.
(** In a run the i-th call (from 0) generates the (i+1)-th name. *)
Theorem C50_names_of_a_run : forall ie args o t tol n f x p ms rs ns x' out,
  iunfolds ie args o t tol n f x p ms rs ns x' out ->
  forall i name, nth_error ns i = Some name -> exists ext root, GenerateFileName (e_sc (i_env ie)) args (n + Z.of_nat i) ext root = Ok name.
Proof.
  intros ie args o t tol n f x p ms rs ns x' out H.
  induction H as [| |? ? ? ? ? ? ? ? ? ? ? ? ? ? ? ? IH|? ? ? ? ? ? ? ? ? ? ? ? ? ? ? ? ? IH|? ? ? ? ? ? ? ? ? ? ? ? ? IH|t tol n f x ext root name k ms rs ns x' out E H IH
                 |? ? ? ? ? ? ? ? ? ? ? ? ? IH|? ? ? ? ? ? ? ? ? ? ? ? ? IH|? ? ? ? ? ? ? ? ? ? ? ? ? IH|? ? ? ? ? ? ? ? ? ? ? ? ? ? IH| |]; intros idx nm Hi;
    try (destruct idx; discriminate Hi); try (exact (IH idx nm Hi)).
  destruct idx as [|idx]; cbn in Hi.
  - injection Hi as <-. exists ext, root. rewrite Z.add_0_r. exact E.
  - destruct (IH idx nm Hi) as (ext' & root' & G). exists ext', root'. rewrite <- G. f_equal. lia.
Qed.
Print Assumptions C50_names_of_a_run.
(** The root path is ignored if the program was called with an absolute name; the names depend on nothing but the program name
    and all the arguments written without separation; the numbers start again after 2^32 names. *)
Theorem C50_absolute_program : forall sc a0 args k ext root, is_absolute a0 = true ->
  GenerateFileName sc (a0 :: args) k ext root = GenerateFileName sc (a0 :: args) k ext [].
Proof.
  intros sc a0 args k ext root H. unfold GenerateFileName. destruct root as [|c r]; [reflexivity|]. apply append_abs. destruct a0; [discriminate|exact H].
Qed.
Print Assumptions C50_absolute_program.
Theorem C50_boundaries_ignored : forall sc a0 args args' k ext root, concat args = concat args' ->
  GenerateFileName sc (a0 :: args) k ext root = GenerateFileName sc (a0 :: args') k ext root.
Proof.
  intros sc a0 args args' k ext root H. unfold GenerateFileName, hash_of. cbn [concat]. rewrite H. reflexivity.
Qed.
Print Assumptions C50_boundaries_ignored.
Theorem C50_numbers_wrap : forall sc args k ext root, GenerateFileName sc args (k + 4294967296) ext root = GenerateFileName sc args k ext root.
Proof.
  intros. unfold GenerateFileName. destruct args; [reflexivity|].
  replace (k + 4294967296 + 1)%Z with (k + 1 + 1 * 4294967296)%Z by lia. rewrite Z.mod_add by lia. reflexivity.
Qed.
Print Assumptions C50_numbers_wrap.
(** Runs of one program whose arguments, written without separation, differ in exactly one character get different names. *)
Theorem C50_one_character : forall sc a0 args args' pre c c' post i j ext ext' root a b,
  concat args = pre ++ c :: post -> concat args' = pre ++ c' :: post -> c <> c' -> (1 <= i < 4294967296)%Z -> (1 <= j < 4294967296)%Z ->
  GenerateFileName sc (a0 :: args) (i - 1) ext root = Ok a -> GenerateFileName sc (a0 :: args') (j - 1) ext' root = Ok b -> a <> b.
Proof.
  intros sc a0 args args' pre c c' post i j ext ext' root a b E E' N Hi Hj Ha Hb ->.
  assert (NH : hash16 sc (concat (a0 :: args)) <> hash16 sc (concat (a0 :: args'))).
  { rewrite <- (proj1 (hash_of_16 sc (a0 :: args))), <- (proj1 (hash_of_16 sc (a0 :: args'))). unfold hash_of. cbn [concat]. rewrite E, E', !app_assoc.
    rewrite !fold_left_app. cbn [fold_left]. intros X. apply fold_inj in X; try apply step_range. apply step_char in X; [contradiction|].
    repeat apply fold_range. lia. }
  destruct (C50_kth_name sc a0 args i ext root Hi) as (x & X & Ex). destruct (C50_kth_name sc a0 args' j ext' root Hj) as (y & Y & Ey).
  rewrite Ha in Ex. rewrite Hb in Ey. assert (Exy : x = y).
  { destruct root as [|c0 r]; [congruence|]. apply (append_inj (c0 :: r) x y b); [congruence|congruence|].
    rewrite (kth_absolute _ _ _ _ _ _ X), (kth_absolute _ _ _ _ _ _ Y). reflexivity. }
  subst y. destruct X as (h & d & H & D & ->). destruct Y as (h' & d' & H' & D' & Q). apply app_inv_head in Q. apply app_inv_head in Q.
  change ($"_" ++ d ++ $"." ++ ext) with ("_"%char :: d ++ $"." ++ ext) in Q. change ($"_" ++ d' ++ $"." ++ ext') with ("_"%char :: d' ++ $"." ++ ext') in Q.
  apply app_free_inj in Q; [|eapply is_hex_free; [exact H|reflexivity]|eapply is_hex_free; [exact H'|reflexivity]].
  destruct Q as [-> _]. apply NH. eapply is_hex_inj; eassumption.
Qed.
Print Assumptions C50_one_character.
(** So runs with different arguments can get the same names. *)
Theorem C50_runs_distinct_refuted : exists args args' name, args <> args' /\
  GenerateFileName true args 0 ($"mha") [] = Ok name /\ GenerateFileName true args' 0 ($"mha") [] = Ok name.
Proof.
  exists [$"prog"; $"1"; $"23"], [$"prog"; $"12"; $"3"]. eexists. split; [discriminate|]. split; vm_compute; reflexivity.
Qed.
Print Assumptions C50_runs_distinct_refuted.
(** even if the arguments differ in more than their boundaries (16 bits) *)
Theorem C50_hash_distinct_refuted : exists args args' name, concat args <> concat args' /\
  GenerateFileName true args 0 ($"mha") [] = Ok name /\ GenerateFileName true args' 0 ($"mha") [] = Ok name.
Proof.
  exists [$"prog"; $"eab"], [$"prog"; $"aac"]. eexists. split; [vm_compute; discriminate|]. split; vm_compute; reflexivity.
Qed.
Print Assumptions C50_hash_distinct_refuted.
(** Non-vacuity: two names of one run. *)
Example C50_example : exists a b, GenerateFileName true [$"/bin/prog"; $"-x"] 0 ($"mha") ($"out") = Ok a /\
  GenerateFileName true [$"/bin/prog"; $"-x"] 1 ($"mha") ($"out") = Ok b /\ a <> b /\ Tail a <> Tail b.
Proof. do 2 eexists. split; [vm_compute; reflexivity|]. split; [vm_compute; reflexivity|]. split; vm_compute; discriminate. Qed.

(** C64, over several versions: a test that passes against the recording of a version, which itself passes against an older recording, passes against the older one too. *)
From Coq Require Import Floats.SpecFloat.
From Verif Require Import Base Str Dec PathModel PathFacts MeasModel MeasFacts MeasFacts2 MeasProps XmlText XmlModel ReadModel ReadFacts ReadBack ReadProps RegModel ArgFacts ArgProps RegSpec RegFacts RegStart RegMain RegProps RegProps2 RegRound ChangeProps CutProps LimitModel LimitProps NumProps2 VersionSpec VersionProps MetProps.

(** A run of the version [t] with arguments [args] has recorded the file [bytes]: some valid command line without [-I] in some environment, a test that ends normally. *)
Definition records (io : numio) (t : list str -> prog) (args : list str) (bytes : str) : Prop :=
  exists e f a0 rest opts o f1 s z, args = a0 :: rest /\ e_io e = io /\
  command_line e f opts rest /\ input_of opts = None /\ opened e f (output_of e f opts) = Some (o, f1) /\
  leaves_alone e o (t args) /\ (exists k, ends (t args) = Ok k) /\
  Forall storable (map (meas_of io false) (recorded (t args))) /\ comment_safe (e_host e) /\ comment_safe (e_time e) /\ Forall exact_call (recorded (t args)) /\
  Main e t (a0 :: flat opts ++ rest) (new_test f) = (s, Ok z) /\ bytes = written o s.
(** A run of [t] with these arguments, compared with a baseline file that holds [bytes], has returned [z]; the test itself returned what is expected of it. *)
Definition compared (io : numio) (t : list str -> prog) (args : list str) (bytes : str) (z : Z) : Prop :=
  exists e f a0 rest opts inf o f2 v s, args = a0 :: rest /\ e_io e = io /\
  command_line e f opts rest /\ input_of opts = Some inf /\ opened e f (output_of e f opts) = Some (o, f2) /\
  contents e f2 (baseline_path e f2 (dirs_of opts) inf) = Some bytes /\
  steady (t args) /\ Forall exact_call (recorded (t args)) /\ ends (t args) = Ok v /\ v = expects (expected_of opts) (t args) /\
  Main e t (a0 :: flat opts ++ rest) (new_test f) = (s, Ok z).
Lemma compared_iff io old old_args bytes new args z : records io old old_args bytes -> compared io new args bytes z ->
  (z = 0%Z <-> exists more, map (what io) (recorded (old old_args)) = map (what io) (recorded (new args)) ++ more).
Proof.
  intros (e & f & a0 & rest & opts & o & f1 & s & z1 & -> & <- & R1 & R2 & R3 & R4 & R5 & R6 & R7 & R8 & R9 & R10 & ->)
    (e' & f' & a0' & rest' & opts' & inf & o' & f2 & v & s2 & -> & Eio & C1 & C2 & C3 & C4 & C5 & C6 & C7 & C8 & C9).
  pose proof (C64_passes_iff e f old a0 rest opts o f1 s z1 e' f' new a0' rest' opts' inf o' f2 v s2 z R1 R2 R3 R4 R5 R6 R7 R8 R9 R10 C1 C2 C3 C4 C5 C6 C7 C9 C8) as H.
  rewrite Eio in H. exact H.
Qed.

(** Version 2 passed against version 1's recording and then recorded a new baseline.  What passes against the new baseline passes against the old one;
    nothing that the old baseline refuses is accepted because of the new one. *)
Theorem C64_rebaselined : forall io v1 args1 bytes1 v2 args2 bytes2 v3 args3 z,
  records io v1 args1 bytes1 -> compared io v2 args2 bytes1 0 -> records io v2 args2 bytes2 ->
  compared io v3 args3 bytes2 0 -> compared io v3 args3 bytes1 z -> z = 0%Z.
Proof.
  intros io v1 args1 bytes1 v2 args2 bytes2 v3 args3 z R1 C2 R2 C3 C. apply (compared_iff io v1 args1 bytes1 v3 args3 z R1 C).
  destruct (proj1 (compared_iff _ _ _ _ _ _ _ R1 C2) eq_refl) as [m1 E1]. destruct (proj1 (compared_iff _ _ _ _ _ _ _ R2 C3) eq_refl) as [m2 E2].
  exists (m2 ++ m1). rewrite E1, E2, <- app_assoc. reflexivity.
Qed.
Print Assumptions C64_rebaselined.
(** Two versions that pass against each other's recordings make the same measurements. *)
Theorem C64_both_ways : forall io v1 args1 bytes1 v2 args2 bytes2 z1 z2,
  records io v1 args1 bytes1 -> records io v2 args2 bytes2 -> compared io v1 args1 bytes2 z1 -> compared io v2 args2 bytes1 z2 ->
  (z1 = 0%Z /\ z2 = 0%Z <-> map (what io) (recorded (v1 args1)) = map (what io) (recorded (v2 args2))).
Proof.
  intros io v1 args1 bytes1 v2 args2 bytes2 z1 z2 R1 R2 C1 C2.
  rewrite (compared_iff _ _ _ _ _ _ _ R2 C1), (compared_iff _ _ _ _ _ _ _ R1 C2). split.
  - intros [[m1 E1] [m2 E2]]. assert (m1 = []) as ->; [|rewrite app_nil_r in E1; auto].
    apply length_zero_iff_nil. apply (f_equal (@length _)) in E1, E2. rewrite app_length in E1, E2. lia.
  - intros E. split; exists []; rewrite app_nil_r; auto.
Qed.
Print Assumptions C64_both_ways.
(** Not the other way: the old baseline accepts a version that the new one refuses, because version 2 no longer made a measurement that version 3 makes again. *)
Definition shortest : list str -> prog := fun _ => Call (TextString ($"a") ($"one")) (fun _ => Return 0).
Lemma records_met t : leaves_alone ex_env (Some ($"b.xml")) (t [$"prog"]) -> (exists k, ends (t [$"prog"]) = Ok k) ->
  Forall storable (map (meas_of (e_io ex_env) false) (recorded (t [$"prog"]))) -> Forall exact_call (recorded (t [$"prog"])) -> snd (Main ex_env t O_args (new_test none)) = Ok 0%Z ->
  records (e_io ex_env) t [$"prog"] (written (Some ($"b.xml")) (made t)).
Proof.
  intros H1 H2 H3 H4 H5. exists ex_env, none, ($"prog"), [], O_line, (Some ($"b.xml")), (upd none ($"b.xml") (Some (FFile true true []))), (made t), 0%Z.
  refine (conj eq_refl (conj eq_refl (conj (met_O _) (conj eq_refl (conj eq_refl (conj H1 (conj H2 (conj H3 (conj safe_host (conj safe_time (conj H4 (conj _ eq_refl)))))))))))).
  change (Main ex_env t O_args (new_test none) = (made t, Ok 0%Z)). rewrite <- H5. apply surjective_pairing.
Qed.
Lemma compared_met old new z : contents ex_env (left_by old) ($"b.xml") = Some (written (Some ($"b.xml")) (made old)) ->
  readable_file ex_env (left_by old) ($"b.xml") = true -> steady (new [$"prog"]) -> Forall exact_call (recorded (new [$"prog"])) -> ends (new [$"prog"]) = Ok (expects 0 (new [$"prog"])) ->
  snd (Main ex_env new I_args (new_test (left_by old))) = Ok z -> compared (e_io ex_env) new [$"prog"] (written (Some ($"b.xml")) (made old)) z.
Proof.
  intros H1 H2 H3 H4 H5 H6. exists ex_env, (left_by old), ($"prog"), [], I_line, ($"b.xml"), None, (left_by old), (expects 0 (new [$"prog"])), (fst (Main ex_env new I_args (new_test (left_by old)))).
  refine (conj eq_refl (conj eq_refl (conj (met_I _ _ H2) (conj eq_refl (conj eq_refl (conj _ (conj H3 (conj H4 (conj H5 (conj eq_refl _)))))))))).
  - rewrite <- H1. reflexivity.
  - change (Main ex_env new I_args (new_test (left_by old)) = (fst (Main ex_env new I_args (new_test (left_by old))), Ok z)). rewrite <- H6. apply surjective_pairing.
Qed.
Local Ltac recording := apply records_met; [cbn [old_version shorter shortest leaves_alone]; intros; exact Logic.I|exists 0%Z; reflexivity|repeat constructor|repeat constructor|vm_compute; reflexivity].
Local Ltac comparing := apply compared_met; [vm_compute; reflexivity|vm_compute; reflexivity|cbn [old_version shorter shortest steady]; auto|repeat constructor|reflexivity|vm_compute; reflexivity].
Theorem C64_rebaselined_back_refuted : exists io v1 args1 bytes1 v2 args2 bytes2 v3 args3,
  records io v1 args1 bytes1 /\ compared io v2 args2 bytes1 0 /\ records io v2 args2 bytes2 /\ compared io v3 args3 bytes1 0 /\ compared io v3 args3 bytes2 1.
Proof.
  exists (e_io ex_env), old_version, [$"prog"], (written (Some ($"b.xml")) (made old_version)), shortest, [$"prog"], (written (Some ($"b.xml")) (made shortest)), shorter, [$"prog"].
  split; [recording|]. split; [comparing|]. split; [recording|]. split; comparing.
Qed.
Print Assumptions C64_rebaselined_back_refuted.
Example C64_rebaselined_met : 0%Z = 0%Z := C64_rebaselined (e_io ex_env) old_version [$"prog"] _ shorter [$"prog"] _ shortest [$"prog"] 0%Z
  ltac:(recording) ltac:(comparing) ltac:(recording) ltac:(comparing) ltac:(comparing).

Example C64_both_ways_met : map (what (e_io ex_env)) (recorded (shorter [$"prog"])) = map (what (e_io ex_env)) (recorded (shorter [$"prog"])) :=
  proj1 (C64_both_ways (e_io ex_env) shorter [$"prog"] _ shorter [$"prog"] _ 0%Z 0%Z ltac:(recording) ltac:(recording) ltac:(comparing) ltac:(comparing)) (conj eq_refl eq_refl).
Example C64_one_way_met : ~ map (what (e_io ex_env)) (recorded (shortest [$"prog"])) = map (what (e_io ex_env)) (recorded (shorter [$"prog"])) := fun E =>
  match proj2 (C64_both_ways (e_io ex_env) shortest [$"prog"] _ shorter [$"prog"] _ 0%Z 1%Z ltac:(recording) ltac:(recording) ltac:(comparing) ltac:(comparing)) E with
  | conj _ H => ltac:(discriminate H) end.

(** With tolerant measurements a test passes against the new baseline and not against the old one: each version is within the tolerance of the one before. *)
Definition drifts (m : Z) : list str -> prog := fun _ => Call (NumericDouble (dbl m (-43)) ($"value") true) (fun _ => Return 0%Z).
Theorem C69_drift_refuted : exists v1 v2 v3 : list str -> prog,
  let recording t := Main std_env t [$"prog"; $"-O"; $"b.xml"] (new_test none) in
  let passes t old := snd (Main std_env t [$"prog"; $"-I"; $"b.xml"] (new_test (s_files (fst (recording old))))) in
  (forall t, In t [v1; v2; v3] -> Forall usual_call (recorded (t [$"prog"])) /\ usual_test (t [$"prog"]) /\ snd (recording t) = Ok 0%Z) /\
  passes v2 v1 = Ok 0%Z /\ passes v3 v2 = Ok 0%Z /\ passes v3 v1 = Ok 1%Z.
Proof.
  (* 1000, 1000.005 and 1000.01 *)
  exists (drifts 8796093022208000), (drifts 8796137002673111), (drifts 8796180983138222). cbv zeta. split; [|split; [|split]; vm_compute; reflexivity].
  intros t [<-|[<-|[<-|[]]]]; (split; [repeat constructor; discriminate|split; [cbn [drifts usual_test]; repeat split; discriminate|vm_compute; reflexivity]]).
Qed.
Print Assumptions C69_drift_refuted.

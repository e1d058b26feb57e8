(** Properties C37, C38, C43, C44: runs of a regression test. *)
From Coq Require Import Floats.SpecFloat.
From Verif Require Import Base Str Dec PathModel PathFacts MeasModel MeasFacts MeasFacts2 XmlModel ReadModel ReadFacts ReadBack ReadProps RegModel ArgFacts ArgProps RegSpec RegFacts RegStart RegMain.

(** C37.  A run against a baseline: if the output file and the baseline can be opened and read ([started]), the value returned is that of
    [status]: the number of mismatches if the test returned the expected value, else the test's own value; an exception counts as -1 and
    as one more mismatch.  The measurements ([ms]) and the values they return ([rs]) are those of the test run from the state after
    the start; each has been compared with the baseline measurement at its position. *)
Theorem C37_compare_status : forall e f test a0 opts rest inf s' z,
  command_line e f opts rest -> input_of opts = Some inf ->
  Main e test (a0 :: flat opts ++ rest) (new_test f) = (s', Ok z) ->
  match started e f (output_of e f opts) (dirs_of opts) inf with
  | Some (o, f1, baseline) =>
      exists ms rs x out,
        unfolds e o default_tol f1 (expected_of opts) (test (a0 :: rest)) ms rs x out /\
        rs = results e (dirs_of opts) baseline (firstn (length rs) ms) /\
        (forall mo, nth_error ms (length rs) = Some mo -> exists b i, out = Throw i /\ nth_error baseline (length rs) = Some b /\
           kind_of_moment e b mo = true /\ verdict e (dirs_of opts) b mo = Throw i) /\
        z = status out x (mismatches e (dirs_of opts) baseline (firstn (length rs) ms))
  | None => if (-1 =? expected_of opts)%Z then (0 <= z <= 1)%Z else z = (-1)%Z
  end.
Proof. exact main_compare. Qed.
Print Assumptions C37_compare_status.
(** A recording run always ends, with this value. *)
Theorem C37_record_status : forall e f test a0 opts rest,
  command_line e f opts rest -> input_of opts = None ->
  exists s' z, Main e test (a0 :: flat opts ++ rest) (new_test f) = (s', Ok z) /\
    (opened e f (output_of e f opts) = None -> z = status (Throw ExnRuntime) (expected_of opts) (-1)) /\
    (opened e f (output_of e f opts) <> None ->
       forall x, x = expects (expected_of opts) (test (a0 :: rest)) ->
       (forall r, ends (test (a0 :: rest)) = Ok r -> (r = x -> z = 0%Z) /\ (r <> x -> z = r)) /\
       (forall i, ends (test (a0 :: rest)) = Throw i -> (x = (-1)%Z -> z = 0%Z) /\ (x <> (-1)%Z -> z = (-1)%Z))).
Proof.
  intros e f test a0 opts rest Hc Hi. destruct (main_record e f test a0 opts rest Hc Hi) as [s' E].
  exists s'. eexists. split; [exact E|]. clear E. split.
  - intros ->. unfold status. destruct (-1 =? expected_of opts)%Z; reflexivity.
  - intros H x Hx. destruct (opened e f (output_of e f opts)) as [p|]; [|contradiction]. rewrite <- Hx. split.
    + intros r ->. destruct (Z.eqb_spec r x); split; congruence.
    + intros i ->. destruct (Z.eqb_spec (-1) x); split; congruence.
Qed.
Print Assumptions C37_record_status.

(** A test fails if it does not return the expected value: not so when it returns 0. *)
Definition ex_base : store := fun k => if eqs k ($"b.xml") then Some (FFile true true ($"<output></output>")) else None.
Theorem C37_unexpected_zero_refuted : exists e f test argv s', Main e test argv (new_test f) = (s', Ok 0%Z) /\
  s_expected s' = 1%Z /\ forall l, test l = Return 0.
Proof.
  exists ex_env, ex_base, (fun _ => Return 0), [$"prog"; $"-R"; $"1"; $"-I"; $"b.xml"]. eexists. split; [vm_compute; reflexivity|]. split; reflexivity.
Qed.
Print Assumptions C37_unexpected_zero_refuted.
(** Nor when the baseline is missing and the value -1 is expected. *)
Theorem C37_missing_baseline_refuted : exists e f test argv s', Main e test argv (new_test f) = (s', Ok 0%Z) /\
  (forall k, f k = None) /\ In ($"-I") argv /\ forall l, test l = Call (TextString ($"text") ($"name")) (fun _ => Raise ExnRuntime).
Proof.
  exists ex_env, (fun _ => None), (fun _ => Call (TextString ($"text") ($"name")) (fun _ => Raise ExnRuntime)), [$"prog"; $"-R"; $"-1"; $"-I"; $"b.xml"].
  eexists. split; [vm_compute; reflexivity|]. split; [reflexivity|]. split; [cbn; auto|reflexivity].
Qed.
Print Assumptions C37_missing_baseline_refuted.
(** The shell sees the value modulo 256. *)
Fixpoint many (n : nat) : prog := match n with 0 => Return 0 | S n' => Call (TextString [] []) (fun _ => many n') end.
Theorem C37_exit_status_refuted : exists e f test argv s' z, Main e test argv (new_test f) = (s', Ok z) /\ z = 256%Z /\ exit_status z = 0%Z.
Proof.
  exists ex_env, ex_base, (fun _ => many 256), [$"prog"; $"-I"; $"b.xml"]. eexists. exists 256%Z. split; [|split; reflexivity].
  vm_compute. reflexivity.
Qed.
Print Assumptions C37_exit_status_refuted.
Example C37_case : exists s', Main ex_env (fun _ => many 3) [$"prog"; $"-I"; $"b.xml"] (new_test ex_base) = (s', Ok 3%Z) /\
  command_line ex_env ex_base [($"-I", $"b.xml")] [] /\ input_of [($"-I", $"b.xml")] = Some ($"b.xml") /\
  started ex_env ex_base (output_of ex_env ex_base [($"-I", $"b.xml")]) [] ($"b.xml") = Some (None, ex_base, []).
Proof.
  eexists. split; [vm_compute; reflexivity|]. split; [|split; reflexivity].
  split; [|exact I]. constructor; [|constructor]. split; [cbn; auto|]. split; [intros _; split; reflexivity|discriminate].
Qed.

(** C38 *)
(** a measurement that is made in memory and compared exactly *)
Definition exact_call (c : call) : Prop :=
  match c with FileTextPlain _ _ | FileImagePNG _ _ | FileImageJPEG _ _ => False | _ => tolerant_of c = false end.
(** a baseline measurement in memory, without encoding and compression *)
Definition plain_baseline (b : meas) : Prop := match b with MD d => ddata d = None /\ denc d <> $"base64" | MF _ => True end.
Definition triple (m : meas) : str * str * str := (mname m, mtype m, mcontent m).
Definition is_data (m : meas) : bool := match m with MD _ => true | MF _ => false end.
(** positions of [ys] at which [xs] does not have an equal element *)
Definition differing {A} (eq : A -> A -> bool) (xs ys : list A) : nat :=
  length (filter (fun i => match nth_error xs i, nth_error ys i with Some x, Some y => negb (eq x y) | _, _ => true end) (seq 0 (length ys))).
Definition eq3 (a b : str * str * str) : bool :=
  eqs (fst (fst a)) (fst (fst b)) && eqs (snd (fst a)) (snd (fst b)) && eqs (snd a) (snd b).
Lemma eq3_true a b : eq3 a b = true <-> a = b.
Proof.
  destruct a as [[a1 a2] a3], b as [[b1 b2] b3]. unfold eq3. cbn [fst snd]. rewrite !andb_true_iff, !eqs_true.
  split; [intros [[-> ->] ->]; reflexivity|intros H; injection H; auto].
Qed.
Lemma differing_cons {A} (eq : A -> A -> bool) xs y ys :
  differing eq xs (y :: ys) = (match xs with x :: _ => if eq x y then 0 else 1 | [] => 1 end) + differing eq (tl xs) ys.
Proof.
  unfold differing. cbn [length seq filter]. rewrite <- seq_shift.
  assert (E : forall (l : list nat), length (filter (fun i => match nth_error xs i, nth_error (y :: ys) i with Some x, Some y => negb (eq x y) | _, _ => true end) (map S l))
     = length (filter (fun i => match nth_error (tl xs) i, nth_error ys i with Some x, Some y => negb (eq x y) | _, _ => true end) l)).
  { intros l. induction l as [|i l IH]; [reflexivity|]. cbn [map filter].
    change (nth_error (y :: ys) (S i)) with (nth_error ys i). rewrite <- nth_error_tl.
    destruct (match nth_error (tl xs) i with Some x => match nth_error ys i with Some y0 => negb (eq x y0) | None => true end | None => true end);
    cbn [length]; [f_equal|]; exact IH. }
  rewrite <- E. destruct xs as [|x xs]; cbn [nth_error]; [reflexivity|]. destruct (eq x y); reflexivity.
Qed.

Lemma exact_verdict e path b c t f : exact_call c -> plain_baseline b -> is_data b = true ->
  kind_of_moment e b (c, t, f) && same_value e path b (c, t, f) = eq3 (triple b) (triple (meas_of (e_io e) true c)).
Proof.
  intros Hc Hb Hd. destruct b as [d|g]; [|discriminate]. destruct Hb as [Hb1 Hb2].
  assert (M : exists m, meas_of (e_io e) true c = MD m /\ ddata m = None /\ denc m <> $"base64").
  { destruct c; cbn [meas_of] in *; try contradiction; eexists; (split; [reflexivity|]); (split; [reflexivity|discriminate]). }
  destruct M as (m & M & Mc & Me).
  assert (T : tolerant_of c = false) by (destruct c; cbn in Hc |- *; auto; contradiction).
  unfold kind_of_moment, same_kind, same_value, verdict. rewrite T. cbn [fst]. rewrite M. cbn [found].
  assert (E := compare_exact (e_sc e) (sources e f) (e_io e) new_cmp d m (dcontent d) (dcontent m) eq_refl (or_intror (conj Hb1 (conj Hb2 eq_refl))) (or_intror (conj Mc (conj Me eq_refl)))).
  rewrite E. cbn [snd]. unfold eq3, triple. cbn [fst snd mname mtype mcontent].
  destruct (eqs_spec (dname d) (dname m)) as [N|N]; [|reflexivity].
  destruct (eqs_spec (type_of (dcls d)) (type_of (dcls m))) as [K|K]; [|reflexivity].
  apply type_of_inj in K. rewrite (proj2 (cls_eqb_true _ _) K). cbn [andb]. destruct (eqs (dcontent d) (dcontent m)); reflexivity.
Qed.
(** For measurements compared exactly the mismatches are the positions at which name, type and content are not those of the baseline's
    measurement at the same position, including all those beyond its end. *)
Theorem C38_mismatches_of_exact_measurements : forall e path bs ms,
  Forall (fun mo => exact_call (fst (fst mo))) ms -> Forall (fun b => plain_baseline b /\ is_data b = true) bs ->
  mismatches e path bs ms = Z.of_nat (differing eq3 (map triple bs) (map (fun mo => triple (meas_of (e_io e) true (fst (fst mo)))) ms)).
Proof.
  intros e path bs ms Hm. revert bs. induction Hm as [|[[c t] f] ms H _ IH]; intros bs Hb; [reflexivity|].
  cbn [map mismatches fst]. rewrite differing_cons, Nat2Z.inj_add, (IH (tl bs)) by (destruct Hb; [constructor|assumption]).
  assert (Et : tl (map triple bs) = map triple (tl bs)) by (destruct bs; reflexivity). rewrite Et.
  destruct bs as [|b bs]; [reflexivity|]. inversion Hb as [|? ? [Hb1 Hb2] _]; subst. cbn [map]. cbn [fst] in H.
  rewrite (exact_verdict e path b c t f H Hb1 Hb2). destruct (eq3 _ _); reflexivity.
Qed.
Print Assumptions C38_mismatches_of_exact_measurements.

(** every measurement of the test, whatever the earlier ones return *)
Fixpoint all_calls (P : call -> Prop) (p : prog) : Prop :=
  match p with
  | Call c k => P c /\ forall r, all_calls P (k r)
  | SetRelativeTolerance _ k | SetExpectedReturn _ k | WriteFile _ _ k => all_calls P k
  | _ => True
  end.
Lemma unfolds_calls P e o t f x p ms rs x' out : unfolds e o t f x p ms rs x' out -> all_calls P p -> Forall (fun mo => P (fst (fst mo))) ms.
Proof.
  induction 1; intros Hp; cbn [all_calls] in Hp; try (constructor; fail); try (apply IHunfolds; exact Hp).
  - destruct Hp as [H1 H2]. constructor; [exact H1|]. apply IHunfolds, H2.
  - destruct Hp as [H1 H2]. constructor; [exact H1|constructor].
Qed.
(** The value returned by a whole run of such a test. *)
Theorem C38_run : forall e f test a0 opts rest inf s' z o f1 baseline,
  command_line e f opts rest -> input_of opts = Some inf ->
  Main e test (a0 :: flat opts ++ rest) (new_test f) = (s', Ok z) ->
  started e f (output_of e f opts) (dirs_of opts) inf = Some (o, f1, baseline) ->
  all_calls exact_call (test (a0 :: rest)) -> Forall (fun b => plain_baseline b /\ is_data b = true) baseline ->
  exists ms rs x out, unfolds e o default_tol f1 (expected_of opts) (test (a0 :: rest)) ms rs x out /\
    let made := map (fun mo => triple (meas_of (e_io e) true (fst (fst mo)))) (firstn (length rs) ms) in
    z = status out x (Z.of_nat (differing eq3 (map triple baseline) made)).
Proof.
  intros e f test a0 opts rest inf s' z o f1 baseline Hc Hi Hm Hs Ha Hb.
  pose proof (C37_compare_status e f test a0 opts rest inf s' z Hc Hi Hm) as H. rewrite Hs in H.
  destruct H as (ms & rs & x & out & W & _ & _ & E). exists ms, rs, x, out. split; [exact W|]. cbv zeta. rewrite E. f_equal.
  apply C38_mismatches_of_exact_measurements; [|exact Hb].
  pose proof (unfolds_calls exact_call _ _ _ _ _ _ _ _ _ _ W Ha) as F.
  rewrite <- (firstn_skipn (length rs) ms) in F. apply Forall_app in F. apply F.
Qed.
Print Assumptions C38_run.
(** what the test does not measure any more is not noticed *)
Theorem C38_leftover_not_counted : forall e path bs extra ms, length ms <= length bs ->
  mismatches e path (bs ++ extra) ms = mismatches e path bs ms.
Proof.
  intros e path bs extra ms. revert bs. induction ms as [|mo ms IH]; intros bs H; [reflexivity|].
  destruct bs as [|b bs]; [cbn in H; lia|]. cbn [length] in H. cbn [app mismatches tl]. rewrite IH by lia. reflexivity.
Qed.
Print Assumptions C38_leftover_not_counted.
Theorem C38_beyond_the_end : forall e path ms, mismatches e path [] ms = Z.of_nat (length ms).
Proof. intros e path ms. induction ms as [|mo ms IH]; [reflexivity|]. cbn [mismatches tl length]. rewrite IH. lia. Qed.
Print Assumptions C38_beyond_the_end.
(** A test that stops early passes. *)
Theorem C38_all_baselines_needed_refuted : exists e f test argv s', Main e test argv (new_test f) = (s', Ok 0%Z) /\
  (exists l, read_input e (set_is (new_test f) (Some ($"b.xml"))) = (set_input (set_is (new_test f) (Some ($"b.xml"))) l, Ok tt) /\ length l = 1) /\
  forall l, test l = Return 0.
Proof.
  exists ex_env, (fun k => if eqs k ($"b.xml") then Some (FFile true true (document (lines_of [meas_of (e_io ex_env) false (TextString ($"text") ($"name"))]))) else None).
  exists (fun _ => Return 0), [$"prog"; $"-I"; $"b.xml"]. eexists. split; [vm_compute; reflexivity|]. split; [|reflexivity].
  eexists. split; [vm_compute; reflexivity|reflexivity].
Qed.
Print Assumptions C38_all_baselines_needed_refuted.
Example C38_case : differing Nat.eqb [1; 2; 3; 4] [1; 3; 3] = 1 /\ differing Nat.eqb [1] [1; 2; 3] = 2 /\
  exact_call (NumericInteger 7 ($"n") false) /\ plain_baseline (MD (new_dm CInt)).
Proof. repeat split; try discriminate. Qed.

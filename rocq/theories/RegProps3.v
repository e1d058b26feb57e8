(** Property C39: recording and then comparing. *)
From Coq Require Import Floats.SpecFloat.
From Verif Require Import Base Str Dec PathModel PathFacts MeasModel MeasFacts MeasFacts2 MeasProps XmlText XmlModel ReadModel ReadFacts ReadBack ReadProps RegModel ArgFacts ArgProps RegSpec RegFacts RegStart RegMain RegProps RegProps2 RegRound.

(** The second run against a document that reads as what the test records. *)
Lemma compare_repeats e f test a0 opts rest inf o f1 b k :
  command_line e f opts rest -> input_of opts = Some inf -> opened e f (output_of e f opts) = Some (o, f1) ->
  contents e f1 (baseline_path e f1 (dirs_of opts) inf) = Some b ->
  ReadXMLInput (e_asserts e) (e_ext e) b = Ok (map stored (map (meas_of (e_io e) false) (recorded (test (a0 :: rest))))) ->
  repeatable e (dirs_of opts) default_tol f1 (test (a0 :: rest)) -> ends (test (a0 :: rest)) = Ok k ->
  exists s', Main e test (a0 :: flat opts ++ rest) (new_test f) =
      (s', Ok (if (k =? expects (expected_of opts) (test (a0 :: rest)))%Z then 0%Z else k)) /\
    s_stdout s' = [] /\ s_files s' = leaves e f1 (test (a0 :: rest)).
Proof.
  intros Hc Hi Ho Hb Hx Hr He. pose proof (input_of_nonempty e f opts inf (proj1 Hc) Hi) as Hn.
  rewrite Main_unfold, (main_body_launch e f test a0 opts rest Hc).
  pose proof (begin_compare e (launched e f opts) inf eq_refl eq_refl) as B.
  assert (Hin : s_in (launched e f opts) = inf) by (cbn; rewrite Hi; reflexivity). specialize (B Hin Hn).
  change (s_files (launched e f opts)) with f in B. change (s_out (launched e f opts)) with (output_of e f opts) in B.
  change (s_path (launched e f opts)) with (dirs_of opts) in B. cbv zeta in B. rewrite Ho in B.
  set (s1 := set_os (set_files (launched e f opts) f1) o) in *. set (q := baseline_path e f1 (dirs_of opts) inf) in *.
  assert (Er : can_open e f1 q = true).
  { revert Hb. unfold contents, can_open. destruct (node_at e f1 q) as [[[|] w b0|]|]; try discriminate. reflexivity. }
  rewrite Er in B. destruct (readable_contents e f1 q Er) as (i & Ek & [(r & w & b' & Eb & Ec & Ef)|(r & w & x & Eb & Ec)]); [|congruence].
  assert (b' = b) by congruence. subst b'.
  unfold mbind. rewrite B, Ek. unfold read_input. cbn [set_is s_is]. change (s_files (set_is s1 (Some i))) with f1. rewrite Eb, Hx.
  cbv iota. set (s2 := set_input (set_is s1 (Some i)) _).
  pose proof (keeps_run e (test (a0 :: rest)) s2) as K.
  destruct (repeat_run e (test (a0 :: rest)) s2 i eq_refl eq_refl Hr) as (s3 & Erun & (F1 & F2 & F3 & F4 & F5) & Hf & Hso & Hu & Hexp).
  rewrite Erun in K |- *. cbn [fst] in K. rewrite He.
  assert (Hi3 : s_is s3 = Some i) by (rewrite F5; reflexivity).
  unfold EndMeasurement, GetCompareMode, mbind. rewrite (compare_mode_open e s3 i Hi3). unfold modify. cbv iota.
  set (s4 := set_unmatched _ _).
  assert (C4 : compare_mode e s4 = Ok true).
  { rewrite (compare_mode_closed e s4 inf eq_refl); [|change (s_in s4) with (s_in s3); rewrite F1; exact Hin|exact Hn].
    change (s_path s4) with (s_path s3). rewrite F3. change (s_files s4) with (s_files s3). f_equal.
    apply (keeps_baseline e f1); [exact K|]. unfold readable_file. change (s_path s2) with (dirs_of opts). fold q. rewrite Ef, (file_can_open _ _ _ Ef), Er. reflexivity. }
  unfold finish. rewrite C4. cbn [bind]. change (s_expected s4) with (s_expected s3).
  assert (U : s_unmatched s4 = 0%Z) by (change (s_unmatched s4) with (s_unmatched s3 - 1)%Z; rewrite Hu; reflexivity).
  rewrite U, Hexp. change (s_expected s2) with (expected_of opts).
  destruct (k =? _)%Z; cbn [negb]; (exists s4; split; [reflexivity|]; split; [exact Hso|exact Hf]).
Qed.

(** C39.  If the test returns, its measurements have names and texts that can be stored and repeating them gives the same values
    ([repeatable]), and the host name and time can stand in a comment, then comparing with the recorded document, on any machine that
    formats numbers in the same way, gives the same status as recording; nothing is printed and no file changes except
    those the test writes. *)
Theorem C39_record_then_compare : forall e f test a0 rest opts o f1 s1 z k e' f' opts' inf o' f2,
  (* the recording run *)
  command_line e f opts rest -> input_of opts = None -> opened e f (output_of e f opts) = Some (o, f1) ->
  leaves_alone e o (test (a0 :: rest)) -> ends (test (a0 :: rest)) = Ok k ->
  Forall storable (map (meas_of (e_io e) false) (recorded (test (a0 :: rest)))) -> comment_safe (e_host e) -> comment_safe (e_time e) ->
  Main e test (a0 :: flat opts ++ rest) (new_test f) = (s1, Ok z) ->
  (* the comparing run *)
  command_line e' f' opts' rest -> input_of opts' = Some inf -> expected_of opts' = expected_of opts -> e_io e' = e_io e ->
  opened e' f' (output_of e' f' opts') = Some (o', f2) ->
  contents e' f2 (baseline_path e' f2 (dirs_of opts') inf) = Some (written o s1) ->
  repeatable e' (dirs_of opts') default_tol f2 (test (a0 :: rest)) ->
  exists s2, Main e' test (a0 :: flat opts' ++ rest) (new_test f') = (s2, Ok z) /\
    s_stdout s2 = [] /\ s_files s2 = leaves e' f2 (test (a0 :: rest)).
Proof.
  intros e f test a0 rest opts o f1 s1 z k e' f' opts' inf o' f2 Hc Hi Ho Hl He Hs Hh Ht Hm Hc' Hi' Hx Hio Ho' Hb Hr.
  destruct (C44_recorded_document e f test a0 opts rest o f1 Hc Hi Ho Hl) as (s1' & z' & ps & M & P & W).
  assert (E1 : (s1', Ok z') = (s1, Ok z)) by congruence. injection E1 as -> ->.
  rewrite He in W. rewrite (lines_prints _ _ P) in W.
  destruct (main_record e f test a0 opts rest Hc Hi) as [s1' Z]. rewrite Ho, He, Hm in Z. injection Z as <- ->.
  rewrite W in Hb. rewrite <- Hx.
  eapply (compare_repeats e' f' test a0 opts' rest inf o' f2 _ k Hc' Hi' Ho' Hb); [|exact Hr|exact He].
  rewrite Hio. apply read_recorded; assumption.
Qed.
Print Assumptions C39_record_then_compare.

(** The hypotheses are needed.  Value of the recording run and of the comparing run after it: *)
Definition record_compare (e : env) (test : list str -> prog) (f : store) (name : str) (more : list str) : res Z * res Z :=
  let '(s1, z1) := Main e test ($"prog" :: $"-O" :: name :: more) (new_test f) in
  let '(s2, z2) := Main e test ($"prog" :: $"-I" :: name :: more) (new_test (s_files s1)) in (z1, z2).
(** image files never compare equal *)
Theorem C39_image_refuted : exists e f test, record_compare e test f ($"b.xml") [] = (Ok 0%Z, Ok 1%Z) /\
  (forall l, test l = Call (FileImagePNG ($"a.png") ($"name")) (fun _ => Return 0)) /\ contents e f ($"a.png") <> None.
Proof.
  exists ex_env, (fun k => if eqs k ($"a.png") then Some (FFile true true ($"bytes")) else None), (fun _ => Call (FileImagePNG ($"a.png") ($"name")) (fun _ => Return 0)).
  split; [vm_compute; reflexivity|]. split; [reflexivity|discriminate].
Qed.
Print Assumptions C39_image_refuted.
(** carriage returns in the text become new-lines *)
Theorem C39_carriage_return_refuted : exists e f test, record_compare e test f ($"b.xml") [] = (Ok 0%Z, Ok 1%Z) /\
  (forall l, test l = Call (TextString ($"line" ++ [chr 13; nl]) ($"name")) (fun _ => Return 0)).
Proof. exists ex_env, (fun _ => None), (fun _ => Call (TextString ($"line" ++ [chr 13; nl]) ($"name")) (fun _ => Return 0)). split; [vm_compute; reflexivity|reflexivity]. Qed.
Print Assumptions C39_carriage_return_refuted.
(** names are not escaped: an ampersand or less-than sign in a name makes the baseline unreadable *)
Theorem C39_name_refuted : exists e f test, record_compare e test f ($"b.xml") [] = (Ok 0%Z, Ok (-1)%Z) /\
  (forall l, test l = Call (TextPlain ($"text") ($"a<b")) (fun _ => Return 0)).
Proof. exists ex_env, (fun _ => None), (fun _ => Call (TextPlain ($"text") ($"a<b")) (fun _ => Return 0)). split; [vm_compute; reflexivity|reflexivity]. Qed.
Print Assumptions C39_name_refuted.
(** so does a host name with two dashes in a row, for every test *)
Definition with_host (e : env) (h : str) : env := Env (e_sc e) (e_asserts e) (e_oob e) (e_io e) (e_ext e) (e_canon e) (e_cancreate e) h (e_time e).
Theorem C39_host_name_refuted : exists e f test, record_compare e test f ($"b.xml") [] = (Ok 0%Z, Ok (-1)%Z) /\
  e_host e = $"build--7" /\ (forall l, test l = Return 0).
Proof. exists (with_host ex_env ($"build--7")), (fun _ => None), (fun _ => Return 0). split; [vm_compute; reflexivity|split; reflexivity]. Qed.
Print Assumptions C39_host_name_refuted.
(** the smallest integer, compared with a tolerance, is undefined *)
Theorem C39_smallest_integer_refuted : exists e f test, record_compare e test f ($"b.xml") [] = (Ok 0%Z, UB) /\
  (forall l, test l = Call (NumericInteger INT_MIN ($"name") true) (fun _ => Return 0)).
Proof. exists ex_env, (fun _ => None), (fun _ => Call (NumericInteger INT_MIN ($"name") true) (fun _ => Return 0)). split; [vm_compute; reflexivity|reflexivity]. Qed.
Print Assumptions C39_smallest_integer_refuted.
(** an expected exception: the recording succeeds, the comparison does not *)
Theorem C39_expected_exception_refuted : exists e f test, record_compare e test f ($"b.xml") [$"-R"; $"-1"] = (Ok 0%Z, Ok 1%Z) /\
  (forall l, test l = Raise ExnRuntime).
Proof. exists ex_env, (fun _ => None), (fun _ => Raise ExnRuntime). split; [vm_compute; reflexivity|reflexivity]. Qed.
Print Assumptions C39_expected_exception_refuted.
(** A test that reacts to the value returned by a measurement. *)
Theorem C39_result_dependent_refuted : exists e f test, record_compare e test f ($"b.xml") [] = (Ok 0%Z, Ok 1%Z) /\
  (forall l, test l = Call (TextPlain ($"text") ($"name")) (fun r => if (r =? 0)%Z then Return 0 else Return 1)).
Proof.
  exists ex_env, (fun _ => None), (fun _ => Call (TextPlain ($"text") ($"name")) (fun r => if (r =? 0)%Z then Return 0 else Return 1)).
  split; [vm_compute; reflexivity|reflexivity].
Qed.
Print Assumptions C39_result_dependent_refuted.
(** Writing the output over the baseline: the file is emptied before it is read, so the run fails and the baseline is lost,
    for every test and every baseline file. *)
Theorem C39_same_output_destroys_baseline : forall e f test a0 opts rest inf k r b,
  command_line e f opts rest -> input_of opts = Some inf -> dirs_of opts = [] ->
  slot e inf = Some k -> slot e (output_of e f opts) = Some k -> f k = Some (FFile r true b) -> (expected_of opts <> -1)%Z ->
  exists s', Main e test (a0 :: flat opts ++ rest) (new_test f) = (s', Ok (-1)%Z) /\ s_files s' k = Some (FFile r true []).
Proof.
  intros e f test a0 opts rest inf k r b Hc Hi Hd Hk Ho Hf Hx. pose proof (input_of_nonempty e f opts inf (proj1 Hc) Hi) as Hn.
  assert (Hr : is_readable e f inf = true).
  { destruct Hc as [Hc _]. unfold input_of in Hi. clear -Hc Hi.
    assert (G : forall d, last_value (map Some (values ($"-I") opts)) d = Some inf -> d = Some inf \/ is_readable e f inf = true).
    { revert Hc. clear. induction 1 as [|[x v] l Hk _ IH]; intros d; [cbn; auto|]. unfold values in *. cbn [filter fst].
      destruct (eqs_spec x ($"-I")) as [->|N]; [|apply IH]. cbn [map last_value snd]. intros E. destruct (IH _ E) as [E'|E']; [|auto].
      injection E' as ->. destruct Hk as (_ & Hk & _). destruct (Hk eq_refl) as [_ F]. auto. }
    destruct (G None Hi) as [E|E]; [discriminate|exact E]. }
  assert (Hr' : r = true) by (unfold is_readable, node_at in Hr; rewrite Hk, Hf in Hr; exact Hr). subst r.
  rewrite Main_unfold, (main_body_launch e f test a0 opts rest Hc).
  pose proof (begin_compare e (launched e f opts) inf eq_refl eq_refl) as B.
  assert (Hin : s_in (launched e f opts) = inf) by (cbn; rewrite Hi; reflexivity). specialize (B Hin Hn).
  change (s_files (launched e f opts)) with f in B. change (s_out (launched e f opts)) with (output_of e f opts) in B.
  change (s_path (launched e f opts)) with (dirs_of opts) in B. cbv zeta in B.
  set (f1 := upd f k (Some (FFile true true []))).
  assert (Eo : opened e f (output_of e f opts) = Some (Some k, f1)).
  { unfold opened. destruct (output_of e f opts) as [|c t]; [discriminate Ho|]. rewrite Ho, Hf. reflexivity. }
  assert (F1 : f1 k = Some (FFile true true [])) by (unfold f1, upd; rewrite eqs_refl; reflexivity).
  rewrite Eo in B. assert (P : baseline_path e f1 (dirs_of opts) inf = inf) by (rewrite Hd; reflexivity).
  assert (R : can_open e f1 inf = true) by (unfold can_open, node_at; rewrite Hk, F1; reflexivity).
  rewrite P, R, Hk in B. unfold mbind. rewrite B. unfold read_input. cbn [set_is s_is].
  set (s1 := set_os (set_files (launched e f opts) f1) (Some k)). change (s_files (set_is s1 (Some k))) with f1. rewrite F1.
  assert (X : ReadXMLInput (e_asserts e) (e_ext e) [] = Throw ExnRuntime) by (rewrite read_spec; destruct (e_asserts e); reflexivity).
  rewrite X. unfold finish. change (s_expected (set_is s1 (Some k))) with (expected_of opts).
  destruct (Z.eqb_spec (-1) (expected_of opts)) as [Y|Y]; [congruence|]. cbn [negb]. eexists. split; [reflexivity|exact F1].
Qed.
Print Assumptions C39_same_output_destroys_baseline.

(** the theorem applies to a test with texts, numbers, a file it writes and measures, and a tolerance *)
Definition ex_test : list str -> prog := fun _ =>
  Call (TextPlain ($"a<b & c" ++ [nl]) ($"one")) (fun _ =>
  SetRelativeTolerance (binary_normalize p64 x64 1 (-3) false) (
  Call (NumericInteger 42 ($"two") true) (fun _ =>
  WriteFile ($"t.txt") ($"bytes") (
  Call (FileTextPlain ($"t.txt") ($"three")) (fun _ => Return 0))))).
Example C39_case :
  record_compare ex_env ex_test (fun _ => None) ($"b.xml") [] = (Ok 0%Z, Ok 0%Z) /\
  Forall storable (map (meas_of (e_io ex_env) false) (recorded (ex_test []))) /\ comment_safe (e_host ex_env) /\ comment_safe (e_time ex_env) /\
  leaves_alone ex_env (Some ($"b.xml")) (ex_test []) /\
  (forall f, f ($"t.txt") = None -> repeatable ex_env [] default_tol f (ex_test [])).
Proof.
  split; [vm_compute; reflexivity|]. split; [repeat constructor|]. split; [|split; [|split]].
  - split; [reflexivity|]. intros a b E. apply (f_equal (fun l => existsb (fun c => eqc c "-") l)) in E. rewrite !existsb_app in E. cbn in E. rewrite orb_true_r in E. discriminate.
  - split; [reflexivity|]. intros a b E. apply (f_equal (fun l => existsb (fun c => eqc c "-") l)) in E. rewrite !existsb_app in E. cbn in E. rewrite orb_true_r in E. discriminate.
  - cbn [ex_test leaves_alone]. intros _ _. split; [right; discriminate|]. intros _. exact I.
  - intros f Hf. cbn [ex_test repeatable]. split; [reflexivity|]. split; [exact I|]. split; [reflexivity|]. split.
    + intros _. right. split; [split; reflexivity|discriminate].
    + split; [reflexivity|]. split; [|exact I]. exists ($"bytes").
      assert (W : write_file ex_env f ($"t.txt") ($"bytes") = upd f ($"t.txt") (Some (FFile true true ($"bytes")))).
      { unfold write_file. assert (S : slot ex_env ($"t.txt") = Some ($"t.txt")) by reflexivity. rewrite S, Hf. reflexivity. }
      rewrite W. split; reflexivity.
Qed.

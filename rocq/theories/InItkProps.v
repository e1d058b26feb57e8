(** Property C91: tests on the ITK driver that read from GetInStream. *)
From Coq Require Import Floats.SpecFloat.
From Verif Require Import Base Str Dec PathModel PathFacts MeasModel MeasFacts DiffModel VisitModel XmlModel ReadModel ReadFacts ReadBack RegModel ArgFacts ArgProps RegSpec RegFacts RegStart RegMain RegProps RegProps2 LineSpec LineProps ReportSpec ImgModel ItkModel ItkSim ItkMain ItkRunProps ApiModel ApiSpec ApiFacts ApiRun FullModel FullSpec FullFacts FullProps ReuseProps ItkErrProps ItkTellProps FullItkModel FullItkSpec FullItkFacts FullItkProps InModel InSpec InProps InItkModel InItkSpec.
Import RegModel ItkModel FullSpec FullItkModel FullItkSpec FullItkFacts InModel InSpec InProps InItkModel InItkSpec.

(** * The driver keeps the stream *)
Lemma keeps_blind {A} (m : M A) : blind m -> keeps m.
Proof. intros B s. assert (E : s = set_is s (s_is s)) by (destruct s; reflexivity). rewrite E at 1. rewrite B. reflexivity. Qed.
Lemma keeps_itk_measure ie tol c : keeps (itk_Measure ie tol c).
Proof.
  apply keeps_bind; [intros s; reflexivity|]. intros [|]; [apply keeps_blind, blind_itk_compare|]. apply keeps_bind; [apply keeps_put_meas|intros; apply keeps_ret].
Qed.
Lemma keeps_image ie tol f n : keeps (MeasurementInsightFileImage ie tol f n).
Proof.
  apply keeps_bind; [intros s; reflexivity|]. intros [|]; [apply keeps_blind, blind_itk_compare|]. apply keeps_bind; [apply keeps_put_meas|intros; apply keeps_ret].
Qed.
Lemma keeps_say t : keeps (say t). Proof. apply keeps_blind, blind_say. Qed.
Lemma i_supplied_run ie args a p q : i_supplied a p q -> forall tol count cin base s, in_use s cin base = stream_of a -> yrun ie args p tol count cin base s = xrun ie args q tol count s.
Proof.
  intros H. induction H as [a z|a x|a c k k' _ IH|a f n k k' _ IH|a m t k k' _ IH|a x w k k' _ IH|a t k k' _ IH|a t k k' _ IH|a t k k' _ IH|a t k k' _ IH|a t k k' _ IH|a t k k' _ IH|a t k k' _ IH|a t k k' _ IH|a t k k' _ IH|a w t k k' _ IH|a k k' _ IH|a l ef ff a' k q G _ IH|a n t ef ff a' k q G _ IH];
    intros tol count cin base s U; cbn [yrun xrun]; auto.
  - apply bind_keeps; [apply keeps_caught, keeps_itk_measure|]. intros s' r E. apply IH. unfold in_use in *. rewrite E. exact U.
  - apply bind_keeps; [apply keeps_caught, keeps_image|]. intros s' r E. apply IH. unfold in_use in *. rewrite E. exact U.
  - apply bind_keeps; [apply keeps_gets|]. intros s' m' E. apply bind_keeps; [apply keeps_caught, keeps_blind, blind_itk_compare|]. intros s2 r E2. apply IH. unfold in_use in *. rewrite E2, E. exact U.
  - apply bind_keeps; [apply keeps_lift|]. intros s' r E. apply IH. unfold in_use in *. rewrite E. exact U.
  - apply bind_keeps; [apply keeps_print|]. intros s' r E. apply IH. unfold in_use in *. rewrite E. exact U.
  - apply bind_keeps; [apply keeps_say|]. intros s' r E. apply IH. unfold in_use in *. rewrite E. exact U.
  - apply bind_keeps; [intros ?; reflexivity|]. intros s' r E. apply IH. unfold in_use in *. rewrite E. exact U.
  - apply bind_keeps; [intros ?; reflexivity|]. intros s' r E. apply IH. unfold in_use in *. rewrite E. exact U.
  - apply bind_keeps; [intros ?; reflexivity|]. intros s' r E. apply IH. unfold in_use in *. rewrite E. exact U.
  - apply bind_keeps; [intros ?; reflexivity|]. intros s' r E. apply IH. unfold in_use in *. rewrite E. exact U.
  - apply bind_keeps; [intros ?; reflexivity|]. intros s' r E. apply IH. unfold in_use in *. rewrite E. exact U.
  - apply bind_keeps; [intros ?; reflexivity|]. intros s' r E. apply IH. unfold in_use in *. rewrite E. exact U.
  - apply bind_keeps; [intros ?; reflexivity|]. intros s' r E. apply IH. unfold in_use in *. rewrite E. exact U.
  - apply bind_keeps; [apply keeps_look|]. intros s' r E. apply IH. unfold in_use in *. rewrite E. exact U.
  - unfold gets, mbind. cbv iota. apply getline_got in G. destruct G as (G & -> & ->). unfold in_use in U. destruct (s_is s) as [k0|] eqn:E; rewrite U, G; cbv iota; apply IH; unfold in_use; rewrite E; reflexivity.
  - unfold gets, mbind. cbv iota. apply read_got in G. destruct G as (G & -> & ->). unfold in_use in U. destruct (s_is s) as [k0|] eqn:E; rewrite U, G; cbv iota; apply IH; unfold in_use; rewrite E; reflexivity.
Qed.

(** * Runs *)
Lemma i_launch ie stdin test a0 opts rest f q a : let e := i_env ie in command_line e f opts rest ->
  (forall s, BeginMeasurement e (launched_in e f [i_baselines ie] opts) = (s, Ok tt) -> in_use s (standard_input stdin) read_to_the_end = stream_of a) -> i_supplied a (test (a0 :: rest)) q ->
  in_itk_Main ie stdin test (a0 :: flat opts ++ rest) (new_itk_test ie f) = full_itk_Main ie (fun _ => q) (a0 :: flat opts ++ rest) (new_itk_test ie f).
Proof.
  intros e Hc Hb Hs. unfold in_itk_Main, full_itk_Main. rewrite !Main_with_unfold.
  change (set_unmatched (new_itk_test ie f) (s_unmatched (new_itk_test ie f) + 1)) with (set_unmatched (fresh f [i_baselines ie]) 1). rewrite !(ItkMain.main_with_launch e _ f [i_baselines ie] a0 opts rest Hc). f_equal.
  apply bind_same. intros s [] B. apply i_supplied_run with (a := a); [exact Hs|]. apply Hb. exact B.
Qed.
(** C91.  A recording run: the test reads from the standard input, from its beginning. *)
Theorem C91_recording : forall ie f test a0 opts rest stdin q, command_line (i_env ie) f opts rest -> input_of opts = None -> i_supplied (Ahead stdin) (test (a0 :: rest)) q ->
  in_itk_Main ie stdin test (a0 :: flat opts ++ rest) (new_itk_test ie f) = full_itk_Main ie (fun _ => q) (a0 :: flat opts ++ rest) (new_itk_test ie f).
Proof.
  intros ie f test a0 opts rest stdin q Hc Hi Hs. set (e := i_env ie). apply i_launch with (a := Ahead stdin); [exact Hc| |exact Hs]. fold e. intros s B.
  assert (Hin : s_in (launched_in e f [i_baselines ie] opts) = []) by (cbn; rewrite Hi; reflexivity).
  rewrite (begin_record e (launched_in e f [i_baselines ie] opts) eq_refl eq_refl Hin) in B. destruct (opened _ _ _) as [[o f1]|]; [|discriminate]. apply pair_equal_spec in B. destruct B as [<- _].
  unfold in_use. pose proof (keeps_put (header e) (set_os (set_files (launched_in e f [i_baselines ie] opts) f1) o)) as K. cbn [put modify fst] in K. rewrite K. reflexivity.
Qed.
Print Assumptions C91_recording.
(** A comparing run: every reading fails, whatever there is on the standard input. *)
Theorem C91_comparing : forall ie f test a0 opts rest inf stdin q, command_line (i_env ie) f opts rest -> input_of opts = Some inf -> i_supplied Failing (test (a0 :: rest)) q ->
  in_itk_Main ie stdin test (a0 :: flat opts ++ rest) (new_itk_test ie f) = full_itk_Main ie (fun _ => q) (a0 :: flat opts ++ rest) (new_itk_test ie f).
Proof.
  intros ie f test a0 opts rest inf stdin q Hc Hi Hs. set (e := i_env ie). apply i_launch with (a := Failing); [exact Hc| |exact Hs]. fold e. intros s B.
  assert (Hin : s_in (launched_in e f [i_baselines ie] opts) = inf) by (cbn; rewrite Hi; reflexivity).
  pose proof (begin_compare e (launched_in e f [i_baselines ie] opts) inf eq_refl eq_refl Hin (input_of_nonempty e f opts inf (proj1 Hc) Hi)) as C.
  destruct (opened e _ _) as [[o f1]|]; [|rewrite C in B; discriminate]. cbv zeta in C. destruct (can_open _ _ _) eqn:O; [|rewrite C in B; discriminate]. rewrite C in B. clear C.
  destruct (readable_contents _ _ _ O) as (k & Hk & _). unfold read_input in B. cbn [set_is s_is] in B. rewrite Hk in B.
  unfold in_use. destruct (s_files _ k) as [[r w b|]|]; try discriminate. destruct (ReadXMLInput _ _ _); try discriminate. apply pair_equal_spec in B. destruct B as [<- _]. reflexivity.
Qed.
Print Assumptions C91_comparing.
(** every test has its readings replaced *)
Fixpoint i_supply (p : yprog) (a : instream) : xprog :=
  match p with
  | YReturn z => XReturn z
  | YRaise w => XRaise w
  | YMeasure c k => XMeasure c (fun r => i_supply (k r) a)
  | YImage f n k => XImage f n (fun r => i_supply (k r) a)
  | YCompare m t k => XCompare m t (fun r m' => i_supply (k r m') a)
  | YGenerate w r k => XGenerate w r (fun n => i_supply (k n) a)
  | YPrint v k => XPrint v (i_supply (k) a)
  | YSay v k => XSay v (i_supply (k) a)
  | YImageTolerance v k => XImageTolerance v (i_supply (k) a)
  | YSetRelativeTolerance v k => XSetRelativeTolerance v (i_supply (k) a)
  | YSetExpectedReturn v k => XSetExpectedReturn v (i_supply (k) a)
  | YSetInFileName v k => XSetInFileName v (i_supply (k) a)
  | YSetOutFileName v k => XSetOutFileName v (i_supply (k) a)
  | YSetInFileSearchPath v k => XSetInFileSearchPath v (i_supply (k) a)
  | YPrependInFileSearchPath v k => XPrependInFileSearchPath v (i_supply (k) a)
  | YWriteFile w b k => XWriteFile w b (i_supply (k) a)
  | YLook k => XLook (fun v => i_supply (k v) a)
  | YLine k => let '(l, a') := getline a in i_supply (k l (eof a') (fail a')) a'
  | YRead n k => let '(l, a') := read_chars n a in i_supply (k l (eof a') (fail a')) a'
  end.
Theorem C91_total : forall a p, exists q, i_supplied a p q.
Proof.
  intros a p. exists (i_supply p (stream_of a)). revert a.
  induction p; intros a; cbn [i_supply]; try (constructor; auto; fail).
  - destruct (got_line a) as (l & ef & ff & a' & G). eapply is_line; [exact G|]. apply getline_got in G. destruct G as (-> & -> & ->). auto.
  - destruct (got_chars n a) as (l & ef & ff & a' & G). eapply is_read; [exact G|]. apply read_got in G. destruct G as (-> & -> & ->). auto.
Qed.
Print Assumptions C91_total.
(** A comparing run does not depend on the standard input. *)
Theorem C91_blind : forall ie f test a0 opts rest inf stdin stdin', command_line (i_env ie) f opts rest -> input_of opts = Some inf ->
  in_itk_Main ie stdin test (a0 :: flat opts ++ rest) (new_itk_test ie f) = in_itk_Main ie stdin' test (a0 :: flat opts ++ rest) (new_itk_test ie f).
Proof.
  intros ie f test a0 opts rest inf stdin stdin' Hc Hi. destruct (C91_total Failing (test (a0 :: rest))) as [q Q].
  rewrite (C91_comparing ie f test a0 opts rest inf stdin q Hc Hi Q). symmetry. exact (C91_comparing ie f test a0 opts rest inf stdin' q Hc Hi Q).
Qed.
Print Assumptions C91_blind.

(** * Tests that do not read *)
Fixpoint i_not_reading (p : xprog) : yprog :=
  match p with
  | XReturn z => YReturn z
  | XRaise w => YRaise w
  | XMeasure c k => YMeasure c (fun r => i_not_reading (k r))
  | XImage f n k => YImage f n (fun r => i_not_reading (k r))
  | XCompare m t k => YCompare m t (fun r m' => i_not_reading (k r m'))
  | XGenerate w r k => YGenerate w r (fun n => i_not_reading (k n))
  | XPrint v k => YPrint v (i_not_reading (k))
  | XSay v k => YSay v (i_not_reading (k))
  | XImageTolerance v k => YImageTolerance v (i_not_reading (k))
  | XSetRelativeTolerance v k => YSetRelativeTolerance v (i_not_reading (k))
  | XSetExpectedReturn v k => YSetExpectedReturn v (i_not_reading (k))
  | XSetInFileName v k => YSetInFileName v (i_not_reading (k))
  | XSetOutFileName v k => YSetOutFileName v (i_not_reading (k))
  | XSetInFileSearchPath v k => YSetInFileSearchPath v (i_not_reading (k))
  | XPrependInFileSearchPath v k => YPrependInFileSearchPath v (i_not_reading (k))
  | XWriteFile w b k => YWriteFile w b (i_not_reading (k))
  | XLook k => YLook (fun v => i_not_reading (k v))
  end.
Theorem C91_generalises : forall ie stdin test argv s, in_itk_Main ie stdin (fun args => i_not_reading (test args)) argv s = full_itk_Main ie test argv s.
Proof.
  intros ie stdin test argv s.
  assert (G : forall p tol count cin base s, yrun ie argv (i_not_reading p) tol count cin base s = xrun ie argv p tol count s).
  { clear. induction p; intros tol0 count cin base s; cbn [i_not_reading yrun xrun]; auto; repeat (apply bind_same; intros ? ? _); auto. }
  unfold in_itk_Main, full_itk_Main. rewrite !Main_with_unfold. f_equal. unfold main_body_with. apply bind_same. intros s1 [argc l] _. apply bind_same. intros s2 [] _. apply G.
Qed.
Print Assumptions C91_generalises.

(** * Without images as on the plain driver *)
(** a test of the plain driver, run on the ITK driver *)
Fixpoint i_reading (p : rprog) : yprog :=
  match p with
  | RReturn z => YReturn z
  | RRaise x => YRaise x
  | RMeasure c k => YMeasure c (fun r => i_reading (k r))
  | RCompare m t k => YCompare m t (fun r m' => i_reading (k r m'))
  | RPrint t k => YPrint t (i_reading k)
  | RSetRelativeTolerance t k => YSetRelativeTolerance t (i_reading k)
  | RSetExpectedReturn z k => YSetExpectedReturn z (i_reading k)
  | RSetInFileName n k => YSetInFileName n (i_reading k)
  | RSetOutFileName n k => YSetOutFileName n (i_reading k)
  | RSetInFileSearchPath l k => YSetInFileSearchPath l (i_reading k)
  | RPrependInFileSearchPath d k => YPrependInFileSearchPath d (i_reading k)
  | RWriteFile p b k => YWriteFile p b (i_reading k)
  | RLook k => YLook (fun v => i_reading (k v))
  | RLine k => YLine (fun l ef ff => i_reading (k l ef ff))
  | RRead n k => YRead n (fun t ef ff => i_reading (k t ef ff))
  end.
Lemma same_readings : forall a p q, supplied a p q -> i_supplied a (i_reading p) (on_itk q).
Proof. intros a p q H. induction H; cbn [i_reading on_itk]; try (constructor; auto; fail); [eapply is_line|eapply is_read]; eauto. Qed.
Theorem C91_as_plain : forall ie f test a0 opts rest stdin q, command_line (i_env ie) f opts rest ->
  supplied (match input_of opts with None => Ahead stdin | Some _ => Failing end) (test (a0 :: rest)) q -> no_images q ->
  in_itk_Main ie stdin (fun args => i_reading (test args)) (a0 :: flat opts ++ rest) (new_itk_test ie f) = full_Main (i_env ie) (fun _ => q) (a0 :: flat opts ++ rest) (new_itk_test ie f).
Proof.
  intros ie f test a0 opts rest stdin q Hc Hs Hn. rewrite <- (C87_same_without_images ie (fun _ => q) _ _ (fun _ => Hn)). pose proof (same_readings _ _ _ Hs) as H.
  destruct (input_of opts) as [inf|] eqn:Hi.
  - exact (C91_comparing ie f (fun args => i_reading (test args)) a0 opts rest inf stdin _ Hc Hi H).
  - exact (C91_recording ie f (fun args => i_reading (test args)) a0 opts rest stdin _ Hc Hi H).
Qed.
Print Assumptions C91_as_plain.

(** * Cases *)
(** the name of the image to measure is read *)
Definition named_image (_ : list str) : yprog := YLine (fun l _ _ => YImage (match l with Some n => n | None => $"nothing" end) ($"one") (fun r => match r with inl z => YReturn 0 | inr x => YRaise x end)).
Definition image_named (n : str) : xprog := XImage n ($"one") (fun r => match r with inl z => XReturn 0 | inr x => XRaise x end).
Local Notation image_name := ($"same/x.mha" ++ [nl]).
Lemma named_supplied a n : (exists l ef ff a', line_got a l ef ff a' /\ n = match l with Some n => n | None => $"nothing" end) -> i_supplied a (named_image []) (image_named n).
Proof. intros (l & ef & ff & a' & G & ->). eapply is_line; [exact G|]. constructor. intros [z|x]; constructor. Qed.
Lemma named_recording : i_supplied (Ahead image_name) (named_image []) (image_named ($"same/x.mha")).
Proof. apply named_supplied. do 4 eexists. split; [apply (lg_line ($"same/x.mha") []); cbn; intuition discriminate|reflexivity]. Qed.
Lemma named_comparing : i_supplied Failing (named_image []) (image_named ($"nothing")).
Proof. apply named_supplied. do 4 eexists. split; [apply lg_failing|reflexivity]. Qed.
(** A test that measures an image whose name it reads passes with a baseline if it is told the name otherwise, and fails when it reads the name. *)
Theorem C91_image_named_on_input_refuted : exists ie f stdin n,
  i_supplied (Ahead stdin) (named_image []) (image_named n) /\
  snd (full_itk_Main ie (fun _ => image_named n) [$"prog"; $"-I"; $"b.xml"] (new_itk_test ie f)) = Ok 0%Z /\
  snd (in_itk_Main ie stdin named_image [$"prog"; $"-O"; $"r.xml"] (new_itk_test ie f)) = Ok 0%Z /\
  snd (in_itk_Main ie stdin named_image [$"prog"; $"-I"; $"b.xml"] (new_itk_test ie f)) = Ok (-1)%Z.
Proof. exists ex_itk, ex_image_files, image_name, ($"same/x.mha"). split; [exact named_recording|]. split; [|split]; vm_compute; reflexivity. Qed.
Print Assumptions C91_image_named_on_input_refuted.
Example C91_recording_met := C91_recording ex_itk ex_image_files named_image ($"prog") [($"-O", $"r.xml")] [] image_name (image_named ($"same/x.mha"))
  ltac:(split; [|exact Logic.I]; constructor; [|constructor]; split; [cbn; auto|]; split; intros E; discriminate E) eq_refl named_recording.
Example C91_comparing_met := C91_comparing ex_itk ex_image_files named_image ($"prog") c84_opts [] ($"b.xml") image_name (image_named ($"nothing")) (c84_line [] Logic.I) eq_refl named_comparing.
Example C91_as_plain_met := C91_as_plain ex_itk ex_image_files read_twice ($"prog") c84_opts [] image_name (three ($"nothing") [] ($"nothing")) (c84_line [] Logic.I) read_twice_comparing
  ltac:(cbn; repeat split; intros; repeat split; exact Logic.I).

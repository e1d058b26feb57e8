(** Property C89: tests that read from GetInStream. *)
From Coq Require Import Floats.SpecFloat.
From Verif Require Import Base Str Dec PathModel PathFacts MeasModel MeasFacts DiffModel VisitModel XmlModel ReadModel ReadFacts ReadBack RegModel ArgFacts ArgProps RegSpec RegFacts RegStart RegMain RegProps RegProps2 LineSpec ItkModel ItkSim ApiModel ApiSpec ApiFacts ApiRun FullModel FullSpec FullFacts FullProps InModel InSpec.
Import RegModel ItkSim FullModel InModel InSpec.

(** * The streams *)
Definition stream_of (a : ahead) : instream := match a with Ahead t => Is t false false | Ended => Is [] true false | Failing => Is [] true true end.
Lemma cut_line_spec s : match cut_line s with (l, Some rest) => s = l ++ nl :: rest /\ ~ In nl l | (l, None) => s = l /\ ~ In nl l end.
Proof.
  induction s as [|c s IH]; cbn [cut_line]; [split; [reflexivity|intros []]|]. destruct (Ascii.eqb_spec c nl) as [->|N]; [split; [reflexivity|intros []]|].
  destruct (cut_line s) as [l [rest|]]; destruct IH as [-> H]; (split; [reflexivity|]); intros [X|X]; congruence || contradiction.
Qed.
Lemma cut_line_at l rest : ~ In nl l -> cut_line (l ++ nl :: rest) = (l, Some rest).
Proof.
  induction l as [|c l IH]; intros H; cbn [app cut_line]; [reflexivity|]. destruct (Ascii.eqb_spec c nl) as [->|N]; [exfalso; apply H; left; reflexivity|].
  rewrite IH; [reflexivity|]. intros X. apply H. right. exact X.
Qed.
Lemma cut_line_none l : ~ In nl l -> cut_line l = (l, None).
Proof.
  induction l as [|c l IH]; intros H; cbn [cut_line]; [reflexivity|]. destruct (Ascii.eqb_spec c nl) as [->|N]; [exfalso; apply H; left; reflexivity|].
  rewrite IH; [reflexivity|]. intros X. apply H. right. exact X.
Qed.
Lemma getline_got a l ef ff a' : line_got a l ef ff a' <-> getline (stream_of a) = (l, stream_of a') /\ ef = eof (stream_of a') /\ ff = fail (stream_of a').
Proof.
  split.
  - intros [l0 rest H|l0 H N| | |]; cbn [stream_of]; unfold getline, good; cbn [eof fail left negb andb]; auto; [rewrite cut_line_at by exact H; auto|].
    rewrite cut_line_none by exact H. destruct l0; [contradiction|]. auto.
  - intros (H & -> & ->). unfold getline, good in H. destruct a as [t| |]; cbn [stream_of eof fail left negb andb] in H.
    + pose proof (cut_line_spec t) as C. destruct (cut_line t) as [l0 [rest|]]; destruct C as [-> C]; apply pair_equal_spec in H; destruct H as [<- H].
      * destruct a' as [t'| |]; cbn [stream_of] in H; try discriminate. injection H as <-. constructor. exact C.
      * destruct l0 as [|c l0]; destruct a' as [t'| |]; cbn [stream_of] in H; try discriminate; constructor; [exact C|discriminate].
    + apply pair_equal_spec in H. destruct H as [<- H]. destruct a' as [t'| |]; cbn [stream_of] in H; try discriminate. constructor.
    + apply pair_equal_spec in H. destruct H as [<- H]. destruct a' as [t'| |]; cbn [stream_of] in H; try discriminate. constructor.
Qed.
Lemma read_got n a t ef ff a' : chars_got n a t ef ff a' -> read_chars n (stream_of a) = (t, stream_of a') /\ ef = eof (stream_of a') /\ ff = fail (stream_of a').
Proof.
  intros [t0 rest H|t0 H| |]; cbn [stream_of]; unfold read_chars, good; cbn [eof fail left negb andb]; auto.
  - rewrite app_length. replace (length t0 + length rest <? n) with false by (symmetry; apply Nat.ltb_ge; lia).
    subst n. rewrite firstn_app, firstn_all, Nat.sub_diag, skipn_app, skipn_all, Nat.sub_diag. cbn [firstn skipn app]. rewrite app_nil_r. auto.
  - replace (length t0 <? n) with true by (symmetry; apply Nat.ltb_lt; exact H). auto.
Qed.

(** * The driver keeps the stream *)
Definition keeps {A} (m : M A) : Prop := forall s, s_is (fst (m s)) = s_is s.
Lemma keeps_bind {A B} (m : M A) (k : A -> M B) : keeps m -> (forall a, keeps (k a)) -> keeps (mbind m k).
Proof.
  intros Hm Hk s. unfold mbind. specialize (Hm s). destruct (m s) as [s' [a|x| | |]]; cbn [fst] in Hm |- *; auto. rewrite Hk. exact Hm.
Qed.
Lemma keeps_ret {A} (a : A) : keeps (mret a). Proof. intros s. reflexivity. Qed.
Lemma keeps_lift {A} (r : res A) : keeps (mlift r). Proof. intros s. reflexivity. Qed.
Lemma keeps_gets {A} (f : rst -> A) : keeps (gets f). Proof. intros s. reflexivity. Qed.
Lemma keeps_put t : keeps (put t).
Proof. intros s. unfold put, modify, put_text. cbn [fst]. destruct (s_os s) as [k|]; [|reflexivity]. destruct (s_files s k) as [[]|]; reflexivity. Qed.
Lemma keeps_put_meas m : keeps (put_meas m).
Proof. apply keeps_bind; [apply keeps_lift|intros; apply keeps_put]. Qed.
Lemma keeps_unmatched m : keeps (UnmatchedMeasurement m).
Proof. apply keeps_bind; [intros s; reflexivity|intros; apply keeps_put_meas]. Qed.
Lemma keeps_compare e m t : keeps (CompareMeasurement e m t).
Proof.
  apply keeps_bind; [apply keeps_gets|]. intros [|b l].
  - apply keeps_bind; [apply keeps_unmatched|intros; apply keeps_ret].
  - apply keeps_bind; [intros s; reflexivity|]. intros []. destruct (_ && _).
    + apply keeps_bind; [intros s; reflexivity|]. intros b'. apply keeps_bind; [apply keeps_gets|]. intros [[b2 m2] v]. apply keeps_bind; [apply keeps_lift|]. intros [|]; [apply keeps_ret|].
      apply keeps_bind; [|intros; apply keeps_ret]. apply keeps_bind; [intros s; reflexivity|]. intros []. apply keeps_bind; [apply keeps_lift|intros; apply keeps_put].
    + apply keeps_bind; [apply keeps_unmatched|intros; apply keeps_ret].
Qed.
Lemma keeps_measure e c : keeps (Measure e c).
Proof.
  apply keeps_bind; [intros s; reflexivity|]. intros [|]; [apply keeps_compare|]. apply keeps_bind; [apply keeps_put_meas|intros; apply keeps_ret].
Qed.
Lemma keeps_caught {A} (m : M A) : keeps m -> keeps (caught m).
Proof. intros H s. unfold caught. specialize (H s). destruct (m s) as [s' [a|x| | |]]; exact H. Qed.
Lemma keeps_print t : keeps (print_out t).
Proof. destruct t; [apply keeps_ret|apply keeps_put]. Qed.
Lemma keeps_look e : keeps (look_at e).
Proof. unfold look_at. intros s. reflexivity. Qed.

(** the stream in use *)
Definition in_use (s : rst) (cin base : instream) : instream := match s_is s with Some _ => base | None => cin end.
Lemma bind_same {A B} (m : M A) (k k' : A -> M B) s : (forall s' a, m s = (s', Ok a) -> k a s' = k' a s') -> mbind m k s = mbind m k' s.
Proof. intros H. unfold mbind. destruct (m s) as [s' [a|x| | |]]; auto. Qed.
Lemma bind_keeps {A B} (m : M A) (k k' : A -> M B) s : keeps m -> (forall s' a, s_is s' = s_is s -> k a s' = k' a s') -> mbind m k s = mbind m k' s.
Proof. intros K H. apply bind_same. intros s' a E. apply H. specialize (K s). rewrite E in K. exact K. Qed.
Lemma supplied_run e a p q : supplied a p q -> forall cin base s, in_use s cin base = stream_of a -> rrun e p cin base s = frun e q s.
Proof.
  intros H. induction H as [a z|a x|a c k k' _ IH|a m t k k' _ IH|a t k k' _ IH|a t k k' _ IH|a t k k' _ IH|a t k k' _ IH|a t k k' _ IH|a t k k' _ IH|a t k k' _ IH|a w t k k' _ IH|a k k' _ IH|a l ef ff a' k q G _ IH|a n t ef ff a' k q G _ IH];
    intros cin base s U; cbn [rrun frun]; auto.
  - apply bind_keeps; [apply keeps_caught, keeps_measure|]. intros s' r E. apply IH. unfold in_use in *. rewrite E. exact U.
  - apply bind_keeps; [apply keeps_gets|]. intros s' m' E. apply bind_keeps; [apply keeps_caught, keeps_compare|]. intros s2 r E2. apply IH. unfold in_use in *. rewrite E2, E. exact U.
  - apply bind_keeps; [apply keeps_print|]. intros s' r E. apply IH. unfold in_use in *. rewrite E. exact U.
  - apply bind_keeps; [intros ?; reflexivity|]. intros s' r E. apply IH. unfold in_use in *. rewrite E. exact U.
  - apply bind_keeps; [intros ?; reflexivity|]. intros s' r E. apply IH. unfold in_use in *. rewrite E. exact U.
  - apply bind_keeps; [intros ?; reflexivity|]. intros s' r E. apply IH. unfold in_use in *. rewrite E. exact U.
  - apply bind_keeps; [intros ?; reflexivity|]. intros s' r E. apply IH. unfold in_use in *. rewrite E. exact U.
  - apply bind_keeps; [intros ?; reflexivity|]. intros s' r E. apply IH. unfold in_use in *. rewrite E. exact U.
  - apply bind_keeps; [intros ?; reflexivity|]. intros s' r E. apply IH. unfold in_use in *. rewrite E. exact U.
  - apply bind_keeps; [intros ?; reflexivity|]. intros s' r E. apply IH. unfold in_use in *. rewrite E. exact U.
  - apply bind_keeps; [apply keeps_look|]. intros s' r E. apply IH. unfold in_use in *. rewrite E. exact U.
  - unfold gets, mbind. cbv iota. apply getline_got in G. destruct G as (G & -> & ->). unfold in_use in U. destruct (s_is s) as [k0|] eqn:E; rewrite U, G; cbv iota; apply IH; unfold in_use; rewrite E; reflexivity.
  - unfold gets, mbind. cbv iota. apply read_got in G. destruct G as (G & -> & ->). unfold in_use in U. destruct (s_is s) as [k0|] eqn:E; rewrite U, G; cbv iota; apply IH; unfold in_use; rewrite E; reflexivity.
Qed.

(** * Runs *)
Lemma in_launch e stdin test a0 opts rest f q a : command_line e f opts rest ->
  (forall s, BeginMeasurement e (launched e f opts) = (s, Ok tt) -> in_use s (standard_input stdin) read_to_the_end = stream_of a) -> supplied a (test (a0 :: rest)) q ->
  in_Main e stdin test (a0 :: flat opts ++ rest) (new_test f) = full_Main e (fun _ => q) (a0 :: flat opts ++ rest) (new_test f).
Proof.
  intros Hc Hb Hs. unfold in_Main, full_Main. rewrite !Main_with_unfold. change (s_unmatched (new_test f) + 1)%Z with 1%Z. rewrite !(main_with_launch e f _ a0 opts rest Hc). f_equal.
  apply bind_same. intros s [] B. apply supplied_run with (a := a); [exact Hs|]. apply Hb. exact B.
Qed.
(** C89.  A recording run: the test reads from the standard input, from its beginning. *)
Theorem C89_recording : forall e f test a0 opts rest stdin q, command_line e f opts rest -> input_of opts = None -> supplied (Ahead stdin) (test (a0 :: rest)) q ->
  in_Main e stdin test (a0 :: flat opts ++ rest) (new_test f) = full_Main e (fun _ => q) (a0 :: flat opts ++ rest) (new_test f).
Proof.
  intros e f test a0 opts rest stdin q Hc Hi Hs. apply in_launch with (a := Ahead stdin); [exact Hc| |exact Hs]. intros s B.
  rewrite begin_record in B; [|reflexivity|reflexivity|cbn; rewrite Hi; reflexivity]. destruct (opened _ _ _) as [[o f1]|]; [|discriminate]. apply pair_equal_spec in B. destruct B as [<- _].
  unfold in_use. pose proof (keeps_put (header e) (set_os (set_files (launched e f opts) f1) o)) as K. cbn [put modify fst] in K. rewrite K. reflexivity.
Qed.
Print Assumptions C89_recording.
(** A comparing run: every reading fails, whatever there is on the standard input. *)
Theorem C89_comparing : forall e f test a0 opts rest inf stdin q, command_line e f opts rest -> input_of opts = Some inf -> supplied Failing (test (a0 :: rest)) q ->
  in_Main e stdin test (a0 :: flat opts ++ rest) (new_test f) = full_Main e (fun _ => q) (a0 :: flat opts ++ rest) (new_test f).
Proof.
  intros e f test a0 opts rest inf stdin q Hc Hi Hs. apply in_launch with (a := Failing); [exact Hc| |exact Hs]. intros s B.
  assert (Hin : s_in (launched e f opts) = inf) by (cbn; rewrite Hi; reflexivity).
  pose proof (begin_compare e (launched e f opts) inf eq_refl eq_refl Hin (input_of_nonempty e f opts inf (proj1 Hc) Hi)) as C.
  destruct (opened e _ _) as [[o f1]|]; [|rewrite C in B; discriminate]. cbv zeta in C. destruct (can_open _ _ _) eqn:O; [|rewrite C in B; discriminate]. rewrite C in B. clear C.
  destruct (readable_contents _ _ _ O) as (k & Hk & _). unfold read_input in B. cbn [set_is s_is] in B. rewrite Hk in B.
  unfold in_use. destruct (s_files _ k) as [[r w b|]|]; try discriminate. destruct (ReadXMLInput _ _ _); try discriminate. apply pair_equal_spec in B. destruct B as [<- _]. reflexivity.
Qed.
Print Assumptions C89_comparing.
(** every test has its readings replaced *)
Fixpoint supply (p : rprog) (a : instream) : fprog :=
  match p with
  | RReturn z => FReturn z
  | RRaise x => FRaise x
  | RMeasure c k => FMeasure c (fun r => supply (k r) a)
  | RCompare m t k => FCompare m t (fun r m' => supply (k r m') a)
  | RPrint t k => FPrint t (supply k a)
  | RSetRelativeTolerance t k => FSetRelativeTolerance t (supply k a)
  | RSetExpectedReturn z k => FSetExpectedReturn z (supply k a)
  | RSetInFileName n k => FSetInFileName n (supply k a)
  | RSetOutFileName n k => FSetOutFileName n (supply k a)
  | RSetInFileSearchPath l k => FSetInFileSearchPath l (supply k a)
  | RPrependInFileSearchPath d k => FPrependInFileSearchPath d (supply k a)
  | RWriteFile p b k => FWriteFile p b (supply k a)
  | RLook k => FLook (fun v => supply (k v) a)
  | RLine k => let '(l, a') := getline a in supply (k l (eof a') (fail a')) a'
  | RRead n k => let '(l, a') := read_chars n a in supply (k l (eof a') (fail a')) a'
  end.
Lemma got_line a : exists l ef ff a', line_got a l ef ff a'.
Proof.
  destruct a as [t| |]; [|do 4 eexists; constructor..]. pose proof (cut_line_spec t) as C. destruct (cut_line t) as [l [rest|]]; destruct C as [-> C]; [do 4 eexists; constructor; exact C|].
  destruct l; [do 4 eexists; apply lg_end|]. do 4 eexists. apply lg_unterminated; [exact C|discriminate].
Qed.
Lemma got_chars n a : exists t ef ff a', chars_got n a t ef ff a'.
Proof.
  destruct a as [t| |]; [|do 4 eexists; constructor..]. destruct (Nat.ltb_spec (length t) n) as [L|L]; [do 4 eexists; apply cg_short; exact L|].
  rewrite <- (firstn_skipn n t). do 4 eexists. apply cg_enough. apply firstn_length_le. exact L.
Qed.
Theorem C89_total : forall a p, exists q, supplied a p q.
Proof.
  intros a p. exists (supply p (stream_of a)). revert a.
  induction p as [z|x|c k IH|m t k IH|t k IH|t k IH|t k IH|t k IH|t k IH|t k IH|t k IH|w t k IH|k IH|k IH|n k IH]; intros a; cbn [supply]; try (constructor; auto; fail).
  - destruct (got_line a) as (l & ef & ff & a' & G). eapply su_line; [exact G|]. apply getline_got in G. destruct G as (-> & -> & ->). apply IH.
  - destruct (got_chars n a) as (l & ef & ff & a' & G). eapply su_read; [exact G|]. apply read_got in G. destruct G as (-> & -> & ->). apply IH.
Qed.
Print Assumptions C89_total.
(** A comparing run does not depend on the standard input. *)
Theorem C89_blind : forall e f test a0 opts rest inf stdin stdin', command_line e f opts rest -> input_of opts = Some inf ->
  in_Main e stdin test (a0 :: flat opts ++ rest) (new_test f) = in_Main e stdin' test (a0 :: flat opts ++ rest) (new_test f).
Proof.
  intros e f test a0 opts rest inf stdin stdin' Hc Hi. destruct (C89_total Failing (test (a0 :: rest))) as [q Q].
  rewrite (C89_comparing e f test a0 opts rest inf stdin q Hc Hi Q). symmetry. exact (C89_comparing e f test a0 opts rest inf stdin' q Hc Hi Q).
Qed.
Print Assumptions C89_blind.

(** * What is read *)
Theorem C89_lines : forall text ls, lines_got (Ahead text) ls <-> lines_of text ls.
Proof.
  assert (E : forall a ls, lines_got a ls -> a = Ended \/ a = Failing -> ls = []).
  { intros a ls [a0 l ef a' ls' G _|a0 x ef a' G] [-> | ->]; auto; inversion G. }
  intros text ls. split.
  - intros H. remember (Ahead text) as a eqn:Ea. revert text Ea. induction H as [a l ef a' ls G H IH|a x ef a' G]; intros text ->.
    + inversion G as [l0 rest N|l0 N D| | |]; subst.
      * destruct (IH rest eq_refl) as [F C]. split; [intros l' [<-|I]; auto|]. destruct C as [->|(ls' & l' & -> & D & ->)].
        -- left. cbn [map concat]. rewrite <- app_assoc. reflexivity.
        -- right. exists (l :: ls'), l'. split; [reflexivity|]. split; [exact D|]. cbn [map concat]. rewrite <- !app_assoc. reflexivity.
      * rewrite (E _ _ H (or_introl eq_refl)). split; [intros l' [<-|[]]; exact N|]. right. exists [], l. auto.
    + inversion G; subst. split; [intros l []|]. left. reflexivity.
  - revert text. induction ls as [|l ls IH]; intros text [F C].
    + destruct C as [->|(ls' & l & X & _)]; [|symmetry in X; apply app_eq_nil in X; destruct X as [_ X]; discriminate]. eapply ll_done. apply lg_end.
    + destruct C as [->|(ls' & l' & X & D & ->)].
      * cbn [map concat]. rewrite <- app_assoc. eapply ll_more; [apply lg_line; apply F; left; reflexivity|]. apply IH. split; [intros; apply F; right; assumption|]. left. reflexivity.
      * destruct ls' as [|l0 ls']; cbn [app] in X; injection X as -> X.
        -- subst ls. cbn [map concat app]. eapply ll_more; [apply lg_unterminated; [apply F; left; reflexivity|exact D]|]. eapply ll_done. apply lg_after.
        -- cbn [map concat]. rewrite <- !app_assoc. eapply ll_more; [apply lg_line; apply F; left; reflexivity|]. apply IH. split; [intros; apply F; right; assumption|]. right. exists ls', l'. auto.
Qed.
Print Assumptions C89_lines.
Theorem C89_chars : forall text ns ts, chars_got_each (Ahead text) ns ts -> concat ts = firstn (list_sum ns) text.
Proof.
  assert (E : forall a ns ts, chars_got_each a ns ts -> a = Failing -> concat ts = []).
  { intros a ns ts H. induction H as [a|a n t ef ff a' ns ts G H IH]; intros ->; [reflexivity|]. inversion G; subst. cbn [concat app]. auto. }
  intros text ns ts H. remember (Ahead text) as a eqn:Ea. revert text Ea. induction H as [a|a n t ef ff a' ns ts G H IH]; intros text ->; [reflexivity|].
  inversion G as [t0 rest L|t0 L| |]; subst; cbn [concat list_sum fold_right].
  - rewrite (IH rest eq_refl). change (fold_right Nat.add 0 ns) with (list_sum ns). rewrite firstn_app. replace (length t + list_sum ns - length t) with (list_sum ns) by lia. rewrite (@firstn_all2 _ (length t + list_sum ns) t) by lia. reflexivity.
  - rewrite (E _ _ _ H eq_refl), app_nil_r. symmetry. apply firstn_all2. lia.
Qed.
Print Assumptions C89_chars.
(** in a comparing run: nothing *)
Theorem C89_comparing_reads_nothing : (forall ls, lines_got Failing ls <-> ls = []) /\ (forall l ef ff a, line_got Failing l ef ff a -> l = None /\ ff = true /\ a = Failing) /\
  forall n t ef ff a, chars_got n Failing t ef ff a -> t = [] /\ ff = true /\ a = Failing.
Proof.
  split; [|split].
  - intros ls. split; [intros H; inversion H as [a l ef a' ls' G H'|a x ef a' G]; subst; [inversion G|reflexivity]|]. intros ->. eapply ll_done. apply lg_failing.
  - intros l ef ff a H. inversion H; subst. auto.
  - intros n t ef ff a H. inversion H; subst. auto.
Qed.
Print Assumptions C89_comparing_reads_nothing.

(** * Tests that do not read *)
Fixpoint not_reading (p : fprog) : rprog :=
  match p with
  | FReturn z => RReturn z
  | FRaise x => RRaise x
  | FMeasure c k => RMeasure c (fun r => not_reading (k r))
  | FCompare m t k => RCompare m t (fun r m' => not_reading (k r m'))
  | FPrint t k => RPrint t (not_reading k)
  | FSetRelativeTolerance t k => RSetRelativeTolerance t (not_reading k)
  | FSetExpectedReturn z k => RSetExpectedReturn z (not_reading k)
  | FSetInFileName n k => RSetInFileName n (not_reading k)
  | FSetOutFileName n k => RSetOutFileName n (not_reading k)
  | FSetInFileSearchPath l k => RSetInFileSearchPath l (not_reading k)
  | FPrependInFileSearchPath d k => RPrependInFileSearchPath d (not_reading k)
  | FWriteFile p b k => RWriteFile p b (not_reading k)
  | FLook k => RLook (fun v => not_reading (k v))
  end.
Theorem C89_generalises : forall e stdin test argv s, in_Main e stdin (fun args => not_reading (test args)) argv s = full_Main e test argv s.
Proof.
  intros e stdin test argv s.
  assert (G : forall p cin base s, rrun e (not_reading p) cin base s = frun e p s).
  { clear. induction p as [z|x|c k IH|m t k IH|t k IH|t k IH|t k IH|t k IH|t k IH|t k IH|t k IH|w t k IH|k IH]; intros cin base s; cbn [not_reading rrun frun]; auto; repeat (apply bind_same; intros ? ? _); apply IH. }
  unfold in_Main, full_Main. rewrite !Main_with_unfold. f_equal. unfold main_body_with. apply bind_same. intros s1 [argc l] _. apply bind_same. intros s2 [] _. apply G.
Qed.
Print Assumptions C89_generalises.

(** * A test that measures what it reads never agrees with its own recording *)
Definition reads_one (_ : list str) : rprog := RLine (fun l _ _ => RMeasure (TextString (match l with Some l => l | None => $"nothing" end) ($"x")) (fun _ => RReturn 0%Z)).
Theorem C89_record_then_compare_refuted : exists e f stdin test s1,
  in_Main e stdin test [$"prog"; $"-O"; $"b.xml"] (new_test f) = (s1, Ok 0%Z) /\ snd (in_Main e stdin test [$"prog"; $"-I"; $"b.xml"] (new_test (s_files s1))) = Ok 1%Z.
Proof.
  exists ex_env, (fun _ => None), ($"hello" ++ [nl]), reads_one, (fst (in_Main ex_env ($"hello" ++ [nl]) reads_one [$"prog"; $"-O"; $"b.xml"] (new_test (fun _ => None)))).
  split; [|vm_compute; reflexivity]. destruct (in_Main ex_env _ reads_one _ _) as [s1 r] eqn:E. cbn [fst]. f_equal. change r with (snd (s1, r)). rewrite <- E. vm_compute. reflexivity.
Qed.
Print Assumptions C89_record_then_compare_refuted.

(** * Cases *)
Definition read_twice (_ : list str) : rprog := RLine (fun l1 e1 f1 => RRead 3 (fun t e2 f2 => RLine (fun l2 e3 f3 =>
  RMeasure (TextString (match l1 with Some l => l | None => $"nothing" end) ($"first")) (fun _ => RMeasure (TextString t ($"then")) (fun _ => RMeasure (TextString (match l2 with Some l => l | None => $"nothing" end) ($"last")) (fun _ => RReturn 0%Z)))))).
Definition three (a b c : str) : fprog := FMeasure (TextString a ($"first")) (fun _ => FMeasure (TextString b ($"then")) (fun _ => FMeasure (TextString c ($"last")) (fun _ => FReturn 0%Z))).
Local Notation two_lines := ($"one" ++ [nl] ++ $"abcde").
Lemma read_twice_recording : supplied (Ahead two_lines) (read_twice []) (three ($"one") ($"abc") ($"de")).
Proof.
  eapply su_line; [apply (lg_line ($"one") ($"abcde")); cbn; intuition discriminate|]. eapply su_read; [apply (cg_enough 3 ($"abc") ($"de")); reflexivity|].
  eapply su_line; [apply (lg_unterminated ($"de")); [cbn; intuition discriminate|discriminate]|]. repeat (constructor; intros).
Qed.
Lemma read_twice_comparing : supplied Failing (read_twice []) (three ($"nothing") [] ($"nothing")).
Proof. eapply su_line; [apply lg_failing|]. eapply su_read; [apply cg_failing|]. eapply su_line; [apply lg_failing|]. repeat (constructor; intros). Qed.
Local Notation no_files := (fun _ : str => @None fnode).
Local Notation out_opts := [($"-O", $"b.xml")].
Lemma out_line : command_line ex_env no_files out_opts [].
Proof. split; [repeat constructor; cbn; intuition discriminate|exact Logic.I]. Qed.
Example C89_recording_met := C89_recording ex_env no_files read_twice ($"prog") out_opts [] two_lines (three ($"one") ($"abc") ($"de")) out_line eq_refl read_twice_recording.
Local Notation recorded_files := (s_files (fst (in_Main ex_env two_lines read_twice [$"prog"; $"-O"; $"b.xml"] (new_test no_files)))).
Example C89_comparing_met : in_Main ex_env two_lines read_twice [$"prog"; $"-I"; $"b.xml"] (new_test recorded_files) =
  full_Main ex_env (fun _ => three ($"nothing") [] ($"nothing")) [$"prog"; $"-I"; $"b.xml"] (new_test recorded_files).
Proof.
  apply (C89_comparing ex_env recorded_files read_twice ($"prog") [($"-I", $"b.xml")] [] ($"b.xml") two_lines _); [|reflexivity|exact read_twice_comparing].
  split; [|exact Logic.I]. repeat constructor; cbn [fst snd]; try (intros X; discriminate X); auto; vm_compute; intuition discriminate.
Qed.
Example C89_case : snd (in_Main ex_env two_lines read_twice [$"prog"; $"-O"; $"b.xml"] (new_test no_files)) = Ok 0%Z /\
  snd (in_Main ex_env two_lines read_twice [$"prog"; $"-I"; $"b.xml"] (new_test recorded_files)) = Ok 3%Z.
Proof. vm_compute. auto. Qed.
Example C89_lines_met : lines_got (Ahead two_lines) [$"one"; $"abcde"].
Proof. apply C89_lines. split; [intros l [<-|[<-|[]]]; cbn; intuition discriminate|]. right. exists [$"one"], ($"abcde"). split; [reflexivity|split; [discriminate|reflexivity]]. Qed.
Example C89_chars_met : exists ts, chars_got_each (Ahead ($"abcde")) [2; 2; 2; 2] ts /\ ts = [$"ab"; $"cd"; $"e"; []].
Proof.
  eexists. split; [|reflexivity]. eapply ce_more; [apply (cg_enough 2 ($"ab") ($"cde")); reflexivity|]. eapply ce_more; [apply (cg_enough 2 ($"cd") ($"e")); reflexivity|].
  eapply ce_more; [apply cg_short; cbn; lia|]. eapply ce_more; [apply cg_failing|]. constructor.
Qed.

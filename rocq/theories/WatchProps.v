(** C63: the text of a filter watcher. *)
From Coq Require Import Floats.SpecFloat.
From Verif Require Import Base Str Dec PathModel PathFacts MeasModel MeasFacts MeasFacts2 MeasProps XmlText XmlModel ReadModel ReadFacts ReadBack ReadProps RegModel ArgFacts ArgProps RegSpec RegFacts RegStart RegMain RegProps RegProps2 RegRound ChangeProps WatchModel.
Local Open Scope Z_scope.

(** * Specification *)
(** the text for one event of a filter of class [n] watched with comment [c] *)
Definition event_text (n c : str) (h : happening) : str :=
  match h with
  | Started => $"-------- Start " ++ n ++ $" " ++ dquote1 ++ c ++ dquote1 ++ $" "
  | Ended => [nl] ++ $"-------- End " ++ n ++ $" " ++ dquote1 ++ c ++ dquote1 ++ $" " ++ [nl]
  | Iterated => $" # "
  | Aborted => [nl] ++ $"      ABORT" ++ [nl]
  | Progressed | Destroyed => []
  end.
(** the events with a text *)
Definition visible (h : happening) : bool := match h with Progressed | Destroyed => false | _ => true end.
(** the filter iterates only after it started, less than 2^31 times, and the watcher is not destroyed before the filter's last event *)
Definition count_since_start (l : list happening) : option Z :=
  fold_left (fun n h => match h with Started => Some 0 | Iterated => match n with Some k => Some (k + 1) | None => None end | _ => n end) l None.
Definition proper (l : list happening) : Prop :=
  (forall a b, l = a ++ Iterated :: b -> exists k, count_since_start a = Some k /\ k < INT_MAX) /\
  (forall a h b, l = a ++ Destroyed :: h :: b -> False).

(** * Proofs *)
Definition count_from (n : option Z) (l : list happening) : option Z :=
  fold_left (fun n h => match h with Started => Some 0 | Iterated => match n with Some k => Some (k + 1) | None => None end | _ => n end) l n.
(** [proper] from a state: iterations so far, watcher alive *)
Definition proper_from (n : option Z) (alive : bool) (l : list happening) : Prop :=
  (forall a b, l = a ++ Iterated :: b -> exists k, count_from n a = Some k /\ k < INT_MAX) /\
  (forall a h b, l = a ++ Destroyed :: h :: b -> False) /\ (alive = false -> l = []).
Lemma proper_is l : proper l <-> proper_from None true l.
Proof. unfold proper, proper_from. split; [intros [A B]; repeat split; [exact A|exact B|discriminate]|intros (A & B & _); split; assumption]. Qed.
Definition next (n : option Z) (h : happening) : option Z :=
  match h with Started => Some 0 | Iterated => match n with Some k => Some (k + 1) | None => None end | _ => n end.
Definition step_ok (n : option Z) (alive : bool) (h : happening) : Prop :=
  alive = true /\ (h = Iterated -> exists k, n = Some k /\ k < INT_MAX).
Lemma proper_cons n alive h l : proper_from n alive (h :: l) <-> step_ok n alive h /\ proper_from (next n h) (match h with Destroyed => false | _ => true end) l.
Proof.
  split.
  - intros (A & B & C). assert (Al : alive = true) by (destruct alive; [reflexivity|discriminate (C eq_refl)]).
    split; [split; [exact Al|]|].
    + intros ->. apply (A [] l). reflexivity.
    + repeat split.
      * intros a b E. destruct (A (h :: a) b) as (k & K & L); [rewrite E; reflexivity|]. exists k. split; [exact K|exact L].
      * intros a h' b E. apply (B (h :: a) h' b). rewrite E. reflexivity.
      * intros D. destruct h; try discriminate D. destruct l as [|h' l]; [reflexivity|]. exfalso. apply (B [] h' l). reflexivity.
  - intros ((Al & S) & A & B & C). repeat split.
    + intros [|x a] b E; injection E as Eh E; [subst h; apply S; reflexivity|]. subst x. destruct (A a b E) as (k & K & L). exists k. split; assumption.
    + intros [|x a] h' b E; injection E as Eh E; [|exact (B a h' b E)]. subst h. rewrite E in C. specialize (C eq_refl). discriminate.
    + intros D. rewrite D in Al. discriminate.
Qed.
Lemma iterations_bound n : forall (k : Z), 0 <= k <= INT_MAX -> n = Some k -> (k =? INT_MAX) = negb (k <? INT_MAX).
Proof. intros k H _. destruct (Z.eqb_spec k INT_MAX), (Z.ltb_spec k INT_MAX); try reflexivity; lia. Qed.
Definition sound (n : option Z) : Prop := match n with Some k => 0 <= k <= INT_MAX | None => True end.
Lemma watch_spec l : forall w, sound (w_iterations w) ->
  (proper_from (w_iterations w) (w_alive w) l /\ exists w', watch w l = Ok w' /\ w_os w' = w_os w ++ concat (map (event_text (cstr (w_class w)) (w_comment w)) l)) \/
  (~ proper_from (w_iterations w) (w_alive w) l /\ watch w l = UB).
Proof.
  induction l as [|h l IH]; intros w Hs.
  - left. split; [repeat split|exists w; split; [reflexivity|cbn; rewrite app_nil_r; reflexivity]]; try (intros a b E; destruct a; discriminate E).
    intros a h b E. destruct a; discriminate E.
  - rewrite proper_cons. cbn [watch]. unfold happens. destruct (w_alive w) eqn:Al.
    2: { right. split; [intros [[D _] _]; discriminate D|reflexivity]. }
    assert (St : h <> Iterated -> step_ok (w_iterations w) true h) by (intros N; split; [reflexivity|intros E; contradiction]).
    assert (Go : forall w1, w_iterations w1 = next (w_iterations w) h -> w_alive w1 = (match h with Destroyed => false | _ => true end) -> sound (w_iterations w1) ->
      w_class w1 = w_class w -> w_comment w1 = w_comment w -> w_os w1 = w_os w ++ event_text (cstr (w_class w)) (w_comment w) h -> step_ok (w_iterations w) true h ->
      (step_ok (w_iterations w) true h /\ proper_from (next (w_iterations w) h) (match h with Destroyed => false | _ => true end) l) /\
        (exists w', watch w1 l = Ok w' /\ w_os w' = w_os w ++ concat (map (event_text (cstr (w_class w)) (w_comment w)) (h :: l))) \/
      ~ (step_ok (w_iterations w) true h /\ proper_from (next (w_iterations w) h) (match h with Destroyed => false | _ => true end) l) /\ watch w1 l = UB).
    { intros w1 I1 A1 S1 C1 M1 O1 S0. destruct (IH w1 S1) as [(P & w' & E & O)|(P & E)]; rewrite I1, A1 in P.
      - left. split; [split; assumption|]. exists w'. split; [exact E|]. rewrite O, O1, C1, M1. cbn [map concat]. rewrite app_assoc. reflexivity.
      - right. split; [intros [_ P']; contradiction|exact E]. }
    destruct h.
    + unfold StartFilter. cbn [bind]. apply Go; try reflexivity; [exact Al|unfold sound, INT_MAX; cbn; lia|apply St; discriminate].
    + unfold EndFilter. cbn [bind]. apply Go; try reflexivity; [exact Al|exact Hs|apply St; discriminate].
    + unfold ShowProgress. cbn [bind]. apply Go; try reflexivity; [exact Al|exact Hs|cbn [event_text]; rewrite app_nil_r; reflexivity|apply St; discriminate].
    + unfold ShowIteration. change (w_iterations (tell w ($" # "))) with (w_iterations w). destruct (w_iterations w) as [k|] eqn:K.
      * cbn [sound] in Hs. destruct (Z.eqb_spec k INT_MAX) as [->|N].
        -- right. split; [|reflexivity]. intros [[_ S] _]. destruct (S eq_refl) as (k' & E & L). injection E as <-. lia.
        -- cbn [bind]. apply Go; try reflexivity; [exact Al|cbn; lia|split; [reflexivity|]]. intros _. exists k. split; [reflexivity|lia].
      * right. split; [|reflexivity]. intros [[_ S] _]. destruct (S eq_refl) as (k' & E & L). discriminate E.
    + unfold ShowAbort. cbn [bind]. apply Go; try reflexivity; [exact Al|exact Hs|apply St; discriminate].
    + cbn [bind]. apply Go; try reflexivity; [exact Hs|cbn [event_text w_os]; rewrite app_nil_r; reflexivity|apply St; discriminate].
Qed.
(** The text is made of the texts of the events, in order.  It is defined exactly for [proper] histories. *)
Theorem C63_text : forall n c l,
  (proper l -> watched n c l = Ok (concat (map (event_text (cstr n) (cstr c)) l))) /\ (~ proper l -> watched n c l = UB).
Proof.
  intros n c l. unfold watched. destruct (watch_spec l (new_watcher n c []) I) as [(P & w' & E & O)|(P & E)]; cbn [new_watcher w_iterations w_alive] in P; rewrite <- proper_is in P.
  - split; [|contradiction]. intros _. rewrite E. cbn [bind]. rewrite O. reflexivity.
  - split; [contradiction|]. intros _. rewrite E. reflexivity.
Qed.
Print Assumptions C63_text.
Lemma visible_text n c l : concat (map (event_text n c) (filter visible l)) = concat (map (event_text n c) l).
Proof. induction l as [|h l IH]; [reflexivity|]. destruct h; cbn [filter visible map concat event_text]; rewrite IH; reflexivity. Qed.
Lemma texts_differ n c h h' r r' : visible h = true -> visible h' = true -> event_text n c h ++ r = event_text n c h' ++ r' -> h = h'.
Proof.
  intros V V' E. destruct h; try discriminate V; destruct h'; try discriminate V'; try reflexivity; exfalso; cbn [event_text] in E;
    first [discriminate E | injection E; discriminate].
Qed.
Lemma text_not_nil n c h : visible h = true -> event_text n c h <> [].
Proof. destruct h; cbn; discriminate. Qed.
Lemma texts_inj n c : forall l l', forallb visible l = true -> forallb visible l' = true ->
  concat (map (event_text n c) l) = concat (map (event_text n c) l') -> l = l'.
Proof.
  induction l as [|h l IH]; intros [|h' l'] V V' E; cbn [forallb map concat] in *; try reflexivity.
  - apply andb_true_iff in V' as [V' _]. symmetry in E. apply app_eq_nil in E as [E _]. destruct (text_not_nil n c h' V' E).
  - apply andb_true_iff in V as [V _]. apply app_eq_nil in E as [E _]. destruct (text_not_nil n c h V E).
  - apply andb_true_iff in V as [V1 V2], V' as [V1' V2']. assert (h = h') by (eapply (texts_differ n c); eassumption). subst h'.
    apply app_inv_head in E. f_equal. apply IH; assumption.
Qed.
Lemma filter_visible l : forallb visible (filter visible l) = true.
Proof. apply forallb_forall. intros h H. apply filter_In in H as [_ H]. exact H. Qed.
(** Two histories give the same text iff they have the same starts, iterations, aborts and ends in the same order, whatever the comment and the
    name of the class: progress does not matter, and no comment can hide a difference. *)
Theorem C63_text_determines_events : forall n c l l', proper l -> proper l' ->
  (watched n c l = watched n c l' <-> filter visible l = filter visible l').
Proof.
  intros n c l l' P P'. rewrite (proj1 (C63_text n c l) P), (proj1 (C63_text n c l') P').
  rewrite <- (visible_text _ _ l), <- (visible_text _ _ l'). split.
  - intros E. injection E as E. apply (texts_inj (cstr n) (cstr c)); [apply filter_visible|apply filter_visible|exact E].
  - intros ->. reflexivity.
Qed.
Print Assumptions C63_text_determines_events.
(** As a plain text measurement it can be stored if class name and comment can, and is the same measurement iff the events are. *)
Theorem C63_as_measurement : forall io n c l l' t t' name, proper l -> proper l' -> watched n c l = Ok t -> watched n c l' = Ok t' ->
  (what io (TextPlain t name) = what io (TextPlain t' name) <-> filter visible l = filter visible l') /\
  (text_safe (cstr n) -> text_safe (cstr c) -> attr_safe name -> storable (meas_of io false (TextPlain t name))).
Proof.
  intros io n c l l' t t' name P P' E E'. split.
  - rewrite <- (C63_text_determines_events n c l l' P P'), E, E'. rewrite (proj1 (proj2 (C64_what_texts io t name t' name))). split; [intros [-> _]; reflexivity|intros H; injection H as ->; auto].
  - intros Hn Hc Ha. cbn [meas_of storable]. split; [reflexivity|]. split; [exact Ha|]. split; [reflexivity|]. split; [reflexivity|].
    change (text_safe t). rewrite (proj1 (C63_text n c l) P) in E. injection E as <-. clear -Hn Hc. unfold text_safe in *.
    induction l as [|h l IH]; [reflexivity|]. cbn [map concat]. rewrite forallb_app, IH, andb_true_r.
    destruct h; cbn [event_text]; rewrite ?forallb_app, ?Hn, ?Hc; reflexivity.
Qed.
Print Assumptions C63_as_measurement.
(** Iterations counted before the filter started, and events after the watcher's end, are undefined behaviour. *)
Theorem C63_always_defined_refuted : watched ($"F") [] [Iterated] = UB /\ watched ($"F") [] [Started; Ended; Destroyed; Started] = UB /\
  watched ($"F") [] [Started; Ended; Destroyed; Progressed] = UB.
Proof. repeat split. Qed.
Print Assumptions C63_always_defined_refuted.
Example C63_case : proper [Started; Progressed; Iterated; Iterated; Ended; Destroyed] /\
  watched ($"MedianFilter") ($"first") [Started; Progressed; Iterated; Iterated; Ended; Destroyed] =
  Ok ($"-------- Start MedianFilter " ++ dquote1 ++ $"first" ++ dquote1 ++ $"  #  # " ++ [nl] ++ $"-------- End MedianFilter " ++ dquote1 ++ $"first" ++ dquote1 ++ $" " ++ [nl]).
Proof.
  assert (E : watched ($"MedianFilter") ($"first") [Started; Progressed; Iterated; Iterated; Ended; Destroyed] =
  Ok ($"-------- Start MedianFilter " ++ dquote1 ++ $"first" ++ dquote1 ++ $"  #  # " ++ [nl] ++ $"-------- End MedianFilter " ++ dquote1 ++ $"first" ++ dquote1 ++ $" " ++ [nl])) by (vm_compute; reflexivity).
  split; [|exact E]. apply proper_is.
  assert (S : forall n h, h <> Iterated -> step_ok n true h) by (intros n h N; split; [reflexivity|intros H; contradiction]).
  assert (S' : forall k, k < INT_MAX -> step_ok (Some k) true Iterated) by (intros k L; split; [reflexivity|intros _; exists k; auto]).
  rewrite !proper_cons. cbn [next]. repeat (split; [first [apply S; discriminate | apply S'; reflexivity]|]).
  split; [intros a b H; destruct a; discriminate H|split; [intros a h b H; destruct a; discriminate H|reflexivity]].
Qed.

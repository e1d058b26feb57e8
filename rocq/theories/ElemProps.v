(** C65: measurement elements written by hand: any attributes, in any order. *)
From Coq Require Permutation.
From Verif Require Import Base Str XmlText MeasModel MeasFacts XmlModel ReadModel ReadFacts ReadBack ReadProps.

(** ** Vocabulary *)
(** an element: start tag with attributes, text, end tag *)
Definition elem_text (el : str) (al : list (str * str)) (text : str) : str :=
  $"<" ++ el ++ flat_map (fun p => $" " ++ fst p ++ $"=" ++ [dq] ++ snd p ++ [dq]) al ++ $">" ++ flat_map esc1 text ++ $"</" ++ el ++ $">".
(** attributes XML allows here: names, values without special characters, no name twice *)
Definition attributes (al : list (str * str)) : Prop :=
  Forall (fun p => is_name (fst p) /\ attr_safe (snd p)) al /\ NoDup (map fst al).
Fixpoint value (k : str) (al : list (str * str)) : option str :=
  match al with [] => None | (k', v) :: al' => if eqs k' k then Some v else value k al' end.
Definition or_else (o : option str) (d : str) : str := match o with Some v => v | None => d end.
(** the class of a type: the one of this type, plain text for any other type *)
Definition class_for (t : str) (c : cls) : Prop := t = type_of c \/ (forall c', t <> type_of c') /\ c = CPlain.

(** ** Reading one element *)
Lemma value_none k al : ~ In k (map fst al) -> value k al = None.
Proof.
  induction al as [|[k' v] al IH]; [reflexivity|]. cbn [map fst value]. intros H. destruct (eqs_spec k' k) as [->|N]; [elim H; left; reflexivity|].
  apply IH. intros X. apply H. right. exact X.
Qed.
Lemma has_attr_none k al : ~ In k (map fst al) -> has_attr k al = false.
Proof.
  unfold has_attr. induction al as [|[k' v] al IH]; [reflexivity|]. cbn [map fst existsb]. intros H.
  rewrite IH by (intros X; apply H; right; exact X). rewrite orb_false_r.
  match goal with |- ?x = false => destruct x eqn:E; [|reflexivity] end. exfalso. apply H. left.
  try (apply eqs_true in E). congruence.
Qed.
Lemma attributes_fresh al : attributes al -> forall i k v, nth_error al i = Some (k, v) -> has_attr k ([] ++ firstn i al) = false.
Proof.
  intros [_ H] i k v E. cbn [app]. apply has_attr_none. intros I.
  assert (S : al = firstn i al ++ (k, v) :: skipn (S i) al).
  { rewrite <- (firstn_skipn i al) at 1. f_equal. clear - E. revert al E. induction i as [|i IH]; intros [|a al] E; cbn in E; try discriminate; [injection E as ->; reflexivity|].
    cbn [skipn]. rewrite (IH al E). reflexivity. }
  rewrite S, map_app in H. cbn [map fst] in H. apply NoDup_remove_2 in H. apply H, in_or_app. left. exact I.
Qed.
Lemma sup_attrs al : Forall (fun p => is_name (fst p) /\ attr_safe (snd p)) al -> supported_bytes (add_attrs al) = true.
Proof.
  unfold add_attrs. induction 1 as [|[k v] al [H1 H2] _ IH]; [reflexivity|]. cbn [flat_map fst snd].
  change (" "%char :: quoted k v) with ($" " ++ k ++ $"=" ++ [dq] ++ v ++ [dq]). cbn [fst snd] in H1, H2.
  rewrite !sup_app, (sup_name k H1), (sup_attr v H2). cbn [andb]. exact IH.
Qed.
Lemma read_element asserts ext ms ms' el al text : el = data_elem \/ el = file_elem -> attributes al -> text_safe text ->
  Forall storable ms -> Forall storable ms' ->
  ReadXMLInput asserts ext (document (lines_of ms ++ (elem_text el al text ++ [nl]) ++ lines_of ms')) =
    (m <-- start_measurement el al ;; Ok (map stored ms ++ match m with Some m => [mset_content m text] | None => [] end ++ map stored ms')).
Proof.
  intros He Ha Ht Hms Hms'. unfold document.
  assert (Hel : is_name el) by (destruct He as [-> | ->]; cbn; auto).
  destruct (feed_lines ($"output") [] ms 0 Hms) as [b0 F0]. fold stext in F0.
  assert (F1 : feed (PState (MText b0 false) [$"output"] true) ("<"%char :: el) = (PState (MName el) [$"output"] true, [])).
  { apply feed_open; [exact Hel|left; discriminate]. }
  destruct (feed_attrs [$"output"] true el al [] (MName el) (or_introl (conj eq_refl eq_refl)) (proj1 Ha) (attributes_fresh al Ha)) as (m' & T & F2). cbn [app] in T.
  pose proof (feed_gt [$"output"] true el al m' T) as F3.
  destruct (feed_text el [$"output"] true text 0 Ht) as [b4 F4]. fold stext in F4.
  pose proof (feed_end b4 false [$"output"] true el Hel) as F5.
  assert (F6 : feed (PState stext [$"output"] true) [nl] = (PState stext [$"output"] true, [EData [nl]])) by reflexivity.
  destruct (feed_lines ($"output") [] ms' 0 Hms') as [b7 F7]. fold stext in F7.
  assert (F8 : feed (PState (MText b7 false) [$"output"] true) ($"</output>" ++ [nl]) = (PState stext [] true, [EEnd ($"output")])) by reflexivity.
  match goal with |- ReadXMLInput _ _ (_ ++ _ ++ ?x) = _ => set (body := x) end.
  assert (EB : body = lines_of ms ++ ("<"%char :: el) ++ add_attrs al ++ [">"%char] ++ flat_map esc1 text ++
     ("<"%char :: "/"%char :: el ++ [">"%char]) ++ [nl] ++ lines_of ms' ++ $"</output>" ++ [nl]).
  { unfold body, elem_text. assert (EA : flat_map (fun p : str * str => $" " ++ fst p ++ $"=" ++ [dq] ++ snd p ++ [dq]) al = add_attrs al) by reflexivity.
    rewrite EA. rewrite <- ?app_assoc. cbn [lit list_ascii_of_string app]. rewrite <- ?app_assoc. reflexivity. }
  assert (FB : feed (PState stext [$"output"] true) body = (PState stext [] true,
     line_events ms ++ [EStart el al] ++ map (fun c => EData [c]) text ++ [EEnd el] ++ [EData [nl]] ++ line_events ms' ++ [EEnd ($"output")])).
  { rewrite EB. rewrite (feed_step _ _ _ _ _ F0), (feed_step _ _ _ _ _ F1), (feed_step _ _ _ _ _ F2), (feed_step _ _ _ _ _ F3),
     (feed_step _ _ _ _ _ F4), (feed_step _ _ _ _ _ F5), (feed_step _ _ _ _ _ F6), (feed_step _ _ _ _ _ F7), F8. reflexivity. }
  rewrite (read_feed asserts ext body _ _) with (2 := FB); [| |discriminate].
  - rewrite on_events_app, on_lines by exact Hms. cbn [bind app on_events on_event]. unfold on_start at 1.
    cbn [pm ptext pdepth plist length Nat.eqb negb]. rewrite !andb_false_r.
    replace (eqs el data_elem || eqs el file_elem) with true by (destruct He as [-> | ->]; reflexivity).
    destruct (start_measurement el al) as [m| | | |]; try reflexivity. cbn [bind]. rewrite on_datas. cbn [on_events on_event bind].
    unfold on_end at 1. cbn [pdepth pm plist ptext pred Nat.eqb app].
    set (l := map stored ms ++ _). change (on_data (PD 1 [] None l) [nl]) with (PD 1 [] None l).
    rewrite on_events_app, on_lines by exact Hms'. cbn [bind on_events on_event]. unfold on_end.
    cbn [pdepth pm plist ptext pred Nat.eqb complete pmode popen proot pending]. unfold stext. rewrite andb_false_r, app_nil_r. unfold l.
    rewrite <- app_assoc. destruct m; reflexivity.
  - rewrite EB. change ("<"%char :: el) with ($"<" ++ el). change ("<"%char :: "/"%char :: el ++ [">"%char]) with ($"</" ++ el ++ $">").
    rewrite !sup_app, !sup_lines, sup_esc, (sup_name el Hel), (sup_attrs al (proj1 Ha)) by assumption. reflexivity.
Qed.
Lemma find_type_value al : NoDup (map fst al) -> forall d, find_type al d =
  match value ($"type") al with Some t => Some (new_dm (match CreateDataMeasurement t with Some c => c | None => CPlain end)) | None => d end.
Proof.
  induction al as [|[k v] al IH]; intros H d; [reflexivity|]. cbn [map fst] in H. inversion H as [|? ? N H']; subst. cbn [find_type value].
  rewrite (IH H'). destruct (eqs_spec k ($"type")) as [->|E]; [|reflexivity]. rewrite (value_none _ _ N). reflexivity.
Qed.
Lemma set_attrs_value al : NoDup (map fst al) -> forall d, set_attrs al (Some d) =
  Ok (Some (Dm (or_else (value ($"name") al) (dname d)) (desc d) (dcls d) (or_else (value ($"encoding") al) (denc d)) (or_else (value ($"compression") al) (dcomp d)) (dcontent d) (ddata d))).
Proof.
  induction al as [|[k v] al IH]; intros H d; [destruct d; reflexivity|]. cbn [map fst] in H. inversion H as [|? ? N H']; subst. cbn [set_attrs value].
  destruct (eqs_spec k ($"name")) as [->|N1].
  { cbn [bind]. rewrite (IH H'). rewrite (value_none _ _ N). reflexivity. }
  destruct (eqs_spec k ($"type")) as [->|N2]; [cbn [bind]; apply (IH H')|].
  destruct (eqs_spec k ($"encoding")) as [->|N3].
  { cbn [bind]. rewrite (IH H'). rewrite (value_none _ _ N). reflexivity. }
  destruct (eqs_spec k ($"compression")) as [->|N4]; cbn [bind]; rewrite (IH H').
  - rewrite (value_none _ _ N). reflexivity.
  - reflexivity.
Qed.
Lemma set_attrs_null al : set_attrs al None =
  match value ($"name") al, value ($"encoding") al, value ($"compression") al with None, None, None => Ok None | _, _, _ => UB end.
Proof.
  induction al as [|[k v] al IH]; [reflexivity|]. cbn [set_attrs value].
  destruct (eqs_spec k ($"name")) as [->|N1]; [reflexivity|].
  destruct (eqs_spec k ($"type")) as [->|N2]; [cbn [bind]; exact IH|].
  destruct (eqs_spec k ($"encoding")) as [->|N3]; [cbn [bind]; destruct (value ($"name") al); reflexivity|].
  destruct (eqs_spec k ($"compression")) as [->|N4]; cbn [bind]; [|exact IH].
  destruct (value ($"name") al), (value ($"encoding") al); reflexivity.
Qed.
Lemma set_file_attrs_value al : NoDup (map fst al) -> forall f, set_file_attrs al f =
  Mf (or_else (value ($"name") al) (fname f)) (fesc f) (or_else (value ($"type") al) (ftype f)) (ffile f).
Proof.
  induction al as [|[k v] al IH]; intros H d; [destruct d; reflexivity|]. cbn [map fst] in H. inversion H as [|? ? N H']; subst. cbn [set_file_attrs value].
  rewrite (IH H'). destruct (eqs_spec k ($"name")) as [->|N1].
  { rewrite (value_none _ _ N). reflexivity. }
  destruct (eqs_spec k ($"type")) as [->|N2]; [|reflexivity]. rewrite (value_none _ _ N). reflexivity.
Qed.

(** A data element with a type: the attributes are taken whatever their order, those missing have their defaults, others are ignored;
    an unknown type makes plain text. *)
Theorem C65_data_element : forall asserts ext ms ms' al text t,
  attributes al -> text_safe text -> Forall storable ms -> Forall storable ms' -> value ($"type") al = Some t ->
  exists c, class_for t c /\
  ReadXMLInput asserts ext (document (lines_of ms ++ (elem_text ($"DartMeasurement") al text ++ [nl]) ++ lines_of ms')) =
    Ok (map stored ms ++
        MD (Dm (or_else (value ($"name") al) []) true c (or_else (value ($"encoding") al) ($"none")) (or_else (value ($"compression") al) ($"none")) text None) ::
        map stored ms').
Proof.
  intros asserts ext ms ms' al text t Ha Ht Hms Hms' V.
  exists (match CreateDataMeasurement t with Some c => c | None => CPlain end). split.
  - destruct (CreateDataMeasurement t) as [c|] eqn:E; [left; apply create_some in E; exact E|right]. split; [apply create_none; exact E|reflexivity].
  - rewrite (read_element asserts ext ms ms' ($"DartMeasurement") al text (or_introl eq_refl) Ha Ht Hms Hms').
    unfold start_measurement. change (eqs ($"DartMeasurement") data_elem) with true. cbv iota.
    rewrite (find_type_value al (proj2 Ha)), V, (set_attrs_value al (proj2 Ha)). reflexivity.
Qed.
Print Assumptions C65_data_element.
(** Without a type: undefined (a null pointer is used) if there is a name, encoding or compression, else the element is skipped. *)
Theorem C65_data_element_without_type : forall asserts ext ms ms' al text,
  attributes al -> text_safe text -> Forall storable ms -> Forall storable ms' -> value ($"type") al = None ->
  let r := ReadXMLInput asserts ext (document (lines_of ms ++ (elem_text ($"DartMeasurement") al text ++ [nl]) ++ lines_of ms')) in
  ((exists k, In k [$"name"; $"encoding"; $"compression"] /\ value k al <> None) -> r = UB) /\
  ((forall k, In k [$"name"; $"encoding"; $"compression"] -> value k al = None) -> r = Ok (map stored (ms ++ ms'))).
Proof.
  intros asserts ext ms ms' al text Ha Ht Hms Hms' V r. unfold r.
  rewrite (read_element asserts ext ms ms' ($"DartMeasurement") al text (or_introl eq_refl) Ha Ht Hms Hms').
  unfold start_measurement. change (eqs ($"DartMeasurement") data_elem) with true. cbv iota.
  rewrite (find_type_value al (proj2 Ha)), V, set_attrs_null. split.
  - intros (k & [<-|[<-|[<-|[]]]] & N).
    + destruct (value ($"name") al); [reflexivity|congruence].
    + destruct (value ($"name") al); [reflexivity|]. destruct (value ($"encoding") al); [reflexivity|congruence].
    + destruct (value ($"name") al); [reflexivity|]. destruct (value ($"encoding") al); [reflexivity|]. destruct (value ($"compression") al); [reflexivity|congruence].
  - intros H. rewrite (H ($"name")), (H ($"encoding")), (H ($"compression")) by (cbn; auto). cbn [bind option_map]. rewrite map_app. reflexivity.
Qed.
Print Assumptions C65_data_element_without_type.
(** A file element: name "unknown" and type text/plain unless given. *)
Theorem C65_file_element : forall asserts ext ms ms' al text,
  attributes al -> text_safe text -> Forall storable ms -> Forall storable ms' ->
  ReadXMLInput asserts ext (document (lines_of ms ++ (elem_text ($"DartMeasurementFile") al text ++ [nl]) ++ lines_of ms')) =
    Ok (map stored ms ++ MF (Mf (or_else (value ($"name") al) ($"unknown")) true (or_else (value ($"type") al) ($"text/plain")) text) :: map stored ms').
Proof.
  intros asserts ext ms ms' al text Ha Ht Hms Hms'.
  rewrite (read_element asserts ext ms ms' ($"DartMeasurementFile") al text (or_intror eq_refl) Ha Ht Hms Hms').
  unfold start_measurement. change (eqs ($"DartMeasurementFile") data_elem) with false. change (eqs ($"DartMeasurementFile") file_elem) with true. cbv iota.
  rewrite (set_file_attrs_value al (proj2 Ha)). reflexivity.
Qed.
Print Assumptions C65_file_element.
(** The order of the attributes does not matter. *)
Theorem C65_attribute_order : forall asserts ext ms ms' el al al' text, el = $"DartMeasurement" \/ el = $"DartMeasurementFile" ->
  attributes al -> Permutation.Permutation al al' -> text_safe text -> Forall storable ms -> Forall storable ms' ->
  ReadXMLInput asserts ext (document (lines_of ms ++ (elem_text el al text ++ [nl]) ++ lines_of ms')) =
  ReadXMLInput asserts ext (document (lines_of ms ++ (elem_text el al' text ++ [nl]) ++ lines_of ms')).
Proof.
  intros asserts ext ms ms' el al al' text He Ha P Ht Hms Hms'.
  assert (Ha' : attributes al').
  { destruct Ha as [A N]. split; [exact (Permutation.Permutation_Forall P A)|]. exact (Permutation.Permutation_NoDup (Permutation.Permutation_map fst P) N). }
  assert (V : forall k, value k al = value k al').
  { destruct Ha as [_ N]. clear - P N. intros k. induction P as [|[k1 v1] l l' P IH|[k1 v1] [k2 v2] l|l l' l'' P IH P' IH'].
    - reflexivity.
    - cbn [map] in N. inversion N; subst. cbn [value]. rewrite IH by assumption. reflexivity.
    - cbn [map fst] in N. inversion N as [|? ? N1 _]; subst. cbn [value].
      destruct (eqs_spec k1 k) as [->|A]; destruct (eqs_spec k2 k) as [->|B]; try reflexivity. elim N1. left. reflexivity.
    - rewrite IH by exact N. apply IH'. exact (Permutation.Permutation_NoDup (Permutation.Permutation_map fst P) N). }
  rewrite !read_element by (assumption || exact He). f_equal. unfold start_measurement.
  destruct (eqs el data_elem).
  - rewrite (find_type_value al (proj2 Ha)), (find_type_value al' (proj2 Ha')), <- V. destruct (value ($"type") al).
    + rewrite (set_attrs_value al (proj2 Ha)), (set_attrs_value al' (proj2 Ha')), !V. reflexivity.
    + rewrite !set_attrs_null, !V. reflexivity.
  - rewrite (set_file_attrs_value al (proj2 Ha)), (set_file_attrs_value al' (proj2 Ha')), !V. reflexivity.
Qed.
Print Assumptions C65_attribute_order.
Example C65_case : forall asserts ext,
  let al := [($"units", $"mm"); ($"type", $"measure/length"); ($"name", $"n")] in
  attributes al /\ value ($"type") al = Some ($"measure/length") /\ (forall c, $"measure/length" <> type_of c) /\
  ReadXMLInput asserts ext (document (elem_text ($"DartMeasurement") al ($"3<4") ++ [nl])) = Ok [MD (Dm ($"n") true CPlain ($"none") ($"none") ($"3<4") None)].
Proof.
  intros asserts ext al. split; [|split; [reflexivity|split; [intros []; discriminate|destruct asserts; vm_compute; reflexivity]]].
  split; [repeat constructor|]. unfold al. cbn [map fst]. repeat constructor; cbn; intuition discriminate.
Qed.

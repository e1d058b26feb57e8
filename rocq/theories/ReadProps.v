(** Properties C17, C40, C41, C42: reading baseline documents. *)
From Verif Require Import Base Str XmlText MeasModel MeasFacts XmlModel ReadModel ReadFacts ReadBack.

Definition dq : ascii := chr 34.
(** a document with the given measurement lines *)
Definition document (body : str) : str := $"<output>" ++ [nl] ++ body ++ $"</output>" ++ [nl].
Definition pending (p : pdata) : bool := match pm p with None => false | Some _ => true end.

(** the reader on a document whose text after the first line is [body] *)
Lemma read_feed (asserts : bool) ext body st evs : supported_bytes body = true ->
  feed (PState stext [$"output"] true) body = (st, evs) -> pmode st <> MOther ->
  ReadXMLInput asserts ext ($"<output>" ++ [nl] ++ body) =
    (p <-- on_events asserts (PD 1 [] None []) evs ;;
     if asserts && pending p then Abort else if complete st then Ok (plist p) else Throw ExnRuntime).
Proof.
  intros Hs Hf Hm. rewrite read_spec. unfold expat. rewrite !sup_app, Hs.
  change (supported_bytes ($"<output>")) with true. change (supported_bytes [nl]) with true. cbn [andb].
  assert (E : strip_prefix xml_decl ($"<output>" ++ [nl] ++ body) = None) by reflexivity.
  rewrite E.
  assert (E1 : feed pinit ($"<output>" ++ [nl]) = (PState stext [$"output"] true, [EStart ($"output") []; EData [nl]])) by reflexivity.
  rewrite (app_assoc ($"<output>")), (feed_step _ _ _ _ _ E1), Hf.
  assert (E4 : on_events asserts pd0 [EStart ($"output") []; EData [nl]] = Ok (PD 1 [] None [])) by (destruct asserts; reflexivity).
  assert (G : (let '(evs0, ok) := ([EStart ($"output") []; EData [nl]] ++ evs, complete st) in
      p <-- on_events asserts pd0 evs0 ;;
      if asserts && negb (match pm p with None => true | _ => false end) then Abort else if ok then Ok (plist p) else Throw ExnRuntime)
      = (p <-- on_events asserts (PD 1 [] None []) evs ;;
     if asserts && pending p then Abort else if complete st then Ok (plist p) else Throw ExnRuntime)).
  { rewrite on_events_app, E4. cbn [bind]. destruct (on_events asserts (PD 1 [] None []) evs) as [p| | | |]; try reflexivity.
    cbn [bind]. unfold pending. destruct (pm p); reflexivity. }
  destruct (pmode st); try exact G. elim Hm. reflexivity.
Qed.
Lemma lines_prints ms ps : Forall2 (fun m p => Print m = Ok p) ms ps -> concat (map (fun p => p ++ [nl]) ps) = lines_of ms.
Proof.
  induction 1 as [|m p ms ps H _ IH]; [reflexivity|]. cbn [map concat]. rewrite IH. unfold lines_of. cbn [flat_map].
  rewrite print_print_of in H. apply Ok_inj in H. subst. reflexivity.
Qed.

(** C17.  [storable]: attribute values printable ASCII without double quote, ampersand and less-than; text ASCII without control
    characters other than tab and newline; escaping switched on. *)
Theorem C17_printed_measurements_read_back : forall asserts ext ms ps,
  Forall storable ms -> Forall2 (fun m p => Print m = Ok p) ms ps ->
  ReadXMLInput asserts ext (document (concat (map (fun p => p ++ [nl]) ps))) = Ok (map stored ms).
Proof.
  intros asserts ext ms ps H P. rewrite (lines_prints _ _ P). unfold document.
  apply (read_back asserts ext [] []); [exact H|reflexivity| |reflexivity].
  intros r. right. split; reflexivity.
Qed.
Print Assumptions C17_printed_measurements_read_back.
(** what comes back: the same measurement, without cached data *)
Theorem C17_nothing_is_lost : forall m,
  mname (stored m) = mname m /\ mtype (stored m) = mtype m /\ mcontent (stored m) = mcontent m /\ melem (stored m) = melem m /\
  Print (stored m) = Print m /\
  (forall d, m = MD d -> exists d', stored m = MD d' /\ dcls d' = dcls d /\ denc d' = denc d /\ dcomp d' = dcomp d /\ ddata d' = None).
Proof.
  intros m. repeat split; try (destruct m; reflexivity).
  intros d ->. eexists. split; [reflexivity|]. auto.
Qed.
Print Assumptions C17_nothing_is_lost.
(** The text of a measurement with a control character can be written, but the file cannot be read again: the reader stops inside the
    measurement.  (XML offers no way to write these characters.) *)
Theorem C17_control_character_breaks_file : forall asserts ext ms d s1 c s2 rest,
  Forall storable ms -> desc d = true -> attr_safe (dname d) -> attr_safe (denc d) -> attr_safe (dcomp d) ->
  dcontent d = s1 ++ c :: s2 -> text_safe s1 -> xml_char c = false -> code c <> 0 -> supported_bytes (flat_map esc1 s2 ++ rest) = true ->
  exists p, Print (MD d) = Ok p /\
  ReadXMLInput asserts ext (document (lines_of ms ++ p ++ rest)) = if asserts then Abort else Throw ExnRuntime.
Proof.
  intros asserts ext ms d s1 c s2 rest Hms Hesc Hn He Hc Hd H1 Hx H0 Hs2.
  exists (print_of (MD d)). split; [apply print_print_of|].
  set (d1 := SetContent d s1).
  assert (St : storable (MD d1)) by (cbn; auto).
  assert (Hc1 : eqc c "&" = false /\ eqc c "<" = false /\ eqc c ">" = false /\ code c < 128).
  { assert (S : forall c, xml_char c || negb (eqc c "&") && negb (eqc c "<") && negb (eqc c ">") && (code c <? 128) = true)
      by (apply byte_sweep; vm_compute; reflexivity).
    specialize (S c). rewrite Hx in S. cbn [orb] in S. rewrite !andb_true_iff, !negb_true_iff, Nat.ltb_lt in S. tauto. }
  destruct Hc1 as (C1 & C2 & C3 & C4).
  assert (E1 : esc1 c = [c]) by (unfold esc1; rewrite C1, C2, C3; reflexivity).
  assert (EP : print_of (MD d) = (PrintStartTag (MD d1) ++ flat_map esc1 s1) ++ c :: flat_map esc1 s2 ++ $"</" ++ data_elem ++ $">").
  { unfold print_of. cbn [mesc mcontent melem]. rewrite Hesc, Hd, flat_map_app. cbn [flat_map]. rewrite E1.
    change (PrintStartTag (MD d1)) with (PrintStartTag (MD d)). rewrite <- !app_assoc. reflexivity. }
  assert (EF : exists b, feed (PState stext [$"output"] true) (lines_of ms ++ PrintStartTag (MD d1) ++ flat_map esc1 s1) =
     (PState (MText b false) [data_elem; $"output"] true, line_events ms ++ EStart data_elem (attrs_of (MD d1)) :: map (fun c => EData [c]) s1)).
  { destruct (feed_lines ($"output") [] ms 0 Hms) as [b0 F0]. fold stext in F0. rewrite start_tag_attrs.
    rewrite (feed_step _ _ _ _ _ F0).
    change ("<"%char :: melem (MD d1) ++ add_attrs (attrs_of (MD d1)) ++ [">"%char])
      with (("<"%char :: data_elem) ++ add_attrs (attrs_of (MD d1)) ++ [">"%char]). rewrite <- !app_assoc.
    assert (F : feed (PState (MText b0 false) [$"output"] true) ("<"%char :: data_elem) = (PState (MName data_elem) [$"output"] true, [])).
    { apply feed_open; [cbn; auto|left; discriminate]. }
    rewrite (feed_step _ _ _ _ _ F).
    destruct (attrs_of_ok (MD d1) St) as [A1 A2].
    destruct (feed_attrs [$"output"] true data_elem (attrs_of (MD d1)) [] (MName data_elem) (or_introl (conj eq_refl eq_refl)) A1 A2) as (m' & T & E).
    rewrite (feed_step _ _ _ _ _ E). cbn [app] in T.
    rewrite (feed_step _ _ _ _ _ (feed_gt [$"output"] true data_elem (attrs_of (MD d1)) m' T)).
    destruct (feed_text data_elem [$"output"] true s1 0 H1) as [b' E2]. fold stext in E2. exists b'. rewrite E2. reflexivity. }
  destruct EF as [b EF].
  unfold document.
  assert (EB : forall r, feed (PState (MText b false) [data_elem; $"output"] true) (c :: r) = (PState MBad [data_elem; $"output"] true, [])).
  { intros r. cbn [feed]. unfold step at 1. cbn [pmode]. rewrite Hx. cbn [negb bad popen proot].
    assert (K : forall r, feed (PState MBad [data_elem; $"output"] true) r = (PState MBad [data_elem; $"output"] true, [])).
    { induction r0 as [|x r0 IH]; [reflexivity|]. cbn [feed]. change (step (PState MBad [data_elem; $"output"] true) x) with (PState MBad [data_elem; $"output"] true, @nil event).
      cbv iota beta. rewrite IH. reflexivity. }
    rewrite K. reflexivity. }
  rewrite EP. rewrite <- !app_assoc.
  set (tl := flat_map esc1 s2 ++ ($"</" ++ data_elem ++ $">") ++ rest ++ $"</output>" ++ [nl]).
  match goal with |- ReadXMLInput _ _ ?x = _ =>
    replace x with ($"<output>" ++ [nl] ++ (lines_of ms ++ PrintStartTag (MD d1) ++ flat_map esc1 s1) ++ c :: tl) end.
  2:{ unfold tl. rewrite <- !app_assoc. cbn [app]. rewrite <- !app_assoc. reflexivity. }
  rewrite (read_feed asserts ext _ (PState MBad [data_elem; $"output"] true)
      (line_events ms ++ EStart data_elem (attrs_of (MD d1)) :: map (fun c => EData [c]) s1)).
  - rewrite on_events_app, on_lines by exact Hms. cbn [bind app].
    destruct (start_of (MD d1) St) as (m0 & E & _). cbn [on_events on_event]. unfold on_start.
    cbn [pm ptext pdepth plist length Nat.eqb negb]. rewrite !andb_false_r.
    change (eqs data_elem data_elem || eqs data_elem file_elem) with true. cbv iota.
    cbn [melem] in E. rewrite E. cbn [bind]. rewrite <- (app_nil_r (map _ s1)), on_datas. cbn [on_events bind pending pm complete pmode].
    destruct asserts; reflexivity.
  - change (c :: tl) with ([c] ++ tl). unfold tl. rewrite !sup_app.
    rewrite sup_app in Hs2. apply andb_true_iff in Hs2. destruct Hs2 as [S1 S2]. rewrite S1, S2, sup_lines by exact Hms.
    rewrite sup_esc by exact H1. unfold supported_bytes at 2. cbn [forallb].
    replace (0 <? code c) with true by (symmetry; apply Nat.ltb_lt; lia). replace (code c <? 128) with true by (symmetry; apply Nat.ltb_lt; exact C4).
    pose proof (sup_meas (MD d1) St) as SM. unfold print_of in SM. rewrite sup_app in SM. apply andb_true_iff in SM. destruct SM as [SM _]. rewrite SM. reflexivity.
  - rewrite (feed_step _ _ _ _ _ EF), EB. rewrite app_nil_r. reflexivity.
  - discriminate.
Qed.
Print Assumptions C17_control_character_breaks_file.
(** The documented purpose of the file ("comparing against a baseline") fails silently for other texts: a carriage return is read back
    as a newline, a newline in a name as a space, and a name can smuggle in markup because names are not escaped. *)
Theorem C17_all_texts_refuted : forall asserts ext,
  (let d := SetContent (new_dm CString) [chr 13] in exists p, Print (MD d) = Ok p /\
     exists d', ReadXMLInput asserts ext (document (p ++ [nl])) = Ok [MD d'] /\ dcontent d' <> dcontent d) /\
  (let d := SetAttributeName (new_dm CString) [nl] in exists p, Print (MD d) = Ok p /\
     exists d', ReadXMLInput asserts ext (document (p ++ [nl])) = Ok [MD d'] /\ dname d' <> dname d) /\
  (let d := SetAttributeName (new_dm CString) ($"a&lt;b") in exists p, Print (MD d) = Ok p /\
     exists d', ReadXMLInput asserts ext (document (p ++ [nl])) = Ok [MD d'] /\ dname d' = $"a<b") /\
  (let d := SetAttributeName (new_dm CString) ($"a<b") in exists p, Print (MD d) = Ok p /\
     ReadXMLInput asserts ext (document (p ++ [nl])) = Throw ExnRuntime).
Proof.
  intros asserts ext. destruct asserts; (split; [|split; [|split]]); cbv zeta;
    (eexists; split; [vm_compute; reflexivity|]); try (eexists; split; [vm_compute; reflexivity|vm_compute; try discriminate; reflexivity]);
    vm_compute; reflexivity.
Qed.
Print Assumptions C17_all_texts_refuted.
Example C17_case : forall asserts ext,
  let d := SetContent (SetAttributeName (new_dm CPlain) ($"n > 1")) ($"a<b && ]]>c" ++ [nl] ++ $"x") in
  storable (MD d) /\
  ReadXMLInput asserts ext (document ($"<DartMeasurement name=" ++ [dq] ++ $"n > 1" ++ [dq] ++ $" type=" ++ [dq] ++ $"text/plain" ++ [dq] ++
     $">a&lt;b &amp;&amp; ]]&gt;c" ++ [nl] ++ $"x</DartMeasurement>")) = Ok [MD d].
Proof. intros. split; [cbn; repeat split; reflexivity|]. destruct asserts; vm_compute; reflexivity. Qed.

(** C40: two runs of the parser over the same document may cut the text into different pieces; [coalesce] joins adjacent pieces. *)
Theorem C40_text_splitting_irrelevant : forall asserts p evs evs',
  coalesce evs = coalesce evs' -> on_events asserts p evs = on_events asserts p evs'.
Proof. intros asserts p evs evs' H. rewrite <- (coalesce_sound asserts evs), H. apply coalesce_sound. Qed.
Print Assumptions C40_text_splitting_irrelevant.
(** in particular each piece may be cut in two anywhere, also into empty pieces *)
Theorem C40_cut_anywhere : forall asserts p a s t b,
  on_events asserts p (a ++ EData (s ++ t) :: b) = on_events asserts p (a ++ EData s :: EData t :: b).
Proof.
  intros asserts p a s t b. rewrite !on_events_app. destruct (on_events asserts p a); cbn [bind on_events on_event]; auto.
  rewrite on_data_app. reflexivity.
Qed.
Print Assumptions C40_cut_anywhere.
Example C40_case : forall asserts,
  on_events asserts pd0 [EStart ($"output") []; EStart ($"DartMeasurement") [($"name", $"n"); ($"type", $"text/plain")];
                         EData ($"he"); EData []; EData ($"llo"); EEnd ($"DartMeasurement"); EEnd ($"output")] =
  Ok (PD 0 [] None [MD (SetContent (SetAttributeName (new_dm CPlain) ($"n")) ($"hello"))]).
Proof. intros []; vm_compute; reflexivity. Qed.

(** C41 *)
Theorem C41_whole_file_reaches_parser : forall file, exists full lastb,
  buffers (S (length file)) (length file) file = Ok (map (fun b => (b, false)) full ++ [(lastb, true)]) /\
  concat full ++ lastb = file /\ Forall (fun b => length b = 1024) full /\ length lastb < 1024.
Proof. exact buffers_file. Qed.
Print Assumptions C41_whole_file_reaches_parser.
(** hence the result depends on the file's bytes only through the parser's answer for the whole file *)
Theorem C41_result : forall asserts ext file evs ok, expat ext file = (evs, ok) ->
  ReadXMLInput asserts ext file =
    (p <-- on_events asserts pd0 evs ;;
     if asserts && pending p then Abort else if ok then Ok (plist p) else Throw ExnRuntime).
Proof.
  intros asserts ext file evs ok E. rewrite read_spec, E. destruct (on_events asserts pd0 evs) as [p| | | |]; try reflexivity.
  cbn [bind]. unfold pending. destruct (pm p); reflexivity.
Qed.
Print Assumptions C41_result.
Example C41_case : exists b, length b = 1024 /\ buffers 1025 1024 b = Ok [(b, false); ([], true)].
Proof. exists (repeat "x"%char 1024). split; [apply repeat_length|vm_compute; reflexivity]. Qed.

(** C42 *)
Definition end_tag (m : meas) : str := $"</" ++ melem m ++ $">".
Definition start_and_text (m : meas) : str := PrintStartTag m ++ flat_map esc1 (mcontent m).
Lemma feed_start_text b m : storable m -> exists b',
  feed (PState (MText b false) [$"output"] true) (start_and_text m) =
     (PState (MText b' false) [melem m; $"output"] true, EStart (melem m) (attrs_of m) :: map (fun c => EData [c]) (mcontent m)).
Proof.
  intros St. unfold start_and_text. rewrite start_tag_attrs.
  change ("<"%char :: melem m ++ add_attrs (attrs_of m) ++ [">"%char])
    with (("<"%char :: melem m) ++ add_attrs (attrs_of m) ++ [">"%char]). rewrite <- !app_assoc.
  assert (F : feed (PState (MText b false) [$"output"] true) ("<"%char :: melem m) = (PState (MName (melem m)) [$"output"] true, [])).
  { apply feed_open; [apply melem_name|left; discriminate]. }
  rewrite (feed_step _ _ _ _ _ F).
  destruct (attrs_of_ok m St) as [A1 A2].
  destruct (feed_attrs [$"output"] true (melem m) (attrs_of m) [] (MName (melem m)) (or_introl (conj eq_refl eq_refl)) A1 A2) as (m' & T & E).
  rewrite (feed_step _ _ _ _ _ E). cbn [app] in T.
  rewrite (feed_step _ _ _ _ _ (feed_gt [$"output"] true (melem m) (attrs_of m) m' T)).
  destruct (storable_text m St) as [_ H1].
  destruct (feed_text (melem m) [$"output"] true (mcontent m) 0 H1) as [b' E2]. fold stext in E2. exists b'. rewrite E2. reflexivity.
Qed.
Lemma sup_start_text m : storable m -> supported_bytes (start_and_text m) = true.
Proof.
  intros St. pose proof (sup_meas m St) as SM. unfold print_of in SM. destruct (storable_text m St) as [H _]. rewrite H in SM.
  rewrite !sup_app, !andb_true_iff in SM. unfold start_and_text. rewrite sup_app, !andb_true_iff. tauto.
Qed.
Lemma on_start_text (asserts : bool) m l r : storable m -> exists m0, mset_content m0 (mcontent m) = stored m /\
  on_events asserts (PD 1 [] None l) ((EStart (melem m) (attrs_of m) :: map (fun c => EData [c]) (mcontent m)) ++ r) =
  on_events asserts (PD 2 (mcontent m) (Some m0) l) r.
Proof.
  intros St. destruct (start_of m St) as (m0 & E & C). exists m0. split; [exact C|].
  cbn [app on_events on_event]. unfold on_start. cbn [pm ptext pdepth plist length Nat.eqb negb]. rewrite !andb_false_r.
  replace (eqs (melem m) data_elem || eqs (melem m) file_elem) with true by (destruct m; reflexivity).
  rewrite E. cbn [bind]. rewrite on_datas. reflexivity.
Qed.

(** an element inside a measurement: assertion failure, or the measurement is silently dropped *)
Theorem C42_nested_element : forall (asserts : bool) ext ms m el text ms',
  Forall storable ms -> storable m -> Forall storable ms' -> is_name el -> text_safe text ->
  ReadXMLInput asserts ext (document (lines_of ms ++ (start_and_text m ++ $"<" ++ el ++ $"/>" ++ flat_map esc1 text ++ end_tag m ++ [nl]) ++ lines_of ms'))
  = if asserts then Abort else Ok (map stored (ms ++ ms')).
Proof.
  intros asserts ext ms m el text ms' Hms Hm Hms' Hel Ht. unfold document, end_tag.
  destruct (feed_lines ($"output") [] ms 0 Hms) as [b0 F0]. fold stext in F0.
  destruct (feed_start_text b0 m Hm) as [b1 F1].
  assert (F2 : feed (PState (MText b1 false) [melem m; $"output"] true) ("<"%char :: el) = (PState (MName el) [melem m; $"output"] true, [])).
  { apply feed_open; [exact Hel|left; discriminate]. }
  assert (F3 : feed (PState (MName el) [melem m; $"output"] true) ($"/>") = (PState stext [melem m; $"output"] true, [EStart el []; EEnd el])) by reflexivity.
  destruct (feed_text (melem m) [$"output"] true text 0 Ht) as [b4 F4]. fold stext in F4.
  pose proof (feed_end b4 false [$"output"] true (melem m) (melem_name m)) as F5.
  assert (F6 : feed (PState stext [$"output"] true) [nl] = (PState stext [$"output"] true, [EData [nl]])) by reflexivity.
  destruct (feed_lines ($"output") [] ms' 0 Hms') as [b7 F7]. fold stext in F7.
  assert (F8 : feed (PState (MText b7 false) [$"output"] true) ($"</output>" ++ [nl]) = (PState stext [] true, [EEnd ($"output")])) by reflexivity.
  match goal with |- ReadXMLInput _ _ (_ ++ _ ++ ?x) = _ => set (body := x) end.
  assert (EB : body = lines_of ms ++ start_and_text m ++ ("<"%char :: el) ++ $"/>" ++ flat_map esc1 text ++ ("<"%char :: "/"%char :: melem m ++ [">"%char]) ++ [nl] ++ lines_of ms' ++ ($"</output>" ++ [nl])).
  { unfold body. rewrite <- ?app_assoc. cbn [lit list_ascii_of_string app]. rewrite <- ?app_assoc. reflexivity. }
  assert (FB : feed (PState stext [$"output"] true) body = (PState stext [] true,
     line_events ms ++ (EStart (melem m) (attrs_of m) :: map (fun c => EData [c]) (mcontent m)) ++
       [EStart el []; EEnd el] ++ map (fun c => EData [c]) text ++ [EEnd (melem m)] ++ [EData [nl]] ++ line_events ms' ++ [EEnd ($"output")])).
  { rewrite EB. rewrite (feed_step _ _ _ _ _ F0), (feed_step _ _ _ _ _ F1), (feed_step _ _ _ _ _ F2), (feed_step _ _ _ _ _ F3),
     (feed_step _ _ _ _ _ F4), (feed_step _ _ _ _ _ F5), (feed_step _ _ _ _ _ F6), (feed_step _ _ _ _ _ F7), F8. reflexivity. }
  rewrite (read_feed asserts ext body _ _) with (2 := FB); [| |discriminate].
  - rewrite on_events_app, on_lines by exact Hms. cbn [bind].
    destruct (on_start_text asserts m (map stored ms) ([EStart el []; EEnd el] ++ map (fun c => EData [c]) text ++ [EEnd (melem m)] ++ [EData [nl]] ++ line_events ms' ++ [EEnd ($"output")]) Hm) as (m0 & _ & E).
    cbn [app] in E |- *. rewrite E. destruct asserts; [reflexivity|].
    cbn [on_events on_event]. unfold on_start. cbn [andb pdepth Nat.eqb bind]. unfold on_end at 1. cbn [pdepth pm plist ptext pred Nat.eqb]. rewrite app_nil_r.
    rewrite on_datas. cbn [on_events on_event bind]. unfold on_end at 1. cbn [pdepth pm plist ptext pred Nat.eqb]. rewrite app_nil_r.
    change (on_data (PD 1 [] None (map stored ms)) [nl]) with (PD 1 [] None (map stored ms)).
    rewrite on_events_app, on_lines by exact Hms'. cbn [bind on_events on_event]. unfold on_end. cbn [pdepth pm plist ptext pred Nat.eqb andb complete pmode popen proot].
    unfold stext. rewrite app_nil_r, map_app. reflexivity.
  - rewrite EB. change ("<"%char :: el) with ($"<" ++ el). change ("<"%char :: "/"%char :: melem m ++ [">"%char]) with ($"</" ++ melem m ++ $">").
    rewrite !sup_app, !sup_lines, sup_start_text, sup_esc, (sup_name el Hel), (sup_name _ (melem_name m)) by assumption. reflexivity.
Qed.
Print Assumptions C42_nested_element.

(** a data measurement with a name (or other attribute of its own) but no type: null pointer *)
Theorem C42_type_missing : forall asserts ext ms name text rest,
  Forall storable ms -> attr_safe name -> text_safe text -> Forall storable rest ->
  ReadXMLInput asserts ext (document (lines_of ms ++ $"<DartMeasurement name=" ++ [dq] ++ name ++ [dq] ++ $">" ++ flat_map esc1 text ++
    $"</DartMeasurement>" ++ [nl] ++ lines_of rest)) = UB.
Proof.
  intros asserts ext ms name text rest Hms Hn Ht Hr. unfold document.
  destruct (feed_lines ($"output") [] ms 0 Hms) as [b0 F0]. fold stext in F0.
  assert (F1 : feed (PState (MText b0 false) [$"output"] true) ("<"%char :: data_elem) = (PState (MName data_elem) [$"output"] true, [])).
  { apply feed_open; [cbn; auto|left; discriminate]. }
  pose proof (feed_attr [$"output"] true data_elem [] (MName data_elem) ($"name") name (or_introl (conj eq_refl eq_refl)) (conj eq_refl eq_refl) Hn eq_refl) as F2.
  pose proof (feed_gt [$"output"] true data_elem ([] ++ [($"name", name)]) (MTag data_elem ([] ++ [($"name", name)]) false) (or_intror eq_refl)) as F3.
  destruct (feed_text data_elem [$"output"] true text 0 Ht) as [b4 F4]. fold stext in F4.
  pose proof (feed_end b4 false [$"output"] true data_elem (melem_name (MD (new_dm CInt)))) as F5.
  assert (F6 : feed (PState stext [$"output"] true) [nl] = (PState stext [$"output"] true, [EData [nl]])) by reflexivity.
  destruct (feed_lines ($"output") [] rest 0 Hr) as [b7 F7]. fold stext in F7.
  assert (F8 : feed (PState (MText b7 false) [$"output"] true) ($"</output>" ++ [nl]) = (PState stext [] true, [EEnd ($"output")])) by reflexivity.
  match goal with |- ReadXMLInput _ _ (_ ++ _ ++ ?x) = _ => set (body := x) end.
  assert (EB : body = lines_of ms ++ ("<"%char :: data_elem) ++ (" "%char :: quoted ($"name") name) ++ [">"%char] ++ flat_map esc1 text ++
     ("<"%char :: "/"%char :: data_elem ++ [">"%char]) ++ [nl] ++ lines_of rest ++ $"</output>" ++ [nl]).
  { unfold body, quoted. rewrite <- ?app_assoc. cbn [lit list_ascii_of_string app data_elem]. rewrite <- ?app_assoc. reflexivity. }
  assert (FB : exists st evs, feed (PState stext [$"output"] true) body = (st, line_events ms ++ EStart data_elem [($"name", name)] :: evs) /\ pmode st <> MOther).
  { rewrite EB. do 2 eexists. split.
    - rewrite (feed_step _ _ _ _ _ F0), (feed_step _ _ _ _ _ F1), (feed_step _ _ _ _ _ F2), (feed_step _ _ _ _ _ F3),
     (feed_step _ _ _ _ _ F4), (feed_step _ _ _ _ _ F5), (feed_step _ _ _ _ _ F6), (feed_step _ _ _ _ _ F7), F8. cbn [app]. reflexivity.
    - discriminate. }
  destruct FB as (st & evs & FB & Hst).
  rewrite (read_feed asserts ext body _ _) with (2 := FB); [| |exact Hst].
  - rewrite on_events_app, on_lines by exact Hms. cbn [bind on_events on_event]. unfold on_start.
    cbn [pm ptext pdepth plist length Nat.eqb negb]. rewrite !andb_false_r. reflexivity.
  - rewrite EB. change ("<"%char :: data_elem) with ($"<" ++ data_elem). change ("<"%char :: "/"%char :: data_elem ++ [">"%char]) with ($"</" ++ data_elem ++ $">").
    change (" "%char :: quoted ($"name") name) with (($" " ++ $"name" ++ $"=" ++ [dq]) ++ name ++ [dq]).
    rewrite !sup_app, !sup_lines, (sup_attr name), sup_esc by assumption. reflexivity.
Qed.
Print Assumptions C42_type_missing.

(** a document cut off inside a measurement's text, or between measurements *)
Theorem C42_truncated : forall (asserts : bool) ext ms m,
  Forall storable ms -> storable m ->
  ReadXMLInput asserts ext ($"<output>" ++ [nl] ++ lines_of ms ++ start_and_text m) = (if asserts then Abort else Throw ExnRuntime) /\
  ReadXMLInput asserts ext ($"<output>" ++ [nl] ++ lines_of ms) = Throw ExnRuntime.
Proof.
  intros asserts ext ms m Hms Hm. destruct (feed_lines ($"output") [] ms 0 Hms) as [b0 F0]. fold stext in F0. split.
  - destruct (feed_start_text b0 m Hm) as [b1 F1].
    rewrite (read_feed asserts ext _ (PState (MText b1 false) [melem m; $"output"] true)
       (line_events ms ++ (EStart (melem m) (attrs_of m) :: map (fun c => EData [c]) (mcontent m)))).
    + rewrite on_events_app, on_lines by exact Hms. cbn [bind].
      destruct (on_start_text asserts m (map stored ms) [] Hm) as (m0 & _ & E). rewrite app_nil_r in E. cbn [app].
      rewrite E. destruct asserts; reflexivity.
    + rewrite sup_app, sup_lines, sup_start_text by assumption. reflexivity.
    + rewrite (feed_step _ _ _ _ _ F0), F1. reflexivity.
    + discriminate.
  - rewrite (read_feed asserts ext _ _ _) with (2 := F0); [|apply sup_lines; exact Hms|discriminate].
    rewrite on_lines by exact Hms. cbn [bind pending pm]. rewrite andb_false_r. reflexivity.
Qed.
Print Assumptions C42_truncated.

(** elements the reader does not know are skipped with their text *)
Theorem C42_unknown_element_skipped : forall asserts ext ms el text ms',
  Forall storable ms -> is_name el -> el <> data_elem -> el <> file_elem -> text_safe text -> Forall storable ms' ->
  ReadXMLInput asserts ext (document (lines_of ms ++ ($"<" ++ el ++ $">" ++ flat_map esc1 text ++ $"</" ++ el ++ $">" ++ [nl]) ++ lines_of ms'))
   = Ok (map stored (ms ++ ms')).
Proof.
  intros asserts ext ms el text ms' Hms Hel N1 N2 Ht Hms'. unfold document.
  destruct (feed_lines ($"output") [] ms 0 Hms) as [b0 F0]. fold stext in F0.
  assert (F1 : feed (PState (MText b0 false) [$"output"] true) ("<"%char :: el) = (PState (MName el) [$"output"] true, [])).
  { apply feed_open; [exact Hel|left; discriminate]. }
  pose proof (feed_gt [$"output"] true el [] (MName el) (or_introl (conj eq_refl eq_refl))) as F3.
  destruct (feed_text el [$"output"] true text 0 Ht) as [b4 F4]. fold stext in F4.
  pose proof (feed_end b4 false [$"output"] true el Hel) as F5.
  assert (F6 : feed (PState stext [$"output"] true) [nl] = (PState stext [$"output"] true, [EData [nl]])) by reflexivity.
  destruct (feed_lines ($"output") [] ms' 0 Hms') as [b7 F7]. fold stext in F7.
  assert (F8 : feed (PState (MText b7 false) [$"output"] true) ($"</output>" ++ [nl]) = (PState stext [] true, [EEnd ($"output")])) by reflexivity.
  match goal with |- ReadXMLInput _ _ (_ ++ _ ++ ?x) = _ => set (body := x) end.
  assert (EB : body = lines_of ms ++ ("<"%char :: el) ++ [">"%char] ++ flat_map esc1 text ++
     ("<"%char :: "/"%char :: el ++ [">"%char]) ++ [nl] ++ lines_of ms' ++ $"</output>" ++ [nl]).
  { unfold body. rewrite <- ?app_assoc. cbn [lit list_ascii_of_string app]. rewrite <- ?app_assoc. reflexivity. }
  assert (FB : feed (PState stext [$"output"] true) body = (PState stext [] true,
     line_events ms ++ [EStart el []] ++ map (fun c => EData [c]) text ++ [EEnd el] ++ [EData [nl]] ++ line_events ms' ++ [EEnd ($"output")])).
  { rewrite EB. rewrite (feed_step _ _ _ _ _ F0), (feed_step _ _ _ _ _ F1), (feed_step _ _ _ _ _ F3),
     (feed_step _ _ _ _ _ F4), (feed_step _ _ _ _ _ F5), (feed_step _ _ _ _ _ F6), (feed_step _ _ _ _ _ F7), F8. reflexivity. }
  rewrite (read_feed asserts ext body _ _) with (2 := FB); [| |discriminate].
  - rewrite on_events_app, on_lines by exact Hms. cbn [bind app on_events on_event]. unfold on_start at 1.
    cbn [pm ptext pdepth plist length Nat.eqb negb]. rewrite !andb_false_r.
    apply eqs_false in N1, N2. rewrite N1, N2. cbn [orb bind]. rewrite on_datas. cbn [on_events on_event bind].
    unfold on_end at 1. cbn [pdepth pm plist ptext pred Nat.eqb]. rewrite app_nil_r.
    change (on_data (PD 1 [] None (map stored ms)) [nl]) with (PD 1 [] None (map stored ms)).
    rewrite on_events_app, on_lines by exact Hms'. cbn [bind on_events on_event]. unfold on_end.
    cbn [pdepth pm plist ptext pred Nat.eqb complete pmode popen proot pending]. unfold stext. rewrite andb_false_r, app_nil_r, map_app. reflexivity.
  - rewrite EB. change ("<"%char :: el) with ($"<" ++ el). change ("<"%char :: "/"%char :: el ++ [">"%char]) with ($"</" ++ el ++ $">").
    rewrite !sup_app, !sup_lines, sup_esc, (sup_name el Hel) by assumption. reflexivity.
Qed.
Print Assumptions C42_unknown_element_skipped.
Example C42_case : forall ext,
  let m := MD (SetContent (SetAttributeName (new_dm CPlain) ($"n")) ($"t")) in
  ReadXMLInput true ext (document (start_and_text m ++ $"<b/>" ++ end_tag m)) = Abort /\
  ReadXMLInput false ext (document (start_and_text m ++ $"<b/>" ++ end_tag m)) = Ok [] /\
  ReadXMLInput true ext (document ($"<DartMeasurement>t</DartMeasurement>")) = Ok [] /\
  ReadXMLInput true ext (document ($"<DartMeasurement name='x'>t</DartMeasurement>")) = UB.
Proof. intros. vm_compute. auto. Qed.

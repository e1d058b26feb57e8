(** Printed measurements read back. *)
From Verif Require Import Base Str XmlText MeasModel MeasFacts XmlModel ReadModel ReadFacts.

(** what [Print] writes *)
Definition print_of (m : meas) : str :=
  PrintStartTag m ++ (if mesc m then flat_map esc1 (mcontent m) else mcontent m) ++ $"</" ++ melem m ++ $">".
Lemma print_print_of m : Print m = Ok (print_of m).
Proof. unfold Print, print_of. destruct (mesc m); [rewrite escape_spec|]; reflexivity. Qed.

(** Measurements whose attribute values and text can be represented in the document. *)
Definition storable (m : meas) : Prop :=
  match m with
  | MD d => desc d = true /\ attr_safe (dname d) /\ attr_safe (denc d) /\ attr_safe (dcomp d) /\ text_safe (dcontent d)
  | MF f => fesc f = true /\ attr_safe (fname f) /\ attr_safe (ftype f) /\ text_safe (ffile f)
  end.
(** the same without cached data *)
Definition stored (m : meas) : meas := match m with MD d => MD (DeleteContentAsData d) | MF f => MF f end.

Definition attrs_of (m : meas) : list (str * str) :=
  match m with
  | MD d => [($"name", dname d); ($"type", type_of (dcls d))] ++
            (if eqs (denc d) default_enc then [] else [($"encoding", denc d)]) ++
            (if eqs (dcomp d) default_comp then [] else [($"compression", dcomp d)])
  | MF f => [($"name", fname f); ($"type", ftype f)]
  end.
Definition events_of (m : meas) : list event :=
  EStart (melem m) (attrs_of m) :: map (fun c => EData [c]) (mcontent m) ++ [EEnd (melem m)].

Definition add_attrs (al : list (str * str)) : str := flat_map (fun p => " "%char :: quoted (fst p) (snd p)) al.
Lemma start_tag_attrs m : PrintStartTag m = "<"%char :: melem m ++ add_attrs (attrs_of m) ++ [">"%char].
Proof.
  destruct m as [d|f].
  - cbn [PrintStartTag melem attrs_of]. unfold add_attrs. rewrite !flat_map_app.
    destruct (eqs (denc d) default_enc), (eqs (dcomp d) default_comp); cbn [flat_map fst snd app];
      rewrite ?app_nil_r, <- ?app_assoc; cbn [app lit list_ascii_of_string]; rewrite <- ?app_assoc; reflexivity.
  - cbn [PrintStartTag melem attrs_of]. unfold add_attrs. cbn [flat_map fst snd app]. rewrite app_nil_r, <- ?app_assoc.
    cbn [app lit list_ascii_of_string]. rewrite <- ?app_assoc. reflexivity.
Qed.

Lemma type_of_safe c : attr_safe (type_of c).
Proof. destruct c; reflexivity. Qed.

Lemma feed_attrs os t n al : forall al0 m, in_tag n al0 m ->
  Forall (fun p => is_name (fst p) /\ attr_safe (snd p)) al ->
  (forall i k v, nth_error al i = Some (k, v) -> has_attr k (al0 ++ firstn i al) = false) ->
  exists m', in_tag n (al0 ++ al) m' /\ feed (PState m os t) (add_attrs al) = (PState m' os t, []).
Proof.
  induction al as [|[k v] al IH]; intros al0 m Hm Hf Hd.
  - exists m. rewrite app_nil_r. split; [exact Hm|reflexivity].
  - inversion Hf as [|? ? [H1 H2] H3]; subst. cbn [fst snd] in H1, H2.
    assert (Ha : has_attr k al0 = false).
    { specialize (Hd 0 k v eq_refl). cbn [firstn] in Hd. rewrite app_nil_r in Hd. exact Hd. }
    unfold add_attrs. cbn [flat_map fst snd]. fold (add_attrs al).
    rewrite (feed_step _ _ _ _ _ (feed_attr os t n al0 m k v Hm H1 H2 Ha)).
    destruct (IH (al0 ++ [(k, v)]) (MTag n (al0 ++ [(k, v)]) false)) as (m' & T & E).
    + right. reflexivity.
    + exact H3.
    + intros i k' v' Hi. specialize (Hd (S i) k' v' Hi). cbn [firstn] in Hd. rewrite <- app_assoc. exact Hd.
    + exists m'. rewrite <- app_assoc in T. split; [exact T|]. rewrite E. reflexivity.
Qed.

Lemma attrs_of_ok m : storable m ->
  Forall (fun p => is_name (fst p) /\ attr_safe (snd p)) (attrs_of m) /\
  (forall i k v, nth_error (attrs_of m) i = Some (k, v) -> has_attr k ([] ++ firstn i (attrs_of m)) = false).
Proof.
  intros H. destruct m as [d|f]; cbn [attrs_of storable] in *.
  - destruct H as (_ & H1 & H2 & H3 & _). split.
    + apply Forall_app. split; [repeat constructor; cbn [fst snd]; auto using type_of_safe|].
      apply Forall_app. destruct (eqs (denc d) default_enc), (eqs (dcomp d) default_comp); split; repeat constructor; auto.
    + destruct (eqs (denc d) default_enc), (eqs (dcomp d) default_comp); cbn [app];
        intros [|[|[|[|[|i]]]]] k v Hi; cbn [nth_error] in Hi; try discriminate Hi; injection Hi as <- <-; reflexivity.
  - destruct H as (_ & H1 & H2 & _). split; [repeat constructor; auto|].
    intros [|[|[|i]]] k v Hi; cbn [nth_error] in Hi; try discriminate Hi; injection Hi as <- <-; reflexivity.
Qed.
Lemma melem_name m : is_name (melem m).
Proof. destruct m; cbn; auto. Qed.
Lemma storable_text m : storable m -> mesc m = true /\ text_safe (mcontent m).
Proof. destruct m; cbn; tauto. Qed.

Lemma feed_meas b o os m : storable m ->
  feed (PState (MText b false) (o :: os) true) (print_of m) = (PState stext (o :: os) true, events_of m).
Proof.
  intros H. unfold print_of. rewrite start_tag_attrs. destruct (storable_text m H) as [H1 H2]. rewrite H1.
  change ("<"%char :: melem m ++ add_attrs (attrs_of m) ++ [">"%char]) with (("<"%char :: melem m) ++ add_attrs (attrs_of m) ++ [">"%char]).
  rewrite <- !app_assoc.
  assert (F : feed (PState (MText b false) (o :: os) true) ("<"%char :: melem m) = (PState (MName (melem m)) (o :: os) true, [])).
  { apply feed_open; [apply melem_name|left; discriminate]. }
  rewrite (feed_step _ _ _ _ _ F).
  destruct (attrs_of_ok m H) as [A1 A2].
  destruct (feed_attrs (o :: os) true (melem m) (attrs_of m) [] (MName (melem m)) (or_introl (conj eq_refl eq_refl)) A1 A2) as (m' & T & E).
  rewrite (feed_step _ _ _ _ _ E). cbn [app] in T.
  rewrite (feed_step _ _ _ _ _ (feed_gt (o :: os) true (melem m) (attrs_of m) m' T)).
  destruct (feed_text (melem m) (o :: os) true (mcontent m) 0 H2) as [b' E2]. fold stext in E2.
  rewrite (feed_step _ _ _ _ _ E2).
  change ($"</" ++ melem m ++ $">") with ("<"%char :: "/"%char :: melem m ++ [">"%char]).
  rewrite (feed_end b' false (o :: os) true (melem m) (melem_name m)). reflexivity.
Qed.

(** * The handlers on the events of one measurement *)
Lemma on_datas (asserts : bool) d m l s : forall t, on_events asserts (PD 2 t m l) (map (fun c => EData [c]) s ++ d)
  = on_events asserts (PD 2 (t ++ s) m l) d.
Proof.
  induction s as [|c s IH]; intros t; cbn [map app on_events on_event bind].
  - rewrite app_nil_r. reflexivity.
  - unfold on_data. cbn [pdepth Nat.eqb]. rewrite IH, <- app_assoc. reflexivity.
Qed.
Lemma start_of m : storable m -> exists m0, start_measurement (melem m) (attrs_of m) = Ok (Some m0) /\
  mset_content m0 (mcontent m) = stored m.
Proof.
  intros H. destruct m as [d|f]; cbn [storable] in H.
  - destruct H as (H0 & _). destruct d as [nm es cl en co ct da]. cbn in H0. subst es.
    unfold start_measurement. cbn [melem attrs_of denc dcomp dname dcls]. change (eqs data_elem data_elem) with true. cbv iota.
    assert (E : find_type ([($"name", nm); ($"type", type_of cl)] ++
            (if eqs en default_enc then [] else [($"encoding", en)]) ++
            (if eqs co default_comp then [] else [($"compression", co)])) None = Some (new_dm cl)).
    { assert (C : CreateDataMeasurement (type_of cl) = Some cl) by (apply create_some; reflexivity).
      destruct (eqs en default_enc), (eqs co default_comp); cbn -[CreateDataMeasurement]; rewrite C; reflexivity. }
    rewrite E. destruct (eqs_spec en default_enc) as [->|N1], (eqs_spec co default_comp) as [->|N2];
      eexists; (split; [reflexivity|reflexivity]).
  - destruct H as (H0 & _). destruct f as [nm es ty fi]. cbn in H0. subst es.
    unfold start_measurement. cbn [melem attrs_of]. change (eqs file_elem data_elem) with false. change (eqs file_elem file_elem) with true.
    cbv iota. eexists. split; reflexivity.
Qed.
Lemma on_meas (asserts : bool) m l : storable m -> on_events asserts (PD 1 [] None l) (events_of m) = Ok (PD 1 [] None (l ++ [stored m])).
Proof.
  intros H. destruct (start_of m H) as (m0 & E & C). unfold events_of. cbn [on_events on_event].
  unfold on_start. cbn [pm ptext pdepth plist length Nat.eqb negb]. rewrite !andb_false_r.
  replace (eqs (melem m) data_elem || eqs (melem m) file_elem) with true by (destruct m; reflexivity).
  rewrite E. cbn [bind]. rewrite on_datas. cbn [app on_events on_event bind on_end pdepth pm plist ptext pred Nat.eqb].
  unfold on_end. cbn [pdepth pm plist ptext pred Nat.eqb]. rewrite C. reflexivity.
Qed.

(** * Documents *)
Definition lines_of (ms : list meas) : str := flat_map (fun m => print_of m ++ [nl]) ms.
Definition line_events (ms : list meas) : list event := flat_map (fun m => events_of m ++ [EData [nl]]) ms.
Lemma feed_lines o os ms : forall b, Forall storable ms ->
  exists b', feed (PState (MText b false) (o :: os) true) (lines_of ms) = (PState (MText b' false) (o :: os) true, line_events ms).
Proof.
  induction ms as [|m ms IH]; intros b H; [exists b; reflexivity|]. inversion H as [|? ? H1 H2]; subst.
  unfold lines_of, line_events. cbn [flat_map]. fold (lines_of ms). fold (line_events ms).
  rewrite <- app_assoc. rewrite (feed_step _ _ _ _ _ (feed_meas b o os m H1)).
  assert (E : feed (PState stext (o :: os) true) [nl] = (PState stext (o :: os) true, [EData [nl]])) by reflexivity.
  rewrite (feed_step _ _ _ _ _ E). destruct (IH 0 H2) as [b' E2]. fold stext in E2. exists b'. rewrite E2.
  rewrite <- app_assoc. reflexivity.
Qed.
Lemma on_lines (asserts : bool) ms : forall l, Forall storable ms ->
  on_events asserts (PD 1 [] None l) (line_events ms) = Ok (PD 1 [] None (l ++ map stored ms)).
Proof.
  induction ms as [|m ms IH]; intros l H; [cbn; rewrite app_nil_r; reflexivity|]. inversion H as [|? ? H1 H2]; subst.
  unfold line_events. cbn [flat_map]. fold (line_events ms). rewrite on_events_app, on_events_app, on_meas by exact H1.
  cbn [bind on_events on_event]. change (on_data (PD 1 [] None (l ++ [stored m])) [nl]) with (PD 1 [] None (l ++ [stored m])).
  rewrite IH by exact H2. rewrite <- app_assoc. reflexivity.
Qed.

(** bytes *)
Definition sup (c : ascii) : bool := (0 <? code c) && (code c <? 128).
Lemma sup_app a b : supported_bytes (a ++ b) = supported_bytes a && supported_bytes b.
Proof. unfold supported_bytes. apply forallb_app. Qed.
Lemma sup_attr s : attr_safe s -> supported_bytes s = true.
Proof.
  unfold attr_safe, supported_bytes. rewrite !forallb_forall. intros H c Hc. apply attr_char_step. auto.
Qed.
Lemma sup_esc s : text_safe s -> supported_bytes (flat_map esc1 s) = true.
Proof.
  induction s as [|c s IH]; intros H; [reflexivity|]. unfold text_safe in H. cbn [forallb] in H. apply andb_true_iff in H. destruct H as [H1 H2].
  cbn [flat_map]. rewrite sup_app, IH by exact H2. rewrite andb_true_r. unfold esc1.
  destruct (eqc c "&"); [reflexivity|]. destruct (eqc c "<"); [reflexivity|]. destruct (eqc c ">"); [reflexivity|].
  unfold supported_bytes. cbn [forallb]. destruct (text_char_step c H1) as (_ & _ & E). rewrite E. reflexivity.
Qed.
Lemma sup_name n : is_name n -> supported_bytes n = true.
Proof.
  destruct n as [|c n]; [intros []|]. intros [H1 H2]. destruct (name_start_step c H1) as (X & _).
  unfold supported_bytes. apply forallb_forall. intros d [->|Hd]; [apply name_char_step; exact X|].
  rewrite forallb_forall in H2. apply name_char_step. auto.
Qed.
Lemma sup_meas m : storable m -> supported_bytes (print_of m) = true.
Proof.
  intros H. unfold print_of. rewrite start_tag_attrs. destruct (storable_text m H) as [H1 H2]. rewrite H1.
  change ("<"%char :: melem m ++ add_attrs (attrs_of m) ++ [">"%char]) with ($"<" ++ melem m ++ add_attrs (attrs_of m) ++ $">").
  rewrite !sup_app, (sup_name _ (melem_name m)), sup_esc by exact H2.
  destruct (attrs_of_ok m H) as [A _].
  assert (E : supported_bytes (add_attrs (attrs_of m)) = true).
  { induction A as [|[k v] al [K V] A IH]; [reflexivity|]. unfold add_attrs. cbn [flat_map fst snd]. fold (add_attrs al).
    change (" "%char :: quoted k v) with ($" " ++ k ++ $"=" ++ [chr 34] ++ v ++ [chr 34]).
    cbn [fst snd] in K, V. rewrite !sup_app, IH, (sup_name k K), (sup_attr v V). reflexivity. }
  rewrite E. reflexivity.
Qed.
Lemma sup_lines ms : Forall storable ms -> supported_bytes (lines_of ms) = true.
Proof.
  induction 1 as [|m ms H _ IH]; [reflexivity|]. unfold lines_of. cbn [flat_map]. fold (lines_of ms).
  rewrite !sup_app, sup_meas, IH by exact H. reflexivity.
Qed.

(** A prefix before the document element: nothing, or declaration and comment (see RegModel.header). *)
Lemma read_back (asserts : bool) ext pre pre' ms :
  Forall storable ms -> supported_bytes pre = true ->
  (forall r, strip_prefix xml_decl (pre ++ $"<output>" ++ r) = Some (pre' ++ $"<output>" ++ r) \/
             pre' = pre /\ strip_prefix xml_decl (pre ++ $"<output>" ++ r) = None) ->
  feed pinit pre' = (pinit, []) ->
  ReadXMLInput asserts ext (pre ++ $"<output>" ++ [nl] ++ lines_of ms ++ $"</output>" ++ [nl]) = Ok (map stored ms).
Proof.
  intros H Hs Hp Hf. rewrite read_spec. unfold expat.
  rewrite !sup_app, Hs, sup_lines by exact H.
  change (supported_bytes ($"<output>")) with true. change (supported_bytes [nl]) with true. change (supported_bytes ($"</output>")) with true.
  cbn [andb].
  assert (E : (match strip_prefix xml_decl (pre ++ $"<output>" ++ [nl] ++ lines_of ms ++ $"</output>" ++ [nl]) with
               | Some r => r | None => pre ++ $"<output>" ++ [nl] ++ lines_of ms ++ $"</output>" ++ [nl] end)
              = pre' ++ $"<output>" ++ [nl] ++ lines_of ms ++ $"</output>" ++ [nl]).
  { destruct (Hp ([nl] ++ lines_of ms ++ $"</output>" ++ [nl])) as [-> | [-> ->]]; reflexivity. }
  rewrite E. rewrite (feed_step _ _ _ _ _ Hf).
  assert (E1 : feed pinit ($"<output>" ++ [nl]) = (PState stext [$"output"] true, [EStart ($"output") []; EData [nl]])) by reflexivity.
  rewrite (app_assoc ($"<output>")), (feed_step _ _ _ _ _ E1).
  destruct (feed_lines ($"output") [] ms 0 H) as [b E2]. fold stext in E2. rewrite (feed_step _ _ _ _ _ E2).
  assert (E3 : feed (PState (MText b false) [$"output"] true) ($"</output>" ++ [nl]) = (PState stext [] true, [EEnd ($"output")])).
  { reflexivity. }
  rewrite E3. cbn [app pmode complete popen proot].
  assert (E4 : on_events asserts pd0 [EStart ($"output") []; EData [nl]] = Ok (PD 1 [] None [])).
  { destruct asserts; reflexivity. }
  change (EStart ($"output") [] :: EData [nl] :: line_events ms ++ [EEnd ($"output")])
    with ([EStart ($"output") []; EData [nl]] ++ line_events ms ++ [EEnd ($"output")]).
  unfold stext at 1. cbv iota beta. rewrite on_events_app, E4. cbn [bind]. rewrite on_events_app, on_lines by exact H.
  cbn [bind on_events on_event app]. unfold on_end. cbn [pm plist pdepth Nat.eqb negb]. rewrite andb_false_r. rewrite app_nil_r. reflexivity.
Qed.

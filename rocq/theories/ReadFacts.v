(** Facts about the XML machine and the reader. *)
From Verif Require Import Base Str XmlText MeasModel MeasFacts XmlModel ReadModel.

(** * The machine *)
Lemma feed_app st a b :
  feed st (a ++ b) = let '(st1, e1) := feed st a in let '(st2, e2) := feed st1 b in (st2, e1 ++ e2).
Proof.
  revert st. induction a as [|c a IH]; intros st; cbn [app feed].
  - destruct (feed st b). reflexivity.
  - destruct (step st c) as [st1 e1]. rewrite IH. destruct (feed st1 a) as [st2 e2]. destruct (feed st2 b) as [st3 e3].
    rewrite app_assoc. reflexivity.
Qed.
Lemma feed_step st a b st1 e1 : feed st a = (st1, e1) ->
  feed st (a ++ b) = let '(st2, e2) := feed st1 b in (st2, e1 ++ e2).
Proof. intros H. rewrite feed_app, H. reflexivity. Qed.

(** Characters that survive in an attribute value written by the framework. *)
Definition attr_char (c : ascii) : bool :=
  (32 <=? code c) && (code c <? 128) && negb (eqc c dquote) && negb (eqc c "&") && negb (eqc c "<").
Definition attr_safe (s : str) : Prop := forallb attr_char s = true.
(** Characters that survive as character data. *)
Definition text_char (c : ascii) : bool := ((32 <=? code c) || (code c =? 9) || (code c =? 10)) && (code c <? 128).
Definition text_safe (s : str) : Prop := forallb text_char s = true.

Lemma attr_char_step c : attr_char c = true ->
  xml_char c = true /\ eqc c dquote = false /\ eqc c "<" = false /\ eqc c "&" = false /\ eqc c nl = false /\
  (if is_xspace c then [" "%char] else [c]) = [c] /\ (code c =? 13) = false /\ (0 <? code c) && (code c <? 128) = true.
Proof.
  intros H.
  assert (S : forall c, negb (attr_char c) ||
     (xml_char c && negb (eqc c dquote) && negb (eqc c "<") && negb (eqc c "&") && negb (eqc c nl) &&
      eqs (if is_xspace c then [" "%char] else [c]) [c] && negb (code c =? 13) && ((0 <? code c) && (code c <? 128))) = true)
    by (apply byte_sweep; vm_compute; reflexivity).
  specialize (S c). rewrite H in S. cbn [negb orb] in S. rewrite !andb_true_iff, !negb_true_iff, eqs_true in S.
  rewrite !andb_true_iff. tauto.
Qed.
Lemma text_char_step c : text_char c = true ->
  xml_char c = true /\ (code c =? 13) = false /\ (0 <? code c) && (code c <? 128) = true.
Proof.
  intros H.
  assert (S : forall c, negb (text_char c) ||
     (xml_char c && negb (code c =? 13) && ((0 <? code c) && (code c <? 128))) = true)
    by (apply byte_sweep; vm_compute; reflexivity).
  specialize (S c). rewrite H in S. cbn [negb orb] in S. rewrite !andb_true_iff, !negb_true_iff in S.
  rewrite !andb_true_iff. tauto.
Qed.

Lemma feed_val os t n al a w : forall v, attr_safe w ->
  feed (PState (MVal n al a dquote v false) os t) w = (PState (MVal n al a dquote (v ++ w) false) os t, []).
Proof.
  induction w as [|c w IH]; intros v H.
  - rewrite app_nil_r. reflexivity.
  - unfold attr_safe in H. cbn [forallb] in H. apply andb_true_iff in H. destruct H as [H1 H2].
    destruct (attr_char_step c H1) as (X1 & X2 & X3 & X4 & X5 & X6 & X7 & X8).
    cbn [feed]. unfold step. cbn [pmode]. rewrite X1, X2, X3, X4, X5. cbn [negb andb]. rewrite X7. unfold go. cbn [popen proot].
    assert (E : (if is_xspace c then (PState (MVal n al a dquote (v ++ [" "%char]) false) os t, @nil event)
                 else (PState (MVal n al a dquote (v ++ [c]) false) os t, []))
                = (PState (MVal n al a dquote (v ++ [c]) false) os t, [])).
    { destruct (is_xspace c); [injection X6 as <-|]; reflexivity. }
    rewrite E, IH by exact H2. rewrite <- app_assoc. reflexivity.
Qed.

Definition is_name (n : str) : Prop :=
  match n with [] => False | c :: r => name_start c = true /\ forallb name_char r = true end.
Lemma name_char_step c : name_char c = true ->
  (0 <? code c) && (code c <? 128) = true /\ is_xspace c = false /\ eqc c "=" = false /\ eqc c ">" = false /\ eqc c "/" = false.
Proof.
  intros H.
  assert (S : forall c, negb (name_char c) ||
     ((0 <? code c) && (code c <? 128) && negb (is_xspace c) && negb (eqc c "=") && negb (eqc c ">") && negb (eqc c "/")) = true)
    by (apply byte_sweep; vm_compute; reflexivity).
  specialize (S c). rewrite H in S. cbn [negb orb] in S. rewrite !andb_true_iff, !negb_true_iff in S.
  rewrite !andb_true_iff. tauto.
Qed.
Lemma name_start_step c : name_start c = true ->
  name_char c = true /\ eqc c "?" = false /\ eqc c "!" = false /\ eqc c "/" = false.
Proof.
  intros H.
  assert (S : forall c, negb (name_start c) ||
     (name_char c && negb (eqc c "?") && negb (eqc c "!") && negb (eqc c "/")) = true)
    by (apply byte_sweep; vm_compute; reflexivity).
  specialize (S c). rewrite H in S. cbn [negb orb] in S. rewrite !andb_true_iff, !negb_true_iff in S. tauto.
Qed.
Lemma feed_mname os t w : forall n, forallb name_char w = true ->
  feed (PState (MName n) os t) w = (PState (MName (n ++ w)) os t, []).
Proof.
  induction w as [|c w IH]; intros n H; [rewrite app_nil_r; reflexivity|].
  cbn [forallb] in H. apply andb_true_iff in H. destruct H as [H1 H2]. cbn [feed]. unfold step. cbn [pmode].
  rewrite H1. unfold go. cbn [popen proot]. rewrite IH by exact H2. rewrite <- app_assoc. reflexivity.
Qed.
Lemma feed_matt os t n al w : forall a, forallb name_char w = true ->
  feed (PState (MAtt n al a) os t) w = (PState (MAtt n al (a ++ w)) os t, []).
Proof.
  induction w as [|c w IH]; intros a H; [rewrite app_nil_r; reflexivity|].
  cbn [forallb] in H. apply andb_true_iff in H. destruct H as [H1 H2]. cbn [feed]. unfold step. cbn [pmode].
  rewrite H1. unfold go. cbn [popen proot]. rewrite IH by exact H2. rewrite <- app_assoc. reflexivity.
Qed.
Lemma feed_mclose os t w : forall n, n <> [] -> forallb name_char w = true ->
  feed (PState (MClose n) os t) w = (PState (MClose (n ++ w)) os t, []).
Proof.
  induction w as [|c w IH]; intros n Hn H; [rewrite app_nil_r; reflexivity|].
  cbn [forallb] in H. apply andb_true_iff in H. destruct H as [H1 H2]. cbn [feed]. unfold step. cbn [pmode].
  destruct n as [|x n]; [contradiction|]. rewrite H1. unfold go. cbn [popen proot]. rewrite IH by (try discriminate; exact H2).
  rewrite <- app_assoc. reflexivity.
Qed.

(** "<" and the name of an element, inside another element or as document element *)
Lemma feed_open b cr os t n : is_name n -> os <> [] \/ t = false ->
  feed (PState (MText b cr) os t) ("<"%char :: n) = (PState (MName n) os t, []).
Proof.
  intros Hn Ho. destruct n as [|c n]; [destruct Hn|]. destruct Hn as [H1 H2].
  destruct (name_start_step c H1) as (X1 & X2 & X3 & X4).
  cbn [feed]. unfold step at 1. cbn [pmode]. change (xml_char "<") with true. cbn [negb]. rewrite eqc_refl. unfold go at 1. cbn [popen proot].
  unfold step. cbn [pmode popen proot]. rewrite X2, X3, X4, H1.
  assert (E : negb (match os with [] => t | _ => false end) = true) by (destruct os; [destruct Ho as [Ho|Ho]; [contradiction|rewrite Ho]|]; reflexivity).
  rewrite E. cbn [andb]. unfold go. cbn [popen proot]. rewrite feed_mname by exact H2. reflexivity.
Qed.

(** one attribute, from a state in which white space makes an attribute possible *)
Definition in_tag (n : str) (al : list (str * str)) (m : mode) : Prop :=
  (m = MName n /\ al = []) \/ m = MTag n al false.
Lemma feed_attr os t n al m k v : in_tag n al m -> is_name k -> attr_safe v -> has_attr k al = false ->
  feed (PState m os t) (" "%char :: quoted k v) = (PState (MTag n (al ++ [(k, v)]) false) os t, []).
Proof.
  intros Hm Hk Hv Ha. cbn [feed].
  assert (E : step (PState m os t) " " = (PState (MTag n al true) os t, [])).
  { destruct Hm as [[-> ->]| ->]; reflexivity. }
  rewrite E. cbv iota beta. destruct k as [|c k]; [destruct Hk|]. destruct Hk as [H1 H2].
  destruct (name_start_step c H1) as (X1 & X2 & X3 & X4). destruct (name_char_step c X1) as (Y1 & Y2 & Y3 & Y4 & Y5).
  unfold quoted. cbn [app feed]. unfold step at 1. cbn [pmode]. rewrite Y2, Y4, Y5, H1. unfold go at 1. cbn [andb popen proot].
  rewrite (feed_step _ k _ _ _ (feed_matt os t n al k [c] H2)).
  cbn [lit list_ascii_of_string app feed]. unfold step at 1. cbn [pmode]. change (name_char "=") with false.
  change (is_xspace "=") with false. rewrite eqc_refl. unfold go at 1. cbn [popen proot].
  unfold step at 1. cbn [pmode]. change (is_xspace (chr 34)) with false. change (eqc (chr 34) dquote) with true. unfold go at 1. cbn [orb popen proot].
  change (chr 34) with dquote. change ([c] ++ k) with (c :: k). unfold go at 1. cbn [popen proot].
  rewrite (feed_step _ v _ _ _ (feed_val os t n al (c :: k) v [] Hv)).
  cbn [feed]. unfold step. cbn [pmode]. change (xml_char dquote) with true. rewrite eqc_refl. cbn [negb]. rewrite Ha. unfold go. reflexivity.
Qed.
Lemma feed_gt os t n al m : in_tag n al m ->
  feed (PState m os t) [">"%char] = (PState stext (n :: os) true, [EStart n al]).
Proof. intros [[-> ->]| ->]; reflexivity. Qed.

Lemma feed_end b cr os t n : is_name n ->
  feed (PState (MText b cr) (n :: os) t) ("<"%char :: "/"%char :: n ++ [">"%char]) = (PState stext os t, [EEnd n]).
Proof.
  intros Hn. destruct n as [|c n]; [destruct Hn|]. destruct Hn as [H1 H2].
  destruct (name_start_step c H1) as (X1 & X2 & X3 & X4).
  cbn [app feed]. unfold step at 1. cbn [pmode]. change (xml_char "<") with true. cbn [negb]. rewrite eqc_refl. unfold go at 1. cbn [popen proot].
  unfold step at 1. cbn [pmode popen proot]. change (eqc "/" "?") with false. change (eqc "/" "!") with false. rewrite eqc_refl.
  unfold go at 1. cbn [popen proot]. unfold step at 1. cbn [pmode popen proot]. rewrite H1. unfold go at 1. cbn [app popen proot].
  rewrite (feed_step _ n _ _ _ (feed_mclose _ t n [c] ltac:(discriminate) H2)).
  cbn [app feed]. unfold step. cbn [pmode]. change (name_char ">") with false. change (is_xspace ">") with false. rewrite eqc_refl.
  unfold close_elem. cbn [popen proot]. rewrite eqs_refl. reflexivity.
Qed.

Lemma feed_esc1 b o os t c : text_char c = true ->
  exists b', feed (PState (MText b false) (o :: os) t) (esc1 c) = (PState (MText b' false) (o :: os) t, [EData [c]]).
Proof.
  intros H. destruct (text_char_step c H) as (X1 & X2 & _). unfold esc1.
  destruct (eqc_spec c "&") as [->|N1]; [eexists; reflexivity|].
  destruct (eqc_spec c "<") as [->|N2]; [eexists; reflexivity|].
  destruct (eqc_spec c ">") as [->|N3]; [eexists; reflexivity|].
  apply eqc_false in N1, N2, N3.
  cbn [feed]. unfold step. cbn [pmode popen]. rewrite X1, N1, N2, N3, X2. cbn [negb andb]. rewrite andb_false_r. eexists. reflexivity.
Qed.
Lemma feed_text o os t s : forall b, text_safe s ->
  exists b', feed (PState (MText b false) (o :: os) t) (flat_map esc1 s) = (PState (MText b' false) (o :: os) t, map (fun c => EData [c]) s).
Proof.
  induction s as [|c s IH]; intros b H; [exists b; reflexivity|]. unfold text_safe in H. cbn [forallb] in H.
  apply andb_true_iff in H. destruct H as [H1 H2]. cbn [flat_map map].
  destruct (feed_esc1 b o os t c H1) as [b1 E1]. destruct (IH b1 H2) as [b2 E2]. exists b2.
  rewrite (feed_step _ _ _ _ _ E1), E2. reflexivity.
Qed.

(** * Chunking of text *)
Fixpoint coalesce (evs : list event) : list event :=
  match evs with
  | [] => []
  | EData s :: r =>
      match coalesce r with
      | EData t :: r' => EData (s ++ t) :: r'
      | r' => match s with [] => r' | _ => EData s :: r' end
      end
  | e :: r => e :: coalesce r
  end.
Lemma on_data_app p s t : on_data (on_data p s) t = on_data p (s ++ t).
Proof.
  unfold on_data. destruct (pdepth p =? 2) eqn:E; [|rewrite E; reflexivity]. cbn [pdepth]. rewrite E.
  cbn [ptext pm plist]. rewrite app_assoc. reflexivity.
Qed.
Lemma on_data_nil p : on_data p [] = p.
Proof. unfold on_data. destruct (pdepth p =? 2); [|reflexivity]. rewrite app_nil_r. destruct p; reflexivity. Qed.
Lemma on_events_app (asserts : bool) a b : forall p, on_events asserts p (a ++ b) = (p' <-- on_events asserts p a ;; on_events asserts p' b).
Proof.
  induction a as [|e a IH]; intros p; [reflexivity|]. cbn [app on_events]. destruct (on_event asserts p e); cbn [bind]; auto.
Qed.
Lemma coalesce_sound (asserts : bool) evs : forall p, on_events asserts p (coalesce evs) = on_events asserts p evs.
Proof.
  induction evs as [|e evs IH]; intros p; [reflexivity|]. destruct e as [n al|n|s]; cbn [coalesce].
  - cbn [on_events]. destruct (on_event asserts p (EStart n al)); cbn [bind]; auto.
  - cbn [on_events on_event bind]. apply IH.
  - cbn [on_events on_event bind]. rewrite <- (IH (on_data p s)).
    destruct (coalesce evs) as [|e r].
    + destruct s; [rewrite on_data_nil|]; reflexivity.
    + destruct e as [n al|n|t].
      * destruct s; [rewrite on_data_nil|]; reflexivity.
      * destruct s; [rewrite on_data_nil|]; reflexivity.
      * cbn [on_events on_event bind]. rewrite on_data_app. reflexivity.
Qed.

(** * Buffers *)
Lemma buffers_spec n : forall rest size fuel, length rest < BUFFSIZE * S n -> BUFFSIZE * n <= length rest ->
  n < fuel -> size mod BUFFSIZE = length rest mod BUFFSIZE ->
  exists full lastb, buffers fuel size rest = Ok (map (fun b => (b, false)) full ++ [(lastb, true)]) /\
    concat full ++ lastb = rest /\ Forall (fun b => length b = BUFFSIZE) full /\ length lastb < BUFFSIZE.
Proof.
  assert (BP : 0 < BUFFSIZE) by (unfold BUFFSIZE; clear; lia).
  induction n as [|n IH]; intros rest size fuel H1 H2 H3 H4; (destruct fuel as [|fuel]; [lia|]); cbn [buffers].
  - exists [], rest. assert (L : length rest < BUFFSIZE) by lia.
    rewrite (firstn_all2 rest) by lia. replace (length rest <? BUFFSIZE) with true by (symmetry; apply Nat.ltb_lt; exact L).
    rewrite H4, Nat.mod_small by exact L. rewrite Nat.ltb_irrefl, firstn_all. cbn [map app concat]. repeat split; auto.
  - assert (L : length (firstn BUFFSIZE rest) = BUFFSIZE) by (rewrite firstn_length_le; [reflexivity|lia]).
    rewrite L, Nat.ltb_irrefl, Nat.ltb_irrefl. rewrite firstn_firstn, Nat.min_id.
    destruct (IH (skipn BUFFSIZE rest) size fuel) as (full & lastb & E & C & F & Z).
    + rewrite skipn_length. lia.
    + rewrite skipn_length. lia.
    + lia.
    + rewrite skipn_length, H4. assert (K : length rest = length rest - BUFFSIZE + 1 * BUFFSIZE) by lia.
      rewrite K at 1. apply Nat.mod_add. lia.
    + rewrite E. cbn [bind]. exists (firstn BUFFSIZE rest :: full), lastb. split; [reflexivity|].
      split; [|split; [constructor; assumption|assumption]]. cbn [concat]. rewrite <- app_assoc, C. apply firstn_skipn.
Qed.
Lemma buffers_file file : exists full lastb,
  buffers (S (length file)) (length file) file = Ok (map (fun b => (b, false)) full ++ [(lastb, true)]) /\
    concat full ++ lastb = file /\ Forall (fun b => length b = BUFFSIZE) full /\ length lastb < BUFFSIZE.
Proof.
  assert (BP : BUFFSIZE <> 0) by (unfold BUFFSIZE; clear; lia).
  pose proof (Nat.div_mod (length file) BUFFSIZE BP). pose proof (Nat.mod_upper_bound (length file) BUFFSIZE BP).
  assert (length file / BUFFSIZE <= length file) by (apply Nat.div_le_upper_bound; [exact BP|]; unfold BUFFSIZE; clear; lia).
  apply (buffers_spec (length file / BUFFSIZE)); lia.
Qed.
Lemma concat_map_fst full (lastb : str) : concat (map fst (map (fun b : str => (b, false)) full ++ [(lastb, true)])) = concat full ++ lastb.
Proof. rewrite map_app, map_map, concat_app. cbn [map fst concat]. rewrite map_id, app_nil_r. reflexivity. Qed.
Lemma read_spec (asserts : bool) ext file : ReadXMLInput asserts ext file =
  (let '(evs, ok) := expat ext file in
   p <-- on_events asserts pd0 evs ;;
   if asserts && negb (match pm p with None => true | _ => false end) then Abort
   else if ok then Ok (plist p) else Throw ExnRuntime).
Proof.
  unfold ReadXMLInput. destruct (buffers_file file) as (full & lastb & E & C & _). rewrite E. cbn [bind].
  rewrite concat_map_fst, C. reflexivity.
Qed.

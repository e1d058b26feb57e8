(** What the reader of baselines says about a document. *)
From Coq Require Import Floats.SpecFloat.
From Verif Require Import Base Str XmlText MeasModel XmlModel ReadModel ReadFacts ReadBack ElemProps HeapFacts HeapXml ErrModel ErrSpec.

(** * The messages depend on the depth only *)
Fixpoint says_from (d : nat) (evs : list event) : list msg :=
  match evs with
  | [] => []
  | EStart n al :: evs' => start_says d n al ++ says_from (S d) evs'
  | EEnd _ :: evs' => says_from (pred d) evs'
  | EData _ :: evs' => says_from d evs'
  end.
Lemma on_event_depth asserts p ev p' : on_event asserts p ev = Ok p' -> pdepth p' = depth_after [ev] (pdepth p).
Proof. intros E. apply (on_events_depth asserts [ev] p p'). cbn [on_events]. rewrite E. reflexivity. Qed.
Lemma events_say_from asserts : forall evs p p', on_events asserts p evs = Ok p' -> events_say asserts p evs = says_from (pdepth p) evs.
Proof.
  induction evs as [|ev evs IH]; intros p p' E; [reflexivity|]. cbn [on_events events_say] in *. destruct (on_event asserts p ev) as [p1| | | |] eqn:E1; try discriminate E. cbn [bind] in E.
  rewrite (IH p1 p' E), (on_event_depth _ _ _ _ E1). destruct ev; reflexivity.
Qed.
Lemma says_app a : forall b d, says_from d (a ++ b) = says_from d a ++ says_from (depth_after a d) b.
Proof. induction a as [|[n al|n|s] a IH]; intros b d; cbn [app says_from depth_after]; [reflexivity|rewrite IH, app_assoc; reflexivity|apply IH|apply IH]. Qed.
Lemma read_says_spec asserts ext file evs ok p : expat ext file = (evs, ok) -> on_events asserts pd0 evs = Ok p -> read_says asserts ext file = says_from 0 evs ++ (if ok then [] else [ParseError]).
Proof.
  intros E Ep. unfold read_says. destruct (buffers_file file) as (full & lastb & B & C & _). rewrite B, concat_map_fst, C, E, Ep. rewrite (events_say_from _ _ _ _ Ep). reflexivity.
Qed.

(** * One start tag *)
Lemma unknown_class t : (forall c, t <> type_of c) <-> CreateDataMeasurement t = None.
Proof.
  unfold CreateDataMeasurement. split.
  - intros H. pose proof (H CPlain) as H1. pose proof (H CString) as H2. pose proof (H CInt) as H3. pose proof (H CFloat) as H4. pose proof (H CDouble) as H5. pose proof (H CBool) as H6. cbn [type_of] in *.
    repeat match goal with |- context [eqs t ?s] => destruct (eqs_spec t s); [contradiction|] end. reflexivity.
  - intros H c ->. destruct c; discriminate H.
Qed.
Lemma known_class t c : CreateDataMeasurement t = Some c <-> t = type_of c.
Proof.
  split; [|intros ->; destruct c; reflexivity]. unfold CreateDataMeasurement.
  repeat match goal with |- context [eqs t ?s] => destruct (eqs_spec t s) as [->|]; [intros H; injection H as <-; reflexivity|] end. discriminate.
Qed.
Lemma type_says_in al m : In m (type_says al) <-> exists t, m = UnknownType t /\ In ($"type", t) al /\ (forall c, t <> type_of c).
Proof.
  induction al as [|[k v] al IH]; cbn [type_says In]; [split; [intros []|intros (t & _ & [] & _)]|]. rewrite in_app_iff, IH. split.
  - intros [I|(t & A & B & C)]; [|exists t; auto]. destruct (eqs_spec k ($"type")) as [->|]; [|destruct I]. destruct (CreateDataMeasurement v) eqn:E; [destruct I|]. destruct I as [<-|[]]. exists v. split; [reflexivity|]. split; [left; reflexivity|apply unknown_class; exact E].
  - intros (t & -> & [B|B] & C); [|right; exists t; auto]. apply pair_equal_spec in B. destruct B as [-> ->]. left. rewrite eqs_refl. apply unknown_class in C. rewrite C. left. reflexivity.
Qed.
Lemma eqs_in k l : existsb (eqs k) l = true <-> In k l.
Proof. rewrite existsb_exists. split; [intros (x & I & E); apply eqs_true in E; subst; exact I|intros I; exists k; split; [exact I|apply eqs_refl]]. Qed.
Lemma attrs_say_in al m : In m (attrs_say al) <-> exists a v, m = UnknownAttribute a /\ In (a, v) al /\ ~ In a data_attributes.
Proof.
  induction al as [|[k v] al IH]; cbn [attrs_say In]; [split; [intros []|intros (a & v & _ & [] & _)]|]. rewrite in_app_iff, IH.
  assert (K : eqs k ($"name") || eqs k ($"type") || eqs k ($"encoding") || eqs k ($"compression") = existsb (eqs k) data_attributes) by (unfold data_attributes; cbn [existsb]; rewrite orb_false_r, !orb_assoc; reflexivity).
  rewrite K. destruct (existsb (eqs k) data_attributes) eqn:E.
  - apply eqs_in in E. split; [intros [[]|(a & w & A & B & C)]; exists a, w; auto|]. intros (a & w & A & [B|B] & C); [apply pair_equal_spec in B; destruct B as [-> ->]; contradiction|right; exists a, w; auto].
  - assert (N : ~ In k data_attributes) by (intros I; apply eqs_in in I; congruence). split.
    + intros [[<-|[]]|(a & w & A & B & C)]; [exists k, v; auto|exists a, w; auto].
    + intros (a & w & -> & [B|B] & C); [apply pair_equal_spec in B; destruct B as [-> ->]; left; left; reflexivity|right; exists a, w; auto].
Qed.
Lemma file_attrs_say_in al m : In m (file_attrs_say al) <-> exists a v, m = UnknownAttribute a /\ In (a, v) al /\ ~ In a file_attributes.
Proof.
  induction al as [|[k v] al IH]; cbn [file_attrs_say In]; [split; [intros []|intros (a & v & _ & [] & _)]|]. rewrite in_app_iff, IH.
  assert (K : eqs k ($"name") || eqs k ($"type") = existsb (eqs k) file_attributes) by (unfold file_attributes; cbn [existsb]; rewrite orb_false_r; reflexivity).
  rewrite K. destruct (existsb (eqs k) file_attributes) eqn:E.
  - apply eqs_in in E. split; [intros [[]|(a & w & A & B & C)]; exists a, w; auto|]. intros (a & w & A & [B|B] & C); [apply pair_equal_spec in B; destruct B as [-> ->]; contradiction|right; exists a, w; auto].
  - assert (N : ~ In k file_attributes) by (intros I; apply eqs_in in I; congruence). split.
    + intros [[<-|[]]|(a & w & A & B & C)]; [exists k, v; auto|exists a, w; auto].
    + intros (a & w & -> & [B|B] & C); [apply pair_equal_spec in B; destruct B as [-> ->]; left; left; reflexivity|right; exists a, w; auto].
Qed.
Lemma start_says_in d el al m : In m (start_says d el al) <-> complaint d el al m.
Proof.
  unfold start_says. destruct d as [|[|d]].
  - destruct (eqs_spec el ($"output")) as [->|N]; split; [intros []|intros H; inversion H; congruence|intros [<-|[]]; constructor; exact N|intros H; inversion H; left; congruence].
  - destruct (eqs_spec el data_elem) as [->|N].
    { rewrite in_app_iff, type_says_in, attrs_say_in. split.
      - intros [(t & -> & A & B)|(a & v & -> & A & B)]; econstructor; eassumption.
      - intros H. inversion H; subst; first [left; solve [eauto] | right; solve [eauto 6] | discriminate | match goal with H : ?a <> ?b |- _ => exfalso; apply H; reflexivity end]. }
    destruct (eqs_spec el file_elem) as [->|N'].
    { rewrite file_attrs_say_in. split; [intros (a & v & -> & A & B); econstructor; eassumption|]. intros H. inversion H; subst; first [solve [eauto 6] | discriminate | match goal with H : ?a <> ?b |- _ => exfalso; apply H; reflexivity end]. }
    split; [intros [<-|[]]; constructor; assumption|]. intros H. inversion H; subst; first [left; reflexivity | exfalso; match goal with H : ?a <> ?a' |- _ => apply H; reflexivity end].
  - split; [intros [<-|[]]; constructor|]. intros H. inversion H. left. reflexivity.
Qed.
Lemma says_from_in : forall evs d m, In m (says_from d evs) <-> exists pre el al post, evs = pre ++ EStart el al :: post /\ complaint (depth_after pre d) el al m.
Proof.
  induction evs as [|ev evs IH]; intros d m; [split; [intros []|intros ([|? ?] & el & al & post & E & _); discriminate E]|].
  assert (S : (exists pre el al post, ev :: evs = pre ++ EStart el al :: post /\ complaint (depth_after pre d) el al m) <->
              (exists el al, ev = EStart el al /\ complaint d el al m) \/ exists pre el al post, evs = pre ++ EStart el al :: post /\ complaint (depth_after (ev :: pre) d) el al m).
  { split.
    - intros ([|x pre] & el & al & post & E & C); [injection E as -> ->; left; eauto|]. injection E as <- ->. right. exists pre, el, al, post. auto.
    - intros [(el & al & -> & C)|(pre & el & al & post & -> & C)]; [exists [], el, al, evs; auto|]. exists (ev :: pre), el, al, post. auto. }
  rewrite S. destruct ev as [n al|n|s]; cbn [says_from].
  - rewrite in_app_iff, start_says_in, IH. split.
    + intros [C|C]; [left; eauto|right; exact C].
    + intros [(el & al' & E & C)|C]; [injection E as <- <-; left; exact C|right; exact C].
  - rewrite IH. split; [intros C; right; exact C|]. intros [(el & al' & E & C)|C]; [discriminate E|exact C].
  - rewrite IH. split; [intros C; right; exact C|]. intros [(el & al' & E & C)|C]; [discriminate E|exact C].
Qed.

(** * Well-formed documents *)
Lemma content_depth c : content c -> forall d, depth_after c d = d.
Proof. induction 1 as [|s c _ IH|n al c1 c2 _ IH1 _ IH2]; intros d; cbn [depth_after]; auto. rewrite depth_app, IH1. cbn [depth_after pred]. apply IH2. Qed.
Lemma datas_depth l d : depth_after (map EData l) d = d.
Proof. induction l; cbn; auto. Qed.
Lemma datas_say l d : says_from d (map EData l) = [].
Proof. induction l; cbn; auto. Qed.
Lemma deep_silent c : content c -> forall d, says_from (S (S d)) c = [] -> exists l, c = map EData l.
Proof.
  induction 1 as [|s c _ IH|n al c1 c2 _ IH1 _ IH2]; intros d E; [exists []; reflexivity| |discriminate E]. cbn [says_from] in E. destruct (IH d E) as [l ->]. exists (s :: l). reflexivity.
Qed.
Lemma nil_no_complaint d el al : start_says d el al = [] <-> forall m, ~ complaint d el al m.
Proof.
  split; [intros E m C; apply start_says_in in C; rewrite E in C; destruct C|]. intros H. destruct (start_says d el al) as [|m l] eqn:E; [reflexivity|]. exfalso. apply (H m). apply start_says_in. rewrite E. left. reflexivity.
Qed.
Lemma silent_items c : content c -> says_from 1 c = [] -> exists its, items c its.
Proof.
  induction 1 as [|s c _ IH|n al c1 c2 H1 IH1 H2 IH2]; intros E; cbn [says_from] in E.
  - exists []. constructor.
  - destruct (IH E) as [its I]. exists its. constructor. exact I.
  - apply app_eq_nil in E. destruct E as [Es E]. rewrite says_app, (content_depth c1 H1) in E. apply app_eq_nil in E. destruct E as [E1 E2]. cbn [says_from pred] in E2.
    destruct (deep_silent c1 H1 0 E1) as [l ->]. destruct (IH2 E2) as [its I]. exists ((n, al, concat l) :: its). constructor; [|exact I]. apply nil_no_complaint. exact Es.
Qed.
Lemma items_content c its : items c its -> content c /\ says_from 1 c = [].
Proof.
  induction 1 as [|s c its _ [IH1 IH2]|el al l c its W _ [IH1 IH2]]; [split; [constructor|reflexivity]|split; [constructor; exact IH1|exact IH2]|].
  assert (D : content (map EData l)) by (induction l; constructor; assumption).
  split; [constructor; assumption|]. cbn [says_from]. rewrite (proj2 (nil_no_complaint 1 el al) W). cbn [app]. rewrite says_app, datas_say, datas_depth. exact IH2.
Qed.
Lemma silent_dialect evs : well_formed evs -> (says_from 0 evs = [] <-> exists its, in_dialect evs its).
Proof.
  intros (pre & n & al & c & post & -> & Hc). split.
  - rewrite says_app, datas_say, datas_depth. cbn [app says_from]. rewrite says_app, (content_depth c Hc). intros E. apply app_eq_nil in E. destruct E as [E1 E2]. apply app_eq_nil in E2. destruct E2 as [E2 _].
    destruct (silent_items c Hc E2) as [its I]. exists its. exists pre, al, c, post. split; [|exact I]. unfold start_says in E1. destruct (eqs_spec n ($"output")) as [->|]; [reflexivity|discriminate E1].
  - intros (its & pre' & al' & c' & post' & E & I). rewrite E. destruct (items_content c' its I) as [C S]. rewrite says_app, datas_say, datas_depth. cbn [app says_from]. rewrite says_app, (content_depth c' C), S. cbn [app says_from pred]. rewrite datas_say. reflexivity.
Qed.

(** * What is read *)
Lemma on_datas1 asserts l : forall m ms, on_events asserts (PD 1 [] m ms) (map EData l) = Ok (PD 1 [] m ms).
Proof. induction l as [|s l IH]; intros m ms; [reflexivity|]. cbn [map on_events on_event bind]. apply IH. Qed.
Lemma on_datas0 asserts l : forall m ms, on_events asserts (PD 0 [] m ms) (map EData l) = Ok (PD 0 [] m ms).
Proof. induction l as [|s l IH]; intros m ms; [reflexivity|]. cbn [map on_events on_event bind]. apply IH. Qed.
Lemma on_datas2 asserts l : forall t m ms, on_events asserts (PD 2 t m ms) (map EData l) = Ok (PD 2 (t ++ concat l) m ms).
Proof. induction l as [|s l IH]; intros t m ms; cbn [map concat]; [rewrite app_nil_r; reflexivity|]. cbn [on_events on_event bind]. unfold on_data. cbn [pdepth Nat.eqb ptext pm plist]. rewrite IH, app_assoc. reflexivity. Qed.
Lemma on_items asserts c its : items c its -> (forall n al, In (EStart n al) c -> NoDup (map fst al)) -> forall ms p, on_events asserts (PD 1 [] None ms) c = Ok p ->
  exists ls, Forall2 makes its ls /\ p = PD 1 [] None (ms ++ concat ls).
Proof.
  induction 1 as [|s c its _ IH|el al l c its W _ IH]; intros D ms p E.
  - injection E as <-. exists []. split; [constructor|]. cbn [concat]. rewrite app_nil_r. reflexivity.
  - cbn [on_events on_event bind] in E. apply IH; [|exact E]. intros n al I. apply (D n al). right. exact I.
  - assert (Dc : forall n al, In (EStart n al) c -> NoDup (map fst al)) by (intros n' al' I; apply (D n' al'); right; apply in_or_app; right; right; exact I).
    assert (Da : NoDup (map fst al)) by (apply (D el al); left; reflexivity).
    assert (N1 : forall (b : bool) (l : list ascii), b && negb (length (@nil ascii) =? 0) = false) by (intros [|]; reflexivity).
    cbn [on_events on_event] in E. unfold on_start in E. cbn [pm ptext pdepth plist length Nat.eqb] in E. cbn [negb] in E. rewrite !andb_false_r in E.
    assert (Hs : forall m, (p1 <-- Ok (PD 2 [] m ms) ;; on_events asserts p1 (map EData l ++ EEnd el :: c)) = Ok p -> on_events asserts (PD 1 [] None (ms ++ match m with Some m => [mset_content m (concat l)] | None => [] end)) c = Ok p).
    { intros m. cbn [bind]. rewrite on_events_app, on_datas2. cbn [bind app on_events on_event]. unfold on_end. cbn [pdepth pred pm plist ptext Nat.eqb]. destruct m; auto. }
    destruct (eqs_spec el data_elem) as [->|Nd]; [|destruct (eqs_spec el file_elem) as [->|Nf]].
    + cbn [orb] in E. unfold start_measurement in E. change (eqs data_elem data_elem) with true in E. cbv iota in E. rewrite (find_type_value al Da) in E. destruct (value ($"type") al) as [t|] eqn:Et.
      * assert (Hc : exists c, t = type_of c).
        { destruct (CreateDataMeasurement t) as [k|] eqn:Ek; [exists k; apply known_class; exact Ek|]. exfalso. apply (W (UnknownType t)). econstructor; [|apply unknown_class; exact Ek].
          clear -Et. induction al as [|[k v] al IH]; [discriminate Et|]. cbn [value] in Et. destruct (eqs_spec k ($"type")) as [->|]; [injection Et as ->; left; reflexivity|right; auto]. }
        destruct Hc as [k Hk]. rewrite (proj2 (known_class t k) Hk) in E. rewrite (set_attrs_value al Da) in E. cbn [bind option_map] in E. apply Hs in E. destruct (IH Dc _ p E) as (ls & F & ->).
        eexists. split; [constructor; [eapply makes_data; eassumption|exact F]|]. cbn [concat]. rewrite <- app_assoc. reflexivity.
      * rewrite set_attrs_null in E. destruct (value ($"name") al), (value ($"encoding") al), (value ($"compression") al); try discriminate E. cbn [bind option_map] in E. apply Hs in E. rewrite app_nil_r in E.
        destruct (IH Dc _ p E) as (ls & F & ->). exists ([] :: ls). split; [constructor; [apply makes_nothing; exact Et|exact F]|]. reflexivity.
    + cbn [orb] in E. unfold start_measurement in E. change (eqs file_elem data_elem) with false in E. change (eqs file_elem file_elem) with true in E. cbv iota in E. rewrite (set_file_attrs_value al Da) in E. cbn [bind option_map] in E. apply Hs in E.
      destruct (IH Dc _ p E) as (ls & F & ->). eexists. split; [constructor; [apply makes_file|exact F]|]. cbn [concat]. rewrite <- app_assoc. reflexivity.
    + exfalso. apply (W (UnknownElement el)). constructor; assumption.
Qed.
Lemma dialect_read asserts evs its p : in_dialect evs its -> (forall n al, In (EStart n al) evs -> NoDup (map fst al)) -> on_events asserts pd0 evs = Ok p ->
  exists ls, Forall2 makes its ls /\ p = PD 0 [] None (concat ls).
Proof.
  intros (pre & al & c & post & -> & I) D E. rewrite on_events_app in E. unfold pd0 in E. rewrite on_datas0 in E. cbn [bind on_events on_event] in E. unfold on_start in E. cbn [pm ptext pdepth plist length Nat.eqb negb] in E. rewrite !andb_false_r in E. cbn [bind] in E.
  rewrite on_events_app in E. destruct (on_events asserts (PD 1 [] None []) c) as [p1| | | |] eqn:E1; try discriminate E. cbn [bind on_events on_event] in E.
  destruct (on_items asserts c its I) with (ms := @nil meas) (p := p1) as (ls & F & ->); [|exact E1|].
  { intros n al' J. apply (D n al'). apply in_or_app. right. right. apply in_or_app. left. exact J. }
  exists ls. split; [exact F|]. unfold on_end in E. cbn [pdepth pred pm plist app bind] in E. rewrite app_nil_r, on_datas0 in E. injection E as <-. reflexivity.
Qed.

(** * The parser of XmlModel reports well-formed documents *)
Fixpoint nest (evs : list event) (o : list str) (root : bool) : option (list str * bool) :=
  match evs with
  | [] => Some (o, root)
  | EStart n _ :: evs' => match o, root with [], true => None | _, _ => nest evs' (n :: o) true end
  | EEnd n :: evs' => match o with x :: o' => if eqs x n then nest evs' o' root else None | [] => None end
  | EData _ :: evs' => nest evs' o root
  end.
Lemma nest_app a : forall b o r, nest (a ++ b) o r = match nest a o r with Some (o', r') => nest b o' r' | None => None end.
Proof.
  induction a as [|[n al|n|s] a IH]; intros b o r; cbn [app nest]; [reflexivity| | |apply IH].
  - destruct o as [|x o]; [destruct r; [reflexivity|apply IH]|apply IH].
  - destruct o as [|x o]; [reflexivity|]. destruct (eqs x n); [apply IH|reflexivity].
Qed.
Definition in_start (m : mode) : bool :=
  match m with MName _ | MTag _ _ _ | MAtt _ _ _ | MEq _ _ _ | MQuote _ _ _ | MVal _ _ _ _ _ _ | MValEnt _ _ _ _ _ _ | MSlash _ _ => true | _ => false end.
Definition may_start (st : pstate) : Prop := in_start (pmode st) = true -> popen st = [] -> proot st = false.
Lemma step_nest st c : may_start st -> may_start (fst (step st c)) /\ nest (snd (step st c)) (popen st) (proot st) = Some (popen (fst (step st c)), proot (fst (step st c))).
Proof.
  unfold may_start. unfold step. destruct st as [m o r]. cbn [pmode popen proot]. unfold bad, other, go, stext, open_elem, close_elem. cbn [pmode popen proot].
  intros Hm. destruct m; cbn [in_start] in Hm;
    repeat (match goal with |- context [if ?x then _ else _] => destruct x eqn:? | |- context [match ?x with _ => _ end] => destruct x eqn:? end; cbn [fst snd pmode popen proot in_start] in * );
    cbn [fst snd pmode popen proot in_start nest] in *; (split; [try (intros; congruence); auto|]); try reflexivity; auto.
  all: try (specialize (Hm eq_refl)); repeat match goal with H : ?a && ?b = true |- _ => apply andb_true_iff in H; destruct H end; repeat match goal with H : negb _ = true |- _ => apply negb_true_iff in H end; subst; cbn [nest]; auto.
  all: try (rewrite Hm by reflexivity; cbn [nest]; rewrite ?eqs_refl; reflexivity).
  all: try (destruct o as [|x o]; [rewrite Hm by reflexivity|]; cbn [nest]; rewrite ?eqs_refl; reflexivity).
  all: try (intros _ ->; assumption).
  all: try (intros X; discriminate X).
  all: match goal with H : eqs ?a ?b = true |- context [eqs ?a ?b] => rewrite H; reflexivity end.
Qed.
Lemma feed_nest : forall s st, may_start st -> nest (snd (feed st s)) (popen st) (proot st) = Some (popen (fst (feed st s)), proot (fst (feed st s))).
Proof.
  induction s as [|c s IH]; intros st H; [reflexivity|]. cbn [feed]. destruct (step_nest st c H) as [A B]. destruct (step st c) as [st1 e1]. cbn [fst snd] in *. specialize (IH st1 A). destruct (feed st1 s) as [st2 e2]. cbn [fst snd] in *. rewrite nest_app, B. exact IH.
Qed.
(** the end of the innermost open element *)
Lemma nest_split : forall k evs n o, length evs <= k -> nest evs (n :: o) true = Some ([], true) -> exists c rest, evs = c ++ EEnd n :: rest /\ content c /\ nest rest o true = Some ([], true).
Proof.
  induction k as [|k IH]; intros evs n o L E; destruct evs as [|ev evs]; cbn [length] in L; try lia; try discriminate E.
  destruct ev as [m al|m|s]; cbn [nest] in E.
  - destruct (IH evs m (n :: o) ltac:(lia) E) as (c1 & rest & -> & C1 & E1). rewrite app_length in L. cbn [length] in L. destruct (IH rest n o ltac:(lia) E1) as (c2 & rest2 & -> & C2 & E2).
    exists (EStart m al :: c1 ++ EEnd m :: c2), rest2. split; [cbn [app]; rewrite <- app_assoc; reflexivity|]. split; [constructor; assumption|exact E2].
  - destruct (eqs_spec n m) as [->|]; [|discriminate E]. exists [], evs. split; [reflexivity|]. split; [constructor|exact E].
  - destruct (IH evs n o ltac:(lia) E) as (c & rest & -> & C & E1). exists (EData s :: c), rest. split; [reflexivity|]. split; [constructor; exact C|exact E1].
Qed.
Lemma nest_done evs : nest evs [] true = Some ([], true) -> exists l, evs = map EData l.
Proof. induction evs as [|[n al|n|s] evs IH]; intros E; try discriminate E; [exists []; reflexivity|]. cbn [nest] in E. destruct (IH E) as [l ->]. exists (s :: l). reflexivity. Qed.
Lemma nest_well_formed evs : nest evs [] false = Some ([], true) -> well_formed evs.
Proof.
  induction evs as [|[n al|n|s] evs IH]; intros E; try discriminate E; cbn [nest] in E.
  - destruct (nest_split (length evs) evs n [] ltac:(lia) E) as (c & rest & -> & C & E1). destruct (nest_done rest E1) as [l ->]. exists [], n, al, c, l. split; [reflexivity|exact C].
  - destruct (IH E) as (pre & n & al & c & post & -> & C). exists (s :: pre), n, al, c, post. split; [reflexivity|exact C].
Qed.
Lemma expat_well_formed ext s : reported (ext s) -> reported (expat ext s).
Proof.
  intros He. unfold expat. destruct (supported_bytes s); [|exact He]. assert (F0 : fine pinit) by constructor. set (r := match strip_prefix xml_decl s with Some r => r | None => s end).
  destruct (feed_sound r pinit F0) as (A & _). pose proof (feed_nest r pinit ltac:(intros H; discriminate H)) as B. destruct (feed pinit r) as [st evs]. cbn [fst snd] in *. intros Hc.
  assert (Y : complete st = true -> well_formed evs /\ forall n al, In (EStart n al) evs -> NoDup (map fst al)).
  { unfold complete. intros Y. split; [|exact A]. apply nest_well_formed. change (nest evs (popen pinit) (proot pinit) = Some ([], true)). rewrite B. destruct (pmode st); try discriminate Y. destruct (popen st); [rewrite Y; reflexivity|discriminate Y]. }
  destruct (pmode st); try exact (Y Hc). exact (He Hc).
Qed.

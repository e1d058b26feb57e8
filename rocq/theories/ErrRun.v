(** What a run of the driver says. *)
From Coq Require Import Floats.SpecFloat Permutation.
From Verif Require Import Base Str Dec B64Model PathModel PathFacts MeasModel MeasFacts DiffModel VisitModel XmlText XmlModel ReadModel ReadFacts ReadBack ElemProps RegModel ArgFacts ArgProps RegSpec RegFacts RegStart RegMain HeapFacts HeapXml ErrModel ErrFacts ErrSpec ErrReader.

(** * Measurements as read: no cached data *)
Definition uncached (m : meas) : Prop := match m with MD d => ddata d = None | MF _ => True end.
Definition opt_uncached (m : option meas) : Prop := match m with Some m => uncached m | None => True end.
Lemma attrs_uncached al : forall d d', set_attrs al (Some d) = Ok (Some d') -> ddata d = None -> ddata d' = None.
Proof.
  induction al as [|[k v] al IH]; intros d d'; cbn [set_attrs].
  - intros H. injection H as <-. auto.
  - destruct (eqs k ($"name")); [|destruct (eqs k ($"type")); [|destruct (eqs k ($"encoding")); [|destruct (eqs k ($"compression"))]]]; cbn [bind]; intros H N; apply IH in H; auto.
Qed.
Lemma attrs_null al : forall d', set_attrs al None = Ok d' -> d' = None.
Proof.
  induction al as [|[k v] al IH]; intros d'; cbn [set_attrs].
  - intros H. injection H as <-. reflexivity.
  - destruct (eqs k ($"name")); [|destruct (eqs k ($"type")); [|destruct (eqs k ($"encoding")); [|destruct (eqs k ($"compression"))]]]; cbn [bind]; try discriminate; apply IH.
Qed.
Lemma type_uncached al : forall d, (forall x, d = Some x -> ddata x = None) -> forall x, find_type al d = Some x -> ddata x = None.
Proof.
  induction al as [|[k v] al IH]; intros d Hd x; cbn [find_type]; [apply Hd|]. apply IH.
  destruct (eqs k ($"type")); [|exact Hd]. intros y H. injection H as <-. reflexivity.
Qed.
Lemma start_uncached el al m : start_measurement el al = Ok m -> opt_uncached m.
Proof.
  unfold start_measurement. destruct (eqs el data_elem).
  - pose proof (type_uncached al None ltac:(discriminate)) as T. destruct (find_type al None) as [d|].
    + destruct (set_attrs al (Some d)) as [[d'|]| | | |] eqn:E; cbn [bind option_map]; intros H; try discriminate; injection H as <-; [|exact I].
      exact (attrs_uncached _ _ _ E (T d eq_refl)).
    + destruct (set_attrs al None) as [d'| | | |] eqn:E; cbn [bind]; intros H; try discriminate. apply attrs_null in E. subst d'. injection H as <-. exact I.
  - destruct (eqs el file_elem); intros H; injection H as <-; exact I.
Qed.
Lemma event_uncached asserts p ev p' : on_event asserts p ev = Ok p' ->
  opt_uncached (pm p) /\ Forall uncached (plist p) -> opt_uncached (pm p') /\ Forall uncached (plist p').
Proof.
  intros H [A B]. destruct ev as [n al|n|s]; cbn [on_event] in H.
  - unfold on_start in H. destruct (asserts && _); [discriminate|]. destruct (asserts && _); [discriminate|].
    destruct (pdepth p =? 1); [|apply Ok_inj in H; subst p'; cbn; auto].
    destruct (eqs n data_elem || eqs n file_elem); [|apply Ok_inj in H; subst p'; cbn; auto].
    destruct (start_measurement n al) as [m| | | |] eqn:E; cbn [bind] in H; try discriminate. apply Ok_inj in H. subst p'. cbn [pm plist].
    split; [exact (start_uncached _ _ _ E)|exact B].
  - apply Ok_inj in H. subst p'. cbn [on_end pm plist]. split; [exact I|]. apply Forall_app. split; [exact B|].
    destruct (pm p) as [m|]; [|constructor]. destruct (pdepth p =? 2); constructor; [|constructor]. destruct m; [reflexivity|exact I].
  - apply Ok_inj in H. subst p'. unfold on_data. destruct (pdepth p =? 2); cbn; auto.
Qed.
Lemma events_uncached asserts : forall evs p p', on_events asserts p evs = Ok p' -> opt_uncached (pm p) /\ Forall uncached (plist p) -> opt_uncached (pm p') /\ Forall uncached (plist p').
Proof.
  induction evs as [|ev evs IH]; intros p p'; cbn [on_events]; [intros H; apply Ok_inj in H; subst p'; auto|].
  destruct (on_event asserts p ev) as [p1| | | |] eqn:E; cbn [bind]; try discriminate. intros H A. exact (IH _ _ H (event_uncached _ _ _ _ E A)).
Qed.
Lemma read_uncached asserts ext bytes l : ReadXMLInput asserts ext bytes = Ok l -> Forall uncached l.
Proof.
  unfold ReadXMLInput. destruct (buffers _ _ _) as [bufs| | | |]; cbn [bind]; try discriminate. destruct (expat ext _) as [evs ok].
  destruct (on_events asserts pd0 evs) as [p| | | |] eqn:E; cbn [bind]; try discriminate.
  destruct (asserts && _); [discriminate|]. destruct ok; [|discriminate]. intros H. injection H as <-.
  apply (events_uncached _ _ _ _ E). cbn. auto.
Qed.
Lemma found_uncached e dirs f b m : uncached b -> uncached (found e dirs f b m).
Proof. unfold found. intros H. destruct b as [d|g]; [exact H|]. destruct m as [d|h]; [exact H|]. destruct (SearchPathList _ _ _) as [[|c p]| | | |]; exact H. Qed.

(** * One comparison *)
Lemma update_says_in sc d m : In m (update_says sc d) <-> flaw sc d m.
Proof.
  unfold update_says. rewrite in_app_iff. split.
  - intros [I|I].
    + destruct (eqs_spec (dcomp d) ($"none")) as [|N]; [destruct I|]. destruct I as [<-|[]]. constructor. exact N.
    + destruct (eqs_spec (denc d) ($"none")) as [|N]; [destruct I|]. destruct (eqs_spec (denc d) ($"base64")) as [E|N'].
      * destruct (IsBase64 sc default_opts (dcontent d)) as [[|n]| | | |] eqn:Eb; try destruct I. destruct (dcontent d) eqn:Ec; [destruct I|]. destruct I as [<-|[]]. apply flaw_base64; [exact E|rewrite Ec; discriminate|rewrite Ec; exact Eb].
      * destruct I as [<-|[]]. constructor; assumption.
  - intros [N|N N'|E N Eb].
    + left. destruct (eqs_spec (dcomp d) ($"none")); [contradiction|left; reflexivity].
    + right. destruct (eqs_spec (denc d) ($"none")); [contradiction|]. destruct (eqs_spec (denc d) ($"base64")); [contradiction|left; reflexivity].
    + right. rewrite Eb, E. change (eqs ($"base64") ($"none")) with false. change (eqs ($"base64") ($"base64")) with true. cbv iota. destruct (dcontent d); [contradiction|left; reflexivity].
Qed.
(** neither encoded nor compressed *)
Definition raw (d : dm) : Prop := denc d = $"none" /\ dcomp d = $"none".
Lemma raw_silent sc d : raw d -> ensure_says sc d = [].
Proof. intros [A B]. unfold ensure_says, update_says. rewrite A, B. destruct (ddata d); reflexivity. Qed.
(** the same attributes and text *)
Definition same_text (d d' : dm) : Prop := denc d' = denc d /\ dcomp d' = dcomp d /\ dcontent d' = dcontent d.
Lemma update_same sc d : same_text d (fst (UpdateContentAsData sc d)).
Proof.
  unfold UpdateContentAsData, same_text. cbv zeta. destruct (eqs (denc _) ($"none")); [repeat split|]. destruct (eqs (denc _) ($"base64")); [|repeat split].
  destruct (IsBase64 sc default_opts _) as [[|n]|x| | |]; try solve [repeat split]. destruct (Decode sc default_opts _ _). repeat split.
Qed.
Lemma ensure_same sc d : same_text d (fst (ensure_data sc d)).
Proof. unfold ensure_data. destruct (ddata d); [repeat split|apply update_same]. Qed.
Lemma size_same sc d : same_text d (fst (GetContentAsDataSize sc d)).
Proof. unfold GetContentAsDataSize. pose proof (ensure_same sc d) as H. destruct (ensure_data sc d). exact H. Qed.
Lemma view_same sc d : same_text d (fst (GetContentAsData sc d)).
Proof. unfold GetContentAsData. pose proof (ensure_same sc d) as H. destruct (ensure_data sc d). exact H. Qed.
Lemma same_says sc d d' m : same_text d d' -> In m (ensure_says sc d') -> flaw sc d m.
Proof.
  intros (A & B & C) I. apply update_says_in. unfold ensure_says in I. destruct (ddata d'); [destruct I|]. unfold update_says in *. rewrite A, B, C in I. exact I.
Qed.
Lemma same_raw d d' : same_text d d' -> raw d -> raw d'.
Proof. intros (A & B & C) [D E]. split; congruence. Qed.

Lemma data_equal_in sc a b m : ddata a = None -> raw b -> dname a = dname b -> dcls a = dcls b -> In m (data_equal_says sc a b) <-> flaw sc a m.
Proof.
  intros Na Rb En Ec. unfold data_equal_says. rewrite En, Ec, !eqs_refl. cbn [andb].
  assert (Ha : ensure_says sc a = update_says sc a) by (unfold ensure_says; rewrite Na; reflexivity). rewrite Ha, (raw_silent sc b Rb).
  rewrite in_app_iff, update_says_in. split; [|auto]. intros [F|F]; [exact F|].
  pose proof (size_same sc a) as S1. destruct (GetContentAsDataSize sc a) as [a1 r1]. cbn [fst] in S1. destruct r1 as [n1| | | |]; try destruct F. cbn [app] in F.
  pose proof (size_same sc b) as S2. destruct (GetContentAsDataSize sc b) as [b1 r2]. cbn [fst] in S2. destruct r2 as [n2| | | |]; try destruct F. destruct (n1 =? n2); [|destruct F].
  pose proof (view_same sc a1) as S3. destruct (GetContentAsData sc a1) as [a2 r3]. cbn [fst] in S3. rewrite (raw_silent sc b1 (same_raw _ _ S2 Rb)) in F. cbn [app] in F. apply in_app_or in F.
  destruct F as [F|F]; apply (same_says sc a) in F; auto. destruct S1 as (A & B & C), S3 as (A' & B' & C'). repeat split; congruence.
Qed.
Lemma data_equal_raw sc a b : raw a -> raw b -> data_equal_says sc a b = [].
Proof.
  intros Ra Rb. unfold data_equal_says. destruct (_ && _); [|reflexivity]. rewrite (raw_silent sc a Ra), (raw_silent sc b Rb). cbn [app].
  pose proof (size_same sc a) as S1. destruct (GetContentAsDataSize sc a) as [a1 r1]. cbn [fst] in S1. destruct r1 as [n1| | | |]; try reflexivity.
  pose proof (size_same sc b) as S2. destruct (GetContentAsDataSize sc b) as [b1 r2]. cbn [fst] in S2. destruct r2 as [n2| | | |]; try reflexivity. destruct (n1 =? n2); [|reflexivity].
  pose proof (view_same sc a1) as S3. destruct (GetContentAsData sc a1) as [a2 r3]. cbn [fst] in S3. apply same_raw in S1; [|exact Ra]. apply same_raw in S2; [|exact Rb]. apply same_raw in S3; [|exact S1].
  rewrite (raw_silent sc a1 S1), (raw_silent sc b1 S2), (raw_silent sc a2 S3). reflexivity.
Qed.
Lemma load_says_in dir e f g m : In m (load_says dir (sources e f) g) <-> opening dir e f (ftype g) (ffile g) m.
Proof.
  unfold load_says. rewrite sources_at.
  assert (T : In m match CreateDataMeasurement (ftype g) with Some _ => [] | None => [UnknownFileType (ftype g)] end <-> (forall c, ftype g <> type_of c) /\ m = UnknownFileType (ftype g)).
  { destruct (CreateDataMeasurement (ftype g)) eqn:E; split.
    - intros [].
    - intros [H _]. apply unknown_class in H. congruence.
    - intros [<-|[]]. split; [apply unknown_class; exact E|reflexivity].
    - intros [_ ->]. left. reflexivity. }
  destruct (sources e f (ffile g)) as [|bytes|] eqn:E.
  - split; [intros [<-|[]]; constructor; exact E|]. intros H. destruct H as [_|H [[b F]|[F _]]]; [left; reflexivity|congruence|congruence].
  - rewrite T. split.
    + intros [H ->]. constructor; eauto.
    + intros H. destruct H as [F|H _]; [congruence|auto].
  - destruct dir.
    + rewrite T. split; [intros [H ->]; constructor; auto|]. intros H. destruct H as [F|H _]; [congruence|auto].
    + split; [intros []|]. intros H. destruct H as [F|H [[b F]|[_ F]]]; congruence.
Qed.
Lemma load_raw fs g d : Load fs g = Ok d -> raw d.
Proof.
  unfold Load. destruct (fs _) as [|bytes|]; [intros H; injection H as <-; split; reflexivity| |discriminate].
  unfold SetContentAsData. destruct (CreateDataMeasurement (ftype g)); intros H; injection H as <-; split; reflexivity.
Qed.
Lemma set_named c bytes n : exists d, (let '(d, r) := SetContentAsData (new_dm c) bytes in _ <-- r ;; Ok (SetAttributeName d n)) = Ok d /\ dname d = n /\ dcls d = c.
Proof. destruct c; eexists; split; try reflexivity; split; reflexivity. Qed.
Lemma call_raw io c x : meas_of io true c = MD x -> raw x /\ ddata x = None.
Proof. destruct c; intros H; try discriminate H; injection H as <-; repeat split. Qed.

Lemma compare_says_in dir e c t f b m y : uncached b -> meas_of (e_io e) true c = m -> mname b = mname m -> mtype b = mtype m ->
  In y (compare_says dir (e_sc e) (sources e f) (if tolerant_of c then SetTolerance new_cmp t else new_cmp) b m) <-> remark dir e b (c, t, f) y.
Proof.
  intros U Em En Et. unfold compare_says.
  set (cv := if tolerant_of c then SetTolerance new_cmp t else new_cmp).
  assert (TV : SFeqb (GetTolerance cv) SFzero = true <-> ~ (tolerant_of c = true /\ SFeqb t SFzero = false)).
  { unfold cv. destruct (tolerant_of c); [|split; [intros _ [X _]; discriminate X|reflexivity]]. unfold SetTolerance. destruct (SFeqb t SFzero) eqn:E; unfold GetTolerance; cbn [tolerantCompare relativeTolerance].
    - split; [intros _ [_ X]; discriminate X|reflexivity].
    - rewrite E. split; [discriminate|]. intros H. exfalso. auto. }
  destruct b as [d|g], m as [x|h]; cbn [mname mtype numeric_meas uncached equal_says] in *.
  - (* values *)
    destruct (call_raw _ _ _ Em) as [Rx _]. assert (Ec : dcls d = dcls x) by (destruct (dcls d), (dcls x); try reflexivity; discriminate Et).
    assert (D : In y (data_equal_says (e_sc e) d x) <-> flaw (e_sc e) d y) by (apply data_equal_in; auto).
    assert (S : remark dir e (MD d) (c, t, f) y <-> ~ (tolerant_of c = true /\ SFeqb t SFzero = false) /\ flaw (e_sc e) d y).
    { split; [|intros [A B]; eapply remark_values; eauto]. intros H. inversion H as [d0 ? ? ? x0 ? Eb Ex N F| | | | |]; subst; try discriminate; try (rewrite Em in *; discriminate). injection Eb as <-. auto. }
    rewrite S, Ec. destruct (is_numeric (dcls x)) eqn:Num.
    + destruct (SFeqb (GetTolerance cv) SFzero) eqn:Ez; cbn [negb].
      * rewrite D. split; [intros F; split; [apply TV; reflexivity|exact F]|intros [_ F]; exact F].
      * split; [intros []|]. intros [N _]. apply TV in N. discriminate N.
    + rewrite D. split; [|intros [_ F]; exact F]. intros F. split; [|exact F]. intros [Tc _]. destruct c; try discriminate Tc; injection Em as <-; discriminate Num.
  - (* a file measured, a value in the baseline *)
    assert (Eh : ftype h = $"text/plain" /\ dcls d = CPlain).
    { destruct c; try discriminate Em; injection Em as <-; cbn [ftype] in *; destruct (dcls d); try discriminate Et; auto. }
    destruct Eh as [Eh Ed].
    assert (S : remark dir e (MD d) (c, t, f) y <-> opening dir e f (ftype h) (ffile h) y \/ ((exists bytes, sources e f (ffile h) = Bytes bytes) \/ sources e f (ffile h) = Missing /\ dname d = []) /\ flaw (e_sc e) d y).
    { split.
      - intros H. inversion H; subst; try discriminate; try (rewrite Em in *; discriminate).
        + match goal with H : meas_of _ _ _ = MF ?g, O : opening _ _ _ _ _ _ |- _ => rewrite Em in H; injection H as <-; left; exact O end.
        + match goal with A : MD _ = MD _, H : meas_of _ _ _ = MF ?g |- _ => rewrite Em in H; injection H as <-; injection A as <-; right; auto end.
      - intros [O|[A F]]; [eapply remark_file_text; eauto|eapply remark_file_flaw; eauto]. }
    rewrite S. unfold file_data_says. rewrite Et, <- En, !eqs_refl. cbn [negb orb]. rewrite in_app_iff, load_says_in.
    assert (L : In y match Load (sources e f) h with Ok d0 => data_equal_says (e_sc e) d d0 | _ => [] end <-> ((exists bytes, sources e f (ffile h) = Bytes bytes) \/ sources e f (ffile h) = Missing /\ dname d = []) /\ flaw (e_sc e) d y).
    { pose proof (load_raw (sources e f) h) as LR. unfold Load in *. rewrite sources_at in *. destruct (sources e f (ffile h)) as [|bytes|] eqn:Es.
      - specialize (LR _ eq_refl). destruct (dname d) as [|n0 nr] eqn:Edn.
        + rewrite data_equal_in; auto. split; [intros F; split; [right; auto|exact F]|intros [_ F]; exact F].
        + unfold data_equal_says. rewrite Edn. change (eqs (n0 :: nr) (dname (new_dm CPlain))) with false. cbn [andb]. split; [intros []|]. intros [[[b Hb]|[_ X]] _]; discriminate.
      - destruct (set_named (match CreateDataMeasurement (ftype h) with Some c0 => c0 | None => CPlain end) bytes (fname h)) as (d1 & Lo & Dn & Dc). rewrite Lo in *. specialize (LR _ eq_refl). cbv iota.
        rewrite Eh in Dc. change (CreateDataMeasurement ($"text/plain")) with (Some CPlain) in Dc. cbv iota in Dc.
        rewrite data_equal_in; [|exact U|exact LR|congruence|congruence]. split; [intros F; split; [left; eauto|exact F]|intros [_ F]; exact F].
      - split; [intros []|]. intros [[[b Hb]|[X _]] _]; discriminate. }
    rewrite L. reflexivity.
  - (* a value measured, a file in the baseline *)
    destruct (call_raw _ _ _ Em) as [Rx _].
    assert (S : remark dir e (MF g) (c, t, f) y <-> (exists text n, c = TextString text n \/ c = TextPlain text n) /\ opening dir e f (ftype g) (ffile g) y).
    { split.
      - intros H. inversion H; subst; try discriminate; try (rewrite Em in *; discriminate). match goal with A : MF _ = MF _ |- _ => injection A as <- end. auto.
      - intros [A O]. eapply remark_text_file; eauto. }
    rewrite S. destruct (is_numeric (dcls x)) eqn:Num.
    + split; [intros []|]. intros [(text & n & [-> | ->]) _]; injection Em as <-; discriminate Num.
    + unfold file_data_says. rewrite <- Et, En, !eqs_refl. cbn [negb orb]. rewrite in_app_iff, load_says_in.
      assert (Z : match Load (sources e f) g with Ok d => data_equal_says (e_sc e) x d | _ => [] end = []).
      { destruct (Load (sources e f) g) as [d| | | |] eqn:El; try reflexivity. apply data_equal_raw; [exact Rx|exact (load_raw _ _ _ El)]. }
      rewrite Z. split; [|intros [_ O]; auto]. intros [O|[]]. split; [|exact O]. destruct c; try discriminate Em; try (injection Em as <-; discriminate Num); eauto.
  - (* two files *)
    assert (S : remark dir e (MF g) (c, t, f) y <-> opening dir e f (ftype g) (ffile g) y \/
       (ftype g = $"text/plain" /\ ((exists bytes, sources e f (ffile g) = Bytes bytes) \/ sources e f (ffile g) = Missing /\ fname g = []) /\ opening dir e f (ftype h) (ffile h) y)).
    { split.
      - intros H. inversion H as [| ? ? ? ? ? ? (text & n & [-> | ->]) |  | | |]; subst; try discriminate; try (rewrite Em in *; discriminate).
        + match goal with A : MF _ = MF _ |- _ => injection A as <- end. left. assumption.
        + match goal with A : MF _ = MF _, H : meas_of _ _ _ = MF ?g |- _ => rewrite Em in H; injection H as <-; injection A as <- end. right. auto.
      - intros [O|(A & B & O)]; [eapply remark_files; eauto|eapply remark_second_file; eauto]. }
    unfold file_file_says. rewrite En, Et, !eqs_refl. cbn [negb orb]. rewrite in_app_iff, load_says_in.
    assert (L : In y match Load (sources e f) g with Ok d => file_data_says dir (e_sc e) (sources e f) h d | _ => [] end <->
       (ftype g = $"text/plain" /\ ((exists bytes, sources e f (ffile g) = Bytes bytes) \/ sources e f (ffile g) = Missing /\ fname g = []) /\ opening dir e f (ftype h) (ffile h) y)).
    { assert (FD : forall d, raw d -> ddata d = ddata d -> In y (file_data_says dir (e_sc e) (sources e f) h d) <-> fname h = dname d /\ ftype h = type_of (dcls d) /\ opening dir e f (ftype h) (ffile h) y).
      { intros d Rd _. unfold file_data_says. destruct (eqs_spec (fname h) (dname d)) as [A|A]; cbn [negb orb]; [|split; [intros []|intros (X & _); contradiction]].
        destruct (eqs_spec (ftype h) (type_of (dcls d))) as [B|B]; cbn [negb]; [|split; [intros []|intros (_ & X & _); contradiction]].
        rewrite in_app_iff, load_says_in.
        assert (Z : match Load (sources e f) h with Ok d0 => data_equal_says (e_sc e) d d0 | _ => [] end = []).
        { destruct (Load (sources e f) h) as [d0| | | |] eqn:El; try reflexivity. apply data_equal_raw; [exact Rd|exact (load_raw _ _ _ El)]. }
        rewrite Z. split; [intros [O|[]]; auto|intros (_ & _ & O); auto]. }
      pose proof (load_raw (sources e f) g) as LR. unfold Load in *. rewrite sources_at in *. destruct (sources e f (ffile g)) as [|bytes|] eqn:Es.
      - specialize (LR _ eq_refl). rewrite (FD _ LR eq_refl). cbn [new_dm dname dcls]. rewrite <- En, <- Et. change (type_of CPlain) with ($"text/plain"). split; [intros (A & B & O); split; [exact B|]; split; [right; auto|exact O]|].
        intros (A & [[b Hb]|[_ B]] & O); [discriminate Hb|auto].
      - destruct (set_named (match CreateDataMeasurement (ftype g) with Some c0 => c0 | None => CPlain end) bytes (fname g)) as (d & Lo & Dn & Dc). rewrite Lo in *. specialize (LR _ eq_refl). rewrite (FD _ LR eq_refl), Dn, Dc.
        assert (Ty : ftype h = $"text/plain" \/ ftype h = $"image/png" \/ ftype h = $"image/jpeg") by (destruct c; try discriminate Em; injection Em as <-; auto).
        rewrite Et. destruct Ty as [-> |[-> | ->]].
        + change (CreateDataMeasurement ($"text/plain")) with (Some CPlain). cbv iota. split; [intros (_ & _ & O); split; [reflexivity|]; split; [left; eauto|exact O]|intros (_ & _ & O); auto].
        + change (CreateDataMeasurement ($"image/png")) with (@None cls). cbv iota. split; [intros (_ & X & _); discriminate X|intros (X & _); discriminate X].
        + change (CreateDataMeasurement ($"image/jpeg")) with (@None cls). cbv iota. split; [intros (_ & X & _); discriminate X|intros (X & _); discriminate X].
      - split; [intros []|]. intros (_ & [[b Hb]|[X _]] & _); discriminate. }
    rewrite L, S. reflexivity.
Qed.

(** * A run *)
Lemma x_Compare_says dir e c x x' r : Forall uncached (s_input (x_s x)) ->
  x_Compare dir e (meas_of (e_io e) true c) (tolerant_of c) x = (x', r) ->
  x_what x' = x_what x /\ exists l, x_err x' = x_err x ++ l /\ remarks_on dir e (s_path (x_s x)) (hd_error (s_input (x_s x))) (c, s_tol (x_s x), s_files (x_s x)) l.
Proof.
  intros U. set (m := meas_of (e_io e) true c). unfold x_Compare. unfold xbind at 1. unfold quiet at 1, gets at 1. cbv iota beta. cbn [x_s x_err x_what].
  assert (UM : forall (x0 x1 : xst) r1, (_ <! quiet (UnmatchedMeasurement m);; xret 1%Z) x0 = (x1, r1) -> x_what x1 = x_what x0 /\ x_err x1 = x_err x0).
  { intros x0 x1 r1. unfold xbind, quiet, xret. destruct (UnmatchedMeasurement m (x_s x0)) as [s1 [u| | | |]]; intros H; injection H as <- _; split; reflexivity. }
  destruct (s_input (x_s x)) as [|b bs] eqn:Ein.
  - intros H. apply UM in H. cbn [x_err x_what] in H. destruct H as [A B]. split; [exact A|]. exists []. split; [rewrite B, app_nil_r; reflexivity|]. intros y. split; [intros []|intros (b & X & _); discriminate X].
  - inversion U as [|? ? Ub _]; subst. unfold xbind at 1. unfold quiet at 1, modify at 1. cbv iota beta. cbn [x_s x_err x_what hd_error].
    destruct (eqs (mname b) (mname m) && eqs (mtype b) (mtype m)) eqn:Ek.
    + unfold xbind at 1. unfold quiet at 1. cbn [x_s x_err x_what]. rewrite locate_found. cbv iota beta. change (s_path (set_input (x_s x) bs)) with (s_path (x_s x)). change (s_files (set_input (x_s x) bs)) with (s_files (x_s x)).
      unfold xbind at 1. unfold say at 1. cbn [x_s x_err x_what]. change (s_files (set_input (x_s x) bs)) with (s_files (x_s x)). unfold visitor at 1. change (s_tol (set_input (x_s x) bs)) with (s_tol (x_s x)).
      set (b1 := found e (s_path (x_s x)) (s_files (x_s x)) b m). set (l := compare_says _ _ _ _ _ _). intros H.
      assert (K : x_what x' = x_what x /\ x_err x' = x_err x ++ l).
      { revert H. unfold xbind at 1. unfold quiet at 1, gets at 1. cbn [x_s x_err x_what]. destruct (Compare _ _ _ _ _ _) as [[b2 m2] v]. unfold xbind at 1. unfold quiet at 1, mlift at 1. cbn [x_s x_err x_what].
        destruct v as [[|]| | | |]; unfold xret; try (intros H; injection H as <- _; split; reflexivity).
        unfold xbind, quiet. cbn [x_s x_err x_what]. destruct (DifferenceMeasurement e m2 b2 _) as [s1 [u| | | |]]; intros H; injection H as <- _; split; reflexivity. }
      destruct K as [A B]. split; [exact A|]. exists l. split; [exact B|]. intros y. unfold l. cbn [fst snd]. fold m.
      apply andb_true_iff in Ek. destruct Ek as [E1 E2]. destruct (found_kind e (s_path (x_s x)) (s_files (x_s x)) b m) as [F1 F2].
      rewrite (compare_says_in dir e c (s_tol (x_s x)) (s_files (x_s x)) b1 m y); [|apply found_uncached, Ub|reflexivity|unfold b1; rewrite F1; apply eqs_true; exact E1|unfold b1; rewrite F2; apply eqs_true; exact E2].
      split; [|intros (b0 & X & _ & R); injection X as <-; exact R]. intros R. exists b. split; [reflexivity|]. split; [|exact R]. unfold kind_of_moment, same_kind. cbn [fst]. fold m. rewrite E1, E2. reflexivity.
    + intros H. apply UM in H. cbn [x_err x_what] in H. destruct H as [A B]. split; [exact A|]. exists []. split; [rewrite B, app_nil_r; reflexivity|]. intros y. split; [intros []|].
      intros (b0 & X & K & _). injection X as <-. unfold kind_of_moment, same_kind in K. cbn [fst] in K. fold m in K. congruence.
Qed.

Lemma x_run_compare dir e p : forall x x' out k, s_is (x_s x) = Some k -> Forall uncached (s_input (x_s x)) ->
  x_run dir e p x = (x', out) -> (exists z, out = Ok z) \/ (exists i, out = Throw i) ->
  exists ms rs ls, unfolds e (s_os (x_s x)) (s_tol (x_s x)) (s_files (x_s x)) (s_expected (x_s x)) p ms rs (s_expected (x_s x')) out /\
    rs = results e (s_path (x_s x)) (s_input (x_s x)) (firstn (length rs) ms) /\
    s_unmatched (x_s x') = (s_unmatched (x_s x) + mismatches e (s_path (x_s x)) (s_input (x_s x)) (firstn (length rs) ms))%Z /\
    remarks dir e (s_path (x_s x)) (s_input (x_s x)) ms ls /\ x_err x' = x_err x ++ ls /\ x_what x' = x_what x /\ frame (x_s x) (x_s x').
Proof.
  induction p as [z|i|c k IH|t k IH|z k IH|path b k IH]; intros x x' out ki Hi He H Ho; cbn [x_run] in *.
  - unfold xret in H. injection H as <- <-. exists [], [], []. split; [constructor|]. cbn. split; [reflexivity|]. split; [lia|]. split; [constructor|]. rewrite app_nil_r. split; [reflexivity|]. split; [reflexivity|apply frame_refl].
  - unfold quiet, mlift in H. injection H as <- <-. exists [], [], []. split; [constructor|]. cbn. split; [reflexivity|]. split; [lia|]. split; [constructor|]. rewrite app_nil_r. split; [reflexivity|]. split; [reflexivity|apply frame_refl].
  - unfold xbind at 1 in H. unfold x_Measure in H. unfold xbind at 1 in H. unfold quiet at 1, GetCompareMode at 1 in H. rewrite (compare_mode_open e (x_s x) ki Hi) in H. cbv iota beta in H.
    set (x0 := Xst (x_s x) (x_err x) (x_what x)) in H.
    pose proof (fo_base _ _ (follows_Compare dir e (meas_of (e_io e) true c) (tolerant_of c)) x0) as E.
    destruct (x_Compare dir e (meas_of (e_io e) true c) (tolerant_of c) x0) as [x1 r] eqn:Ex. cbn [fst snd] in E. change (x_s x0) with (x_s x) in E.
    destruct (x_Compare_says dir e c x0 x1 r He Ex) as (W1 & l & L1 & R1). change (x_s x0) with (x_s x) in R1. change (x_err x0) with (x_err x) in L1. change (x_what x0) with (x_what x) in W1.
    destruct (compare_one _ _ _ _ _ E) as [A B]. destruct r as [z|i| | |].
    + destruct (A z eq_refl) as (Rz & U & I & F & T & X & G). clear A B. cbv zeta in Rz, U. destruct F as (F1 & F2 & F3 & F4 & F5).
      assert (Hi1 : s_is (x_s x1) = Some ki) by congruence.
      assert (He1 : Forall uncached (s_input (x_s x1))) by (rewrite I; destruct He; cbn; auto).
      destruct (IH z x1 x' out ki Hi1 He1 H Ho) as (ms & rs & ls & W & Rs & Us & Rp & O & Wh & Fs).
      exists ((c, s_tol (x_s x), s_files (x_s x)) :: ms), (z :: rs), (l ++ ls). split.
      * eapply u_call; [exact G|]. rewrite <- F4, <- T, <- X. exact W.
      * cbn [length firstn]. cbn [results mismatches] in *. rewrite F3, I in *.
        split; [congruence|]. split; [lia|]. split; [constructor; assumption|]. split; [rewrite O, L1, app_assoc; reflexivity|]. split; [congruence|].
        eapply frame_trans; [|exact Fs]. repeat split; assumption.
    + injection H as <- <-. destruct (B i eq_refl) as (_ & U & F & T & X & G). clear A B.
      exists [(c, s_tol (x_s x), s_files (x_s x))], [], (l ++ []). rewrite X. split; [constructor|]. cbn [length firstn results mismatches].
      split; [reflexivity|]. split; [lia|]. split; [constructor; [exact R1|constructor]|]. rewrite app_nil_r. split; [exact L1|]. split; [exact W1|exact F].
    + injection H as <- <-. destruct Ho as [[? ?]|[? ?]]; discriminate.
    + injection H as <- <-. destruct Ho as [[? ?]|[? ?]]; discriminate.
    + injection H as <- <-. destruct Ho as [[? ?]|[? ?]]; discriminate.
  - unfold xbind, quiet, modify in H. cbv iota beta in H. destruct (IH (Xst (set_tol (x_s x) t) (x_err x) (x_what x)) x' out ki Hi He H Ho) as (ms & rs & ls & W & R & U & Rp & O & Wh & F).
    exists ms, rs, ls. split; [constructor; exact W|]. split; [exact R|]. split; [exact U|]. split; [exact Rp|]. split; [exact O|]. split; [exact Wh|exact F].
  - unfold xbind, quiet, modify in H. cbv iota beta in H. destruct (IH (Xst (set_expected (x_s x) z) (x_err x) (x_what x)) x' out ki Hi He H Ho) as (ms & rs & ls & W & R & U & Rp & O & Wh & F).
    exists ms, rs, ls. split; [constructor; exact W|]. split; [exact R|]. split; [exact U|]. split; [exact Rp|]. split; [exact O|]. split; [exact Wh|exact F].
  - unfold xbind, quiet, modify in H. cbv iota beta in H. destruct (IH (Xst (set_files (x_s x) (write_file e (s_files (x_s x)) path b)) (x_err x) (x_what x)) x' out ki Hi He H Ho) as (ms & rs & ls & W & R & U & Rp & O & Wh & F).
    exists ms, rs, ls. split; [constructor; exact W|]. split; [exact R|]. split; [exact U|]. split; [exact Rp|]. split; [exact O|]. split; [exact Wh|exact F].
Qed.

Lemma x_run_record dir e p : forall x, s_is (x_s x) = None -> s_in (x_s x) = [] ->
  exists s', x_run dir e p x = (Xst s' (x_err x) (x_what x), ends p) /\ frame (x_s x) s'.
Proof.
  induction p as [z|i|c k IH|t k IH|z k IH|path b k IH]; intros [s err w] Hi Hn; cbn [x_run ends x_s x_err x_what] in *.
  - exists s. repeat split.
  - exists s. repeat split.
  - unfold xbind at 1. unfold x_Measure. unfold xbind at 1. unfold quiet at 1, GetCompareMode at 1. cbn [x_s x_err x_what]. rewrite (record_mode e s Hi Hn). cbv iota beta.
    unfold xbind at 1. unfold quiet at 1. cbn [x_s x_err x_what]. rewrite put_meas_eq. cbv iota beta. unfold xret. set (t := print_of _ ++ [nl]).
    destruct (put_text_any t s) as (F & A & B & C & D & G). pose proof F as (F1 & F2 & F3 & F4 & F5).
    destruct (IH 0%Z (Xst (put_text t s) err w)) as (s' & E & F'); [cbn [x_s]; congruence|cbn [x_s]; congruence|].
    exists s'. split; [exact E|]. eapply frame_trans; [exact F|exact F'].
  - exact (IH (Xst (set_tol s t) err w) Hi Hn).
  - exact (IH (Xst (set_expected s z) err w) Hi Hn).
  - exact (IH (Xst (set_files s (write_file e (s_files s) path b)) err w) Hi Hn).
Qed.

(** * The command line *)
Lemma refusals_cons e f k v opts : refusals e f ((k, v) :: opts) = refusals e f [(k, v)] ++ refusals e f opts.
Proof. unfold refusals, values. cbn [filter fst]. destruct (eqs k ($"-O")); [|reflexivity]. cbn [map filter snd]. destruct (_ && _); reflexivity. Qed.
Lemma x_parse_one e fuel a0 k v more tail inf outf s err w : accepted e (s_files s) (k, v) ->
  exists p q, Permutation [k; v] [p; q] /\
  x_parse_loop e (S fuel) (3 + length more) (a0 :: k :: v :: more ++ tail) inf outf (Xst s err w) =
  x_parse_loop e fuel (1 + length more) (a0 :: more ++ p :: q :: tail) (in_after [(k, v)] inf) (out_after e (s_files s) [(k, v)] outf)
    (Xst (after [(k, v)] s) (err ++ refusals e (s_files s) [(k, v)]) w).
Proof.
  intros (Hk & HI & HP). cbn [fst snd] in *.
  destruct (swap_loop_spec more [a0] k v tail) as (p & q & E & P). cbn [length app] in E.
  exists p, q. split; [exact P|].
  cbn [x_parse_loop]. change (3 + length more <=? 1) with false. cbv iota.
  change (rd 1 (a0 :: k :: v :: more ++ tail)) with (Ok k). change (rd 2 (a0 :: k :: v :: more ++ tail)) with (Ok v).
  unfold xbind, quiet, say, mlift, gets, modify. cbv iota beta. cbn [x_s x_err x_what].
  assert (L2 : (2 <? 3 + length more) = true) by (apply Nat.ltb_lt; lia). rewrite L2.
  assert (L3 : 3 + length more - 3 = length more) by lia. rewrite L3, E.
  assert (L4 : 3 + length more - 2 = 1 + length more) by lia. rewrite L4.
  cbn [in_after out_after after]. unfold refusals, values. cbn [filter fst snd map].
  cbn [In flags] in Hk. destruct Hk as [<-|[<-|[<-|[<-|[]]]]].
  - change (eqs ($"-O") ($"-O")) with true. cbv iota beta. change (eqs ($"-O") ($"-I")) with false.
    change (eqs ($"-O") ($"-R")) with false. change (eqs ($"-O") ($"-P")) with false. cbv iota. cbn [x_s x_err x_what map filter snd].
    rewrite <- negb_choice. destruct (is_file e (s_files s) v && negb (is_writable e (s_files s) v)); reflexivity.
  - change (eqs ($"-I") ($"-O")) with false. change (eqs ($"-I") ($"-I")) with true. change (eqs ($"-I") ($"-R")) with false.
    change (eqs ($"-I") ($"-P")) with false. cbv iota beta. cbn [x_s x_err x_what]. destruct (HI eq_refl) as [-> ->]. cbn [map filter]. rewrite app_nil_r. reflexivity.
  - change (eqs ($"-R") ($"-O")) with false. change (eqs ($"-R") ($"-I")) with false. change (eqs ($"-R") ($"-R")) with true.
    cbv iota beta. cbn [map filter]. rewrite app_nil_r. reflexivity.
  - change (eqs ($"-P") ($"-O")) with false. change (eqs ($"-P") ($"-I")) with false. change (eqs ($"-P") ($"-R")) with false.
    change (eqs ($"-P") ($"-P")) with true. cbv iota beta. cbn [x_s x_err x_what]. destruct (HP eq_refl) as [-> ->]. cbn [andb map filter]. rewrite app_nil_r. reflexivity.
Qed.
Lemma x_parse_prefix e a0 more opts : forall fuel tail inf outf s err w, Forall (accepted e (s_files s)) opts ->
  exists tail', Permutation (flat opts ++ tail) tail' /\
  x_parse_loop e (length opts + fuel) (1 + 2 * length opts + length more) (a0 :: flat opts ++ more ++ tail) inf outf (Xst s err w) =
  x_parse_loop e fuel (1 + length more) (a0 :: more ++ tail') (in_after opts inf) (out_after e (s_files s) opts outf) (Xst (after opts s) (err ++ refusals e (s_files s) opts) w).
Proof.
  induction opts as [|[k v] opts IH]; intros fuel tail inf outf s err w H.
  - exists tail. split; [apply Permutation_refl|]. cbn [refusals values filter map]. unfold refusals, values. cbn [filter map]. rewrite app_nil_r. reflexivity.
  - inversion H as [|? ? H1 H2]; subst.
    destruct (x_parse_one e (length opts + fuel) a0 k v (flat opts ++ more) tail inf outf s err w H1) as (p & q & P & E).
    set (s1 := after [(k, v)] s) in *.
    assert (Hf : s_files s1 = s_files s) by apply after_files.
    destruct (IH fuel (p :: q :: tail) (in_after [(k, v)] inf) (out_after e (s_files s) [(k, v)] outf) s1 (err ++ refusals e (s_files s) [(k, v)]) w) as (tail' & P' & E').
    { rewrite Hf. exact H2. }
    exists tail'. split.
    + eapply Permutation_trans; [|exact P'].
      change (flat ((k, v) :: opts) ++ tail) with ([k; v] ++ flat opts ++ tail). change (p :: q :: tail) with ([p; q] ++ tail).
      eapply Permutation_trans; [apply Permutation_app; [exact P|apply Permutation_refl]|]. rewrite !app_assoc.
      apply Permutation_app_tail. apply Permutation_app_comm.
    + change (flat ((k, v) :: opts)) with (k :: v :: flat opts). cbn [app length Nat.add].
      rewrite <- !app_assoc in E. cbn [Nat.add] in E. rewrite app_length in E.
      rewrite flat_length in E.
      match goal with |- x_parse_loop _ _ ?n _ _ _ _ = _ => replace n with (S (S (S (2 * length opts + length more)))) by lia end.
      rewrite E. rewrite Hf in E'. cbn [Nat.add] in E'.
      rewrite E'. cbn [in_after out_after]. rewrite (refusals_cons e (s_files s) k v opts), <- app_assoc. reflexivity.
Qed.
Lemma x_parse_stop e a0 more tail fuel inf outf x :
  (match more with [] => True | a :: _ => ~ In a flags end) ->
  x_parse_loop e (S fuel) (1 + length more) (a0 :: more ++ tail) inf outf x = (x, Ok (1 + length more, a0 :: more ++ tail, inf, outf)).
Proof.
  intros H. cbn [x_parse_loop]. destruct more as [|a more]; [reflexivity|].
  cbn [length Nat.add]. change (S (S (length more)) <=? 1) with false. cbv iota.
  change (rd 1 (a0 :: (a :: more) ++ tail)) with (Ok a). unfold xbind, quiet, mlift, xret. cbv iota beta.
  assert (N : forall k, In k flags -> eqs a k = false) by (intros k Hk; apply eqs_false; intros ->; auto).
  rewrite !N by (cbn [flags In]; auto 6). destruct x. reflexivity.
Qed.
Definition rejection (k v : str) : str := between' (if eqs k ($"-I") then $"unable to read input file " else $"unable to read input path ") v.
Lemma x_parse_reject e a0 k v more tail fuel inf outf s err w :
  (k = $"-I" /\ is_file e (s_files s) v && is_readable e (s_files s) v = false \/
   k = $"-P" /\ is_directory e (s_files s) v && is_readable e (s_files s) v = false) ->
  x_parse_loop e (S fuel) (3 + length more) (a0 :: k :: v :: more ++ tail) inf outf (Xst s err w) = (Xst s err (Some (rejection k v)), Throw ExnRuntime).
Proof.
  intros H. cbn [x_parse_loop]. change (3 + length more <=? 1) with false. cbv iota.
  change (rd 1 (a0 :: k :: v :: more ++ tail)) with (Ok k). change (rd 2 (a0 :: k :: v :: more ++ tail)) with (Ok v).
  unfold xbind, quiet, throwing, mlift, gets, modify. cbv iota beta. cbn [x_s x_err x_what].
  assert (L2 : (2 <? 3 + length more) = true) by (apply Nat.ltb_lt; lia). rewrite L2. unfold rejection.
  destruct H as [[-> E]|[-> E]];
    repeat match goal with |- context [eqs (lit ?a) (lit ?b)] => let r := eval vm_compute in (eqs (lit a) (lit b)) in change (eqs (lit a) (lit b)) with r end;
    cbv iota beta; cbn [x_s x_err x_what]; rewrite E; reflexivity.
Qed.
Lemma x_launch e f a0 opts rest w : command_line e f opts rest ->
  exists argc argv, x_Parse e (S (length (a0 :: flat opts ++ rest))) (a0 :: flat opts ++ rest) (Xst (set_unmatched (new_test f) 1) [] w)
    = (Xst (launched e f opts) (refusals e f opts) w, Ok (argc, argv)) /\ firstn argc argv = a0 :: rest.
Proof.
  intros H. destruct (launch e f a0 opts rest H) as (argc & argv & E & F). destruct H as [H1 H2].
  set (fuel := S (length (a0 :: flat opts ++ rest))) in *.
  pose proof (fo_base _ _ (follows_Parse e fuel (a0 :: flat opts ++ rest)) (Xst (set_unmatched (new_test f) 1) [] w)) as B. cbn [x_s] in B. rewrite E in B.
  assert (G : exists s r, x_Parse e fuel (a0 :: flat opts ++ rest) (Xst (set_unmatched (new_test f) 1) [] w) = (Xst s (refusals e f opts) w, r)).
  { unfold x_Parse. destruct (x_parse_prefix e a0 rest opts (fuel - length opts) [] None None (set_unmatched (new_test f) 1) [] w H1) as (tail' & P & E').
    assert (Hf : length opts < fuel) by (unfold fuel; cbn [length]; rewrite app_length, flat_length; lia).
    replace (length opts + (fuel - length opts)) with fuel in E' by lia. rewrite app_nil_r in E'.
    destruct (fuel - length opts) as [|f'] eqn:Ef; [lia|]. rewrite x_parse_stop in E' by exact H2.
    unfold xbind at 1. replace (length (a0 :: flat opts ++ rest)) with (1 + 2 * length opts + length rest) by (cbn [length]; rewrite app_length, flat_length; lia).
    rewrite E'. cbv iota beta. unfold xbind, quiet, modify, xret. cbn [x_s x_err x_what app]. do 2 eexists. reflexivity. }
  destruct G as (s & r & G). rewrite G in *. cbn [fst snd x_s] in B. apply pair_equal_spec in B. destruct B as [<- <-]. exists argc, argv. split; [reflexivity|exact F].
Qed.
Lemma x_body_launch dir e f test a0 opts rest w : command_line e f opts rest ->
  x_body dir e test (a0 :: flat opts ++ rest) (Xst (set_unmatched (new_test f) 1) [] w) =
  (_ <! x_Begin e ;; x_run dir e (test (a0 :: rest))) (Xst (launched e f opts) (refusals e f opts) w).
Proof.
  intros H. destruct (x_launch e f a0 opts rest w H) as (argc & argv & E & F). unfold x_body. unfold xbind at 1. rewrite E.
  cbv beta iota. rewrite F. reflexivity.
Qed.

(** * The end *)
Lemma end_calm e s : exists s', EndMeasurement e s = (s', Ok tt).
Proof.
  assert (C : exists b, compare_mode e s = Ok b).
  { unfold compare_mode. destruct (s_is s); [eauto|]. destruct (s_in s) as [|c r]; [eauto|]. destruct (search_always e s (c :: r)) as [p ->]. cbn [bind]. eauto. }
  destruct C as [b C]. unfold EndMeasurement, GetCompareMode, mbind. rewrite C. destruct b; unfold modify, put; cbv iota beta; eexists; reflexivity.
Qed.
(** all that is said: what the body says, and the exception *)
Lemma x_Main_says dir e test argv x : let r := x_body dir e test argv (Xst (set_unmatched (x_s x) (s_unmatched (x_s x) + 1)) (x_err x) None) in
  x_err (fst (x_Main dir e test argv x)) = x_err (fst r) ++ match snd r with Throw i => [Caught (x_what (fst r)) i] | _ => [] end.
Proof.
  cbv zeta. unfold x_Main. destruct (x_body dir e test argv _) as [x1 [ret|i| | |]]; cbn [fst snd]; rewrite ?app_nil_r; try reflexivity.
  - destruct (end_calm e (x_s x1)) as [s' E]. unfold quiet. rewrite E. cbv iota beta. cbn [x_s x_err]. destruct (negb _); reflexivity.
  - cbn [report x_s]. destruct (negb _); reflexivity.
Qed.

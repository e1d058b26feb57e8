(** Recording and then comparing: the steps of the second run. *)
From Coq Require Import Floats.SpecFloat Reals.
From Verif Require Import Base Str Dec PathModel PathFacts MeasModel MeasFacts MeasFacts2 FloatFacts TolFacts MeasProps XmlText XmlModel ReadModel ReadFacts ReadBack ReadProps RegModel ArgFacts ArgProps RegSpec RegFacts RegStart RegMain RegProps RegProps2.

(** Repeating the measurement [c] with tolerance [t] and files [f] gives the value recorded before:
    - text, boolean and exact numbers always;
    - integers compared with a tolerance except the smallest one, if the tolerance is finite (0 means: exactly);
    - floating point values with a tolerance if what is printed reads back as a finite number;
    - text files if the file found by its last path component in the search directories holds the same bytes;
    - image files never. *)
Definition usual_tolerance (t : spec_float) : Prop := valid_binary 53 1024 t = true /\ finite_sf t = true.
Definition reproducible (e : env) (dirs : list str) (t : spec_float) (f : store) (c : call) : Prop :=
  match c with
  | TextString _ _ | TextPlain _ _ | NumericBoolean _ _ _ => True
  | NumericInteger i _ tol => tol = true -> SFeqb t SFzero = true \/ (usual_tolerance t /\ wrap32 i <> INT_MIN)
  | NumericFloat x _ tol => tol = true -> SFeqb t SFzero = true \/
      (usual_tolerance t /\ exists y, read32 (e_io e) (print32 (e_io e) x) = Ok y /\ valid_binary 24 128 y = true /\ finite_sf y = true)
  | NumericDouble x _ tol => tol = true -> SFeqb t SFzero = true \/
      (usual_tolerance t /\ exists y, read64 (e_io e) (print64 (e_io e) x) = Ok y /\ valid_binary 53 1024 y = true /\ finite_sf y = true)
  | FileTextPlain file _ => exists b, contents e f file = Some b /\ contents e f (baseline_path e f dirs (Tail file)) = Some b
  | FileImagePNG _ _ | FileImageJPEG _ _ => False
  end.
(** Each measurement of the test is reproducible at its time, and what the test does does not depend on the values the measurements
    return (0 when recording, 1 for a match). *)
Fixpoint repeatable (e : env) (dirs : list str) (t : spec_float) (f : store) (p : prog) : Prop :=
  match p with
  | Return _ | Raise _ => True
  | Call c k => k 1%Z = k 0%Z /\ reproducible e dirs t f c /\ repeatable e dirs t f (k 0%Z)
  | SetRelativeTolerance t' k => repeatable e dirs t' f k
  | SetExpectedReturn _ k => repeatable e dirs t f k
  | WriteFile path b k => repeatable e dirs t (write_file e f path b) k
  end.
(** the files after the test *)
Fixpoint leaves (e : env) (f : store) (p : prog) : store :=
  match p with
  | Return _ | Raise _ => f
  | Call c k => leaves e f (k 0%Z)
  | SetRelativeTolerance _ k | SetExpectedReturn _ k => leaves e f k
  | WriteFile path b k => leaves e (write_file e f path b) k
  end.

Lemma wrap32_range z : in_int (wrap32 z).
Proof.
  unfold in_int, wrap32, INT_MIN, INT_MAX. pose proof (Z.mod_pos_bound (z + 2147483648) 4294967296 eq_refl) as H.
  set (m := ((z + 2147483648) mod 4294967296)%Z) in *. clearbody m. lia.
Qed.
Lemma tail_tail f : Tail (Tail f) = Tail f.
Proof. apply tail_free. apply tail_no_slash. Qed.
Lemma contents_cstr e f q : contents e f (cstr q) = contents e f q.
Proof. unfold contents, node_at, slot. rewrite (cstr_free _ (cstr_is_free q)). reflexivity. Qed.

Lemma self_verdict e dirs t f c : reproducible e dirs t f c ->
  verdict e dirs (stored (meas_of (e_io e) false c)) (c, t, f) = Ok true.
Proof.
  intros H. unfold verdict.
  assert (EX : forall cm d, SFeqb (GetTolerance cm) SFzero = true -> ddata d = None -> denc d <> $"base64" ->
     snd (Compare (e_sc e) (sources e f) (e_io e) cm (MD (DeleteContentAsData d)) (MD d)) = Ok true).
  { intros cm d T A B.
    rewrite (compare_exact (e_sc e) (sources e f) (e_io e) cm (DeleteContentAsData d) d (dcontent d) (dcontent d) T);
      [|right; repeat split; assumption|right; repeat split; assumption].
    cbn [snd DeleteContentAsData dname dcls]. rewrite !eqs_refl, (proj2 (cls_eqb_true _ _) eq_refl). reflexivity. }
  assert (TL : forall cm d, SFeqb (GetTolerance cm) SFzero = false -> is_numeric (dcls d) = true ->
     snd (Compare (e_sc e) (sources e f) (e_io e) cm (MD (DeleteContentAsData d)) (MD d)) = IsEqualTolerant (e_io e) (DeleteContentAsData d) d (GetTolerance cm)).
  { intros cm d T A. rewrite compare_tolerant; auto. }
  assert (NZ : forall t, SFeqb (GetTolerance (SetTolerance new_cmp t)) SFzero = true \/ SFeqb (GetTolerance (SetTolerance new_cmp t)) SFzero = false /\ SFeqb t SFzero = false /\ GetTolerance (SetTolerance new_cmp t) = t).
  { intros t0. destruct (SFeqb t0 SFzero) eqn:Et; [left; rewrite tolerance_zero by exact Et; reflexivity|right].
    rewrite tolerance_set_get by exact Et. auto. }
  destruct c as [s n|s n|file n|i n tol|x n tol|x n tol|b n tol|file n|file n]; cbn [meas_of stored found tolerant_of]; try contradiction.
  - apply EX; try reflexivity. discriminate.
  - apply EX; try reflexivity. discriminate.
  - unfold file_meas. cbn [stored found ffile]. rewrite tail_tail.
    set (h := match SearchPathList (is_file e f) (Tail file) dirs with Ok (c :: p) => MF (Mf (fname (Mf n true ($"text/plain") (Tail file))) true ($"text/plain") (c :: p)) | _ => MF (Mf n true ($"text/plain") (Tail file)) end).
    assert (E : h = MF (Mf n true ($"text/plain") (baseline_path e f dirs (Tail file)))).
    { unfold h, baseline_path. destruct (SearchPathList _ _ _) as [[|c p]| | | |]; reflexivity. }
    cbn [fname fesc ftype] in h |- *. fold h. rewrite E. clearbody h.
    destruct (C25_two_files (e_sc e) (sources e f) (e_io e) new_cmp (Mf n true ($"text/plain") (baseline_path e f dirs (Tail file))) (Mf n true ($"text/plain") file)) as (v & Ev & Hv);
      destruct H as (b & H1 & H2).
    { unfold reads_dir, unreadable. cbn [ffile]. rewrite (sources_cstr _ _ _ _ H1), (sources_cstr _ _ _ _ H2). intros (_ & _ & [X|(X & _)]); discriminate X. }
    rewrite Ev. cbn [snd]. f_equal. apply Hv. unfold file_bytes, missing. cbn [ffile fname ftype].
    rewrite (sources_cstr _ _ _ _ H1), (sources_cstr _ _ _ _ H2). split; [reflexivity|]. split; [reflexivity|]. split; [exists CPlain; reflexivity|]. split; [reflexivity|].
    intros [X|X]; discriminate.
  - cbn [reproducible] in H. destruct tol; [|apply EX; try reflexivity; discriminate]. specialize (H eq_refl).
    destruct (NZ t) as [Z|(Z & T & G)]; [apply EX; try reflexivity; try discriminate; exact Z|].
    destruct H as [H|[[V F] I]]; [congruence|]. rewrite TL by (auto; reflexivity). rewrite G. unfold IsEqualTolerant.
    cbn [int_SetValue SetContent DeleteContentAsData named SetAttributeName new_dm dcls]. cbn [cls_eqb].
    pose proof (wrap32_range i) as R. set (w := wrap32 i) in *. destruct (C21_integer_value_kept (named CInt n) w R) as [K _].
    unfold int_GetValue in *. cbn [int_SetValue SetContent DeleteContentAsData named SetAttributeName new_dm dcontent] in *.
    rewrite K. cbn [bind]. apply C22_integer_within_tolerance; [exact V|exact F| |].
    + unfold int_ok. unfold in_int in R. unfold INT_MIN, INT_MAX in *. lia.
    + left. replace (w - w)%Z with 0%Z by lia. cbn [Z.abs]. apply Rmult_le_pos; [apply Rabs_pos|]. apply IZR_le. apply Z.abs_nonneg.
  - cbn [reproducible] in H. destruct tol; [|apply EX; try reflexivity; discriminate]. specialize (H eq_refl).
    destruct (NZ t) as [Z|(Z & T & G)]; [apply EX; try reflexivity; try discriminate; exact Z|].
    destruct H as [H|[[V F] (y & Y1 & Y2 & Y3)]]; [congruence|]. rewrite TL by (auto; reflexivity). rewrite G. unfold IsEqualTolerant, float_GetValue.
    cbn [float_SetValue SetContent DeleteContentAsData named SetAttributeName new_dm dcls dcontent cls_eqb]. rewrite Y1. cbn [bind]. f_equal.
    assert (N : t <> S754_nan) by (intros ->; discriminate). apply (C23_reflexive y t Y3 V N). exact Y2.
  - cbn [reproducible] in H. destruct tol; [|apply EX; try reflexivity; discriminate]. specialize (H eq_refl).
    destruct (NZ t) as [Z|(Z & T & G)]; [apply EX; try reflexivity; try discriminate; exact Z|].
    destruct H as [H|[[V F] (y & Y1 & Y2 & Y3)]]; [congruence|]. rewrite TL by (auto; reflexivity). rewrite G. unfold IsEqualTolerant, double_GetValue.
    cbn [double_SetValue SetContent DeleteContentAsData named SetAttributeName new_dm dcls dcontent cls_eqb]. rewrite Y1. cbn [bind]. f_equal.
    assert (N : t <> S754_nan) by (intros ->; discriminate). apply (C23_reflexive y t Y3 V N). exact Y2.
  - destruct tol; [|apply EX; try reflexivity; discriminate].
    destruct (NZ t) as [Z|(Z & T & G)]; [apply EX; try reflexivity; try discriminate; exact Z|].
    rewrite TL by (auto; reflexivity). destruct b; reflexivity.
Qed.

(** one step of the second run: a match, nothing is written *)
Lemma repeat_measure e c s k rest : s_is s = Some k -> s_input s = stored (meas_of (e_io e) false c) :: rest ->
  reproducible e (s_path s) (s_tol s) (s_files s) c -> Measure e c s = (set_input s rest, Ok 1%Z).
Proof.
  intros Hi Hs H. pose proof (self_verdict _ _ _ _ _ H) as V.
  unfold Measure, GetCompareMode. unfold mbind at 1. rewrite (compare_mode_open e s k Hi). cbv iota.
  unfold CompareMeasurement. unfold mbind at 1. unfold gets at 1. rewrite Hs. cbv iota. unfold mbind at 1. unfold modify at 1. cbv iota.
  set (b := stored (meas_of (e_io e) false c)) in *. set (m := meas_of (e_io e) true c).
  assert (K : eqs (mname b) (mname m) && eqs (mtype b) (mtype m) = true).
  { unfold b, m. destruct c; cbn; rewrite ?eqs_refl; reflexivity. }
  rewrite K. unfold mbind at 1. rewrite locate_found. cbv iota. unfold mbind, gets. cbv iota.
  unfold verdict in V. fold m in V. unfold visitor. change (s_tol (set_input s rest)) with (s_tol s). change (s_path (set_input s rest)) with (s_path s).
  change (s_files (set_input s rest)) with (s_files s).
  destruct (Compare _ _ _ _ _ _) as [[b2 m2] v]. cbn [snd] in V. subst v. reflexivity.
Qed.
Lemma repeat_run e p : forall s k, s_is s = Some k -> s_input s = map stored (map (meas_of (e_io e) false) (recorded p)) ->
  repeatable e (s_path s) (s_tol s) (s_files s) p ->
  exists s', run e p s = (s', ends p) /\ frame s s' /\ s_files s' = leaves e (s_files s) p /\ s_stdout s' = s_stdout s /\
    s_unmatched s' = s_unmatched s /\ s_expected s' = expects (s_expected s) p.
Proof.
  induction p as [z|x|c q IH|t q IH|z q IH|path b q IH]; intros s k Hi Hs Hr; cbn [run recorded repeatable ends leaves expects map] in *.
  - exists s. repeat split.
  - exists s. repeat split.
  - destruct Hr as (Hk & Hc & Hr). unfold mbind. rewrite (repeat_measure e c s k _ Hi Hs Hc). rewrite Hk.
    destruct (IH 0%Z (set_input s (map stored (map (meas_of (e_io e) false) (recorded (q 0%Z))))) k Hi eq_refl Hr) as (s' & E & F & R).
    exists s'. split; [exact E|]. split; [exact F|exact R].
  - exact (IH (set_tol s t) k Hi Hs Hr).
  - exact (IH (set_expected s z) k Hi Hs Hr).
  - exact (IH (set_files s (write_file e (s_files s) path b)) k Hi Hs Hr).
Qed.

(** * Reading the recorded document *)
(** text that may stand in a comment: characters of XML and no two dashes in a row *)
Definition comment_safe (s : str) : Prop :=
  forallb (fun c => xml_char c && (0 <? code c) && (code c <? 128)) s = true /\ forall a b, s <> a ++ $"--" ++ b.
Lemma feed_comment os r s : forall d, d <= 1 -> comment_safe s -> (d = 1 -> match s with c :: _ => c <> "-"%char | [] => True end) ->
  exists d', d' <= 1 /\ feed (PState (MComment d) os r) s = (PState (MComment d') os r, []).
Proof.
  induction s as [|c s IH]; intros d Hd [H1 H2] H3; [exists d; auto|].
  cbn [forallb] in H1. apply andb_true_iff in H1. destruct H1 as [H1 H1']. apply andb_true_iff in H1. destruct H1 as [H1 _].
  apply andb_true_iff in H1. destruct H1 as [H1 _].
  assert (H2' : forall a b, s <> a ++ $"--" ++ b) by (intros a b ->; apply (H2 (c :: a) b); reflexivity).
  assert (S : feed (PState (MComment d) os r) (c :: s) = feed (PState (MComment (if eqc c "-" then 1 else 0)) os r) s).
  { cbn [feed step pmode popen proot]. rewrite H1. cbn [negb]. destruct d as [|[|d]]; [| |lia].
    - unfold go. cbn [popen proot]. destruct (feed _ s). reflexivity.
    - specialize (H3 eq_refl). destruct (eqc c "-") eqn:Ec; [apply eqc_true in Ec; contradiction|].
      unfold go. cbn [popen proot]. destruct (feed _ s). reflexivity. }
  rewrite S. apply IH.
  - destruct (eqc c "-"); lia.
  - split; assumption.
  - destruct (eqc c "-") eqn:Ec; [|discriminate]. intros _. apply eqc_true in Ec. subst c. destruct s as [|c s]; [exact I|].
    intros ->. apply (H2 [] s). reflexivity.
Qed.
Lemma comment_sup s : comment_safe s -> supported_bytes s = true.
Proof.
  intros [H _]. unfold supported_bytes. rewrite forallb_forall in *. intros c Hc. specialize (H c Hc).
  apply andb_true_iff in H. destruct H as [H ->]. apply andb_true_iff in H. destruct H as [_ ->]. reflexivity.
Qed.
Definition before_body (e : env) : str := $"<!-- created on " ++ e_host e ++ $" at " ++ e_time e ++ $" -->" ++ [nl].
Lemma feed_header e : comment_safe (e_host e) -> comment_safe (e_time e) -> feed pinit ([nl] ++ before_body e) = (pinit, []).
Proof.
  intros Hh Ht. unfold before_body.
  assert (F1 : feed pinit ([nl] ++ $"<!-- created on ") = (PState (MComment 0) [] false, [])) by reflexivity.
  rewrite (app_assoc [nl]). rewrite (feed_step _ _ _ _ _ F1). cbn [app].
  destruct (feed_comment [] false (e_host e) 0) as (d1 & D1 & E1); [lia|exact Hh|discriminate|].
  rewrite (feed_step _ _ _ _ _ E1).
  assert (F2 : feed (PState (MComment d1) [] false) ($" at ") = (PState (MComment 0) [] false, [])) by (destruct d1 as [|[|d1]]; [reflexivity|reflexivity|lia]).
  rewrite (feed_step _ _ _ _ _ F2).
  destruct (feed_comment [] false (e_time e) 0) as (d2 & D2 & E2); [lia|exact Ht|discriminate|].
  rewrite (feed_step _ _ _ _ _ E2). destruct d2 as [|[|d2]]; [reflexivity|reflexivity|lia].
Qed.
Lemma read_recorded (asserts : bool) ext e ms : comment_safe (e_host e) -> comment_safe (e_time e) -> Forall storable ms ->
  ReadXMLInput asserts ext (header e ++ lines_of ms ++ footer) = Ok (map stored ms).
Proof.
  intros Hh Ht Hm.
  assert (E : header e ++ lines_of ms ++ footer = (xml_decl ++ [nl] ++ before_body e) ++ $"<output>" ++ [nl] ++ lines_of ms ++ $"</output>" ++ [nl]).
  { unfold header, footer, before_body. rewrite <- !app_assoc. reflexivity. }
  rewrite E. apply (read_back asserts ext _ ([nl] ++ before_body e)); [exact Hm| | |].
  - unfold before_body. rewrite !sup_app, (comment_sup _ Hh), (comment_sup _ Ht). reflexivity.
  - intros r. left. rewrite <- !app_assoc. reflexivity.
  - apply feed_header; assumption.
Qed.

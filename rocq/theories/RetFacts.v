(** Comparisons and runs that come to an end. *)
From Coq Require Import Floats.SpecFloat.
From Verif Require Import Base Str Dec PathModel PathFacts MeasModel MeasFacts MeasFacts2 MeasProps DiffModel VisitModel DiffSpec DiffProps XmlModel ReadModel ReadFacts ReadBack RegModel ArgFacts ArgProps RegSpec RegFacts RegStart RegMain RegProps ItkModel ItkSim ApiModel ApiSpec ApiFacts ApiRun RetSpec.
Import RegModel.
Local Open Scope Z_scope.

Definition normal {A} (r : res A) : Prop := (exists z, r = Ok z) \/ (exists i, r = Throw i).
Definition fresh_meas (m : meas) : Prop := match m with MD d => ddata d = None | MF _ => True end.

Lemma tol_int_defined l r tol : -2147483648 < l -> -2147483648 < r -> -2147483648 < l - r <= 2147483647 -> defined (tol_int l r tol).
Proof.
  intros Hl Hr Hd. unfold tol_int, int_abs, INT_MIN, INT_MAX.
  replace (l - r <? -2147483648) with false by lia. replace (2147483647 <? l - r) with false by lia. cbn [orb].
  replace (l - r =? -2147483648) with false by lia. replace (l =? -2147483648) with false by lia. replace (r =? -2147483648) with false by lia. cbn [bind].
  destruct (SFleb _ _); [eexists; reflexivity|]. destruct (SFleb _ _); eexists; reflexivity.
Qed.
Lemma in_int_wrap i : in_int (wrap32 i).
Proof. unfold in_int, wrap32, INT_MIN, INT_MAX. pose proof (Z.mod_pos_bound (i + 2147483648) 4294967296). lia. Qed.

Lemma file_data_normal sc fs f d x : direct d x -> exists v, file_IsEqual_data sc fs f d = (d, v) /\ normal v.
Proof.
  intros D. destruct (unreadable fs f) eqn:U; [destruct (eqs_spec (fname f) (dname d)) as [N|N]; [destruct (eqs_spec (ftype f) (type_of (dcls d))) as [T|T]|]|].
  1: { rewrite file_data_dir by (repeat split; assumption). eexists; split; [reflexivity|right; eexists; reflexivity]. }
  all: destruct (file_data_spec sc fs f d x D) as (r & X & _); [intros (Y1 & Y2 & Y3); congruence|]; rewrite X; eexists; split; [reflexivity|left; eexists; reflexivity].
Qed.
(** the measured value is fresh data without encoding, or a file *)
Lemma measured e c : match meas_of (e_io e) true c with MD m => ddata m = None /\ denc m <> $"base64" | MF _ => True end.
Proof. destruct c; cbn; auto; split; try reflexivity; discriminate. Qed.
Lemma intolerant c : SFeqb (GetTolerance (if false then SetTolerance new_cmp c else new_cmp)) SFzero = true. Proof. reflexivity. Qed.

Lemma Compare_returns e f tol b c b2 m2 v :
  fresh_meas b -> same_kind b (meas_of (e_io e) true c) = true -> harmless e b c ->
  Compare (e_sc e) (sources e f) (e_io e) (if tolerant_of c then SetTolerance new_cmp tol else new_cmp) b (meas_of (e_io e) true c) = (b2, m2, v) ->
  normal v /\ b2 = b /\ m2 = meas_of (e_io e) true c.
Proof.
  intros Hf Hk [Hh _] E. pose proof (measured e c) as Hm. set (m := meas_of (e_io e) true c) in *.
  set (cv := if tolerant_of c then SetTolerance new_cmp tol else new_cmp) in *.
  destruct b as [d|g].
  - destruct Hh as [He Ht]. destruct m as [x|h] eqn:Em.
    + destruct (SFeqb (GetTolerance cv) SFzero) eqn:Et.
      * pose proof (compare_exact (e_sc e) (sources e f) (e_io e) cv d x (dcontent d) (dcontent x) Et (or_intror (conj Hf (conj He eq_refl))) (or_intror (conj (proj1 Hm) (conj (proj2 Hm) eq_refl)))) as X.
        rewrite X in E. injection E as <- <- <-. split; [left; eexists; reflexivity|auto].
      * assert (T : tolerant_of c = true).
        { destruct (tolerant_of c); [reflexivity|]. unfold cv in Et. cbn in Et. discriminate. }
        assert (Ec : dcls d = dcls x).
        { unfold same_kind in Hk. apply andb_prop in Hk. destruct Hk as [_ Hk]. apply eqs_true in Hk. cbn [mtype] in Hk. apply type_of_inj, Hk. }
        assert (Nx : is_numeric (dcls x) = true).
        { destruct c; try discriminate T; cbn in Em; injection Em as <-; reflexivity. }
        unfold Compare, numeric_meas in E. rewrite Nx, Ec, Nx, Et in E. cbn [negb] in E. injection E as <- <- <-. split; [|auto].
        unfold IsEqualTolerant. rewrite Ec. replace (cls_eqb (dcls x) (dcls x)) with true by (symmetry; apply cls_eqb_true; reflexivity).
        destruct c as [| | |i n [|]|z n [|]|z n [|]|y n [|]| |]; try discriminate T; cbn in Em; injection Em as <-.
        { change (dcls (int_SetValue (named CInt n) (wrap32 i))) with CInt. cbv iota.
          destruct Ht as (u & Hu & A & B & C). rewrite Hu, (proj1 (C21_integer_value_kept _ _ (in_int_wrap i))). cbn [bind].
          left. exact (tol_int_defined _ _ _ A B C). }
        { change (dcls (float_SetValue (e_io e) (named CFloat n) z)) with CFloat. cbv iota. destruct Ht as [[u Hu] [w Hw]].
          unfold float_GetValue. rewrite Hu. change (dcontent (float_SetValue (e_io e) (named CFloat n) z)) with (print32 (e_io e) z). rewrite Hw. left. eexists. reflexivity. }
        { change (dcls (double_SetValue (e_io e) (named CDouble n) z)) with CDouble. cbv iota. destruct Ht as [[u Hu] [w Hw]].
          unfold double_GetValue. rewrite Hu. change (dcontent (double_SetValue (e_io e) (named CDouble n) z)) with (print64 (e_io e) z). rewrite Hw. left. eexists. reflexivity. }
        { change (dcls (bool_SetValue (named CBool n) y)) with CBool. cbv iota. destruct Ht as [u Hu].
          rewrite Hu, (proj1 (C21_boolean_value_kept _ _)). left. eexists. reflexivity. }
    + unfold Compare, numeric_meas, IsEqual in E.
      destruct (file_data_normal (e_sc e) (sources e f) h d (dcontent d)) as (r & X & N); [right; auto|].
      rewrite X in E. injection E as <- <- <-. auto.
  - destruct m as [x|h] eqn:Em.
    + unfold Compare, numeric_meas in E. destruct (is_numeric (dcls x)); [injection E as <- <- <-; split; [left; eexists; reflexivity|auto]|].
      unfold IsEqual in E. destruct Hm as [M1 M2].
      destruct (file_data_normal (e_sc e) (sources e f) g x (dcontent x)) as (r & X & N); [right; auto|].
      rewrite X in E. injection E as <- <- <-. auto.
    + unfold Compare, numeric_meas, IsEqual in E. injection E as <- <- <-. split; [|auto].
      unfold file_IsEqual_file. destruct (negb (eqs (fname g) (fname h)) || negb (eqs (ftype g) (ftype h))); [left; eexists; reflexivity|].
      rewrite load_spec. destruct (sources e f (cstr (ffile g))) as [|bytes|]; cbn [bind]; [| |right; eexists; reflexivity].
      * destruct (file_data_normal (e_sc e) (sources e f) h (new_dm CPlain) [] (new_direct CPlain)) as (r & -> & N). exact N.
      * destruct (file_data_normal (e_sc e) (sources e f) h (loaded g bytes) bytes (loaded_direct g bytes)) as (r & -> & N). exact N.
Qed.

Lemma Difference_defined e b c : harmless e b c ->
  defined (snd (Difference (e_sc e) (e_asserts e) (e_oob e) b (meas_of (e_io e) true c))).
Proof.
  intros [_ Hp]. unfold Difference, AddPrefixesToNames.
  destruct c; cbn [meas_of file_meas]; cbn [dcls SetContent named new_dm SetAttributeName int_SetValue float_SetValue double_SetValue bool_SetValue snd];
    try (rewrite ?print_print_of; cbn [bind]; eexists; reflexivity).
  destruct Hp as ([g Hg] & Hs & Hd). rewrite Hg. destruct (C29_diff_succeeds (e_sc e) _ _ Hs Hd) as [out Ho].
  match goal with |- context [DiffModel.Diff _ _ _ _ ?x] => change x with content end. rewrite Ho. cbn [bind]. rewrite print_print_of. eexists. reflexivity.
Qed.

(** one comparison *)
Lemma compare_returns e c s s' r : Forall fresh_meas (s_input s) ->
  (forall b, In b (s_input s) -> same_kind b (meas_of (e_io e) true c) = true -> harmless e b c) ->
  CompareMeasurement e (meas_of (e_io e) true c) (tolerant_of c) s = (s', r) -> normal r.
Proof.
  intros Hf Hh. unfold CompareMeasurement. unfold mbind at 1. unfold gets at 1. cbv iota.
  set (m := meas_of (e_io e) true c) in *. destruct (s_input s) as [|b bs] eqn:Ein.
  - unfold mbind, UnmatchedMeasurement, modify, mret. cbv iota. unfold mbind. rewrite put_meas_eq. intros H. injection H as _ <-. left. eexists. reflexivity.
  - unfold mbind at 1. unfold modify at 1. cbv iota. set (s0 := set_input s bs).
    destruct (eqs (mname b) (mname m) && eqs (mtype b) (mtype m)) eqn:Ek.
    2:{ unfold mbind, UnmatchedMeasurement, modify, mret. cbv iota. unfold mbind. rewrite put_meas_eq. intros H. injection H as _ <-. left. eexists. reflexivity. }
    unfold mbind at 1. rewrite locate_found. cbv iota. unfold mbind at 1. unfold gets at 1. cbv iota. unfold visitor.
    set (b1 := found e (s_path s0) (s_files s0) b m).
    assert (K1 : same_kind b1 m = true).
    { unfold same_kind, b1. destruct (found_kind e (s_path s0) (s_files s0) b m) as [-> ->]. exact Ek. }
    assert (F1 : fresh_meas b1 /\ harmless e b1 c).
    { inversion Hf as [|? ? Fb _]; subst. specialize (Hh b (or_introl eq_refl) Ek). split.
      - unfold b1, found. destruct b as [d|g]; [exact Fb|]. destruct m as [d|h]; [exact Logic.I|]. destruct (SearchPathList _ _ _) as [[|z p]| | | |]; exact Logic.I.
      - unfold b1, found. destruct b as [d|g]; [exact Hh|]. destruct m as [d|h] eqn:Em; [exact Hh|].
        assert (NP : match c with TextPlain _ _ => False | _ => True end) by (destruct c; auto; discriminate Em).
        destruct (SearchPathList _ _ _) as [[|z p]| | | |]; try exact Hh. split; [exact Logic.I|]. destruct c; auto; contradiction. }
    destruct F1 as [F1 H1].
    destruct (Compare (e_sc e) (sources e (s_files s0)) (e_io e) (if tolerant_of c then SetTolerance new_cmp (s_tol s0) else new_cmp) b1 m) as [[b2 m2] v] eqn:Ec.
    destruct (Compare_returns e (s_files s0) (s_tol s0) b1 c b2 m2 v F1 K1 H1 Ec) as (N & -> & ->).
    unfold mbind at 1, mlift at 1. destruct N as [[z ->]|[i ->]]; cbv iota.
    + destruct z.
      * intros H. unfold mret in H. injection H as _ <-. left. eexists. reflexivity.
      * unfold DifferenceMeasurement, mbind, modify, mlift, put, mret. destruct (Difference_defined e b1 c H1) as [t Ht]. rewrite Ht.
        unfold modify. intros H. injection H as _ <-. left. eexists. reflexivity.
    + intros H. injection H as _ <-. right. eexists. reflexivity.
Qed.

Lemma can_tl e b bs p : can_be_compared e (b :: bs) p -> can_be_compared e bs p.
Proof.
  induction p as [z|x|c k IH|t k IH|z k IH|path y k IH]; cbn [can_be_compared]; auto.
  intros [A B]. split; [intros b0 Hb; exact (A b0 (or_intror Hb))|]. intros r. apply IH, B.
Qed.
Lemma run_returns e : forall p s s' r k, s_is s = Some k -> Forall fresh_meas (s_input s) -> can_be_compared e (s_input s) p ->
  run e p s = (s', r) -> normal r.
Proof.
  induction p as [z|x|c k IH|t k IH|z k IH|path y k IH]; intros s s' r ki Hi Hf Hc H; cbn [run] in H; cbn [can_be_compared] in Hc.
  - unfold mret in H. injection H as _ <-. left. eexists. reflexivity.
  - unfold mlift in H. injection H as _ <-. right. eexists. reflexivity.
  - destruct Hc as [Hc Hk]. unfold mbind at 1 in H. unfold Measure, GetCompareMode in H. unfold mbind at 1 in H. rewrite (compare_mode_open e s ki Hi) in H. cbv iota in H.
    destruct (CompareMeasurement e (meas_of (e_io e) true c) (tolerant_of c) s) as [s1 r1] eqn:E.
    destruct (compare_returns e c s s1 r1 Hf Hc E) as [[z ->]|[i ->]].
    + destruct (compare_one _ _ _ _ _ E) as [A _]. destruct (A z eq_refl) as (_ & _ & I1 & F & _).
      destruct F as (_ & _ & _ & _ & F5). refine (IH z s1 s' r ki _ _ _ H); [congruence| |]; rewrite I1.
      * destruct Hf; [constructor|assumption].
      * destruct (s_input s) as [|b bs]; [apply Hk|]. exact (can_tl e b bs _ (Hk z)).
    + injection H as _ <-. right. eexists. reflexivity.
  - unfold mbind, modify in H. cbv iota in H. exact (IH (set_tol s t) s' r ki Hi Hf Hc H).
  - unfold mbind, modify in H. cbv iota in H. exact (IH (set_expected s z) s' r ki Hi Hf Hc H).
  - unfold mbind, modify in H. cbv iota in H. exact (IH (set_files s _) s' r ki Hi Hf Hc H).
Qed.

(** the end of [Main] *)
Lemma finish_returns e ret s : exists s' z, finish e ret s = (s', Ok z).
Proof.
  unfold finish. destruct (negb _); [do 2 eexists; reflexivity|]. destruct (s_is s) as [k|] eqn:K.
  - rewrite (compare_mode_open e s k K). do 2 eexists. reflexivity.
  - rewrite (closed_mode e s K). do 2 eexists. reflexivity.
Qed.
Lemma Main_returns e f test argv s r : main_body e test argv (set_unmatched (new_test f) 1) = (s, r) -> normal r ->
  exists s' z, Main e test argv (new_test f) = (s', Ok z).
Proof.
  intros E [[z ->]|[i ->]]; rewrite Main_unfold, E; [|apply finish_returns].
  unfold EndMeasurement, GetCompareMode, mbind.
  assert (C : exists b, compare_mode e s = Ok b).
  { destruct (s_is s) as [k|] eqn:K; [rewrite (compare_mode_open e s k K)|rewrite (closed_mode e s K)]; eexists; reflexivity. }
  destruct C as [b ->]. destruct b.
  - unfold modify. apply finish_returns.
  - unfold put, modify. apply finish_returns.
Qed.

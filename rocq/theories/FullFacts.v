(** Runs of tests that use the whole protected interface. *)
From Coq Require Import Floats.SpecFloat.
From Verif Require Import Base Str Dec PathModel PathFacts MeasModel MeasFacts DiffModel VisitModel XmlModel ReadModel ReadFacts ReadBack NoThrow RegModel ArgFacts ArgProps RegSpec RegFacts RegStart RegMain RegProps RegProps2 LineSpec LineProps ReportSpec ReportProps ItkModel ItkSim ApiModel ApiSpec ApiFacts ApiRun FullModel FullSpec.

(** * Text *)
Definition print_text (text : str) (s : rst) : rst := match text with [] => s | _ => put_text text s end.
Definition at_of (s : rst) : situation := At (s_tol s) (s_files s) (s_path s) (s_expected s) (s_in s) (s_out s).
Definition is_open (s : rst) : bool := match s_is s with Some _ => true | None => false end.
Lemma print_text_full text s : text <> [] -> print_text text s = put_text text s.
Proof. destruct text; [contradiction|reflexivity]. Qed.
Lemma print_text_spec text s : let s' := print_text text s in
  at_of s' = wrote (s_os s) text (at_of s) /\ s_input s' = s_input s /\ s_unmatched s' = s_unmatched s /\ s_os s' = s_os s /\ s_is s' = s_is s /\
  s_stdout s' = s_stdout s ++ (match s_os s with None => text | Some _ => [] end).
Proof.
  cbv zeta. destruct text as [|c t].
  - cbn [print_text]. destruct s as [fi so inp i o pa os is_ tol un ex]. unfold at_of, wrote, appended. cbn. repeat split. destruct os; rewrite app_nil_r; reflexivity.
  - unfold print_text, put_text, at_of, wrote, appended. destruct s as [fi so inp i o pa os is_ tol un ex]. cbn. destruct os as [k|]; [|cbn; repeat split].
    destruct (fi k) as [[r w b|r w x]|]; cbn; rewrite ?app_nil_r; repeat split.
Qed.
Lemma print_out_eq text s : print_out text s = (print_text text s, Ok tt).
Proof. destruct text; reflexivity. Qed.

Lemma printed_print m n : print_of (mset_name m n) = printed m n.
Proof.
  destruct m as [d|g]; unfold printed, print_of; rewrite ?extra_eq;
    cbn [mset_name PrintStartTag SetAttributeName dname dcls denc dcomp desc mesc mcontent dcontent melem fname fesc ftype ffile];
    unfold quoted, q; change default_comp with default_enc; cbv beta zeta; [destruct (desc d)|destruct (fesc g)]; rewrite <- ?app_assoc; reflexivity.
Qed.
Lemma printed_ne m n t : printed m n ++ t <> [].
Proof. destruct m; unfold printed; cbn; discriminate. Qed.
Lemma stored_before m m' : stored m' = stored m -> as_before m m'.
Proof.
  destruct m as [[n es c en co ct da]|g], m' as [[n' es' c' en' co' ct' da']|g']; cbn; intros H; try discriminate; [|congruence].
  injection H as -> -> -> -> -> ->. reflexivity.
Qed.
Lemma before_print m m' n : as_before m m' -> print_of (mset_name m' n) = printed m n.
Proof.
  rewrite printed_print. destruct m as [[n0 es c en co ct da]|g], m' as [[n' es' c' en' co' ct' da']|g']; cbn [as_before]; try contradiction.
  - cbn. intros H. injection H as -> -> -> -> -> ->. reflexivity.
  - intros ->. reflexivity.
Qed.
Lemma before_same m m' : as_before m m' -> mname m' = mname m /\ mcontent m' = mcontent m /\ mtype m' = mtype m /\ plain_object m' = plain_object m.
Proof.
  destruct m as [[n0 es c en co ct da]|g], m' as [[n' es' c' en' co' ct' da']|g']; cbn [as_before]; try contradiction.
  - cbn. intros H. injection H as -> -> -> -> -> ->. auto.
  - intros ->. auto.
Qed.

(** * One comparison *)
Lemma unmatched_eq m s : UnmatchedMeasurement m s =
  (print_text (printed m ($"Unmatched " ++ mname m) ++ [nl]) (set_unmatched s (s_unmatched s + 1)), Ok tt).
Proof.
  unfold UnmatchedMeasurement, mbind, modify. cbv iota. rewrite put_meas_eq, printed_print. rewrite print_text_full by apply printed_ne. reflexivity.
Qed.
Definition answer (r : res Z) : option (Z + exn) := match r with Ok z => Some (inl z) | Throw x => Some (inr x) | _ => None end.
Lemma difference_objects sc asserts oob b m t : snd (Difference sc asserts oob b m) = Ok t ->
  if plain_object m then exists d, Diff sc asserts oob (mcontent b) (mcontent m) = Ok d /\ t = element DATA ($"Difference " ++ mname m) ($"text/plain") d ++ [nl] /\ snd (fst (Difference sc asserts oob b m)) = m
  else t = print_of (mset_name m ($"Test " ++ mname m)) ++ [nl] ++ print_of (mset_name b ($"Baseline " ++ mname b)) ++ [nl] /\
       snd (fst (Difference sc asserts oob b m)) = mset_name m ($"Test " ++ mname m).
Proof.
  assert (G : forall m, (match m with MD d => dcls d <> CPlain | MF _ => True end) -> snd (Difference sc asserts oob b m) = Ok t ->
     t = print_of (mset_name m ($"Test " ++ mname m)) ++ [nl] ++ print_of (mset_name b ($"Baseline " ++ mname b)) ++ [nl] /\
       snd (fst (Difference sc asserts oob b m)) = mset_name m ($"Test " ++ mname m)).
  { clear m. intros m Hm. unfold Difference, AddPrefixesToNames.
    destruct m as [d|g]; [destruct (dcls d); try contradiction|]; cbn [fst snd]; rewrite ?print_print_of; cbn [bind]; intros H; apply Ok_inj in H; subst t; split; reflexivity. }
  destruct m as [d|g]; cbn [plain_object]; [|apply G; exact I].
  destruct (cls_eqb (dcls d) CPlain) eqn:Ec.
  - assert (Hc : dcls d = CPlain) by (destruct (dcls d); try discriminate; reflexivity). unfold Difference. rewrite Hc. cbn [fst snd].
    destruct (Diff sc asserts oob (mcontent b) (mcontent (MD d))) as [x| | | |] eqn:Ed; cbn [bind]; try discriminate. rewrite print_print_of. cbn [bind].
    intros H. apply Ok_inj in H. exists x. split; [reflexivity|]. split; [|reflexivity]. subst t. change (SetAttributeName (new_dm CPlain)) with (named CPlain).
    rewrite print_data. reflexivity.
  - apply G. destruct (dcls d); discriminate.
Qed.
Lemma set_same s bs : set_input s bs = print_text [] (set_unmatched (set_input s bs) (s_unmatched s + 0)).
Proof. cbn [print_text]. rewrite Z.add_0_r. destruct s. reflexivity. Qed.
Lemma compare_judged e m tolerant s s' r a : CompareMeasurement e m tolerant s = (s', r) -> answer r = Some a ->
  exists n text, judged e (at_of s) (hd_error (s_input s)) m tolerant a n text (object_after e s m tolerant) /\
    s' = print_text text (set_unmatched (set_input s (tl (s_input s))) (s_unmatched s + n)).
Proof.
  unfold CompareMeasurement, object_after. unfold mbind at 1. unfold gets at 1. cbv iota.
  destruct (s_input s) as [|b bs] eqn:Ein.
  - unfold mbind. rewrite unmatched_eq. unfold mret. intros H. apply pair_equal_spec in H. destruct H as [<- <-]. cbn [answer]. intros H. injection H as <-.
    exists 1%Z, (printed m ($"Unmatched " ++ mname m) ++ [nl]). split; [constructor; discriminate|].
    f_equal. destruct s. cbn in *. subst. reflexivity.
  - unfold mbind at 1. unfold modify at 1. cbv iota.
    destruct (eqs (mname b) (mname m) && eqs (mtype b) (mtype m)) eqn:Ek.
    + unfold mbind at 1. rewrite !locate_found. cbv iota beta. cbn [set_input s_path s_files].
      unfold mbind at 1. unfold gets at 1. cbv iota. cbn [set_input s_path s_files]. unfold visitor. cbn [set_input s_tol].
      set (b1 := found e (s_path s) (s_files s) b m).
      set (cv := if tolerant then SetTolerance new_cmp (s_tol s) else new_cmp).
      destruct (Compare (e_sc e) (sources e (s_files s)) (e_io e) cv b1 m) as [[b2 m2] v] eqn:Ec.
      destruct (compare_stored _ _ _ _ _ _ _ _ _ Ec) as [Sb Sm]. apply stored_before in Sb, Sm.
      assert (J : forall a n text after, reaction e m b1 m2 v a n text after -> judged e (at_of s) (Some b) m tolerant a n text after).
      { intros. eapply judged_partner; [exact Ek|exact Ec|exact Sm|]. assumption. }
      unfold mbind at 1, mlift at 1. destruct v as [v|x| | |]; cbv iota; intros H Ha.
      * destruct v.
        { unfold mret in H. apply pair_equal_spec in H. destruct H as [<- <-]. injection Ha as <-. exists 0%Z, []. split; [apply J; constructor|].
          apply set_same. }
        { unfold DifferenceMeasurement, mbind, modify, mlift, put, mret in H. cbn [hd_error].
          destruct (Difference (e_sc e) (e_asserts e) (e_oob e) b2 m2) as [[b3 m3] d] eqn:Ed. cbn [snd] in H.
          destruct d as [text|x| | |] eqn:Er; cbv iota in H.
          - unfold modify in H. apply pair_equal_spec in H. destruct H as [<- <-]. injection Ha as <-.
            exists 1%Z, text. pose proof (difference_objects (e_sc e) (e_asserts e) (e_oob e) b2 m2 text) as D. rewrite Ed in D. specialize (D eq_refl). cbn [fst snd] in D.
            destruct (before_same _ _ Sb) as (Nb & Cb & _). destruct (before_same _ _ Sm) as (Nm & Cm & _ & Pm). rewrite Pm in D.
            assert (S' : forall t, t <> [] -> put_text t (set_unmatched (set_input s bs) (s_unmatched (set_input s bs) + 1)) = print_text t (set_unmatched (set_input s bs) (s_unmatched s + 1))).
            { intros t Ht. rewrite print_text_full by exact Ht. reflexivity. }
            destruct (plain_object m) eqn:Ep.
            + destruct D as (d0 & D1 & D2 & ->). rewrite Cb, Cm in D1. rewrite Nm in D2. subst text. split.
              * apply J. constructor; [exact Ep|exact D1].
              * apply S'. unfold element. discriminate.
            + destruct D as [D ->]. rewrite (before_print _ _ _ Sm), (before_print _ _ _ Sb), Nm, Nb in D. subst text. split.
              * apply J. replace (mset_name m2 ($"Test " ++ mname m2)) with (renamed m2 ($"Test ")) by reflexivity. apply react_values. exact Ep.
              * apply S'. apply printed_ne.
          - exfalso. pose proof (difference_calm (e_sc e) (e_asserts e) (e_oob e) b2 m2 x) as C. rewrite Ed in C. apply C. reflexivity.
          - apply pair_equal_spec in H. destruct H as [_ <-]. discriminate.
          - apply pair_equal_spec in H. destruct H as [_ <-]. discriminate.
          - apply pair_equal_spec in H. destruct H as [_ <-]. discriminate. }
      * apply pair_equal_spec in H. destruct H as [<- <-]. injection Ha as <-. exists 0%Z, []. split; [apply J; constructor|].
        apply set_same.
      * apply pair_equal_spec in H. destruct H as [_ <-]. discriminate.
      * apply pair_equal_spec in H. destruct H as [_ <-]. discriminate.
      * apply pair_equal_spec in H. destruct H as [_ <-]. discriminate.
    + unfold mbind. rewrite unmatched_eq. unfold mret. intros H. apply pair_equal_spec in H. destruct H as [<- <-]. cbn [answer]. intros H. injection H as <-.
      exists 1%Z, (printed m ($"Unmatched " ++ mname m) ++ [nl]). split; [|reflexivity].
      constructor. intros b0 Hb. cbn [hd_error] in Hb. injection Hb as <-. exact Ek.
Qed.

(** * A test *)
Lemma mode_at e s : compare_mode e s = Ok (comparing e (is_open s) (at_of s)).
Proof.
  unfold comparing, is_open. destruct (s_is s) as [k|] eqn:E.
  - rewrite (compare_mode_open e s k E). reflexivity.
  - rewrite closed_mode by exact E. reflexivity.
Qed.
Lemma measure_at e c s : Measure e c s =
  if comparing e (is_open s) (at_of s) then CompareMeasurement e (meas_of (e_io e) true c) (tolerant_of c) s
  else (print_text (print_of (meas_of (e_io e) false c) ++ [nl]) s, Ok 0%Z).
Proof.
  unfold Measure, GetCompareMode. unfold mbind at 1. rewrite mode_at. destruct (comparing e (is_open s) (at_of s)); [reflexivity|].
  unfold mbind, mret. rewrite put_meas_eq. rewrite print_text_full; [reflexivity|].
  unfold print_of. destruct (meas_of (e_io e) false c); cbn; discriminate.
Qed.
Definition ended (r : res Z) : Prop := (exists z, r = Ok z) \/ (exists x, r = Throw x).
Lemma to_screen_app o a b : to_screen o (a ++ b) = to_screen o a ++ to_screen o b.
Proof. destruct o; reflexivity. Qed.

Lemma frun_performs e p : forall s s' out, frun e p s = (s', out) -> ended out ->
  exists n text, performs e (s_os s) (is_open s) (at_of s) p (s_input s) n text (at_of s') out /\
    s_unmatched s' = (s_unmatched s + n)%Z /\ s_stdout s' = s_stdout s ++ to_screen (s_os s) text /\ s_os s' = s_os s /\ s_is s' = s_is s.
Proof.
  assert (Step : forall k s1 s s' out n1 t, (forall s s' out, frun e k s = (s', out) -> ended out ->
    exists n text, performs e (s_os s) (is_open s) (at_of s) k (s_input s) n text (at_of s') out /\
      s_unmatched s' = (s_unmatched s + n)%Z /\ s_stdout s' = s_stdout s ++ to_screen (s_os s) text /\ s_os s' = s_os s /\ s_is s' = s_is s) ->
    s1 = print_text t s -> frun e k s1 = (s', out) -> ended out ->
    exists n text, performs e (s_os s) (is_open s) (wrote (s_os s) t (at_of s)) k (s_input s) n text (at_of s') out /\
      s_unmatched s' = (s_unmatched s - n1 + (n1 + n))%Z /\ s_stdout s' = s_stdout s ++ to_screen (s_os s) (t ++ text) /\ s_os s' = s_os s /\ s_is s' = s_is s).
  { intros k s1 s s' out n1 t IH -> H Ho. destruct (print_text_spec t s) as (A & B & C & D & E & F).
    destruct (IH _ _ _ H Ho) as (n & text & W & U & X & O & I). unfold is_open in W. rewrite A, B, D, E in W. exists n, text.
    split; [exact W|]. split; [lia|]. split; [|split; congruence].
    rewrite X, F, D, to_screen_app, app_assoc. reflexivity. }
  assert (Judged : forall m tolerant (k : Z + exn -> fprog) s s' out,
    (forall r s s' out, frun e (k r) s = (s', out) -> ended out ->
    exists n text, performs e (s_os s) (is_open s) (at_of s) (k r) (s_input s) n text (at_of s') out /\
      s_unmatched s' = (s_unmatched s + n)%Z /\ s_stdout s' = s_stdout s ++ to_screen (s_os s) text /\ s_os s' = s_os s /\ s_is s' = s_is s) ->
    (r <- caught (CompareMeasurement e m tolerant) ;; frun e (k r)) s = (s', out) -> ended out ->
    exists r n1 t n text, judged e (at_of s) (hd_error (s_input s)) m tolerant r n1 t (object_after e s m tolerant) /\
      performs e (s_os s) (is_open s) (wrote (s_os s) t (at_of s)) (k r) (tl (s_input s)) n text (at_of s') out /\
      s_unmatched s' = (s_unmatched s + (n1 + n))%Z /\ s_stdout s' = s_stdout s ++ to_screen (s_os s) (t ++ text) /\ s_os s' = s_os s /\ s_is s' = s_is s).
  { intros m tolerant k s s' out IH H Ho. unfold mbind, caught in H. destruct (CompareMeasurement e m tolerant s) as [s1 r] eqn:Ec.
    assert (G : exists a, answer r = Some a /\ frun e (k a) s1 = (s', out)).
    { destruct r as [z|x| | |]; cbv iota in H; [exists (inl z)|exists (inr x)|..]; try (split; [reflexivity|exact H]);
        apply pair_equal_spec in H; destruct H as [_ <-]; destruct Ho as [[? Ho]|[? Ho]]; discriminate. }
    destruct G as (a & Ha & Hr). destruct (compare_judged _ _ _ _ _ _ _ Ec Ha) as (n1 & t & J & ->).
    destruct (Step (k a) _ _ s' out n1 t (IH a) eq_refl Hr Ho) as (n & text & W & U & X & O & I).
    exists a, n1, t, n, text. split; [exact J|]. destruct s. cbn in *. split; [exact W|]. split; [lia|]. split; [exact X|]. split; assumption. }
  induction p as [z|x|c k IH|m tolerant k IH|t k IH|t k IH|z k IH|n k IH|n k IH|l k IH|d k IH|path b k IH|k IH]; cbn [frun]; intros s s' out H Ho.
  - unfold mret in H. apply pair_equal_spec in H. destruct H as [<- <-]. exists 0%Z, []. split; [constructor|]. split; [lia|].
    split; [destruct (s_os s); rewrite app_nil_r; reflexivity|auto].
  - unfold mlift in H. apply pair_equal_spec in H. destruct H as [<- <-]. exists 0%Z, []. split; [constructor|]. split; [lia|].
    split; [destruct (s_os s); rewrite app_nil_r; reflexivity|auto].
  - destruct (comparing e (is_open s) (at_of s)) eqn:Em.
    + assert (H' : (r <- caught (CompareMeasurement e (meas_of (e_io e) true c) (tolerant_of c)) ;; frun e (k r)) s = (s', out)).
      { rewrite <- H. unfold mbind, caught. rewrite measure_at, Em. reflexivity. }
      destruct (Judged _ _ k s s' out IH H' Ho) as (r & n1 & t & n & text & J & W & R). exists (n1 + n)%Z, (t ++ text). split; [|exact R].
      eapply p_measure; [exact Em|exact J|exact W].
    + unfold mbind, caught in H. rewrite measure_at, Em in H. cbv iota in H.
      destruct (Step _ _ _ s' out 0%Z _ (IH (inl 0%Z)) eq_refl H Ho) as (n & text & W & U & X & R).
      exists n, (print_of (meas_of (e_io e) false c) ++ [nl] ++ text). split; [|split; [lia|split; [rewrite X, <- app_assoc; reflexivity|exact R]]].
      apply p_record; [exact Em|apply line_print|exact W].
  - unfold mbind at 1 in H. unfold gets at 1 in H. cbv iota in H.
    destruct (Judged _ _ (fun r => k r (object_after e s m tolerant)) s s' out (fun r => IH r _) H Ho) as (r & n1 & t & n & text & J & W & R).
    exists (n1 + n)%Z, (t ++ text). split; [|exact R]. eapply p_compare; [exact J|exact W].
  - unfold mbind in H. rewrite print_out_eq in H. cbv iota in H.
    destruct (Step _ _ _ s' out 0%Z _ IH eq_refl H Ho) as (n & text & W & U & X & R).
    exists n, (t ++ text). split; [|split; [lia|split; [exact X|exact R]]]. apply p_print. exact W.
  - unfold mbind, modify in H. cbv iota in H. destruct (IH _ _ _ H Ho) as (n0 & text & W & R). exists n0, text. split; [constructor; exact W|exact R].
  - unfold mbind, modify in H. cbv iota in H. destruct (IH _ _ _ H Ho) as (n0 & text & W & R). exists n0, text. split; [constructor; exact W|exact R].
  - unfold mbind, modify in H. cbv iota in H. destruct (IH _ _ _ H Ho) as (n0 & text & W & R). exists n0, text. split; [constructor; exact W|exact R].
  - unfold mbind, modify in H. cbv iota in H. destruct (IH _ _ _ H Ho) as (n0 & text & W & R). exists n0, text. split; [constructor; exact W|exact R].
  - unfold mbind, modify in H. cbv iota in H. destruct (IH _ _ _ H Ho) as (n0 & text & W & R). exists n0, text. split; [constructor; exact W|exact R].
  - unfold mbind, modify in H. cbv iota in H. destruct (IH _ _ _ H Ho) as (n0 & text & W & R). exists n0, text. split; [constructor; exact W|exact R].
  - unfold mbind, modify in H. cbv iota in H. destruct (IH _ _ _ H Ho) as (n0 & text & W & R). exists n0, text. split; [constructor; exact W|exact R].
  - unfold mbind at 1 in H. unfold look_at in H. rewrite mode_at in H. cbn [bind] in H.
    destruct (IH _ _ _ _ H Ho) as (n0 & text & W & R). exists n0, text. split; [|exact R]. apply p_look. exact W.
Qed.

(** * The other way round *)
Lemma difference_ok sc asserts oob b m : (plain_object m = true -> exists d, Diff sc asserts oob (mcontent b) (mcontent m) = Ok d) ->
  exists t, snd (Difference sc asserts oob b m) = Ok t.
Proof.
  intros H. unfold Difference, AddPrefixesToNames. destruct m as [d|g]; [destruct (dcls d) eqn:E|]; cbn [snd]; rewrite ?print_print_of; cbn [bind];
    try (eexists; reflexivity).
  destruct H as [x H]; [cbn; rewrite E; reflexivity|]. rewrite H. cbn [bind]. rewrite print_print_of. cbn [bind]. eexists. reflexivity.
Qed.
Lemma judged_det e a p m tolerant r n text after r' n' t' after' :
  judged e a p m tolerant r n text after -> judged e a p m tolerant r' n' t' after' -> r = r' /\ n = n' /\ text = t' /\ after = after'.
Proof.
  intros J J'. inversion J as [p0 m0 t0 A1 Q1 Q2 Q3 Q4 Q5 Q6 Q7|b m0 t0 b2 m2 v r0 n0 te0 af0 A1 b' A2 A3 A4 Q1 Q2 Q3 Q4 Q5 Q6 Q7]; clear J; subst;
    inversion J' as [p' m0' t0' B1 R1 R2 R3 R4 R5 R6 R7|b0 m0' t0' b2' m2' v' r0' n0' te0' af0' B1 b0' B2 B3 B4 R1 R2 R3 R4 R5 R6 R7]; clear J'; subst.
  - auto.
  - rewrite (A1 b0) in B1 by auto. discriminate.
  - rewrite (B1 b) in A1 by auto. discriminate.
  - subst b0' b'. rewrite A2 in B2. apply pair_equal_spec in B2. destruct B2 as [B2 <-]. apply pair_equal_spec in B2. destruct B2 as [<- <-].
    inversion A4; subst; inversion B4; subst; try congruence; repeat split; congruence.
Qed.
Lemma judged_compare e m tolerant s r n text after :
  judged e (at_of s) (hd_error (s_input s)) m tolerant r n text after ->
  caught (CompareMeasurement e m tolerant) s = (print_text text (set_unmatched (set_input s (tl (s_input s))) (s_unmatched s + n)), Ok r) /\
  after = object_after e s m tolerant.
Proof.
  intros J. unfold caught. destruct (CompareMeasurement e m tolerant s) as [s' x] eqn:E.
  destruct (answer x) as [a|] eqn:Ea.
  - destruct (compare_judged _ _ _ _ _ _ _ E Ea) as (n' & t' & J' & ->).
    pose proof (judged_det _ _ _ _ _ _ _ _ _ _ _ _ _ J J') as D.
    destruct D as (Da & Dn & Dt & Do). subst a n' t'. split; [|exact Do]. destruct x; try discriminate; injection Ea as <-; reflexivity.
  - exfalso. revert E. unfold CompareMeasurement. unfold mbind at 1. unfold gets at 1. cbv iota.
    destruct (s_input s) as [|b bs] eqn:Ein.
    + unfold mbind. rewrite unmatched_eq. unfold mret. intros H. apply pair_equal_spec in H. destruct H as [_ <-]. discriminate.
    + unfold mbind at 1. unfold modify at 1. cbv iota.
      inversion J as [p m0 t0 A1 Q1 Q2 Q3 Q4 Q5 Q6 Q7|b' m0 t0 b2 m2 v r0 n0 te0 af0 A1 b'' A2 A3 A4 Q1 Q2 Q3 Q4 Q5 Q6 Q7]; clear J; subst.
      * change (eqs (mname b) (mname m) && eqs (mtype b) (mtype m)) with (same_kind b m). rewrite (A1 b) by reflexivity.
        unfold mbind. rewrite unmatched_eq. unfold mret. intros H. apply pair_equal_spec in H. destruct H as [_ <-]. discriminate.
      * subst b''.
        change (eqs (mname b) (mname m) && eqs (mtype b) (mtype m)) with (same_kind b m). rewrite A1.
        unfold mbind at 1. rewrite !locate_found. cbv iota beta. cbn [set_input s_path s_files].
        unfold mbind at 1. unfold gets at 1. cbv iota. cbn [set_input s_path s_files]. unfold visitor. cbn [set_input s_tol].
        cbn [at_of at_tol at_dirs at_files] in A2, A4. rewrite A2. unfold mbind at 1, mlift at 1.
        destruct (compare_stored _ _ _ _ _ _ _ _ _ A2) as [Sb Sm]. apply stored_before in Sb, Sm.
        destruct (before_same _ _ Sb) as (_ & Cb & _). destruct (before_same _ _ Sm) as (Nm & Cm & _ & Pm).
        destruct v as [[]|x0| | |]; cbv iota.
        -- unfold mret. intros H. apply pair_equal_spec in H. destruct H as [_ <-]. discriminate.
        -- unfold DifferenceMeasurement, mbind, modify, mlift, put, mret.
           destruct (difference_ok (e_sc e) (e_asserts e) (e_oob e) b2 m2) as [t Ed].
           { rewrite Pm, Cb, Cm. inversion A4 as [| |? ? ? d P1 P2|? ? ? P1]; [intros _; exists d; exact P2|intros P; congruence]. }
           rewrite Ed. cbv iota. intros H. apply pair_equal_spec in H. destruct H as [_ <-]. discriminate.
        -- intros H. apply pair_equal_spec in H. destruct H as [_ <-]. discriminate.
        -- inversion A4.
        -- inversion A4.
        -- inversion A4.
Qed.

Lemma performs_frun e o reading a p bs n text a' out : performs e o reading a p bs n text a' out ->
  forall s, s_os s = o -> is_open s = reading -> at_of s = a -> s_input s = bs ->
  exists s', frun e p s = (s', out) /\ at_of s' = a' /\ ended out /\
    s_unmatched s' = (s_unmatched s + n)%Z /\ s_stdout s' = s_stdout s ++ to_screen o text /\ s_os s' = o /\ s_is s' = s_is s.
Proof.
  assert (Print : forall k t n text a' out s, (forall s1 : rst, s_os s1 = s_os s -> is_open s1 = is_open s -> at_of s1 = wrote (s_os s) t (at_of s) -> s_input s1 = s_input s ->
      exists s', frun e k s1 = (s', out) /\ at_of s' = a' /\ ended out /\
      s_unmatched s' = (s_unmatched s1 + n)%Z /\ s_stdout s' = s_stdout s1 ++ to_screen (s_os s) text /\ s_os s' = s_os s /\ s_is s' = s_is s1) ->
    exists s', frun e k (print_text t s) = (s', out) /\ at_of s' = a' /\ ended out /\
      s_unmatched s' = (s_unmatched s + n)%Z /\ s_stdout s' = s_stdout s ++ to_screen (s_os s) (t ++ text) /\ s_os s' = s_os s /\ s_is s' = s_is s).
  { intros k t n0 text0 a0 out0 s IH. destruct (print_text_spec t s) as (A & B & C & D & E & F).
    destruct (IH (print_text t s) D) as (s' & R & W & Ho & U & X & O & I); [unfold is_open; rewrite E; reflexivity|exact A|exact B|].
    exists s'. split; [exact R|]. split; [exact W|]. split; [exact Ho|]. rewrite U, C. split; [reflexivity|]. split; [|split; congruence].
    rewrite X, F, to_screen_app, app_assoc. reflexivity. }
  assert (Judged : forall m tolerant (k : Z + exn -> fprog) s r n1 t n text a' out,
    judged e (at_of s) (hd_error (s_input s)) m tolerant r n1 t (object_after e s m tolerant) ->
    (forall s1 : rst, s_os s1 = s_os s -> is_open s1 = is_open s -> at_of s1 = wrote (s_os s) t (at_of s) -> s_input s1 = tl (s_input s) ->
      exists s', frun e (k r) s1 = (s', out) /\ at_of s' = a' /\ ended out /\
      s_unmatched s' = (s_unmatched s1 + n)%Z /\ s_stdout s' = s_stdout s1 ++ to_screen (s_os s) text /\ s_os s' = s_os s /\ s_is s' = s_is s1) ->
    exists s', (r <- caught (CompareMeasurement e m tolerant) ;; frun e (k r)) s = (s', out) /\ at_of s' = a' /\ ended out /\
      s_unmatched s' = (s_unmatched s + (n1 + n))%Z /\ s_stdout s' = s_stdout s ++ to_screen (s_os s) (t ++ text) /\ s_os s' = s_os s /\ s_is s' = s_is s).
  { intros m tolerant k s r n1 t n0 text0 a0 out0 J IH. destruct (judged_compare _ _ _ _ _ _ _ _ J) as [C _]. unfold mbind. rewrite C.
    set (s1 := set_unmatched (set_input s (tl (s_input s))) (s_unmatched s + n1)).
    destruct (Print (k r) t n0 text0 a0 out0 s1) as (s' & R & W & Ho & U & X & O & I).
    { intros s2 H1 H2 H3 H4. apply IH; [rewrite H1|rewrite H2|rewrite H3|rewrite H4]; destruct s; reflexivity. }
    exists s'. split; [exact R|]. split; [exact W|]. split; [exact Ho|]. unfold s1 in *. destruct s; cbn in *. split; [lia|]. split; [exact X|]. split; assumption. }
  induction 1 as [a z bs|a x bs|a c k bs t n text a' out M L P IH|a c k bs r n1 t after n text a' out M J P IH|a m tolerant k bs r n1 t after n text a' out J P IH|
    a t k bs n text a' out P IH|a t k bs n text a' out P IH|a z k bs n text a' out P IH|a i k bs n text a' out P IH|a i k bs n text a' out P IH|
    a l k bs n text a' out P IH|a d k bs n text a' out P IH|a path b k bs n text a' out P IH|a k bs n text a' out P IH]; intros s <- <- <- <-; cbn [frun].
  - exists s. split; [reflexivity|]. split; [reflexivity|]. split; [left; eauto|]. split; [lia|]. split; [destruct (s_os s); rewrite app_nil_r; reflexivity|auto].
  - exists s. split; [reflexivity|]. split; [reflexivity|]. split; [right; eauto|]. split; [lia|]. split; [destruct (s_os s); rewrite app_nil_r; reflexivity|auto].
  - assert (Et : t = print_of (meas_of (e_io e) false c)) by (apply (C44_line_determined (e_io e) c); [exact L|apply line_print]). subst t.
    unfold mbind, caught. rewrite measure_at, M. cbv iota.
    destruct (Print _ _ _ _ _ _ s (fun s1 => IH s1)) as (s' & R & W & Ho & U & X & I). exists s'. rewrite <- app_assoc in X. auto 10.
  - destruct (judged_compare _ _ _ _ _ _ _ _ J) as [_ Ha]. rewrite Ha in J.
    destruct (Judged _ _ k s r n1 t n text a' out J (fun s1 => IH s1)) as (s' & R & I). exists s'. split; [|exact I].
    rewrite <- R. unfold mbind, caught. rewrite measure_at, M. reflexivity.
  - destruct (judged_compare _ _ _ _ _ _ _ _ J) as [_ Ha]. unfold mbind at 1. unfold gets at 1. cbv iota. rewrite Ha in J, IH.
    destruct (Judged _ _ (fun r => k r (object_after e s m tolerant)) s r n1 t n text a' out J (fun s1 => IH s1)) as (s' & R & I). exists s'. split; [exact R|exact I].
  - unfold mbind. rewrite print_out_eq. cbv iota. exact (Print _ _ _ _ _ _ s (fun s1 => IH s1)).
  - unfold mbind, modify. cbv iota. exact (IH (set_tol s t) eq_refl eq_refl eq_refl eq_refl).
  - unfold mbind, modify. cbv iota. exact (IH (set_expected s z) eq_refl eq_refl eq_refl eq_refl).
  - unfold mbind, modify. cbv iota. exact (IH (set_in s i) eq_refl eq_refl eq_refl eq_refl).
  - unfold mbind, modify. cbv iota. exact (IH (set_out s i) eq_refl eq_refl eq_refl eq_refl).
  - unfold mbind, modify. cbv iota. exact (IH (set_path s l) eq_refl eq_refl eq_refl eq_refl).
  - unfold mbind, modify. cbv iota. exact (IH (set_path s (d :: s_path s)) eq_refl eq_refl eq_refl eq_refl).
  - unfold mbind, modify. cbv iota. exact (IH (set_files s (write_file e (s_files s) path b)) eq_refl eq_refl eq_refl eq_refl).
  - unfold mbind at 1. unfold look_at. rewrite mode_at. cbn [bind]. exact (IH (s) eq_refl eq_refl eq_refl eq_refl).
Qed.

(** * The end *)
Lemma end_of e s out n : ended out -> s_unmatched s = (1 + n)%Z ->
  let c := comparing e (is_open s) (at_of s) in
  let files := appended (s_os s) (closing out c) (s_files s) in
  exists s', ends_with e (s, out) = (s', Ok (outcome_status out (s_expected s) n (names_baseline e files (s_path s) (s_in s)) c)) /\
    s_files s' = files /\ s_stdout s' = s_stdout s ++ to_screen (s_os s) (closing out c).
Proof.
  intros Ho Hu c files. unfold ends_with. destruct Ho as [[z ->]|[x ->]].
  - unfold EndMeasurement, GetCompareMode, mbind. rewrite mode_at. fold c. destruct c eqn:Ec; cbv iota.
    + unfold modify. cbv iota. unfold finish_with. cbn [set_unmatched set_is set_os set_input s_expected s_unmatched outcome_status].
      assert (Ef : files = s_files s) by (unfold files; cbn [closing]; reflexivity). cbn [closing].
      destruct (z =? s_expected s)%Z; cbn [negb].
      * rewrite closed_mode by reflexivity. cbn [bind]. rewrite Ef. cbn [set_unmatched set_is set_os set_input s_expected s_unmatched s_files s_path s_in].
        replace (s_unmatched s - 1)%Z with n by lia. eexists. split; [reflexivity|]. split; [reflexivity|]. cbn. destruct (s_os s); rewrite app_nil_r; reflexivity.
      * eexists. split; [reflexivity|]. split; [symmetry; exact Ef|cbn; destruct (s_os s); rewrite app_nil_r; reflexivity].
    + unfold put, modify. cbv iota. destruct (print_text_spec footer s) as (A & B & C & D & E & F).
      change (print_text footer s) with (put_text footer s) in *. set (s1 := put_text footer s) in *.
      assert (Ef : s_files s1 = files).
      { apply (f_equal at_files) in A. cbn [at_of at_files wrote] in A. rewrite A. reflexivity. }
      assert (Ep : s_path s1 = s_path s) by (apply (f_equal at_dirs) in A; exact A).
      assert (Ei : s_in s1 = s_in s) by (apply (f_equal at_in) in A; exact A).
      assert (Ex : s_expected s1 = s_expected s) by (apply (f_equal at_expected) in A; exact A).
      unfold finish_with. cbn [set_unmatched set_is set_os set_input s_expected s_unmatched outcome_status closing].
      rewrite Ex. destruct (z =? s_expected s)%Z; cbn [negb].
      * rewrite closed_mode by reflexivity. cbn [bind].
        cbn [set_unmatched set_is set_os set_input s_expected s_unmatched s_files s_path s_in]. rewrite Ef, Ep, Ei.
        replace (s_unmatched s1 - 1)%Z with n by lia. eexists. split; [reflexivity|]. split; [exact Ef|exact F].
      * eexists. split; [reflexivity|]. split; [exact Ef|exact F].
  - assert (Ef : files = s_files s) by (unfold files; cbn [closing]; reflexivity). rewrite Ef. cbn [closing outcome_status].
    exists s. split; [|split; [reflexivity|destruct (s_os s); cbn; rewrite app_nil_r; reflexivity]].
    unfold finish_with. destruct (-1 =? s_expected s)%Z; cbn [negb]; [|reflexivity].
    rewrite mode_at. cbn [bind]. fold c. rewrite Hu. f_equal. f_equal. destruct c; lia.
Qed.
Lemma frun_ended e p s s' z : ends_with e (frun e p s) = (s', Ok z) -> ended (snd (frun e p s)).
Proof. destruct (frun e p s) as [s1 [v|x| | |]]; cbn; intros H; try discriminate H; [left|right]; eauto. Qed.
(** from a state in which the test is started *)
Lemma run_at e p s : s_unmatched s = 1%Z -> forall z files stdout,
  (exists s', ends_with e (frun e p s) = (s', Ok z) /\ s_files s' = files /\ s_stdout s' = stdout) <->
  exists n text a out, performs e (s_os s) (is_open s) (at_of s) p (s_input s) n text a out /\
    let c := comparing e (is_open s) a in
    files = appended (s_os s) (closing out c) (at_files a) /\ stdout = s_stdout s ++ to_screen (s_os s) (text ++ closing out c) /\
    z = outcome_status out (at_expected a) n (names_baseline e files (at_dirs a) (at_in a)) c.
Proof.
  intros Hu z files stdout. split.
  - intros (s' & R & <- & <-). pose proof (frun_ended _ _ _ _ _ R) as Ho. destruct (frun e p s) as [s3 out] eqn:E. cbn [snd] in Ho.
    destruct (frun_performs e p s s3 out E Ho) as (n & text & P & U & X & O & I). exists n, text, (at_of s3), out. split; [exact P|]. cbv zeta.
    assert (Io : is_open s = is_open s3) by (unfold is_open; rewrite I; reflexivity). rewrite Hu in U.
    destruct (end_of e s3 out n Ho U) as (s4 & R4 & F4 & X4). rewrite R in R4. injection R4 as <- ->.
    rewrite Io, F4, X4, <- O, X, to_screen_app, app_assoc, O. split; [reflexivity|]. split; reflexivity.
  - intros (n & text & a & out & P & F & X & Z). cbv zeta in F, X, Z.
    destruct (performs_frun _ _ _ _ _ _ _ _ _ _ P s eq_refl eq_refl eq_refl eq_refl) as (s3 & R & A & Ho & U & X3 & O & I). rewrite R. rewrite Hu in U.
    assert (Io : is_open s = is_open s3) by (unfold is_open; rewrite I; reflexivity).
    destruct (end_of e s3 out n Ho U) as (s4 & R4 & F4 & X4). exists s4. rewrite <- A in *. rewrite Io, <- O in *.
    cbn [at_of at_files at_dirs at_expected at_in at_tol at_out] in *. rewrite F4, X4. rewrite F. split; [rewrite R4, Z, F; reflexivity|]. split; [reflexivity|].
    rewrite X, X3, to_screen_app, app_assoc. reflexivity.
Qed.

Lemma performs_det e o reading a p bs n text a' out : performs e o reading a p bs n text a' out ->
  forall n2 text2 a2 out2, performs e o reading a p bs n2 text2 a2 out2 -> n2 = n /\ text2 = text /\ a2 = a' /\ out2 = out.
Proof.
  induction 1 as [a z bs|a x bs|a c k bs t n text a' out M L P IH|a c k bs r n1 t after n text a' out M J P IH|a m tolerant k bs r n1 t after n text a' out J P IH|
    a t k bs n text a' out P IH|a t k bs n text a' out P IH|a z k bs n text a' out P IH|a i k bs n text a' out P IH|a i k bs n text a' out P IH|
    a l k bs n text a' out P IH|a d k bs n text a' out P IH|a path b k bs n text a' out P IH|a k bs n text a' out P IH]; intros n2 text2 a2 out2 Q.
  - inversion Q; subst; auto.
  - inversion Q; subst; auto.
  - inversion Q as [| |? ? ? ? t2 ? ? ? ? M2 L2 P2|? ? ? ? ? ? ? ? ? ? ? ? M2 J2 P2| | | | | | | | | | ]; subst; [|congruence].
    rewrite (C44_line_determined _ _ _ _ L2 L) in *. destruct (IH _ _ _ _ P2) as (-> & -> & -> & ->). auto.
  - inversion Q as [| |? ? ? ? t2 ? ? ? ? M2 L2 P2|? ? ? ? ? ? ? ? ? ? ? ? M2 J2 P2| | | | | | | | | | ]; subst; [congruence|].
    destruct (judged_det _ _ _ _ _ _ _ _ _ _ _ _ _ J2 J) as (-> & -> & -> & ->). destruct (IH _ _ _ _ P2) as (-> & -> & -> & ->). auto.
  - inversion Q as [| | | |? ? ? ? ? ? ? ? ? ? ? ? ? J2 P2| | | | | | | | | ]; subst.
    destruct (judged_det _ _ _ _ _ _ _ _ _ _ _ _ _ J2 J) as (-> & -> & -> & ->). destruct (IH _ _ _ _ P2) as (-> & -> & -> & ->). auto.
  - inversion Q as [| | | | |? ? ? ? ? ? ? ? P2| | | | | | | | ]; subst. destruct (IH _ _ _ _ P2) as (-> & -> & -> & ->). auto.
  - inversion Q as [| | | | | |? ? ? ? ? ? ? ? P2| | | | | | | ]; subst. exact (IH _ _ _ _ P2).
  - inversion Q as [| | | | | | |? ? ? ? ? ? ? ? P2| | | | | | ]; subst. exact (IH _ _ _ _ P2).
  - inversion Q as [| | | | | | | |? ? ? ? ? ? ? ? P2| | | | | ]; subst. exact (IH _ _ _ _ P2).
  - inversion Q as [| | | | | | | | |? ? ? ? ? ? ? ? P2| | | | ]; subst. exact (IH _ _ _ _ P2).
  - inversion Q as [| | | | | | | | | |? ? ? ? ? ? ? ? P2| | | ]; subst. exact (IH _ _ _ _ P2).
  - inversion Q as [| | | | | | | | | | |? ? ? ? ? ? ? ? P2| | ]; subst. exact (IH _ _ _ _ P2).
  - inversion Q as [| | | | | | | | | | | |? ? ? ? ? ? ? ? ? P2| ]; subst. exact (IH _ _ _ _ P2).
  - inversion Q as [| | | | | | | | | | | | |? ? ? ? ? ? ? P2]; subst. exact (IH _ _ _ _ P2).
Qed.

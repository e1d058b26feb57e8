(** A comparing run with image measurements. *)
From Coq Require Import Floats.SpecFloat.
From Verif Require Import Base Str Dec PathModel PathFacts MeasModel MeasFacts VisitModel XmlModel ReadModel ReadFacts ReadBack NoThrow RegModel RegSpec RegFacts RegStart ImgModel ItkModel ItkSpec ItkSim.

(** nothing but standard output and the files [P] *)
Definition quiet (P : str -> Prop) (s s' : rst) : Prop :=
  s_input s' = s_input s /\ s_unmatched s' = s_unmatched s /\ frame s s' /\ s_tol s' = s_tol s /\ s_expected s' = s_expected s /\
  (forall k, ~ P k -> s_files s' k = s_files s k) /\ keeps (s_files s) (s_files s').
Lemma quiet_refl P s : quiet P s s. Proof. repeat split. apply keeps_refl. Qed.
Lemma quiet_trans P a b c : quiet P a b -> quiet P b c -> quiet P a c.
Proof.
  intros (A1 & A2 & A3 & A4 & A5 & A6 & A7) (B1 & B2 & B3 & B4 & B5 & B6 & B7). unfold quiet.
  rewrite B1, B2, B4, B5. repeat (split; [first [assumption|eapply frame_trans; eassumption]|]).
  split; [intros k Hk; rewrite B6, A6 by exact Hk; reflexivity|eapply keeps_trans; eassumption].
Qed.
Lemma say_quiet P t s : exists s', say t s = (s', Ok tt) /\ quiet P s s' /\ s_files s' = s_files s.
Proof. eexists. split; [reflexivity|]. split; [|reflexivity]. repeat split. apply keeps_refl. Qed.
Lemma say_meas_quiet P m s : exists s', say_meas m s = (s', Ok tt) /\ quiet P s s' /\ s_files s' = s_files s.
Proof. unfold say_meas, mbind, mlift. rewrite print_print_of. apply say_quiet. Qed.
Lemma report_quiet P b m m' s : exists s', report b m m' s = (s', Ok tt) /\ quiet P s s' /\ s_files s' = s_files s.
Proof.
  unfold report. destruct b; [exists s; split; [reflexivity|]; split; [apply quiet_refl|reflexivity]|].
  destruct (say_meas_quiet P m s) as (s1 & E1 & Q1 & F1). destruct (say_meas_quiet P m' s1) as (s2 & E2 & Q2 & F2).
  exists s2. unfold mbind. rewrite E1. split; [exact E2|]. split; [eapply quiet_trans; eassumption|congruence].
Qed.
Lemma write_outside e f path b k : slot e path <> Some k -> write_file e f path b k = f k.
Proof.
  unfold write_file. destruct (slot e path) as [k'|]; [|reflexivity]. intros H.
  assert (G : forall v, upd f k' v k = f k) by (intros v; unfold upd; destruct (eqs_spec k k'); [subst; contradiction|reflexivity]).
  destruct (f k') as [[r [|] b0|]|]; rewrite ?G; auto. destruct (e_cancreate e (cstr path)); rewrite ?G; reflexivity.
Qed.
Lemma thing_quiet (P : str -> Prop) ie im file name s : (forall k, slot (i_env ie) file = Some k -> P k) ->
  exists s', ImageThing ie im file name s = (s', Ok tt) /\ quiet P s s'.
Proof.
  intros HP. unfold ImageThing. unfold mbind at 1. destruct (say_quiet P (i_show_slice ie im) s) as (s1 & E1 & Q1 & _). rewrite E1.
  assert (W : exists s2, (match i_png ie im with Some b => modify (fun s => set_files s (write_file (i_env ie) (s_files s) file b)) | None => mret tt end) s1 = (s2, Ok tt) /\ quiet P s1 s2).
  { destruct (i_png ie im) as [b|].
    - eexists. split; [reflexivity|]. repeat split.
      + intros k Hk. cbn. apply write_outside. intros H. apply Hk. apply HP. exact H.
      + apply keeps_write.
    - exists s1. split; [reflexivity|apply quiet_refl]. }
  destruct W as (s2 & E2 & Q2). unfold mbind. rewrite E2.
  destruct (say_meas_quiet P (MF (Mf ($"Difference " ++ name) true ($"image/png") file)) s2) as (s3 & E3 & Q3 & _).
  exists s3. split; [exact E3|]. eapply quiet_trans; [exact Q1|]. eapply quiet_trans; eassumption.
Qed.
Definition readable_pair (ie : ienv) (f : store) (t b : str) : Prop :=
  exists ht hb, read_info ie f t = Some ht /\ read_info ie f b = Some hb /\
    (h_size hb = h_size ht -> exists ti bi, read_image ie f t = Some ti /\ read_image ie f b = Some bi).
Definition difference_outcome (ie : ienv) (tol : tolerances) (g m : mf) (s s' : rst) (r : res unit) : Prop :=
  quiet (picture_of ie (ffile m)) s s' /\ ((r = Ok tt /\ readable_pair ie (s_files s) (ffile m) (ffile g)) \/
                    (r = Throw ExnRuntime /\ ~ readable_pair ie (s_files s) (ffile m) (ffile g))).
Lemma difference_image ie tol g m s : exists s' r, DifferenceTestImage ie tol g m s = (s', r) /\ difference_outcome ie tol g m s s' r.
Proof.
  unfold DifferenceTestImage. unfold mbind at 1. unfold gets at 1. unfold mbind at 1. unfold gets at 1. unfold difference_outcome.
  set (P := picture_of ie (ffile m)).
  destruct (read_info ie (s_files s) (ffile m)) as [t|] eqn:Et.
  2:{ exists s, (Throw ExnRuntime). split; [reflexivity|]. split; [apply quiet_refl|]. right. split; [reflexivity|].
      intros (t & b & A & _). congruence. }
  destruct (read_info ie (s_files s) (ffile g)) as [b|] eqn:Eb.
  2:{ exists s, (Throw ExnRuntime). split; [reflexivity|]. split; [apply quiet_refl|]. right. split; [reflexivity|].
      intros (t' & b' & _ & A & _). congruence. }
  unfold eqzs. destruct (list_eq_dec Z.eq_dec (h_size b) (h_size t)) as [Es|Es]; cbn [negb].
  2:{ destruct (report_quiet P false (status_text ($"Baseline Size " ++ fname m) (i_show_size ie (h_size b)))
                     (status_text ($"Test ImageSize " ++ fname m) (i_show_size ie (h_size t))) s) as (s1 & E1 & Q1 & _).
      exists s1, (Ok tt). split; [exact E1|]. split; [exact Q1|]. left. split; [reflexivity|]. exists t, b. repeat split; try assumption.
      intros H. contradiction. }
  match goal with |- context [mbind (report ?x ?y ?z) _] => destruct (report_quiet P x y z s) as (s1 & E1 & Q1 & F1) end.
  unfold mbind at 1. rewrite E1. clear E1.
  match goal with |- context [mbind (report ?x ?y ?z) _] => destruct (report_quiet P x y z s1) as (s2 & E2 & Q2 & F2) end.
  unfold mbind at 1. rewrite E2. clear E2.
  match goal with |- context [mbind (report ?x ?y ?z) _] => destruct (report_quiet P x y z s2) as (s3 & E3 & Q3 & F3) end.
  unfold mbind at 1. rewrite E3. clear E3.
  match goal with |- context [mbind (report ?x ?y ?z) _] => destruct (report_quiet P x y z s3) as (s4 & E4 & Q4 & F4) end.
  unfold mbind at 1. rewrite E4. clear E4.
  match goal with |- context [mbind (report ?x ?y ?z) _] => destruct (report_quiet P x y z s4) as (s5 & E5 & Q5 & F5) end.
  unfold mbind at 1. rewrite E5. clear E5.
  assert (Q : quiet P s s5) by (repeat (eapply quiet_trans; [eassumption|]); apply quiet_refl).
  assert (F : s_files s5 = s_files s) by congruence. clear Q1 Q2 Q3 Q4 Q5 F1 F2 F3 F4 F5 s1 s2 s3 s4.
  unfold mbind at 1. unfold gets at 1. unfold mbind at 1. unfold gets at 1. rewrite F.
  destruct (read_image ie (s_files s) (ffile m)) as [ti|] eqn:Ei.
  2:{ exists s5, (Throw ExnRuntime). split; [reflexivity|]. split; [exact Q|]. right. split; [reflexivity|].
      intros (t' & b' & A & B & C). destruct (C ltac:(congruence)) as (ti & bi & D & _). congruence. }
  destruct (read_image ie (s_files s) (ffile g)) as [bi|] eqn:Ej.
  2:{ exists s5, (Throw ExnRuntime). split; [reflexivity|]. split; [exact Q|]. right. split; [reflexivity|].
      intros (t' & b' & A & B & C). destruct (C ltac:(congruence)) as (ti' & bi & _ & D). congruence. }
  unfold mbind at 1. match goal with |- context [say_meas ?x s5] => destruct (say_meas_quiet P x s5) as (s6 & E6 & Q6 & _) end. rewrite E6. clear E6.
  assert (PN : forall ext, In ext pictures -> exists p, Append (i_output ie) (Tail (ffile m) ++ ext) = Ok p /\ forall k, slot (i_env ie) p = Some k -> P k).
  { intros ext Hx. destruct (append_ok (i_output ie) (Tail (ffile m) ++ ext)) as [p Ep]. exists p. split; [exact Ep|].
    intros k Hk. exists ext, p. auto. }
  destruct (PN ($".diff.png")) as (p1 & A1 & B1); [cbn; auto|]. unfold mbind at 1. rewrite A1. unfold mlift at 1. cbv iota.
  unfold mbind at 1. match goal with |- context [ImageThing ie ?x p1 ?n s6] => destruct (thing_quiet P ie x p1 n s6 B1) as (s7 & E7 & Q7) end. rewrite E7. clear E7.
  destruct (PN ($".base.png")) as (p2 & A2 & B2); [cbn; auto|]. unfold mbind at 1. rewrite A2. unfold mlift at 1. cbv iota.
  unfold mbind at 1. match goal with |- context [ImageThing ie ?x p2 ?n s7] => destruct (thing_quiet P ie x p2 n s7 B2) as (s8 & E8 & Q8) end. rewrite E8. clear E8.
  destruct (PN ($".test.png")) as (p3 & A3 & B3); [cbn; auto|]. unfold mbind at 1. rewrite A3. unfold mlift at 1. cbv iota.
  match goal with |- context [ImageThing ie ?x p3 ?n s8] => destruct (thing_quiet P ie x p3 n s8 B3) as (s9 & E9 & Q9) end. rewrite E9. clear E9.
  exists s9, (Ok tt). split; [reflexivity|]. split.
  - repeat (eapply quiet_trans; [eassumption|]). apply quiet_refl.
  - left. split; [reflexivity|]. exists t, b. repeat split; try assumption. intros _. exists ti, bi. auto.
Qed.

(** one image measurement while comparing *)
Definition after_call (ie : ienv) (c : icall) (s s' : rst) : Prop :=
  frame s s' /\ s_tol s' = s_tol s /\ s_expected s' = s_expected s /\ only_changes ie (s_os s) c (s_files s) (s_files s') /\ keeps (s_files s) (s_files s').
Definition call_outcome (ie : ienv) (tol : tolerances) (c : icall) (s s' : rst) (r : res Z) : Prop :=
  let mo := IMoment c (s_tol s) tol (s_files s) in
  (forall z, r = Ok z -> [z] = iresults ie (s_path s) (s_input s) [mo] /\
     s_unmatched s' = (s_unmatched s + imismatches ie (s_path s) (s_input s) [mo])%Z /\ s_input s' = tl (s_input s) /\ after_call ie c s s') /\
  (forall i, r = Throw i -> exists b n, nth_error (s_input s) 0 = Some b /\ raises ie (s_path s) b mo i n /\
     s_unmatched s' = (s_unmatched s + n)%Z /\ after_call ie c s s').

Lemma base_outcome ie tol c s s' r : itk_CompareMeasurement ie tol (meas_of (e_io (i_env ie)) true c) (tolerant_of c) s = (s', r) ->
  call_outcome ie tol (BaseCall c) s s' r.
Proof.
  intros H. rewrite itk_compare_base in H by apply other_meas. pose proof (keeps_compare (i_env ie) (meas_of (e_io (i_env ie)) true c) (tolerant_of c) s) as K.
  rewrite H in K. cbn [fst] in K. destruct (compare_one _ _ _ _ _ H) as [A B]. split.
  - intros z Hz. destruct (A z Hz) as (A1 & A2 & A3 & A4 & A5 & A6 & A7). split; [exact A1|]. split; [exact A2|]. split; [exact A3|].
    split; [exact A4|]. split; [exact A5|]. split; [exact A6|]. split; [|exact K].
    intros k Hk. apply A7. intros E. apply Hk. left. exact E.
  - intros i Hi. destruct (B i Hi) as ((b & B1 & B2 & B3) & B4 & B5 & B6 & B7 & B8). exists b, 0%Z. split; [exact B1|].
    split; [split; [exact B2|left; split; [exact B3|reflexivity]]|]. split; [rewrite B4; lia|]. split; [exact B5|]. split; [exact B6|]. split; [exact B7|].
    split; [|exact K]. intros k Hk. apply B8. intros E. apply Hk. left. exact E.
Qed.
Lemma visitor_plain s : visitor s false = new_cmp. Proof. reflexivity. Qed.

Lemma quiet_after (P : str -> Prop) ie c s0 s s' : quiet P s s' -> (forall k, P k -> may_change ie (s_os s0) c k) ->
  frame s0 s -> s_tol s = s_tol s0 -> s_expected s = s_expected s0 -> s_files s = s_files s0 -> after_call ie c s0 s'.
Proof.
  intros (Q1 & Q2 & Q3 & Q4 & Q5 & Q6 & Q7) HP F T X E. split; [eapply frame_trans; eassumption|]. split; [congruence|]. split; [congruence|].
  rewrite <- E. split; [|exact Q7]. intros k Hk. apply Q6. intros H. apply Hk. apply HP. exact H.
Qed.
Lemma image_outcome ie tol file name s s' r : itk_CompareMeasurement ie tol (file_meas true itk_type file name) false s = (s', r) ->
  call_outcome ie tol (ImageCall file name) s s' r.
Proof.
  set (e := i_env ie). set (t := Mf name true itk_type file). change (file_meas true itk_type file name) with (MF t).
  unfold itk_CompareMeasurement. unfold mbind at 1. unfold gets at 1. cbv iota. set (c := ImageCall file name).
  assert (UM : forall s, exists s', UnmatchedMeasurement (MF t) s = (s', Ok tt) /\ s_unmatched s' = (s_unmatched s + 1)%Z /\
     s_input s' = s_input s /\ after_call ie c s s').
  { intros s0. unfold UnmatchedMeasurement, mbind, modify. cbv iota. rewrite put_meas_eq.
    set (s1 := set_unmatched s0 (s_unmatched s0 + 1)%Z). set (tx := print_of _ ++ [nl]).
    destruct (put_text_any tx s1) as (F & A & B & C & D & G). eexists. split; [reflexivity|]. rewrite C, A.
    split; [reflexivity|]. split; [reflexivity|]. split; [exact F|]. split; [exact B|]. split; [exact D|]. split; [|exact (keeps_put tx s1)].
    intros k Hk. apply G. intros E. apply Hk. left. exact E. }
  destruct (s_input s) as [|b bs] eqn:Ein.
  - unfold mbind. destruct (UM s) as (s1 & E & U & I & A). rewrite E. unfold mret. intros H. injection H as <- <-.
    split; [|discriminate]. intros z Hz. injection Hz as <-. cbn [iresults imismatches tl]. rewrite Ein. cbn [tl].
    split; [reflexivity|]. split; [rewrite U; lia|]. split; [congruence|exact A].
  - unfold mbind at 1. unfold modify at 1. cbv iota. set (s0 := set_input s bs).
    set (mo := IMoment c (s_tol s) tol (s_files s)).
    assert (AC : forall s', after_call ie c s0 s' -> after_call ie c s s') by (intros s1 H; exact H).
    assert (K : ikind ie b mo = eqs (mname b) (mname (MF t)) && eqs (mtype b) (mtype (MF t))) by reflexivity.
    rewrite <- K. destruct (ikind ie b mo) eqn:Ek.
    2:{ unfold mbind. destruct (UM s0) as (s1 & E & U & I & A). rewrite E. unfold mret. intros H. injection H as <- <-.
        split; [|discriminate]. intros z Hz. injection Hz as <-. fold mo. cbn [iresults imismatches tl]. rewrite Ein, Ek. cbn [andb tl].
        split; [reflexivity|]. split; [rewrite U; cbn; lia|]. split; [rewrite I; reflexivity|apply AC; exact A]. }
    clear K. unfold mbind at 1. rewrite locate_found. cbv iota. change (s_path s0) with (s_path s). change (s_files s0) with (s_files s).
    set (b1 := found (i_env ie) (s_path s) (s_files s) b (MF t)). unfold mbind at 1. unfold gets at 1. rewrite visitor_plain. cbv iota.
    assert (IV : iverdict ie (s_path s) b mo = match b1 with
        | MF g => image_verdict (i_diff ie) (read_image ie (s_files s)) tol g t
        | MD d => snd (Compare (e_sc e) (sources e (s_files s)) (e_io e) new_cmp (MD d) (MF t)) end) by reflexivity.
    assert (HO : forall z s1 n, z = (if negb (isame_value ie (s_path s) b mo) then 0%Z else 1%Z) -> n = (if isame_value ie (s_path s) b mo then 0 else 1)%Z ->
        s_unmatched s1 = (s_unmatched s + n)%Z -> s_input s1 = bs -> after_call ie c s s1 -> call_outcome ie tol c s s1 (Ok z)).
    { intros z s1 n Hz Hn Hu Hi Ha. split; [|discriminate]. intros z0 E0. injection E0 as <-. fold mo. cbn [iresults imismatches tl]. rewrite Ein, Ek. cbn [andb tl].
      split; [congruence|]. split; [rewrite Hu, Hn; lia|]. split; [exact Hi|exact Ha]. }
    destruct b1 as [d|g] eqn:Eb1.
    + (* the baseline is not a file *)
      assert (IC : itk_Compare ie tol new_cmp (MD d) (MF t) =
        (out <- gets (fun s => Compare (e_sc e) (sources e (s_files s)) (e_io e) new_cmp (MD d) (MF t)) ;;
         let '(baseline, m, v) := out in same <- mlift v ;; mret (baseline, m, same))) by reflexivity.
      rewrite IC. unfold mbind, gets. change (s_files s0) with (s_files s).
      assert (RB : exists d' v, Compare (e_sc e) (sources e (s_files s)) (e_io e) new_cmp (MD d) (MF t) = (MD d', MF t, v)).
      { unfold Compare. cbn [numeric_meas]. unfold IsEqual. destruct (file_IsEqual_data _ _ t d) as [a r0]. eauto. }
      destruct RB as (d' & v & RB). rewrite RB in IV |- *. cbn [snd] in IV.
      unfold mlift, mret. destruct v as [[|]|i| | |]; intros H.
      * injection H as <- <-. apply (HO 1%Z s0 0%Z); unfold isame_value; rewrite ?IV; try reflexivity; [cbn; lia|]. repeat split. apply keeps_refl.
      * assert (DF : itk_Difference ie tol (MF t) (MD d') = DifferenceMeasurement e (MF t) (MD d')) by reflexivity. rewrite DF in H.
        unfold DifferenceMeasurement, mbind, modify, mlift, put in H. set (s1 := set_unmatched s0 (s_unmatched s0 + 1)%Z) in *.
        assert (CALM := difference_calm (e_sc e) (e_asserts e) (e_oob e) (MD d') (MF t)).
        destruct (snd (Difference (e_sc e) (e_asserts e) (e_oob e) (MD d') (MF t))) as [text|x| | |] eqn:Ed.
        { unfold modify in H. injection H as <- <-. destruct (put_text_any text s1) as (F & A & B & C & D & G).
          apply (HO 0%Z _ 1%Z); unfold isame_value; rewrite ?IV; try reflexivity.
          - rewrite C. reflexivity.
          - rewrite A. reflexivity.
          - split; [exact F|]. split; [exact B|]. split; [exact D|]. split; [|exact (keeps_put text s1)].
            intros k Hk. apply G. intros E. apply Hk. left. exact E. }
        { exfalso. exact (CALM x eq_refl). }
        all: injection H as <- <-; split; discriminate.
      * injection H as <- <-. split; [discriminate|]. intros i0 Hi. injection Hi as <-. exists b, 0%Z. rewrite Ein. split; [reflexivity|].
        split; [split; [exact Ek|left; auto]|]. split; [cbn; lia|]. repeat split. apply keeps_refl.
      * injection H as <- <-. split; discriminate.
      * injection H as <- <-. split; discriminate.
      * injection H as <- <-. split; discriminate.
    + (* two files *)
      assert (IC : itk_Compare ie tol new_cmp (MF g) (MF t) =
        (_ <- say ($"Comparing test image: " ++ quote ++ cstr (ffile t) ++ quote ++ $" to baseline image: " ++ quote ++ cstr (ffile g) ++ quote ++ [nl]) ;;
         out <- gets (fun s => image_verdict (i_diff ie) (read_image ie (s_files s)) tol g t) ;;
         v <- mlift out ;; mret (MF g, MF t, v))) by reflexivity.
      rewrite IC. set (text := $"Comparing test image: " ++ _).
      destruct (say_quiet (fun _ => False) text s0) as (s1 & E1 & Q1 & F1). unfold mbind. rewrite E1. unfold gets. rewrite F1. change (s_files s0) with (s_files s).
      assert (A1 : after_call ie c s s1) by (apply (quiet_after (fun _ => False) ie c s s0 s1); try reflexivity; [exact Q1|tauto|repeat split]).
      pose proof Q1 as (Q1i & Q1u & Q1f & Q1t & Q1x & _).
      unfold mlift, mret. destruct (image_verdict (i_diff ie) (read_image ie (s_files s)) tol g t) as [[|]|i| | |] eqn:Ev; intros H.
      * injection H as <- <-. apply (HO 1%Z s1 0%Z); unfold isame_value; rewrite ?IV; try reflexivity; [rewrite Q1u; cbn; lia|exact Q1i|exact A1].
      * assert (DF : itk_Difference ie tol (MF t) (MF g) = (_ <- modify (fun s => set_unmatched s (s_unmatched s + 1)%Z) ;; DifferenceTestImage ie tol g t)) by reflexivity.
        rewrite DF in H. unfold mbind, modify in H. set (s2 := set_unmatched s1 (s_unmatched s1 + 1)%Z) in *.
        destruct (difference_image ie tol g t s2) as (s3 & r3 & E3 & Q3 & R3). rewrite E3 in H.
        assert (F2 : s_files s2 = s_files s) by exact F1.
        assert (A3 : after_call ie c s s3).
        { apply (quiet_after (picture_of ie (ffile t)) ie c s s2 s3); try assumption.
          - intros k Hk. right. exact Hk. }
        pose proof Q3 as (Q3i & Q3u & _).
        destruct R3 as [[-> R3]|[-> R3]].
        { injection H as <- <-. apply (HO 0%Z s3 1%Z); unfold isame_value; rewrite ?IV; try reflexivity.
          - rewrite Q3u. unfold s2. cbn [s_unmatched set_unmatched]. rewrite Q1u. reflexivity.
          - rewrite Q3i. exact Q1i.
          - exact A3. }
        { injection H as <- <-. split; [discriminate|]. intros i Hi. injection Hi as <-. exists b, 1%Z. rewrite Ein. split; [reflexivity|].
          split; [|split; [rewrite Q3u; unfold s2; cbn [s_unmatched set_unmatched]; rewrite Q1u; reflexivity|exact A3]].
          split; [exact Ek|]. right. split; [exact IV|]. split; [|auto]. intros HR. apply R3.
          unfold reportable in HR. cbn [mo mo_call c mo_files] in HR. change (file_meas true itk_type file name) with (MF t) in HR.
          fold b1 in HR. rewrite Eb1 in HR. rewrite F2. exact HR. }
      * injection H as <- <-. split; [discriminate|]. intros i0 Hi. injection Hi as <-. exists b, 0%Z. rewrite Ein. split; [reflexivity|].
        split; [split; [exact Ek|left; auto]|]. split; [rewrite Q1u; cbn; lia|exact A1].
      * injection H as <- <-. split; discriminate.
      * injection H as <- <-. split; discriminate.
      * injection H as <- <-. split; discriminate.
Qed.

(** Facts about the test driver. *)
From Coq Require Import Floats.SpecFloat.
From Verif Require Import Base Str Dec PathModel PathFacts MeasModel MeasFacts VisitModel XmlModel ReadModel ReadFacts ReadBack NoThrow RegModel RegSpec.

Definition frame (s s' : rst) : Prop :=
  s_in s' = s_in s /\ s_out s' = s_out s /\ s_path s' = s_path s /\ s_os s' = s_os s /\ s_is s' = s_is s.
Lemma frame_refl s : frame s s. Proof. repeat split. Qed.
Lemma frame_trans a b c : frame a b -> frame b c -> frame a c.
Proof. unfold frame. intros (A & B & C & D & E) (A' & B' & C' & D' & E'). repeat split; congruence. Qed.

Lemma put_text_spec t s : output_ready s ->
  output (put_text t s) = output s ++ t /\ output_ready (put_text t s) /\ frame s (put_text t s) /\
  s_input (put_text t s) = s_input s /\ s_tol (put_text t s) = s_tol s /\ s_unmatched (put_text t s) = s_unmatched s /\
  s_expected (put_text t s) = s_expected s /\ same_but (s_os s) (s_files s) (s_files (put_text t s)) /\
  (s_os s <> None -> s_stdout (put_text t s) = s_stdout s).
Proof.
  unfold output_ready, output, put_text, same_but. destruct s as [fi so inp i o pa os is_ tol un ex]; cbn [s_os s_files s_stdout].
  destruct os as [k|].
  - intros (r & w & b & E). rewrite E. cbn. unfold upd. rewrite eqs_refl. repeat split; eauto.
    intros k' Hk. destruct (eqs_spec k' k) as [->|N]; [contradiction|reflexivity].
  - intros _. repeat split; auto. intros H. contradiction.
Qed.
(** in any state *)
Lemma put_text_any t s :
  frame s (put_text t s) /\
  s_input (put_text t s) = s_input s /\ s_tol (put_text t s) = s_tol s /\ s_unmatched (put_text t s) = s_unmatched s /\
  s_expected (put_text t s) = s_expected s /\ same_but (s_os s) (s_files s) (s_files (put_text t s)).
Proof.
  unfold put_text, same_but. destruct s as [fi so inp i o pa os is_ tol un ex]; cbn [s_os s_files s_stdout].
  destruct os as [k|]; [|repeat split; auto].
  destruct (fi k) as [[r w b|]|]; cbn; repeat split; auto.
  intros k' Hk. unfold upd. destruct (eqs_spec k' k) as [->|N]; [contradiction|reflexivity].
Qed.
Lemma same_but_refl o f : same_but o f f. Proof. intros k _. reflexivity. Qed.
Lemma same_but_trans o f g h : same_but o f g -> same_but o g h -> same_but o f h.
Proof. intros A B k Hk. rewrite B, A by exact Hk. reflexivity. Qed.

Lemma put_meas_eq m s : put_meas m s = (put_text (print_of m ++ [nl]) s, Ok tt).
Proof. unfold put_meas, mbind, mlift. rewrite print_print_of. reflexivity. Qed.

(** * Record mode *)
Lemma record_mode e s : s_is s = None -> s_in s = [] -> compare_mode e s = Ok false.
Proof. intros H1 H2. unfold compare_mode. rewrite H1, H2. reflexivity. Qed.

Lemma write_ready e path b s : (slot e path = None \/ slot e path <> s_os s) -> output_ready s ->
  let s' := set_files s (write_file e (s_files s) path b) in output s' = output s /\ output_ready s'.
Proof.
  intros H R. cbv zeta. unfold output, output_ready, write_file in *. destruct s as [fi so inp i o pa os is_ tol un ex].
  cbn [s_os s_files s_stdout set_files] in *. destruct os as [k|]; [|auto].
  destruct (slot e path) as [k'|]; [|auto]. destruct H as [H|H]; [discriminate|].
  assert (E : forall v, upd fi k' v k = fi k).
  { intros v. unfold upd. destruct (eqs_spec k k') as [->|N]; [contradiction|reflexivity]. }
  destruct (fi k') as [[r w b0|r w x]|]; [destruct w| |destruct (e_cancreate e (cstr path))]; rewrite ?E; auto.
Qed.

Lemma run_record e p : forall s, s_is s = None -> s_in s = [] -> output_ready s -> leaves_alone e (s_os s) p ->
  exists s', run e p s = (s', ends p) /\
    output s' = output s ++ lines_of (map (meas_of (e_io e) false) (recorded p)) /\ output_ready s' /\ frame s s' /\
    s_expected s' = expects (s_expected s) p /\ s_unmatched s' = s_unmatched s.
Proof.
  induction p as [z|x|c k IH|t k IH|z k IH|path b k IH]; intros s Hi Hn Ho Hl; cbn [run ends recorded expects leaves_alone map] in *.
  - exists s. unfold mret. cbn. rewrite app_nil_r. repeat split; auto.
  - exists s. unfold mlift. cbn. rewrite app_nil_r. repeat split; auto.
  - unfold mbind at 1. unfold Measure, GetCompareMode. unfold mbind at 1. rewrite (record_mode e s Hi Hn). cbv iota.
    unfold mbind, mret. rewrite put_meas_eq. cbv iota.
    set (t := print_of (meas_of (e_io e) false c) ++ [nl]).
    destruct (put_text_spec t s Ho) as (P1 & P2 & P3 & P4 & P5 & P6 & P7 & P8 & P9).
    destruct P3 as (F1 & F2 & F3 & F4 & F5).
    destruct (IH 0%Z (put_text t s)) as (s' & E & O & R & F & X & U).
    + congruence.
    + congruence.
    + exact P2.
    + rewrite F4. apply Hl.
    + exists s'. rewrite E. split; [reflexivity|]. rewrite O, P1. unfold lines_of. cbn [flat_map]. rewrite <- app_assoc.
      split; [reflexivity|]. split; [exact R|]. split; [|split; congruence].
      eapply frame_trans; [|exact F]. repeat split; assumption.
  - unfold mbind, modify. cbv iota. destruct (IH (set_tol s t)) as (s' & E & O & R & F & X & U); auto.
    exists s'. rewrite E. split; [reflexivity|]. repeat split; try apply F; auto.
  - unfold mbind, modify. cbv iota. destruct (IH (set_expected s z)) as (s' & E & O & R & F & X & U); auto.
    exists s'. rewrite E. split; [reflexivity|]. repeat split; try apply F; auto.
  - unfold mbind, modify. cbv iota. destruct Hl as [Hw Hl].
    destruct (write_ready e path b s Hw Ho) as [W1 W2].
    destruct (IH (set_files s (write_file e (s_files s) path b))) as (s' & E & O & R & F & X & U); auto.
    exists s'. rewrite E. split; [reflexivity|]. rewrite O, W1. repeat split; try apply F; auto.
Qed.

(** * Compare mode *)
Lemma search_always e s n : exists p, search e s n = Ok p.
Proof.
  unfold search, SearchPathList. generalize (@nil ascii). induction (s_path s) as [|d pl IH]; intros full; cbn [search_loop].
  - eexists. reflexivity.
  - destruct (append_ok d n) as [r E]. rewrite E. cbn [bind]. destruct (is_file e (s_files s) r); eauto.
Qed.
Lemma locate_found e s b m : locate e s b m = Ok (found e (s_path s) (s_files s) b m).
Proof.
  unfold locate, found, search. destruct b as [d|g]; [reflexivity|]. destruct m as [d|h]; [reflexivity|].
  destruct (search_always e s (Tail (ffile g))) as [p E]. unfold search in E. rewrite E. cbn [bind]. destruct p; reflexivity.
Qed.
Lemma found_kind e path f b m : mname (found e path f b m) = mname b /\ mtype (found e path f b m) = mtype b.
Proof.
  unfold found. destruct b as [d|g]; [auto|]. destruct m as [d|h]; [auto|].
  destruct (SearchPathList (is_file e f) (Tail (ffile g)) path) as [[|c p]| | | |]; auto.
Qed.

Lemma difference_calm sc asserts oob b m i : snd (Difference sc asserts oob b m) <> Throw i.
Proof.
  unfold Difference, AddPrefixesToNames. destruct m as [d|g]; [destruct (dcls d)|]; cbn [snd]; rewrite ?print_print_of; cbn [bind]; try discriminate.
  destruct (DiffModel.Diff sc asserts oob (mcontent b) (mcontent (MD d))) as [t|x| | |] eqn:E; cbn [bind]; rewrite ?print_print_of; cbn [bind]; try discriminate.
  exfalso. exact (Diff_raises_nothing _ _ _ _ _ _ E).
Qed.

(** one comparison: its outcome, if it ends normally or with an exception *)
Lemma compare_one e c s s' r : CompareMeasurement e (meas_of (e_io e) true c) (tolerant_of c) s = (s', r) ->
  (forall z, r = Ok z ->
     let mo := (c, s_tol s, s_files s) in
     [z] = results e (s_path s) (s_input s) [mo] /\
     s_unmatched s' = (s_unmatched s + mismatches e (s_path s) (s_input s) [mo])%Z /\ s_input s' = tl (s_input s) /\
     frame s s' /\ s_tol s' = s_tol s /\ s_expected s' = s_expected s /\ same_but (s_os s) (s_files s) (s_files s')) /\
  (forall i, r = Throw i ->
     (exists b, nth_error (s_input s) 0 = Some b /\ kind_of_moment e b (c, s_tol s, s_files s) = true /\ verdict e (s_path s) b (c, s_tol s, s_files s) = Throw i) /\
     s_unmatched s' = s_unmatched s /\ frame s s' /\ s_tol s' = s_tol s /\ s_expected s' = s_expected s /\
     same_but (s_os s) (s_files s) (s_files s')).
Proof.
  unfold CompareMeasurement. unfold mbind at 1. unfold gets at 1. cbv iota.
  set (m := meas_of (e_io e) true c).
  assert (UM : forall s, s_input s = s_input s -> exists s', UnmatchedMeasurement m s = (s', Ok tt) /\ s_unmatched s' = (s_unmatched s + 1)%Z /\
     s_input s' = s_input s /\ frame s s' /\ s_tol s' = s_tol s /\ s_expected s' = s_expected s /\ same_but (s_os s) (s_files s) (s_files s')).
  { intros s0 _. unfold UnmatchedMeasurement, mbind, modify. cbv iota. rewrite put_meas_eq.
    set (s1 := set_unmatched s0 (s_unmatched s0 + 1)%Z). set (t := print_of _ ++ [nl]).
    destruct (put_text_any t s1) as (F & A & B & C & D & G). eexists. split; [reflexivity|]. rewrite C, A, B, D.
    repeat split; try apply F. exact G. }
  destruct (s_input s) as [|b bs] eqn:Ein.
  - unfold mbind. destruct (UM s eq_refl) as (s1 & E & U & I & F & T & X & G). rewrite E. unfold mret. intros H. injection H as <- <-.
    split; [|discriminate]. intros z Hz. injection Hz as <-. cbv zeta. cbn [results mismatches tl].
    split; [reflexivity|]. split; [rewrite U; lia|]. split; [congruence|]. split; [exact F|]. split; [exact T|]. split; [exact X|exact G].
  - unfold mbind at 1. unfold modify at 1. cbv iota.
    set (s0 := set_input s bs). cbv zeta. fold m.
    assert (F0 : frame s s0 /\ s_tol s0 = s_tol s /\ s_expected s0 = s_expected s /\ s_files s0 = s_files s /\ s_os s0 = s_os s /\ s_path s0 = s_path s /\ s_unmatched s0 = s_unmatched s /\ s_input s0 = bs)
      by (repeat split).
    destruct F0 as (F0 & T0 & X0 & Fi0 & Os0 & Pa0 & Un0 & In0).
    destruct (eqs (mname b) (mname m) && eqs (mtype b) (mtype m)) eqn:Ek.
    + unfold mbind at 1. rewrite locate_found. cbv iota. rewrite Pa0, Fi0.
      unfold mbind at 1. unfold gets at 1. cbv iota. rewrite Fi0. unfold visitor. rewrite T0.
      set (b1 := found e (s_path s) (s_files s) b m).
      set (cv := if tolerant_of c then SetTolerance new_cmp (s_tol s) else new_cmp).
      destruct (Compare (e_sc e) (sources e (s_files s)) (e_io e) cv b1 m) as [[b2 m2] v] eqn:Ec.
      assert (SV : same_value e (s_path s) b (c, s_tol s, s_files s) = match v with Ok true => true | _ => false end).
      { unfold same_value, verdict. fold m. fold b1. fold cv. rewrite Ec. reflexivity. }
      assert (SK : kind_of_moment e b (c, s_tol s, s_files s) = true) by exact Ek.
      unfold mbind at 1, mlift at 1. destruct v as [v|x| | |]; cbv iota; intros H.
      * destruct v.
        { unfold mret in H. injection H as <- <-. split; [|discriminate]. intros z Hz. injection Hz as <-. cbn [results mismatches tl].
          rewrite SK, SV. cbn [andb negb]. split; [reflexivity|]. split; [rewrite Un0; lia|]. split; [exact In0|]. split; [exact F0|]. split; [exact T0|]. split; [exact X0|]. rewrite Fi0. apply same_but_refl. }
        { unfold DifferenceMeasurement, mbind, modify, mlift, put, mret in H.
          set (s1 := set_unmatched s0 (s_unmatched s0 + 1)%Z) in *.
          destruct (snd (Difference (e_sc e) (e_asserts e) (e_oob e) b2 m2)) as [text|x| | |] eqn:Ed; cbv iota in H.
          - unfold modify in H. injection H as <- <-. split; [|discriminate]. intros z Hz. injection Hz as <-. cbn [results mismatches tl].
            rewrite SK, SV. cbn [andb negb].
            destruct (put_text_any text s1) as (F & A & B & C & D & G).
            assert (FS : frame s s1) by exact F0.
            split; [reflexivity|]. split; [rewrite C; unfold s1; cbn [s_unmatched set_unmatched]; rewrite Un0; lia|].
            split; [rewrite A; exact In0|]. split; [eapply frame_trans; eassumption|]. split; [rewrite B; exact T0|]. split; [rewrite D; exact X0|].
            unfold s1 in G. cbn [s_os s_files set_unmatched] in G. rewrite Os0, Fi0 in G. exact G.
          - exfalso. (* the difference report cannot raise an exception: shown below *)
            exact (difference_calm _ _ _ _ _ _ Ed).
          - injection H as <- <-. split; discriminate.
          - injection H as <- <-. split; discriminate.
          - injection H as <- <-. split; discriminate. }
      * injection H as <- <-. split; [discriminate|]. intros i Hi. injection Hi as ->. split.
        { exists b. split; [reflexivity|]. split; [exact SK|]. unfold verdict. fold m. fold b1. fold cv. rewrite Ec. reflexivity. }
        rewrite Un0. split; [reflexivity|]. split; [exact F0|]. split; [exact T0|]. split; [exact X0|]. rewrite Fi0. apply same_but_refl.
      * injection H as <- <-. split; discriminate.
      * injection H as <- <-. split; discriminate.
      * injection H as <- <-. split; discriminate.
    + unfold mbind. destruct (UM s0 eq_refl) as (s1 & E & U & I & F & T & X & G). rewrite E. unfold mret. intros H. injection H as <- <-.
      split; [|discriminate]. intros z Hz. injection Hz as <-. cbn [results mismatches tl].
      assert (SK : kind_of_moment e b (c, s_tol s, s_files s) = false) by exact Ek. rewrite SK. cbn [andb].
      split; [reflexivity|]. split; [rewrite U, Un0; lia|]. split; [rewrite I; exact In0|]. split; [exact (frame_trans _ _ _ F0 F)|]. split; [rewrite T; exact T0|]. split; [rewrite X; exact X0|].
      rewrite Os0, Fi0 in G. exact G.
Qed.

Lemma compare_mode_open e s k : s_is s = Some k -> compare_mode e s = Ok true.
Proof. intros H. unfold compare_mode. rewrite H. reflexivity. Qed.
Lemma nth_error_tl {A} (l : list A) n : nth_error (tl l) n = nth_error l (S n).
Proof. destruct l; [destruct n|]; reflexivity. Qed.

Lemma run_compare e p : forall s s' out k, s_is s = Some k -> run e p s = (s', out) ->
  (exists z, out = Ok z) \/ (exists i, out = Throw i) ->
  exists ms rs, unfolds e (s_os s) (s_tol s) (s_files s) (s_expected s) p ms rs (s_expected s') out /\
    rs = results e (s_path s) (s_input s) (firstn (length rs) ms) /\
    s_unmatched s' = (s_unmatched s + mismatches e (s_path s) (s_input s) (firstn (length rs) ms))%Z /\
    (forall mo, nth_error ms (length rs) = Some mo -> exists b i, out = Throw i /\ nth_error (s_input s) (length rs) = Some b /\
        kind_of_moment e b mo = true /\ verdict e (s_path s) b mo = Throw i) /\
    frame s s'.
Proof.
  induction p as [z|x|c k IH|t k IH|z k IH|path b k IH]; intros s s' out ki Hi H Ho; cbn [run] in H.
  - unfold mret in H. injection H as <- <-. exists [], []. split; [constructor|]. cbn. split; [reflexivity|]. split; [lia|]. split; [discriminate|]. apply frame_refl.
  - unfold mlift in H. injection H as <- <-. exists [], []. split; [constructor|]. cbn. split; [reflexivity|]. split; [lia|]. split; [discriminate|]. apply frame_refl.
  - unfold mbind at 1 in H. unfold Measure, GetCompareMode in H. unfold mbind at 1 in H. rewrite (compare_mode_open e s ki Hi) in H. cbv iota in H.
    destruct (CompareMeasurement e (meas_of (e_io e) true c) (tolerant_of c) s) as [s1 r] eqn:E.
    destruct (compare_one _ _ _ _ _ E) as [A B]. destruct r as [z|i| | |].
    + destruct (A z eq_refl) as (Rz & U & I & F & T & X & G). clear A B. cbv zeta in Rz, U.
      assert (Hi1 : s_is s1 = Some ki) by (destruct F as (_ & _ & _ & _ & F); congruence).
      destruct (IH z s1 s' out ki Hi1 H Ho) as (ms & rs & W & Rs & Us & St & Fs).
      destruct F as (F1 & F2 & F3 & F4 & F5).
      exists ((c, s_tol s, s_files s) :: ms), (z :: rs). split.
      * eapply u_call; [exact G|]. rewrite <- F4, <- T, <- X. exact W.
      * cbn [length firstn]. cbn [results mismatches] in *. rewrite F3, I in *.
        split; [congruence|]. split; [lia|]. split.
        { intros mo Hm. cbn [nth_error] in Hm. destruct (St mo Hm) as (b & i & S1 & S2 & S3). exists b, i.
          rewrite nth_error_tl in S2. auto. }
        eapply frame_trans; [|exact Fs]. repeat split; assumption.
    + injection H as <- <-. destruct (B i eq_refl) as ((b & B1 & B2 & B3) & U & F & T & X & G). clear A B.
      exists [(c, s_tol s, s_files s)], []. rewrite X. split; [constructor|]. cbn [length firstn results mismatches].
      split; [reflexivity|]. split; [lia|]. split.
      { intros mo Hm. cbn in Hm. injection Hm as <-. exists b, i. auto. }
      exact F.
    + injection H as <- <-. destruct Ho as [[? ?]|[? ?]]; discriminate.
    + injection H as <- <-. destruct Ho as [[? ?]|[? ?]]; discriminate.
    + injection H as <- <-. destruct Ho as [[? ?]|[? ?]]; discriminate.
  - unfold mbind, modify in H. cbv iota in H. destruct (IH (set_tol s t) s' out ki Hi H Ho) as (ms & rs & W & R & U & St & F).
    exists ms, rs. split; [constructor; exact W|]. split; [exact R|]. split; [exact U|]. split; [exact St|exact F].
  - unfold mbind, modify in H. cbv iota in H. destruct (IH (set_expected s z) s' out ki Hi H Ho) as (ms & rs & W & R & U & St & F).
    exists ms, rs. split; [constructor; exact W|]. split; [exact R|]. split; [exact U|]. split; [exact St|exact F].
  - unfold mbind, modify in H. cbv iota in H.
    destruct (IH (set_files s (write_file e (s_files s) path b)) s' out ki Hi H Ho) as (ms & rs & W & R & U & St & F).
    exists ms, rs. split; [constructor; exact W|]. split; [exact R|]. split; [exact U|]. split; [exact St|exact F].
Qed.

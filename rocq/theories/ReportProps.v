(** C66: the output of a comparing run. *)
From Coq Require Import Floats.SpecFloat.
From Verif Require Import Base Str Dec PathModel PathFacts MeasModel MeasFacts DiffModel VisitModel XmlModel ReadModel ReadFacts ReadBack NoThrow RegModel ArgFacts ArgProps RegSpec RegFacts RegStart RegMain RegProps RegProps2 LineSpec LineProps ReportSpec.

(** * Comparing two measurements changes nothing but the cached data *)
Definition stored (m : meas) : meas := match m with MD d => MD (DeleteContentAsData d) | MF g => MF g end.
Lemma update_stored sc d : DeleteContentAsData (fst (UpdateContentAsData sc d)) = DeleteContentAsData d.
Proof.
  unfold UpdateContentAsData. cbv zeta. destruct (eqs (denc _) ($"none")); [reflexivity|]. destruct (eqs (denc _) ($"base64")); [|reflexivity].
  destruct (B64Model.IsBase64 sc B64Model.default_opts _) as [[|n]|x| | |]; try reflexivity.
  destruct (B64Model.Decode sc B64Model.default_opts _ _). reflexivity.
Qed.
Lemma ensure_stored sc d d' r : ensure_data sc d = (d', r) -> DeleteContentAsData d' = DeleteContentAsData d.
Proof. unfold ensure_data. destruct (ddata d); intros H; [injection H as <- _; reflexivity|]. rewrite <- (update_stored sc d), H. reflexivity. Qed.
Lemma as_data_stored sc d d' r : GetContentAsData sc d = (d', r) -> DeleteContentAsData d' = DeleteContentAsData d.
Proof. unfold GetContentAsData. destruct (ensure_data sc d) as [d1 r1] eqn:E. intros H. injection H as <- _. exact (ensure_stored _ _ _ _ E). Qed.
Lemma size_stored sc d d' r : GetContentAsDataSize sc d = (d', r) -> DeleteContentAsData d' = DeleteContentAsData d.
Proof. unfold GetContentAsDataSize. destruct (ensure_data sc d) as [d1 r1] eqn:E. intros H. injection H as <- _. exact (ensure_stored _ _ _ _ E). Qed.
Lemma data_equal_stored sc a b a' b' r : data_IsEqual sc a b = (a', b', r) ->
  DeleteContentAsData a' = DeleteContentAsData a /\ DeleteContentAsData b' = DeleteContentAsData b.
Proof.
  unfold data_IsEqual. destruct (eqs (dname a) (dname b) && _); [|intros H; injection H as <- <- _; auto].
  destruct (GetContentAsDataSize sc a) as [a1 r1] eqn:E1. apply size_stored in E1.
  destruct r1 as [n1| | | |]; try (intros H; injection H as <- <- _; auto).
  destruct (GetContentAsDataSize sc b) as [b1 r2] eqn:E2. apply size_stored in E2.
  destruct r2 as [n2| | | |]; try (intros H; injection H as <- <- _; auto).
  destruct (_ =? _).
  - destruct (GetContentAsData sc a1) as [a2 r3] eqn:E3. apply as_data_stored in E3.
    destruct (GetContentAsData sc b1) as [b2 r4] eqn:E4. apply as_data_stored in E4.
    destruct (GetContentAsDataSize sc a2) as [a3 r5] eqn:E5. apply size_stored in E5.
    intros H. injection H as <- <- _. split; congruence.
  - intros H. injection H as <- <- _. auto.
Qed.
Lemma file_equal_stored sc fs g m m' r : file_IsEqual_data sc fs g m = (m', r) -> DeleteContentAsData m' = DeleteContentAsData m.
Proof.
  unfold file_IsEqual_data. destruct (negb _ || negb _); [intros H; injection H as <- _; reflexivity|].
  destruct (Load fs g); try (intros H; injection H as <- _; reflexivity).
  destruct (data_IsEqual sc m a) as [[m1 x] y] eqn:E. intros H. injection H as <- _. exact (proj1 (data_equal_stored _ _ _ _ _ _ E)).
Qed.
Lemma equal_stored sc fs a b a' b' r : IsEqual sc fs a b = (a', b', r) -> stored a' = stored a /\ stored b' = stored b.
Proof.
  unfold IsEqual. destruct a as [a|f], b as [b|g].
  - destruct (data_IsEqual sc a b) as [[a1 b1] v] eqn:E. intros H. injection H as <- <- _. destruct (data_equal_stored _ _ _ _ _ _ E) as [A B].
    cbn [stored]. rewrite A, B. auto.
  - destruct (file_IsEqual_data sc fs g a) as [a1 v] eqn:E. intros H. injection H as <- <- _. cbn [stored]. rewrite (file_equal_stored _ _ _ _ _ _ E). auto.
  - destruct (file_IsEqual_data sc fs f b) as [b1 v] eqn:E. intros H. injection H as <- <- _. cbn [stored]. rewrite (file_equal_stored _ _ _ _ _ _ E). auto.
  - intros H. injection H as <- <- _. auto.
Qed.
Lemma compare_stored sc fs io c a b a' b' r : Compare sc fs io c a b = (a', b', r) -> stored a' = stored a /\ stored b' = stored b.
Proof.
  unfold Compare. destruct (numeric_meas b) as [d|]; [|apply equal_stored]. destruct (numeric_meas a) as [d'|].
  - destruct (negb _); [intros H; injection H as <- <- _; auto|apply equal_stored].
  - intros H. injection H as <- <- _. auto.
Qed.
Lemma stored_name m n : print_of (mset_name (stored m) n) = print_of (mset_name m n).
Proof. destruct m; reflexivity. Qed.
Lemma difference_stored sc asserts oob b m : snd (Difference sc asserts oob (stored b) (stored m)) = snd (Difference sc asserts oob b m).
Proof. destruct b as [b|g], m as [[n es [] en co ct da]|h]; reflexivity. Qed.

(** * Elements *)
Lemma extra_eq a v : extra a v = (if eqs v default_enc then [] else $" " ++ quoted a v).
Proof. unfold extra, quoted, q. change default_enc with ($"none"). destruct (eqs v ($"none")); rewrite <- ?app_assoc; reflexivity. Qed.
Lemma shown_print m n : mesc m = true -> print_of (mset_name m n) = shown m n.
Proof.
  destruct m as [d|g]; intros H; cbn [mesc] in H; unfold shown, print_of, element; rewrite ?extra_eq;
    cbn [mset_name PrintStartTag SetAttributeName dname dcls denc dcomp desc mesc mcontent dcontent melem fname fesc ftype ffile]; rewrite H;
    unfold quoted, q; change default_comp with default_enc; rewrite <- !app_assoc; reflexivity.
Qed.

(** measurements are read with escape sequences applied when printed *)
Lemma attrs_esc al : forall d d', set_attrs al (Some d) = Ok (Some d') -> desc d' = desc d.
Proof.
  induction al as [|[k v] al IH]; intros d d'; cbn [set_attrs].
  - intros H. injection H as <-. reflexivity.
  - destruct (eqs k ($"name")); [|destruct (eqs k ($"type")); [|destruct (eqs k ($"encoding")); [|destruct (eqs k ($"compression"))]]]; cbn [bind]; intros H; apply IH in H; rewrite H; reflexivity.
Qed.
Lemma attrs_none al : forall d', set_attrs al None = Ok d' -> d' = None.
Proof.
  induction al as [|[k v] al IH]; intros d'; cbn [set_attrs].
  - intros H. injection H as <-. reflexivity.
  - destruct (eqs k ($"name")); [|destruct (eqs k ($"type")); [|destruct (eqs k ($"encoding")); [|destruct (eqs k ($"compression"))]]]; cbn [bind]; try discriminate; apply IH.
Qed.
Lemma type_esc al : forall d, (forall x, d = Some x -> desc x = true) -> forall x, find_type al d = Some x -> desc x = true.
Proof.
  induction al as [|[k v] al IH]; intros d Hd x; cbn [find_type]; [apply Hd|]. apply IH.
  destruct (eqs k ($"type")); [|exact Hd]. intros y H. injection H as <-. reflexivity.
Qed.
Lemma file_attrs_esc al : forall f, fesc (set_file_attrs al f) = fesc f.
Proof.
  induction al as [|[k v] al IH]; intros f; cbn [set_file_attrs]; [reflexivity|]. rewrite IH.
  destruct (eqs k ($"name")); [reflexivity|]. destruct (eqs k ($"type")); reflexivity.
Qed.
Definition opt_esc (m : option meas) : Prop := match m with Some m => mesc m = true | None => True end.
Lemma start_esc el al m : start_measurement el al = Ok m -> opt_esc m.
Proof.
  unfold start_measurement. destruct (eqs el data_elem).
  - pose proof (type_esc al None ltac:(discriminate)) as T. destruct (find_type al None) as [d|].
    + destruct (set_attrs al (Some d)) as [[d'|]| | | |] eqn:E; cbn [bind option_map]; intros H; try discriminate; injection H as <-; [|exact I].
      cbn. rewrite (attrs_esc _ _ _ E). apply T. reflexivity.
    + destruct (set_attrs al None) as [d'| | | |] eqn:E; cbn [bind]; intros H; try discriminate. apply attrs_none in E. subst d'. injection H as <-. exact I.
  - destruct (eqs el file_elem); intros H; injection H as <-; [|exact I]. cbn [opt_esc mesc]. rewrite file_attrs_esc. reflexivity.
Qed.
Lemma event_esc asserts p ev p' : on_event asserts p ev = Ok p' ->
  opt_esc (pm p) /\ Forall (fun m => mesc m = true) (plist p) -> opt_esc (pm p') /\ Forall (fun m => mesc m = true) (plist p').
Proof.
  intros H [A B]. destruct ev as [n al|n|s]; cbn [on_event] in H.
  - unfold on_start in H. destruct (asserts && _); [discriminate|]. destruct (asserts && _); [discriminate|].
    destruct (pdepth p =? 1); [|apply Ok_inj in H; subst p'; cbn; auto].
    destruct (eqs n data_elem || eqs n file_elem); [|apply Ok_inj in H; subst p'; cbn; auto].
    destruct (start_measurement n al) as [m| | | |] eqn:E; cbn [bind] in H; try discriminate. apply Ok_inj in H. subst p'. cbn [pm plist].
    split; [exact (start_esc _ _ _ E)|exact B].
  - apply Ok_inj in H. subst p'. cbn [on_end pm plist]. split; [exact I|]. apply Forall_app. split; [exact B|].
    destruct (pm p) as [m|]; [|constructor]. destruct (pdepth p =? 2); constructor; [|constructor]. destruct m; exact A.
  - apply Ok_inj in H. subst p'. unfold on_data. destruct (pdepth p =? 2); cbn; auto.
Qed.
Lemma read_esc asserts ext bytes l : ReadXMLInput asserts ext bytes = Ok l -> Forall (fun m => mesc m = true) l.
Proof.
  unfold ReadXMLInput. destruct (buffers _ _ _) as [bufs| | | |]; cbn [bind]; try discriminate. destruct (expat ext _) as [evs ok].
  destruct (on_events asserts pd0 evs) as [p| | | |] eqn:E; cbn [bind]; try discriminate.
  destruct (asserts && _); [discriminate|]. destruct ok; [|discriminate]. intros H. injection H as <-.
  assert (G : forall evs p p', on_events asserts p evs = Ok p' -> opt_esc (pm p) /\ Forall (fun m => mesc m = true) (plist p) -> opt_esc (pm p') /\ Forall (fun m => mesc m = true) (plist p')).
  { clear. induction evs as [|ev evs IH]; intros p p'; cbn [on_events]; [intros H; apply Ok_inj in H; subst p'; auto|].
    destruct (on_event asserts p ev) as [p1| | | |] eqn:E; cbn [bind]; try discriminate. intros H A. exact (IH _ _ H (event_esc _ _ _ _ E A)). }
  apply (G _ _ _ E). cbn. auto.
Qed.

(** * One measurement *)
Lemma meas_esc io c : mesc (meas_of io true c) = true.
Proof. destruct c; reflexivity. Qed.
Lemma found_esc e dirs f b m : mesc b = true -> mesc (found e dirs f b m) = true.
Proof.
  unfold found. intros H. destruct b as [d|g]; [exact H|]. destruct m as [d|h]; [exact H|].
  destruct (SearchPathList _ _ _) as [[|c p]| | | |]; exact H.
Qed.
Lemma difference_text e b c : let m := meas_of (e_io e) true c in mesc b = true ->
  snd (Difference (e_sc e) (e_asserts e) (e_oob e) b m) =
  match plain_text c with
  | Some text => d <-- Diff (e_sc e) (e_asserts e) (e_oob e) (mcontent b) text ;; Ok (element DATA ($"Difference " ++ mname m) ($"text/plain") d ++ [nl])
  | None => Ok (shown m ($"Test " ++ mname m) ++ [nl] ++ shown b ($"Baseline " ++ mname b) ++ [nl])
  end.
Proof.
  intros m Hb.
  assert (G : forall n, print_of (mset_name m n) = shown m n) by (intros; apply shown_print, meas_esc).
  assert (Gb : forall n, print_of (mset_name b n) = shown b n) by (intros; apply shown_print, Hb).
  assert (V : (forall d, m = MD d -> dcls d <> CPlain) -> snd (Difference (e_sc e) (e_asserts e) (e_oob e) b m) = Ok (shown m ($"Test " ++ mname m) ++ [nl] ++ shown b ($"Baseline " ++ mname b) ++ [nl])).
  { intros N. unfold Difference, AddPrefixesToNames. cbv zeta. rewrite !print_print_of. cbn [bind]. rewrite G, Gb.
    destruct m as [d|g]; [|reflexivity]. specialize (N d eq_refl). destruct (dcls d); try reflexivity. contradiction. }
  destruct c as [t n|t n|f n|i n tol|x n tol|x n tol|bb n tol|f n|f n]; cbn [plain_text];
    try (apply V; intros d E; subst m; cbn in E; try discriminate; injection E as <-; discriminate).
  unfold Difference. unfold m. cbn [meas_of SetContent DeleteContentAsData dcls named SetAttributeName new_dm mcontent dcontent mname dname snd].
  destruct (Diff _ _ _ _ _) as [d| | | |]; cbn [bind]; try reflexivity. rewrite print_print_of. cbn [bind].
  f_equal. f_equal. exact (print_data CPlain ($"Difference " ++ n) d).
Qed.

Lemma compare_report e c s s' r : output_ready s -> Forall (fun b => mesc b = true) (s_input s) ->
  CompareMeasurement e (meas_of (e_io e) true c) (tolerant_of c) s = (s', r) ->
  (forall z, r = Ok z -> exists t, report e (s_path s) (hd_error (s_input s)) (c, s_tol s, s_files s) t /\ output s' = output s ++ t /\ output_ready s') /\
  (forall i, r = Throw i -> output s' = output s /\ output_ready s').
Proof.
  intros R Hesc. unfold CompareMeasurement. unfold mbind at 1. unfold gets at 1. cbv iota.
  set (m := meas_of (e_io e) true c). set (mo := (c, s_tol s, s_files s)).
  assert (UM : forall s0, output s0 = output s -> output_ready s0 -> exists s', UnmatchedMeasurement m s0 = (s', Ok tt) /\
     output s' = output s ++ shown m ($"Unmatched " ++ mname m) ++ [nl] /\ output_ready s').
  { intros s0 O0 R0. unfold UnmatchedMeasurement, mbind, modify. cbv iota. rewrite put_meas_eq, shown_print by apply meas_esc.
    set (s1 := set_unmatched s0 (s_unmatched s0 + 1)%Z). set (t := shown m ($"Unmatched " ++ mname m) ++ [nl]).
    assert (R1 : output_ready s1) by exact R0.
    destruct (put_text_spec t s1 R1) as (A & B & _). eexists. split; [reflexivity|]. split; [|exact B]. rewrite A. unfold s1.
    change (output s0 ++ t = output s ++ t). congruence. }
  destruct (s_input s) as [|b bs] eqn:Ein.
  - unfold mbind. destruct (UM s eq_refl R) as (s1 & E & O & R1). rewrite E. unfold mret. intros H. injection H as <- <-.
    split; [|discriminate]. intros z _. eexists. split; [|split; [exact O|exact R1]]. apply report_alone. discriminate.
  - inversion Hesc as [|? ? Hb _]; subst. unfold mbind at 1. unfold modify at 1. cbv iota.
    set (s0 := set_input s bs). cbv zeta. cbn [hd_error].
    assert (O0 : output s0 = output s) by reflexivity. assert (R0 : output_ready s0) by exact R.
    destruct (eqs (mname b) (mname m) && eqs (mtype b) (mtype m)) eqn:Ek.
    + assert (SK : kind_of_moment e b mo = true) by exact Ek.
      unfold mbind at 1. rewrite locate_found. cbv iota. change (s_path s0) with (s_path s). change (s_files s0) with (s_files s).
      unfold mbind at 1. unfold gets at 1. cbv iota. change (s_files s0) with (s_files s). unfold visitor. change (s_tol s0) with (s_tol s).
      set (b1 := found e (s_path s) (s_files s) b m).
      set (cv := if tolerant_of c then SetTolerance new_cmp (s_tol s) else new_cmp).
      destruct (Compare (e_sc e) (sources e (s_files s)) (e_io e) cv b1 m) as [[b2 m2] v] eqn:Ec.
      assert (SV : same_value e (s_path s) b mo = match v with Ok true => true | _ => false end).
      { unfold same_value, verdict, mo. fold m. fold b1. fold cv. rewrite Ec. reflexivity. }
      destruct (compare_stored _ _ _ _ _ _ _ _ _ Ec) as [St1 St2].
      unfold mbind at 1, mlift at 1. destruct v as [v|x| | |]; cbv iota; intros H.
      * destruct v.
        { unfold mret in H. injection H as <- <-. split; [|discriminate]. intros z _. exists []. rewrite app_nil_r.
          split; [apply report_same; assumption|]. auto. }
        { unfold DifferenceMeasurement, mbind, modify, mlift, put, mret in H.
          set (s1 := set_unmatched s0 (s_unmatched s0 + 1)%Z) in *.
          rewrite <- difference_stored, St1, St2, difference_stored in H. unfold m in H. rewrite difference_text in H by (apply found_esc, Hb). fold m in H.
          assert (R1 : output_ready s1) by exact R.
          destruct (plain_text c) as [text|] eqn:Ep.
          - assert (Eb : b1 = b).
            { unfold b1, found. destruct b as [d|g]; [reflexivity|]. assert (exists d, m = MD d) as [d ->]; [|reflexivity].
              unfold m. destruct c; try discriminate Ep. eexists. reflexivity. }
            rewrite Eb in H. destruct (Diff _ _ _ (mcontent b) text) as [d|x| | |] eqn:Ed; cbn [bind] in H; cbv iota in H; unfold modify in H;
              injection H as <- <-; try (split; discriminate).
            + split; [|discriminate]. intros z _. set (t := element DATA ($"Difference " ++ mname m) ($"text/plain") d ++ [nl]).
              destruct (put_text_spec t s1 R1) as (A & B & _). exists t. split; [|split; [exact A|exact B]].
              exact (report_text e (s_path s) b c _ _ text d SK SV Ep Ed).
            + exfalso. exact (Diff_raises_nothing _ _ _ _ _ _ Ed).
          - cbv iota in H. unfold modify in H. injection H as <- <-. split; [|discriminate]. intros z _. set (t := shown m ($"Test " ++ mname m) ++ [nl] ++ shown b1 ($"Baseline " ++ mname b1) ++ [nl]).
            destruct (put_text_spec t s1 R1) as (A & B & _). exists t. split; [|split; [exact A|exact B]].
            unfold t, b1. rewrite (proj1 (found_kind e (s_path s) (s_files s) b m)). exact (report_values e (s_path s) b c _ _ SK SV Ep). }
      * injection H as <- <-. split; [discriminate|]. auto.
      * injection H as <- <-. split; discriminate.
      * injection H as <- <-. split; discriminate.
      * injection H as <- <-. split; discriminate.
    + assert (SK : kind_of_moment e b mo = false) by exact Ek.
      unfold mbind. destruct (UM s0 O0 R0) as (s1 & E & O & R1). rewrite E. unfold mret. intros H. injection H as <- <-.
      split; [|discriminate]. intros z _. eexists. split; [|split; [exact O|exact R1]]. apply report_alone. intros b0 Hb0. injection Hb0 as <-. exact SK.
Qed.

(** * A run *)
Lemma run_report e p : forall s s' out k, s_is s = Some k -> output_ready s -> Forall (fun b => mesc b = true) (s_input s) -> leaves_alone e (s_os s) p ->
  run e p s = (s', out) -> (exists z, out = Ok z) \/ (exists i, out = Throw i) ->
  exists ms rs t, unfolds e (s_os s) (s_tol s) (s_files s) (s_expected s) p ms rs (s_expected s') out /\
    rs = results e (s_path s) (s_input s) (firstn (length rs) ms) /\
    s_unmatched s' = (s_unmatched s + mismatches e (s_path s) (s_input s) (firstn (length rs) ms))%Z /\
    reports e (s_path s) (s_input s) (firstn (length rs) ms) t /\ output s' = output s ++ t /\ frame s s'.
Proof.
  induction p as [z|x|c k IH|t k IH|z k IH|path b k IH]; intros s s' out ki Hi Hr He Hl H Ho; cbn [run leaves_alone] in *.
  - unfold mret in H. injection H as <- <-. exists [], [], []. split; [constructor|]. cbn. split; [reflexivity|]. split; [lia|]. split; [constructor|]. rewrite app_nil_r. split; [reflexivity|apply frame_refl].
  - unfold mlift in H. injection H as <- <-. exists [], [], []. split; [constructor|]. cbn. split; [reflexivity|]. split; [lia|]. split; [constructor|]. rewrite app_nil_r. split; [reflexivity|apply frame_refl].
  - unfold mbind at 1 in H. unfold Measure, GetCompareMode in H. unfold mbind at 1 in H. rewrite (compare_mode_open e s ki Hi) in H. cbv iota in H.
    destruct (CompareMeasurement e (meas_of (e_io e) true c) (tolerant_of c) s) as [s1 r] eqn:E.
    destruct (compare_one _ _ _ _ _ E) as [A B]. destruct (compare_report _ _ _ _ _ Hr He E) as [A' B']. destruct r as [z|i| | |].
    + destruct (A z eq_refl) as (Rz & U & I & F & T & X & G). destruct (A' z eq_refl) as (t1 & Rt & O1 & R1). clear A B A' B'. cbv zeta in Rz, U.
      destruct F as (F1 & F2 & F3 & F4 & F5).
      assert (Hi1 : s_is s1 = Some ki) by congruence.
      assert (He1 : Forall (fun b => mesc b = true) (s_input s1)) by (rewrite I; destruct He; cbn; auto).
      assert (Hl1 : leaves_alone e (s_os s1) (k z)) by (rewrite F4; apply Hl).
      destruct (IH z s1 s' out ki Hi1 R1 He1 Hl1 H Ho) as (ms & rs & ts & W & Rs & Us & Rp & O & Fs).
      exists ((c, s_tol s, s_files s) :: ms), (z :: rs), (t1 ++ ts). split.
      * eapply u_call; [exact G|]. rewrite <- F4, <- T, <- X. exact W.
      * cbn [length firstn]. cbn [results mismatches] in *. rewrite F3, I in *.
        split; [congruence|]. split; [lia|]. split; [constructor; assumption|]. split; [rewrite O, O1, app_assoc; reflexivity|].
        eapply frame_trans; [|exact Fs]. repeat split; assumption.
    + injection H as <- <-. destruct (B i eq_refl) as (_ & U & F & T & X & G). destruct (B' i eq_refl) as [O1 R1]. clear A B A' B'.
      exists [(c, s_tol s, s_files s)], [], []. rewrite X. split; [constructor|]. cbn [length firstn results mismatches].
      split; [reflexivity|]. split; [lia|]. split; [constructor|]. rewrite app_nil_r. split; [exact O1|exact F].
    + injection H as <- <-. destruct Ho as [[? ?]|[? ?]]; discriminate.
    + injection H as <- <-. destruct Ho as [[? ?]|[? ?]]; discriminate.
    + injection H as <- <-. destruct Ho as [[? ?]|[? ?]]; discriminate.
  - unfold mbind, modify in H. cbv iota in H. destruct (IH (set_tol s t) s' out ki Hi Hr He Hl H Ho) as (ms & rs & ts & W & R & U & Rp & O & F).
    exists ms, rs, ts. split; [constructor; exact W|]. split; [exact R|]. split; [exact U|]. split; [exact Rp|]. split; [exact O|exact F].
  - unfold mbind, modify in H. cbv iota in H. destruct (IH (set_expected s z) s' out ki Hi Hr He Hl H Ho) as (ms & rs & ts & W & R & U & Rp & O & F).
    exists ms, rs, ts. split; [constructor; exact W|]. split; [exact R|]. split; [exact U|]. split; [exact Rp|]. split; [exact O|exact F].
  - unfold mbind, modify in H. cbv iota in H. destruct Hl as [Hw Hl]. destruct (write_ready e path b s Hw Hr) as [W1 W2].
    destruct (IH (set_files s (write_file e (s_files s) path b)) s' out ki Hi W2 He Hl H Ho) as (ms & rs & ts & W & R & U & Rp & O & F).
    exists ms, rs, ts. split; [constructor; exact W|]. split; [exact R|]. split; [exact U|]. split; [exact Rp|]. rewrite W1 in O. split; [exact O|exact F].
Qed.

(** A comparing run writes the reports on its measurements, in order, and nothing else; the status belongs to the same measurements
    (cf. C37; provided the test does not itself write to the output file). *)
Theorem C66_reports : forall e f test a0 opts rest inf o f1 baseline s' z,
  command_line e f opts rest -> input_of opts = Some inf ->
  started e f (output_of e f opts) (dirs_of opts) inf = Some (o, f1, baseline) -> leaves_alone e o (test (a0 :: rest)) ->
  Main e test (a0 :: flat opts ++ rest) (new_test f) = (s', Ok z) ->
  exists ms rs x out,
    unfolds e o default_tol f1 (expected_of opts) (test (a0 :: rest)) ms rs x out /\
    rs = results e (dirs_of opts) baseline (firstn (length rs) ms) /\
    z = status out x (mismatches e (dirs_of opts) baseline (firstn (length rs) ms)) /\
    reports e (dirs_of opts) baseline (firstn (length rs) ms) (written o s').
Proof.
  intros e f test a0 opts rest inf o f1 baseline s' z Hc Hi Hs Hl. pose proof (input_of_nonempty e f opts inf (proj1 Hc) Hi) as Hn.
  rewrite Main_unfold, (main_body_launch e f test a0 opts rest Hc). unfold started in Hs.
  pose proof (begin_compare e (launched e f opts) inf eq_refl eq_refl) as B.
  assert (Hin : s_in (launched e f opts) = inf) by (cbn; rewrite Hi; reflexivity). specialize (B Hin Hn).
  change (s_files (launched e f opts)) with f in B. change (s_out (launched e f opts)) with (output_of e f opts) in B.
  change (s_path (launched e f opts)) with (dirs_of opts) in B. cbv zeta in B.
  destruct (opened e f (output_of e f opts)) as [[o' f1']|] eqn:Eo; [|discriminate Hs].
  set (q := baseline_path e f1' (dirs_of opts) inf) in *. destruct (contents e f1' q) as [bytes|] eqn:Ec; [|discriminate Hs].
  destruct (ReadXMLInput (e_asserts e) (e_ext e) bytes) as [l| | | |] eqn:Erd; try discriminate Hs. injection Hs as -> -> ->.
  destruct (opened_ready e f _ o f1 (launched e f opts) Eo eq_refl) as [R0 O0].
  set (s1 := set_os (set_files (launched e f opts) f1) o) in *.
  assert (Er : can_open e f1 q = true).
  { revert Ec. unfold can_open, contents. destruct (node_at e f1 q) as [[[|] w b|]|]; auto; discriminate. }
  rewrite Er in B.
  destruct (readable_contents e f1 q Er) as (k & Ek & [(r & w & b & Eb & Ec' & Ef)|(r & w & x & Eb & Ec')]); rewrite Ec in Ec'; [|discriminate Ec'].
  injection Ec' as <-.
  unfold mbind. rewrite B, Ek. unfold read_input. cbn [set_is s_is]. change (s_files (set_is s1 (Some k))) with f1. rewrite Eb, Erd.
  cbv iota. set (s2 := set_input (set_is s1 (Some k)) baseline).
  assert (Hs2 : s_is s2 = Some k) by reflexivity.
  pose proof (keeps_run e (test (a0 :: rest)) s2) as K.
  destruct (run e (test (a0 :: rest)) s2) as [s3 out] eqn:Erun. cbn [fst] in K.
  assert (Hfin : forall s4, s_is s4 = None -> s_in s4 = inf -> s_path s4 = dirs_of opts -> s_files s4 = s_files s3 -> compare_mode e s4 = Ok true).
  { intros s4 A1 A2 A3 A4. rewrite (compare_mode_closed e s4 inf A1 A2 Hn), A3, A4. f_equal.
    apply (keeps_baseline e f1); [exact K|]. unfold readable_file. fold q. rewrite Ef, (file_can_open _ _ _ Ef), Er. reflexivity. }
  intros H.
  assert (Hout : (exists z, out = Ok z) \/ (exists i, out = Throw i)).
  { destruct out as [v|i| | |]; try (discriminate H); eauto. }
  destruct (run_report e (test (a0 :: rest)) s2 s3 out k Hs2 R0 (read_esc _ _ _ _ Erd) Hl Erun Hout) as (ms & rs & t & W & R & U & Rp & O & F).
  exists ms, rs, (s_expected s3), out. split; [exact W|]. split; [exact R|].
  change (s_unmatched s2) with 1%Z in U. change (s_path s2) with (dirs_of opts) in U, Rp. change (s_input s2) with baseline in U, Rp.
  change (output s2) with (output s1) in O. rewrite O0 in O. cbn [app] in O.
  set (n := mismatches e (dirs_of opts) baseline (firstn (length rs) ms)) in *.
  destruct F as (F1 & F2 & F3 & F4 & F5).
  assert (Hi3 : s_is s3 = Some k) by (rewrite F5; reflexivity). assert (Ho3 : s_os s3 = o) by (rewrite F4; reflexivity).
  assert (Wr : forall s4, s_files s4 = s_files s3 -> s_stdout s4 = s_stdout s3 -> written o s4 = t).
  { intros s4 A1 A2. rewrite <- O. unfold written, output. rewrite Ho3, A1, A2. reflexivity. }
  assert (G : z = status out (s_expected s3) n /\ s_files s' = s_files s3 /\ s_stdout s' = s_stdout s3).
  2:{ destruct G as (G1 & G2 & G3). split; [exact G1|]. rewrite (Wr s' G2 G3). exact Rp. }
  destruct Hout as [[v ->]|[i ->]].
  - unfold EndMeasurement, GetCompareMode, mbind in H. rewrite (compare_mode_open e s3 k Hi3) in H. unfold modify in H. cbv iota in H.
    unfold finish in H. cbn [set_unmatched set_is set_os set_input s_expected s_unmatched] in H. unfold status.
    destruct (v =? s_expected s3)%Z; cbn [negb] in H.
    + rewrite Hfin in H.
      * cbn [bind] in H. injection H as <- <-. split; [rewrite U; lia|split; reflexivity].
      * reflexivity.
      * change (s_in s3 = inf). rewrite F1. change (s_in s2) with (s_in (launched e f opts)). exact Hin.
      * change (s_path s3 = dirs_of opts). rewrite F3. reflexivity.
      * reflexivity.
    + injection H as <- <-. split; [reflexivity|split; reflexivity].
  - unfold finish in H. unfold status. destruct (-1 =? s_expected s3)%Z; cbn [negb] in H.
    + rewrite (compare_mode_open e s3 k Hi3) in H. cbn [bind] in H. injection H as <- <-. split; [rewrite U; lia|split; reflexivity].
    + injection H as <- <-. split; [reflexivity|split; reflexivity].
Qed.
Print Assumptions C66_reports.

(** The report on a measurement is determined. *)
Theorem C66_report_determined : forall e dirs p mo t t', report e dirs p mo t -> report e dirs p mo t' -> t = t'.
Proof.
  intros e dirs p mo t t' H H'. inversion H; subst; inversion H'; subst; try reflexivity; try congruence.
  all: try match goal with A : forall x, Some ?b = Some x -> _ |- _ => specialize (A b eq_refl); congruence end.
  unfold m, m0. do 2 f_equal. congruence.
Qed.
Print Assumptions C66_report_determined.
(** It is empty exactly for a measurement that agrees with its partner. *)
Lemma report_empty e dirs bs mo t : report e dirs (hd_error bs) mo t -> (t = [] <-> mismatches e dirs bs [mo] = 0%Z).
Proof.
  intros H. cbn [mismatches]. inversion H as [b mo' K S E1|p c tt f m K E1|b c tt f text d m K S P D E1|b c tt f m K S P E1]; subst.
  - destruct bs as [|b' bs]; cbn [hd_error] in E1; [discriminate|]. injection E1 as ->. rewrite K, S. cbn [andb]. split; auto.
  - split; [destruct m; discriminate|]. destruct bs as [|b bs]; [discriminate|]. rewrite (K b eq_refl). discriminate.
  - destruct bs as [|b' bs]; cbn [hd_error] in E1; [discriminate|]. injection E1 as ->. rewrite K, S. split; discriminate.
  - destruct bs as [|b' bs]; cbn [hd_error] in E1; [discriminate|]. injection E1 as ->. rewrite K, S. split; [destruct m; discriminate|discriminate].
Qed.
Lemma mismatches_nonneg e dirs ms : forall bs, (0 <= mismatches e dirs bs ms)%Z.
Proof. induction ms as [|mo ms IH]; intros bs; cbn [mismatches]; [lia|]. specialize (IH (tl bs)). destruct bs as [|b bs]; [lia|]. destruct (_ && _); lia. Qed.
Theorem C66_nothing_written_iff_no_mismatch : forall e dirs bs ms t, reports e dirs bs ms t -> (t = [] <-> mismatches e dirs bs ms = 0%Z).
Proof.
  intros e dirs bs ms t H. induction H as [bs|bs mo ms t ts R _ IH]; [split; reflexivity|].
  pose proof (report_empty _ _ _ _ _ R) as A. cbn [mismatches] in *. pose proof (mismatches_nonneg e dirs ms (tl bs)) as N.
  set (x := match bs with [] => 1%Z | b :: _ => if _ && _ then 0%Z else 1%Z end) in *. rewrite Z.add_0_r in A.
  assert (0 <= x)%Z by (unfold x; destruct bs; [lia|]; destruct (_ && _); lia).
  split.
  - intros E. apply app_eq_nil in E. destruct E as [E1 E2]. apply A in E1. apply IH in E2. lia.
  - intros E. assert (E1 : x = 0%Z) by lia. assert (E2 : mismatches e dirs (tl bs) ms = 0%Z) by lia. rewrite (proj2 A E1), (proj2 IH E2). reflexivity.
Qed.
Print Assumptions C66_nothing_written_iff_no_mismatch.

(** * A case *)
Definition rep_env : env := Env true true (Some (fun _ _ => 0%Z)) (e_io ex_env) (fun _ => ([], false)) (fun p => p) (fun _ => true) ($"host") ($"now" ++ [nl]).
Definition rep_base : str :=
  $"<output><DartMeasurement name='a' type='text/string'>x</DartMeasurement>" ++
  $"<DartMeasurement name='t' type='text/plain'>one" ++ [nl] ++ $"two" ++ [nl] ++ $"</DartMeasurement>" ++
  $"<DartMeasurement name='i' type='numeric/integer' compression='z'>3</DartMeasurement>" ++
  $"<DartMeasurement name='s' type='text/string'>y</DartMeasurement></output>".
Definition rep_files : store := fun k =>
  if eqs k ($"b.xml") then Some (FFile true true rep_base)
  else if eqs k ($"f.xml") then Some (FFile true true ($"<output><DartMeasurementFile name='t' type='text/plain'>t.txt</DartMeasurementFile></output>"))
  else if eqs k ($"t.txt") then Some (FFile true true ($"one" ++ [nl])) else None.
Definition rep_test (_ : list str) : prog :=
  Call (TextString ($"x") ($"a")) (fun _ => Call (TextPlain ($"one" ++ [nl] ++ $"three" ++ [nl]) ($"t")) (fun _ =>
  Call (NumericInteger 4 ($"i") false) (fun _ => Call (TextString ($"y") ($"other")) (fun _ => Call (TextString ($"<") ($"more")) (fun _ => Return 0))))).
Definition lines (l : list str) : str := concat (map (fun t => t ++ [nl]) l).
Local Notation rep_run := (Main rep_env rep_test ($"p" :: flat [($"-I", $"b.xml")] ++ []) (new_test rep_files)).
Example C66_case :
  snd rep_run = Ok 4%Z /\
  written None (fst rep_run) = lines [
    $"<DartMeasurement name=""Difference t"" type=""text/plain"">2c2"; $"&lt; two"; $"----"; $"&gt; three"; $"</DartMeasurement>";
    $"<DartMeasurement name=""Test i"" type=""numeric/integer"">4</DartMeasurement>";
    $"<DartMeasurement name=""Baseline i"" type=""numeric/integer"" compression=""z"">3</DartMeasurement>";
    $"<DartMeasurement name=""Unmatched other"" type=""text/string"">y</DartMeasurement>";
    $"<DartMeasurement name=""Unmatched more"" type=""text/string"">&lt;</DartMeasurement>"].
Proof. split. vm_compute. reflexivity. vm_compute. reflexivity. Qed.

(** the hypotheses of C66_reports *)
Example C66_case_hyps :
  command_line rep_env rep_files [($"-I", $"b.xml")] [] /\ input_of [($"-I", $"b.xml")] = Some ($"b.xml") /\
  (exists f1 baseline, started rep_env rep_files (output_of rep_env rep_files [($"-I", $"b.xml")]) (dirs_of [($"-I", $"b.xml")]) ($"b.xml") = Some (None, f1, baseline) /\ length baseline = 4) /\
  leaves_alone rep_env None (rep_test ($"p" :: [])).
Proof.
  split; [|split; [reflexivity|split]].
  - split; [|exact I]. constructor; [|constructor]. split; [right; left; reflexivity|]. split; [|discriminate]. intros _. vm_compute. auto.
  - do 2 eexists. split; [vm_compute; reflexivity|reflexivity].
  - cbn. auto.
Qed.
(** A text measurement whose partner is a file shows the difference to the file's name, not to its content. *)
Theorem C66_file_content_in_difference_refuted : exists e f test argv s' name bytes text,
  let m := MF (Mf ($"t") true ($"text/plain") name) in
  Main e test argv (new_test f) = (s', Ok 1%Z) /\ started e f [] [] ($"f.xml") = Some (None, f, [m]) /\ contents e f name = Some bytes /\
  (exists d, Diff (e_sc e) (e_asserts e) (e_oob e) name text = Ok d /\ written None s' = element DATA ($"Difference t") ($"text/plain") d ++ [nl]) /\
  (forall d, Diff (e_sc e) (e_asserts e) (e_oob e) bytes text = Ok d -> written None s' <> element DATA ($"Difference t") ($"text/plain") d ++ [nl]).
Proof.
  exists rep_env, rep_files, (fun _ => Call (TextPlain ($"two" ++ [nl]) ($"t")) (fun _ => Return 0)), ($"p" :: flat [($"-I", $"f.xml")] ++ []).
  set (r := Main _ _ _ _). exists (fst r), ($"t.txt"), ($"one" ++ [nl]), ($"two" ++ [nl]). cbv zeta.
  split; [rewrite (surjective_pairing r) at 1; f_equal; vm_compute; reflexivity|].
  split; [vm_compute; reflexivity|]. split; [vm_compute; reflexivity|]. split.
  - eexists. split; vm_compute; reflexivity.
  - intros d H. assert (E : Diff (e_sc rep_env) (e_asserts rep_env) (e_oob rep_env) ($"one" ++ [nl]) ($"two" ++ [nl]) = Ok ($"1c1" ++ [nl] ++ $"< one" ++ [nl] ++ $"----" ++ [nl] ++ $"> two" ++ [nl])) by (vm_compute; reflexivity).
    rewrite E in H. apply Ok_inj in H. subst d. vm_compute. discriminate.
Qed.
Print Assumptions C66_file_content_in_difference_refuted.

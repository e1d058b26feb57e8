(** [Main] from start to end. *)
From Coq Require Import Floats.SpecFloat.
From Verif Require Import Base Str Dec PathModel PathFacts MeasModel MeasFacts XmlModel ReadModel ReadFacts ReadBack RegModel ArgFacts ArgProps RegSpec RegFacts RegStart.

(** * The command line, cf. C36 *)
Definition input_of (opts : list (str * str)) : option str := last_value (map Some (values ($"-I") opts)) None.
Definition output_of (e : env) (f : store) (opts : list (str * str)) : str :=
  match last_value (map (out_choice e f) (values ($"-O") opts)) None with Some v => v | None => [] end.
Definition dirs_of (opts : list (str * str)) : list str := rev (values ($"-P") opts).
Definition expected_of (opts : list (str * str)) : Z := last_value (map (fun v => wrap32 (strtol10 v)) (values ($"-R") opts)) 0%Z.
(** accepted options in front, then arguments of the test *)
Definition command_line (e : env) (f : store) (opts : list (str * str)) (rest : list str) : Prop :=
  Forall (accepted e f) opts /\ match rest with [] => True | a :: _ => ~ In a flags end.

Definition launched (e : env) (f : store) (opts : list (str * str)) : rst :=
  Rst f [] [] (match input_of opts with Some v => v | None => [] end) (output_of e f opts) (dirs_of opts) None None default_tol 1 (expected_of opts).
Lemma launch e f a0 opts rest : command_line e f opts rest ->
  exists argc argv, ParseAndRemoveArguments e (S (length (a0 :: flat opts ++ rest))) (a0 :: flat opts ++ rest) (set_unmatched (new_test f) 1)
    = (launched e f opts, Ok (argc, argv)) /\ firstn argc argv = a0 :: rest.
Proof.
  intros [H1 H2].
  destruct (C36_arguments_removed e (set_unmatched (new_test f) 1) a0 opts rest (S (length (a0 :: flat opts ++ rest)))) as (argc & argv & s' & E & F & _ & A & B & C & D & G).
  - exact H1.
  - exact H2.
  - cbn [length]. rewrite app_length, flat_length. lia.
  - exists argc, argv. split; [|exact F]. rewrite E. f_equal. rewrite G. cbn in A, B, C, D.
    rewrite A, B, C, D. unfold launched, set_in, set_out, set_expected, set_path. cbn. unfold input_of, output_of, dirs_of, expected_of.
    rewrite app_nil_r. reflexivity.
Qed.
Lemma main_body_launch e f test a0 opts rest : command_line e f opts rest ->
  main_body e test (a0 :: flat opts ++ rest) (set_unmatched (new_test f) 1) =
  (_ <- BeginMeasurement e ;; run e (test (a0 :: rest))) (launched e f opts).
Proof.
  intros H. destruct (launch e f a0 opts rest H) as (argc & argv & E & F). unfold main_body. unfold mbind at 1. rewrite E.
  cbv beta iota. rewrite F. reflexivity.
Qed.

Lemma readable_contents e f q : can_open e f q = true -> exists k, slot e q = Some k /\
  ((exists r w b, f k = Some (FFile r w b) /\ contents e f q = Some b /\ is_file e f q = true) \/ (exists r w x, f k = Some (FDir r w x) /\ contents e f q = None)).
Proof.
  unfold can_open, contents, is_file, node_at. destruct (slot e q) as [k|]; [|discriminate]. intros H. exists k. split; [reflexivity|].
  destruct (f k) as [[[|] w b|r w x]|]; try discriminate; [left|right]; do 3 eexists; split; reflexivity || (split; reflexivity).
Qed.
Lemma input_of_nonempty e f opts inf : Forall (accepted e f) opts -> input_of opts = Some inf -> inf <> [].
Proof.
  intros H1 H2 ->. unfold input_of in H2.
  assert (G : forall (l : list (str * str)), Forall (accepted e f) l -> forall d, last_value (map Some (values ($"-I") l)) d = Some [] -> d = Some []).
  2:{ specialize (G opts H1 None H2). discriminate. }
  clear. induction l as [|[k v] l IH]; intros H d; [auto|]. inversion H as [|? ? Hk Hl]; subst. unfold values in *. cbn [filter fst].
  destruct (eqs_spec k ($"-I")) as [->|N]; [|apply IH; exact Hl].
  cbn [map last_value snd]. intros E. specialize (IH Hl (Some v) E). injection IH as ->.
  destruct Hk as (_ & Hk & _). destruct (Hk eq_refl) as [F _]. cbn in F. discriminate F.
Qed.

(** the value returned at the end of a run *)
Definition finish (e : env) (ret : Z) (s : rst) : rst * res Z :=
  if negb (ret =? s_expected s)%Z then (s, Ok ret)
  else (s, cm <-- compare_mode e s ;; Ok (if (cm : bool) then s_unmatched s else 0%Z)).
Lemma Main_unfold e f test argv : Main e test argv (new_test f) =
  match main_body e test argv (set_unmatched (new_test f) 1) with
  | (s, Ok ret) =>
      match EndMeasurement e s with
      | (s, Ok _) => finish e ret (set_unmatched s (s_unmatched s - 1))
      | (s, Throw _) => finish e ret s
      | (s, UB) => (s, UB) | (s, Abort) => (s, Abort) | (s, Hang) => (s, Hang)
      end
  | (s, Throw _) => finish e (-1)%Z s
  | (s, UB) => (s, UB) | (s, Abort) => (s, Abort) | (s, Hang) => (s, Hang)
  end.
Proof. reflexivity. Qed.

(** a run against a baseline *)
Lemma main_compare e f test a0 opts rest inf s' z : command_line e f opts rest -> input_of opts = Some inf ->
  Main e test (a0 :: flat opts ++ rest) (new_test f) = (s', Ok z) ->
  match started e f (output_of e f opts) (dirs_of opts) inf with
  | Some (o, f1, baseline) =>
      exists ms rs x out,
        unfolds e o default_tol f1 (expected_of opts) (test (a0 :: rest)) ms rs x out /\
        rs = results e (dirs_of opts) baseline (firstn (length rs) ms) /\
        (forall mo, nth_error ms (length rs) = Some mo -> exists b i, out = Throw i /\ nth_error baseline (length rs) = Some b /\
           kind_of_moment e b mo = true /\ verdict e (dirs_of opts) b mo = Throw i) /\
        z = status out x (mismatches e (dirs_of opts) baseline (firstn (length rs) ms))
  | None => if (-1 =? expected_of opts)%Z then (0 <= z <= 1)%Z else z = (-1)%Z
  end.
Proof.
  intros Hc Hi. pose proof (input_of_nonempty e f opts inf (proj1 Hc) Hi) as Hn.
  rewrite Main_unfold, (main_body_launch e f test a0 opts rest Hc). unfold started.
  pose proof (begin_compare e (launched e f opts) inf eq_refl eq_refl) as B.
  assert (Hin : s_in (launched e f opts) = inf) by (cbn; rewrite Hi; reflexivity). specialize (B Hin Hn).
  change (s_files (launched e f opts)) with f in B. change (s_out (launched e f opts)) with (output_of e f opts) in B.
  change (s_path (launched e f opts)) with (dirs_of opts) in B. cbv zeta in B.
  assert (FT : forall s s' z, s_is s = None -> s_in s = inf -> s_expected s = expected_of opts -> s_unmatched s = 1%Z -> finish e (-1) s = (s', Ok z) ->
     if (-1 =? expected_of opts)%Z then (0 <= z <= 1)%Z else z = (-1)%Z).
  { intros s s0 z0 A1 A2 A3 A4. unfold finish. rewrite A3. destruct (-1 =? expected_of opts)%Z; cbn [negb].
    - rewrite (compare_mode_closed e s inf A1 A2 Hn). cbn [bind]. intros H. injection H as _ <-. rewrite A4. destruct (readable_file _ _ _); lia.
    - intros H. injection H as _ <-. reflexivity. }
  assert (FT' : forall s s' z k, s_is s = Some k -> s_expected s = expected_of opts -> s_unmatched s = 1%Z -> finish e (-1) s = (s', Ok z) ->
     if (-1 =? expected_of opts)%Z then (0 <= z <= 1)%Z else z = (-1)%Z).
  { intros s s0 z0 k A1 A3 A4. unfold finish. rewrite A3. destruct (-1 =? expected_of opts)%Z; cbn [negb].
    - rewrite (compare_mode_open e s k A1). cbn [bind]. intros H. injection H as _ <-. rewrite A4. lia.
    - intros H. injection H as _ <-. reflexivity. }
  destruct (opened e f (output_of e f opts)) as [[o f1]|] eqn:Eo.
  2:{ unfold mbind. rewrite B. apply FT; auto. }
  set (s1 := set_os (set_files (launched e f opts) f1) o) in *. set (q := baseline_path e f1 (dirs_of opts) inf) in *.
  destruct (can_open e f1 q) eqn:Er.
  2:{ assert (Ec : contents e f1 q = None).
      { revert Er. unfold can_open, contents. destruct (node_at e f1 q) as [[[|] w b|]|]; auto; discriminate. }
      rewrite Ec. unfold mbind. rewrite B. apply FT; auto. }
  destruct (readable_contents e f1 q Er) as (k & Ek & [(r & w & b & Eb & Ec & Ef)|(r & w & x & Eb & Ec)]); rewrite Ec.
  2:{ unfold mbind. rewrite B. unfold read_input. rewrite Ek. cbn [set_is s_is]. change (s_files (set_is s1 (Some k))) with f1. rewrite Eb.
      cbv iota. eapply FT'; reflexivity. }
  unfold mbind. rewrite B, Ek. unfold read_input. cbn [set_is s_is]. change (s_files (set_is s1 (Some k))) with f1. rewrite Eb.
  destruct (ReadXMLInput (e_asserts e) (e_ext e) b) as [baseline|i| | |]; try (intros H; discriminate H).
  2:{ cbv iota. eapply FT'; reflexivity. }
  cbv iota. set (s2 := set_input (set_is s1 (Some k)) baseline).
  assert (Hs2 : s_is s2 = Some k) by reflexivity.
  pose proof (keeps_run e (test (a0 :: rest)) s2) as K.
  destruct (run e (test (a0 :: rest)) s2) as [s3 out] eqn:Erun. cbn [fst] in K.
  assert (Hfin : forall s4, s_is s4 = None -> s_in s4 = inf -> s_path s4 = dirs_of opts -> s_files s4 = s_files s3 -> compare_mode e s4 = Ok true).
  { intros s4 A1 A2 A3 A4. rewrite (compare_mode_closed e s4 inf A1 A2 Hn), A3, A4. f_equal.
    apply (keeps_baseline e f1); [exact K|]. unfold readable_file. fold q. rewrite Ef, (file_can_open _ _ _ Ef), Er. reflexivity. }
  intros H.
  assert (Hout : (exists z, out = Ok z) \/ (exists i, out = Throw i)).
  { destruct out as [v|i| | |]; try (discriminate H); eauto. }
  destruct (run_compare e (test (a0 :: rest)) s2 s3 out k Hs2 Erun Hout) as (ms & rs & W & R & U & St & F).
  exists ms, rs, (s_expected s3), out. split; [exact W|]. split; [exact R|]. split; [exact St|].
  change (s_unmatched s2) with 1%Z in U. change (s_path s2) with (dirs_of opts) in U. change (s_input s2) with baseline in U.
  set (n := mismatches e (dirs_of opts) baseline (firstn (length rs) ms)) in *.
  destruct F as (F1 & F2 & F3 & F4 & F5).
  assert (Hi3 : s_is s3 = Some k) by (rewrite F5; reflexivity).
  destruct Hout as [[v ->]|[i ->]].
  - unfold EndMeasurement, GetCompareMode, mbind in H. rewrite (compare_mode_open e s3 k Hi3) in H. unfold modify in H. cbv iota in H.
    unfold finish in H. cbn [set_unmatched set_is set_os set_input s_expected s_unmatched] in H. unfold status.
    destruct (v =? s_expected s3)%Z; cbn [negb] in H.
    + rewrite Hfin in H.
      * cbn [bind] in H. injection H as _ <-. rewrite U. lia.
      * reflexivity.
      * change (s_in s3 = inf). rewrite F1. change (s_in s2) with (s_in (launched e f opts)). exact Hin.
      * change (s_path s3 = dirs_of opts). rewrite F3. reflexivity.
      * reflexivity.
    + injection H as _ <-. reflexivity.
  - unfold finish in H. unfold status. destruct (-1 =? s_expected s3)%Z; cbn [negb] in H.
    + rewrite (compare_mode_open e s3 k Hi3) in H. cbn [bind] in H. injection H as _ <-. rewrite U. lia.
    + injection H as _ <-. reflexivity.
Qed.

(** * Record runs *)
Lemma run_record_status e p : forall s, s_is s = None -> s_in s = [] ->
  exists s', run e p s = (s', ends p) /\ frame s s' /\ s_expected s' = expects (s_expected s) p.
Proof.
  induction p as [z|x|c k IH|t k IH|z k IH|path b k IH]; intros s Hi Hn; cbn [run ends expects] in *.
  - exists s. repeat split.
  - exists s. repeat split.
  - unfold mbind at 1. unfold Measure, GetCompareMode. unfold mbind at 1. rewrite (record_mode e s Hi Hn). cbv iota.
    unfold mbind, mret. rewrite put_meas_eq. cbv iota. set (t := print_of _ ++ [nl]).
    destruct (put_text_any t s) as (F & A & B & C & D & G). pose proof F as (F1 & F2 & F3 & F4 & F5).
    destruct (IH 0%Z (put_text t s)) as (s' & E & F' & X); [congruence|congruence|].
    exists s'. split; [exact E|]. split; [eapply frame_trans; eassumption|congruence].
  - exact (IH (set_tol s t) Hi Hn).
  - exact (IH (set_expected s z) Hi Hn).
  - exact (IH (set_files s (write_file e (s_files s) path b)) Hi Hn).
Qed.

Lemma main_record e f test a0 opts rest : command_line e f opts rest -> input_of opts = None ->
  exists s', Main e test (a0 :: flat opts ++ rest) (new_test f) = (s', Ok (
    match opened e f (output_of e f opts) with
    | None => if (-1 =? expected_of opts)%Z then 0%Z else (-1)%Z
    | Some _ => match ends (test (a0 :: rest)) with
                | Ok r => if (r =? expects (expected_of opts) (test (a0 :: rest)))%Z then 0%Z else r
                | _ => if (-1 =? expects (expected_of opts) (test (a0 :: rest)))%Z then 0%Z else (-1)%Z
                end
    end)).
Proof.
  intros Hc Hi. rewrite Main_unfold, (main_body_launch e f test a0 opts rest Hc).
  assert (Hin : s_in (launched e f opts) = []) by (cbn; rewrite Hi; reflexivity).
  assert (FT : forall ret s, s_is s = None -> s_in s = [] -> exists s', finish e ret s = (s', Ok (if (ret =? s_expected s)%Z then 0%Z else ret))).
  { intros ret s A1 A2. unfold finish. rewrite (record_mode e s A1 A2). cbn [bind]. destruct (ret =? s_expected s)%Z; eexists; reflexivity. }
  unfold mbind. rewrite (begin_record e (launched e f opts) eq_refl eq_refl Hin).
  change (s_files (launched e f opts)) with f. change (s_out (launched e f opts)) with (output_of e f opts).
  destruct (opened e f (output_of e f opts)) as [[o f1]|].
  2:{ apply (FT (-1)%Z); [reflexivity|exact Hin]. }
  set (s1 := put_text (header e) (set_os (set_files (launched e f opts) f1) o)).
  destruct (put_text_any (header e) (set_os (set_files (launched e f opts) f1) o)) as (F & A & B & C & D & G). fold s1 in F, A, B, C, D, G.
  pose proof F as (F1 & F2 & F3 & F4 & F5).
  assert (I1 : s_is s1 = None) by (rewrite F5; reflexivity). assert (I2 : s_in s1 = []) by (rewrite F1; exact Hin).
  destruct (run_record_status e (test (a0 :: rest)) s1 I1 I2) as (s2 & E & F' & X). rewrite E.
  destruct F' as (F1' & F2' & F3' & F4' & F5').
  assert (J1 : s_is s2 = None) by congruence. assert (J2 : s_in s2 = []) by congruence.
  assert (X' : s_expected s2 = expects (expected_of opts) (test (a0 :: rest))) by (rewrite X, D; reflexivity).
  assert (Q : forall p, match ends p with Ok _ | Throw _ => True | _ => False end) by (clear; intros p; induction p as [z|x|c k IH|t k IH|z k IH|path b k IH]; cbn [ends]; first [exact I|exact (IH 0%Z)|exact IH]).
  specialize (Q (test (a0 :: rest))). destruct (ends (test (a0 :: rest))) as [v|i| | |]; try contradiction; clear Q.
  - unfold EndMeasurement, GetCompareMode, mbind. rewrite (record_mode e s2 J1 J2). unfold put, modify. cbv iota.
    destruct (put_text_any footer s2) as (P1 & P2 & P3 & P4 & P5 & P6). destruct P1 as (P11 & _).
    rewrite <- X', <- P5. set (s3 := set_unmatched _ _). change (s_expected (put_text footer s2)) with (s_expected s3).
    apply FT; [reflexivity|]. change (s_in s3) with (s_in (put_text footer s2)). congruence.
  - rewrite <- X'. apply FT; assumption.
Qed.

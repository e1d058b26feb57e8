(** Property C51: arguments of itktfImageCompare. *)
From Coq Require Import Floats.SpecFloat.
From Verif Require Import Base Str Dec PathModel MeasModel VisitModel RegModel ReadModel ReadFacts RegSpec RegMain ArgFacts ArgProps ImgModel ItkModel ItkSpec ItkMain.

(** * Specification *)
(** The arguments after the program name: options with a value and image files. *)
Inductive item := Intensity (v : str) | Pixels (v : str) | Radius (v : str) | ImageFile (f : str).
Definition words (i : item) : list str :=
  match i with Intensity v => [$"--intensityTolerance"; v] | Pixels v => [$"--numberOfPixelTolerance"; v] | Radius v => [$"--radiusTolerance"; v] | ImageFile f => [f] end.
Definition dashed (a : str) : bool := match a with c :: _ => eqc c "-" | [] => false end.
Definition readable_item (ie : ienv) (i : item) : Prop :=
  match i with Intensity v => i_double ie v <> None | Pixels v | Radius v => scan_uint v <> None | ImageFile f => dashed f = false end.
(** an argument that ends the test: an option which is unknown, without a value or with one that is not a number *)
Definition wrong (ie : ienv) (l : list str) : Prop :=
  match l with
  | [] => False
  | a :: rest => dashed a = true /\
      (a = $"--intensityTolerance" -> match rest with v :: _ => i_double ie v = None | [] => True end) /\
      (a = $"--numberOfPixelTolerance" \/ a = $"--radiusTolerance" -> match rest with v :: _ => scan_uint v = None | [] => True end)
  end.
(** the last value given in [l] *)
Fixpoint last_of {A} (sel : item -> option A) (l : list item) (d : A) : A :=
  match l with [] => d | i :: l' => last_of sel l' (match sel i with Some v => v | None => d end) end.
Definition tolerances_after (ie : ienv) (l : list item) : tolerances :=
  Tolerances (last_of (fun i => match i with Intensity v => i_double ie v | _ => None end) l (S754_zero false))
             (last_of (fun i => match i with Pixels v => scan_uint v | _ => None end) l 0%Z)
             (last_of (fun i => match i with Radius v => scan_uint v | _ => None end) l 0%Z).
Definition images_in (l : list item) : list str := flat_map (fun i => match i with ImageFile f => [f] | _ => [] end) l.
(** the tolerances for each image: those set by the options before it *)
Definition planned (ie : ienv) (items : list item) (plan : list (tolerances * str)) : Prop :=
  length plan = length (images_in items) /\
  forall before f after, items = before ++ ImageFile f :: after ->
    nth_error plan (length (images_in before)) = Some (tolerances_after ie before, f).
(** the test that measures the images of [plan] from number [n] on and returns [z] *)
Fixpoint perform (plan : list (tolerances * str)) (n : nat) (z : Z) : iprog :=
  match plan with
  | [] => IReturn z
  | (t, f) :: plan' => ITolerance t (IImage f ($"ImageFile" ++ print_int (Z.of_nat n)) (fun _ => perform plan' (S n) z))
  end.

(** * Proof *)
Fixpoint plan_from (ie : ienv) (t : tolerances) (items : list item) : list (tolerances * str) :=
  match items with
  | [] => []
  | ImageFile f :: l => (t, f) :: plan_from ie t l
  | Intensity v :: l => plan_from ie (match i_double ie v with Some d => Tolerances d (t_pixels t) (t_radius t) | None => t end) l
  | Pixels v :: l => plan_from ie (match scan_uint v with Some d => Tolerances (t_intensity t) d (t_radius t) | None => t end) l
  | Radius v :: l => plan_from ie (match scan_uint v with Some d => Tolerances (t_intensity t) (t_pixels t) d | None => t end) l
  end.
Definition after_from (ie : ienv) (t : tolerances) (l : list item) : tolerances :=
  Tolerances (last_of (fun i => match i with Intensity v => i_double ie v | _ => None end) l (t_intensity t))
             (last_of (fun i => match i with Pixels v => scan_uint v | _ => None end) l (t_pixels t))
             (last_of (fun i => match i with Radius v => scan_uint v | _ => None end) l (t_radius t)).
Lemma after_plan ie before f after : forall t, nth_error (plan_from ie t (before ++ ImageFile f :: after)) (length (images_in before)) = Some (after_from ie t before, f).
Proof.
  induction before as [|i l IH]; intros t.
  - cbn. unfold after_from. cbn. destruct t; reflexivity.
  - destruct i as [v|v|v|g]; cbn [app plan_from images_in flat_map length nth_error]; fold (images_in l).
    + rewrite IH. unfold after_from. cbn [last_of]. destruct (i_double ie v); reflexivity.
    + rewrite IH. unfold after_from. cbn [last_of]. destruct (scan_uint v); reflexivity.
    + rewrite IH. unfold after_from. cbn [last_of]. destruct (scan_uint v); reflexivity.
    + apply IH.
Qed.
Lemma plan_length ie items : forall t, length (plan_from ie t items) = length (images_in items).
Proof. induction items as [|[v|v|v|f] l IH]; intros t; cbn; rewrite ?IH; reflexivity. Qed.
Lemma planned_from ie items : planned ie items (plan_from ie no_tolerance items).
Proof. split; [apply plan_length|]. intros before f after ->. apply after_plan. Qed.
Lemma planned_unique ie items p q : planned ie items p -> planned ie items q -> p = q.
Proof.
  intros [L P] [L' P']. assert (N : forall k f, nth_error (images_in items) k = Some f -> exists before after, items = before ++ ImageFile f :: after /\ length (images_in before) = k).
  { clear. induction items as [|i l IH]; intros k f H; [destruct k; discriminate|].
    destruct i as [v|v|v|g]; try (destruct (IH k f H) as (b & a & -> & E); eexists (_ :: b), a; split; [reflexivity|exact E]).
    cbn in H. destruct k as [|k]; [injection H as <-; exists [], l; auto|].
    destruct (IH k f H) as (b & a & -> & E). exists (ImageFile g :: b), a. split; [reflexivity|cbn; fold (images_in b); congruence]. }
  assert (X : forall k, nth_error p k = nth_error q k).
  { intros k. destruct (nth_error (images_in items) k) as [f|] eqn:E.
    - destruct (N k f E) as (b & a & -> & <-). rewrite (P b f a eq_refl), (P' b f a eq_refl). reflexivity.
    - apply nth_error_None in E. rewrite (proj2 (nth_error_None p k)), (proj2 (nth_error_None q k)) by lia. reflexivity. }
  clear - X. revert q X. induction p as [|a p IH]; intros [|b q] X; [reflexivity|specialize (X 0%nat); discriminate|specialize (X 0%nat); discriminate|].
  pose proof (X 0%nat) as E. cbn in E. injection E as ->. f_equal. apply IH. intros k. exact (X (S k)).
Qed.
Lemma loop_wrong ie l tol n : wrong ie l -> image_loop ie l tol n = IReturn 1%Z.
Proof.
  destruct l as [|a rest]; [intros []|]. intros (D & W1 & W2). cbn [image_loop]. destruct a as [|c a]; [discriminate|].
  cbn [dashed] in D. destruct (eqc_spec c "-") as [->|]; [|discriminate].
  destruct (eqs_spec ("-"%char :: a) ($"--intensityTolerance")) as [E|_].
  { specialize (W1 E). destruct rest as [|v r]; [reflexivity|]. rewrite W1. reflexivity. }
  destruct (eqs_spec ("-"%char :: a) ($"--numberOfPixelTolerance")) as [E|_].
  { specialize (W2 (or_introl E)). destruct rest as [|v r]; [reflexivity|]. rewrite W2. reflexivity. }
  destruct (eqs_spec ("-"%char :: a) ($"--radiusTolerance")) as [E|_].
  { specialize (W2 (or_intror E)). destruct rest as [|v r]; [reflexivity|]. rewrite W2. reflexivity. }
  reflexivity.
Qed.
Lemma loop_file ie a rest tol n : dashed a = false ->
  image_loop ie (a :: rest) tol n = ITolerance tol (IImage a ($"ImageFile" ++ print_int n) (fun _ => image_loop ie rest tol (n + 1)%Z)).
Proof.
  intros H. destruct a as [|c a]; [reflexivity|]. cbn [dashed] in H. cbn [image_loop].
  destruct c as [[] [] [] [] [] [] [] []]; try reflexivity; discriminate H.
Qed.
Lemma loop_items ie items bad z : (forall tol n, image_loop ie bad tol n = IReturn z) -> forall tol n, Forall (readable_item ie) items ->
  image_loop ie (flat_map words items ++ bad) tol (Z.of_nat n) = perform (plan_from ie tol items) n z.
Proof.
  intros B. induction items as [|i l IH]; intros tol n H; [apply B|]. apply Forall_cons_iff in H. destruct H as [Hi Hl].
  destruct i as [v|v|v|f]; cbn [flat_map words app plan_from perform readable_item] in *.
  - change (image_loop ie ($"--intensityTolerance" :: v :: flat_map words l ++ bad) tol (Z.of_nat n)) with
      (match i_double ie v with None => IReturn 1%Z | Some d => image_loop ie (flat_map words l ++ bad) (Tolerances d (t_pixels tol) (t_radius tol)) (Z.of_nat n) end).
    destruct (i_double ie v); [|congruence]. apply IH. exact Hl.
  - change (image_loop ie ($"--numberOfPixelTolerance" :: v :: flat_map words l ++ bad) tol (Z.of_nat n)) with
      (match scan_uint v with None => IReturn 1%Z | Some d => image_loop ie (flat_map words l ++ bad) (Tolerances (t_intensity tol) d (t_radius tol)) (Z.of_nat n) end).
    destruct (scan_uint v); [|congruence]. apply IH. exact Hl.
  - change (image_loop ie ($"--radiusTolerance" :: v :: flat_map words l ++ bad) tol (Z.of_nat n)) with
      (match scan_uint v with None => IReturn 1%Z | Some d => image_loop ie (flat_map words l ++ bad) (Tolerances (t_intensity tol) (t_pixels tol) d) (Z.of_nat n) end).
    destruct (scan_uint v); [|congruence]. apply IH. exact Hl.
  - rewrite loop_file by exact Hi. replace (Z.of_nat n + 1)%Z with (Z.of_nat (S n)) by lia. rewrite (IH tol (S n) Hl). reflexivity.
Qed.
Lemma decompose ie : forall args, exists items bad, args = flat_map words items ++ bad /\ Forall (readable_item ie) items /\ (bad = [] \/ wrong ie bad).
Proof.
  intros args. induction args as [args IH] using (induction_ltof1 _ (@length str)). unfold ltof in IH.
  destruct args as [|a rest]; [exists [], []; cbn; auto|]. destruct (dashed a) eqn:D.
  2:{ destruct (IH rest ltac:(cbn; lia)) as (items & bad & -> & R & B). exists (ImageFile a :: items), bad. split; [reflexivity|]. split; [constructor; assumption|exact B]. }
  assert (OPT : forall (mk : str -> item) v r, rest = v :: r -> words (mk v) = [a; v] -> readable_item ie (mk v) ->
     exists items bad, a :: rest = flat_map words items ++ bad /\ Forall (readable_item ie) items /\ (bad = [] \/ wrong ie bad)).
  { intros mk v r -> E R. destruct (IH r ltac:(cbn; lia)) as (items & bad & -> & Rs & B). exists (mk v :: items), bad. cbn [flat_map]. rewrite E.
    split; [reflexivity|]. split; [constructor; assumption|exact B]. }
  destruct (eqs_spec a ($"--intensityTolerance")) as [E1|N1].
  { destruct rest as [|v r]; [exists [], [a]|destruct (i_double ie v) eqn:V].
    - split; [reflexivity|]. split; [constructor|]. right. split; [exact D|]. auto.
    - apply (OPT Intensity v r eq_refl); [subst a; reflexivity|cbn; congruence].
    - exists [], (a :: v :: r). split; [reflexivity|]. split; [constructor|]. right. split; [exact D|]. split; [auto|].
      intros [X|X]; rewrite E1 in X; discriminate X. }
  destruct (eqs_spec a ($"--numberOfPixelTolerance")) as [E2|N2].
  { destruct rest as [|v r]; [exists [], [a]|destruct (scan_uint v) eqn:V].
    - split; [reflexivity|]. split; [constructor|]. right. split; [exact D|]. auto.
    - apply (OPT Pixels v r eq_refl); [subst a; reflexivity|cbn; congruence].
    - exists [], (a :: v :: r). split; [reflexivity|]. split; [constructor|]. right. split; [exact D|]. split; [contradiction|auto]. }
  destruct (eqs_spec a ($"--radiusTolerance")) as [E3|N3].
  { destruct rest as [|v r]; [exists [], [a]|destruct (scan_uint v) eqn:V].
    - split; [reflexivity|]. split; [constructor|]. right. split; [exact D|]. auto.
    - apply (OPT Radius v r eq_refl); [subst a; reflexivity|cbn; congruence].
    - exists [], (a :: v :: r). split; [reflexivity|]. split; [constructor|]. right. split; [exact D|]. split; [contradiction|auto]. }
  exists [], (a :: rest). split; [reflexivity|]. split; [constructor|]. right. split; [exact D|]. split; [contradiction|intros [X|X]; contradiction].
Qed.

(** * Theorems *)
(** Each file argument is measured once, in order, under the name ImageFile0, ImageFile1, ..., with the tolerances set by the
    options before it; the return value is 0, or 1 from the first wrong option on, after the images before it have been measured. *)
Theorem C51_images_in_order : forall ie a0 items bad, Forall (readable_item ie) items -> bad = [] \/ wrong ie bad ->
  exists plan, planned ie items plan /\
    itktfImageCompare ie (a0 :: flat_map words items ++ bad) = perform plan 0 (match bad with [] => 0 | _ => 1 end)%Z.
Proof.
  intros ie a0 items bad R B. exists (plan_from ie no_tolerance items). split; [apply planned_from|].
  unfold itktfImageCompare. cbn [tl]. change 0%Z with (Z.of_nat 0) at 1. apply (loop_items ie items bad (match bad with [] => 0 | _ => 1 end)%Z); [|exact R].
  intros tol n. destruct B as [->|B]; [reflexivity|]. rewrite (loop_wrong ie bad tol n B). destruct bad; [destruct B|reflexivity].
Qed.
Print Assumptions C51_images_in_order.
(** Every argument list is of this form, in one way as far as the images and tolerances are concerned. *)
Theorem C51_every_command_line : forall ie args, exists items bad,
  args = flat_map words items ++ bad /\ Forall (readable_item ie) items /\ (bad = [] \/ wrong ie bad).
Proof. exact decompose. Qed.
Print Assumptions C51_every_command_line.
Theorem C51_plan_unique : forall ie items p q, planned ie items p -> planned ie items q -> p = q.
Proof. exact planned_unique. Qed.
Print Assumptions C51_plan_unique.

(** * Comparing *)
Fixpoint plan_calls (plan : list (tolerances * str)) (n : nat) : list (icall * tolerances) :=
  match plan with [] => [] | (t, f) :: l => (ImageCall f ($"ImageFile" ++ print_int (Z.of_nat n)), t) :: plan_calls l (S n) end.
Lemma plan_calls_length plan : forall n, length (plan_calls plan n) = length plan.
Proof. induction plan as [|[t f] l IH]; intros n; cbn; rewrite ?IH; reflexivity. Qed.
Lemma perform_unfolds ie args o plan z : forall k t tol n f x ms rs ns x' out,
  iunfolds ie args o t tol n f x (perform plan k z) ms rs ns x' out ->
  Forall (fun mo => mo_rel mo = t) ms /\ x' = x /\
  ((map (fun mo => (mo_call mo, mo_tol mo)) ms = plan_calls plan k /\ length rs = length ms /\ out = Ok z) \/
   (exists i, map (fun mo => (mo_call mo, mo_tol mo)) ms = firstn (S (length rs)) (plan_calls plan k) /\ length ms = S (length rs) /\ out = Throw i)).
Proof.
  induction plan as [|[t0 g] l IH]; intros k t tol n f x ms rs ns x' out H; cbn [perform plan_calls] in *.
  - inversion H; subst. split; [constructor|]. split; [reflexivity|]. left. repeat split.
  - inversion H; subst. match goal with X : iunfolds _ _ _ _ _ _ _ _ (IImage _ _ _) _ _ _ _ _ |- _ => inversion X; subst end.
    + match goal with X : iunfolds _ _ _ _ _ _ _ _ (perform _ _ _) _ _ _ _ _ |- _ => apply IH in X; destruct X as (FA & -> & C) end.
      split; [constructor; [reflexivity|exact FA]|]. split; [reflexivity|]. destruct C as [(A & B & D)|(i & A & B & D)].
      * left. cbn [map mo_call mo_tol length]. rewrite A. auto.
      * right. exists i. cbn [map mo_call mo_tol length firstn]. rewrite A. auto.
    + split; [repeat constructor|]. split; [reflexivity|]. right. exists i. cbn. auto.
Qed.
(** A run of itktfImageCompare that compares.  [ms]: the image measurements made. *)
Theorem C51_comparison : forall ie f a0 opts items bad inf o f1 baseline s' z,
  let e := i_env ie in let dirs := dirs_of opts ++ [i_baselines ie] in let rest := flat_map words items ++ bad in
  Forall (readable_item ie) items -> bad = [] \/ wrong ie bad ->
  command_line e f opts rest -> input_of opts = Some inf -> started e f (output_of e f opts) dirs inf = Some (o, f1, baseline) ->
  itk_Main ie (itktfImageCompare ie) (a0 :: flat opts ++ rest) (new_itk_test ie f) = (s', Ok z) ->
  exists plan ms, planned ie items plan /\ Forall (fun mo => mo_rel mo = default_tol) ms /\
   ((map (fun mo => (mo_call mo, mo_tol mo)) ms = plan_calls plan 0 /\
     z = status (Ok (match bad with [] => 0 | _ => 1 end)%Z) (expected_of opts) (imismatches ie dirs baseline ms)) \/
    (exists before last b i extra, ms = before ++ [last] /\ map (fun mo => (mo_call mo, mo_tol mo)) ms = firstn (length ms) (plan_calls plan 0) /\
       nth_error baseline (length before) = Some b /\ raises ie dirs b last i extra /\
       z = status (Throw i) (expected_of opts) (imismatches ie dirs baseline before + extra))).
Proof.
  intros ie f a0 opts items bad inf o f1 baseline s' z e dirs rest R B Hc Hi Hs H.
  destruct (C51_images_in_order ie a0 items bad R B) as (plan & P & E). fold rest in E. exists plan.
  pose proof (compare_in ie f [i_baselines ie] (itktfImageCompare ie) a0 opts rest inf s' z Hc Hi H) as G. cbv zeta in G.
  fold e in G. fold dirs in G. rewrite Hs in G. destruct G as (ms & rs & ns & x & out & extra & W & Rs & St & Z). rewrite E in W.
  exists ms. split; [exact P|]. split.
  { exact (proj1 (perform_unfolds _ _ _ _ _ _ _ _ _ _ _ _ _ _ _ _ W)). }
  apply perform_unfolds in W. destruct W as (_ & -> & [(A & L & ->)|(i & A & L & ->)]).
  - left. split; [exact A|]. rewrite (proj2 (nth_error_None ms (length rs))) in St by lia. subst extra. rewrite Z.
    rewrite firstn_all2 by lia. rewrite Z.add_0_r. reflexivity.
  - right. destruct (nth_error ms (length rs)) as [mo|] eqn:Em; [|apply nth_error_None in Em; lia].
    destruct St as (b & i0 & Ei & Nb & Rz). injection Ei as <-.
    exists (firstn (length rs) ms), mo, b, i, extra.
    assert (Lb : length (firstn (length rs) ms) = length rs) by (rewrite firstn_length; lia).
    split.
    { rewrite <- (firstn_skipn (length rs) ms) at 1. f_equal. clear - Em L. revert ms Em L. induction (length rs) as [|k IH]; intros [|a ms] Em L; cbn in *; try lia; try discriminate.
      - destruct ms; [|cbn in L; lia]. congruence.
      - apply IH; [exact Em|lia]. }
    split; [rewrite L; exact A|]. rewrite Lb. auto.
Qed.
Print Assumptions C51_comparison.
(** A comparing run exits with 0 (the expected value of the test being 0) exactly if all options are right and each image equals, within
    the tolerances before it, the baseline image at its position. *)
Theorem C51_passes_iff : forall ie f a0 opts items bad inf o f1 baseline s' z,
  let e := i_env ie in let dirs := dirs_of opts ++ [i_baselines ie] in let rest := flat_map words items ++ bad in
  Forall (readable_item ie) items -> bad = [] \/ wrong ie bad ->
  command_line e f opts rest -> input_of opts = Some inf -> started e f (output_of e f opts) dirs inf = Some (o, f1, baseline) ->
  expected_of opts = 0%Z ->
  itk_Main ie (itktfImageCompare ie) (a0 :: flat opts ++ rest) (new_itk_test ie f) = (s', Ok z) ->
  exists plan ms, planned ie items plan /\ map (fun mo => (mo_call mo, mo_tol mo)) ms = firstn (length ms) (plan_calls plan 0) /\
    (z = 0%Z <-> bad = [] /\ length ms = length plan /\
      forall k mo, nth_error ms k = Some mo -> exists b, nth_error baseline k = Some b /\ ikind ie b mo = true /\ iverdict ie dirs b mo = Ok true).
Proof.
  intros ie f a0 opts items bad inf o f1 baseline s' z e dirs rest R B Hc Hi Hs X H.
  destruct (C51_comparison ie f a0 opts items bad inf o f1 baseline s' z R B Hc Hi Hs H) as (plan & ms & P & _ & C).
  fold dirs in C. exists plan, ms. split; [exact P|]. rewrite X in C.
  assert (MM : forall ms bs, (0 <= imismatches ie dirs bs ms)%Z /\ (imismatches ie dirs bs ms = 0%Z <->
     forall k mo, nth_error ms k = Some mo -> exists b, nth_error bs k = Some b /\ ikind ie b mo = true /\ iverdict ie dirs b mo = Ok true)).
  { clear. induction ms as [|mo ms IH]; intros bs; cbn [imismatches].
    - split; [lia|]. split; [|reflexivity]. intros _ k mo N. destruct k; discriminate.
    - destruct (IH (tl bs)) as [I1 I2]. destruct bs as [|b bs]; cbn [tl] in *.
      + split; [lia|]. split; [lia|]. intros N. destruct (N 0%nat mo eq_refl) as (b & Nb & _). discriminate.
      + destruct (ikind ie b mo && isame_value ie dirs b mo) eqn:E.
        * split; [lia|]. split.
          { intros Z. assert (Z' : imismatches ie dirs bs ms = 0%Z) by lia. intros [|k] mo' N.
            - injection N as <-. exists b. split; [reflexivity|]. apply andb_true_iff in E. destruct E as [E1 E2]. split; [exact E1|].
              unfold isame_value in E2. destruct (iverdict ie dirs b mo) as [[|]| | | |]; try discriminate. reflexivity.
            - exact (proj1 I2 Z' k mo' N). }
          { intros N. rewrite (proj2 I2); [reflexivity|]. intros k mo' Nk. exact (N (S k) mo' Nk). }
        * split; [lia|]. split; [lia|]. intros N. destruct (N 0%nat mo eq_refl) as (b' & Nb & K & V). injection Nb as <-.
          unfold isame_value in E. rewrite K, V in E. discriminate. }
  destruct C as [(A & Z)|(before & last & b & i & extra & Em & A & Nb & Rz & Z)].
  - assert (L : length ms = length plan) by (rewrite <- (map_length (fun mo => (mo_call mo, mo_tol mo)) ms), A; apply plan_calls_length).
    split; [rewrite A, L, <- (plan_calls_length plan 0), firstn_all; reflexivity|].
    rewrite Z. unfold status. destruct bad as [|w bad].
    + cbn [Z.eqb]. rewrite (proj2 (MM ms baseline)). tauto.
    + cbn [Z.eqb]. split; [discriminate|]. intros [Y _]. discriminate.
  - split; [exact A|]. split; [rewrite Z; cbn; discriminate|]. intros (_ & _ & N). exfalso.
    destruct (N (length before) last) as (b' & Nb' & K & V).
    { rewrite Em, nth_error_app2, Nat.sub_diag by lia. reflexivity. }
    rewrite Nb in Nb'. injection Nb' as <-. destruct Rz as (_ & [[V' _]|[V' _]]); rewrite V in V'; discriminate.
Qed.
Print Assumptions C51_passes_iff.

(** * Numbers *)
(** The counts are read in decimal up to 4294967295; larger ones are errors. *)
Theorem C51_counts : forall n, (0 <= n)%Z -> scan_uint (print_int n) = if (n <=? 4294967295)%Z then Some n else None.
Proof.
  intros n H. destruct (print_int_form n) as (ds & N & D & V & F).
  assert (P : print_int n = ds). { rewrite F. destruct (Z.ltb_spec n 0); [lia|reflexivity]. }
  rewrite P. unfold scan_uint. destruct ds as [|c ds]; [contradiction|]. pose proof D as D'. cbn [forallb] in D'. apply andb_true_iff in D'. destruct D' as [Dc _].
  pose proof (digit_not_space c) as S. rewrite Dc in S. cbn in S. apply andb_true_iff in S. destruct S as [S S3]. apply andb_true_iff in S. destruct S as [S1 S2].
  cbn [skip_ws]. rewrite (proj1 (negb_true_iff _) S1). rewrite (proj1 (negb_true_iff _) S2), (proj1 (negb_true_iff _) S3).
  assert (DP : digit_prefix (c :: ds) = c :: ds). { rewrite <- (app_nil_r (c :: ds)) at 1. exact (digit_prefix_all (c :: ds) [] D I). }
  rewrite DP, V, Z.abs_eq by exact H. destruct (Z.ltb_spec 4294967295 n), (Z.leb_spec n 4294967295); try lia; [reflexivity|].
  rewrite Z.mod_small by lia. reflexivity.
Qed.
Print Assumptions C51_counts.
(** But negative numbers and trailing characters are not errors: -1 becomes the largest tolerance. *)
Theorem C51_only_numbers_refuted : ~ (forall v n, scan_uint v = Some n -> v = print_int n).
Proof. intros H. specialize (H ($"-1") 4294967295%Z eq_refl). vm_compute in H. discriminate. Qed.
Print Assumptions C51_only_numbers_refuted.
Example C51_trailing : scan_uint ($"3x") = Some 3%Z /\ scan_uint ($"1e6") = Some 1%Z /\ scan_uint ($"-1") = Some 4294967295%Z.
Proof. repeat split. Qed.
(** Non-vacuity: two images with different tolerances, then an unknown option. *)
Example C51_example ie d : i_double ie ($"0.5") = Some d ->
  itktfImageCompare ie [$"prog"; $"a.mha"; $"--intensityTolerance"; $"0.5"; $"--radiusTolerance"; $"2"; $"b.mha"; $"-x"] =
  perform [(no_tolerance, $"a.mha"); (Tolerances d 0%Z 2%Z, $"b.mha")] 0 1%Z.
Proof.
  intros H. destruct (C51_images_in_order ie ($"prog") [ImageFile ($"a.mha"); Intensity ($"0.5"); Radius ($"2"); ImageFile ($"b.mha")] [$"-x"]) as (plan & P & E).
  - repeat (apply Forall_cons; [cbn [readable_item]; rewrite ?H; (reflexivity || discriminate)|]). apply Forall_nil.
  - right. split; [reflexivity|]. split; [discriminate|intros [X|X]; discriminate].
  - etransitivity; [exact E|]. f_equal. apply (planned_unique ie _ _ _ P).
    pose proof (planned_from ie [ImageFile ($"a.mha"); Intensity ($"0.5"); Radius ($"2"); ImageFile ($"b.mha")]) as Q. cbn [plan_from] in Q. rewrite H in Q. exact Q.
Qed.

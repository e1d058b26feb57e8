(** A whole run of the filter, for any split into threads and any schedule. *)
From Coq Require Import Floats.SpecFloat Permutation.
From Verif Require Import Base Str MeasModel ImgModel ImgFacts ImgSpec ImgBox ImgPixel.
Local Open Scope Z_scope.

Section Whole.
Variables (f : filter) (valid test : image) (threads : list (list face)).
Definition numbered : list (nat * list face) := combine (seq 0 (length threads)) threads.
Definition alljobs : list job := flat_map (jobs_of f) numbered.
Lemma programs_jobs : programs f valid test threads = map (fun p => flat_map (run_job f valid test) (jobs_of f p)) numbered.
Proof. unfold programs. fold numbered. apply map_ext. intros p. apply thread_jobs. Qed.
Lemma concat_programs : concat (programs f valid test threads) = flat_map (run_job f valid test) alljobs.
Proof.
  rewrite programs_jobs. unfold alljobs. induction numbered as [|p l IH]; [reflexivity|].
  cbn [map concat flat_map]. rewrite flat_map_app, IH. reflexivity.
Qed.
Lemma jobs_index p : map jindex (jobs_of f p) = flat_map snd (snd p).
Proof.
  unfold jobs_of. induction (snd p) as [|fc l IH]; [reflexivity|]. cbn [flat_map]. rewrite map_app. f_equal; [|exact IH].
  rewrite map_map. unfold jindex. cbn [snd]. apply map_id.
Qed.
Lemma combine_snd {A B} (a : list A) (b : list B) : length a = length b -> map snd (combine a b) = b.
Proof. revert b. induction a as [|x a IH]; intros [|y b] H; try discriminate; [reflexivity|]. cbn. f_equal. apply IH. injection H as H. exact H. Qed.
Lemma alljobs_index : map jindex alljobs = flat_map snd (concat threads).
Proof.
  unfold alljobs. transitivity (flat_map snd (concat (map snd numbered))).
  2: { unfold numbered. rewrite combine_snd by apply seq_length. reflexivity. }
  induction numbered as [|p l IH]; [reflexivity|]. cbn [flat_map map concat]. rewrite map_app, jobs_index, flat_map_app, IH. reflexivity.
Qed.
Lemma in_job j : In j alljobs -> exists faces fc, In faces threads /\ In fc faces /\ In (jindex j) (snd fc) /\
  jskip j = fst fc && f_ignore_boundary f /\ (jthread j < length threads)%nat.
Proof.
  unfold alljobs, jobs_of. rewrite in_flat_map. intros ((t & faces) & Hp & H). cbn [fst snd] in H. apply in_flat_map in H.
  destruct H as (fc & Hf & H). apply in_map_iff in H. destruct H as (i & <- & Hi). unfold jindex, jskip, jthread. cbn [fst snd].
  exists faces, fc. unfold numbered in Hp. split; [apply (in_combine_r _ _ _ _ Hp)|]. split; [exact Hf|]. split; [exact Hi|]. split; [reflexivity|].
  apply in_combine_l in Hp. apply in_seq in Hp. lia.
Qed.
Lemma run_job_mem j a : In a (run_job f valid test j) ->
  (index_of a = None \/ index_of a = Some (jindex j)) /\ (thread_of a = None \/ thread_of a = Some (jthread j)).
Proof.
  unfold run_job, job_actions. rewrite pixel_actions_eq. destruct (jskip j); [|destruct (hit f valid test (jindex j))]; cbn [In];
    intros H; repeat destruct H as [H|H]; subst; cbn; auto; destruct H.
Qed.
Lemma NoDup_concat {A} (ls : list (list A)) : NoDup (concat ls) -> forall i j l l' w, i <> j ->
  nth_error ls i = Some l -> nth_error ls j = Some l' -> In w l -> In w l' -> False.
Proof.
  assert (S : forall (l k : list A), NoDup (l ++ k) -> (forall z, In z l -> In z k -> False) /\ NoDup k).
  { induction l as [|y l IH]; intros k H; [split; [intros ? []|exact H]|]. cbn [app] in H. inversion H as [|? ? H1 H2]. destruct (IH k H2) as [A1 A2].
    split; [|exact A2]. intros z [<-|Hz] Hk; [apply H1, in_app_iff; right; exact Hk|exact (A1 z Hz Hk)]. }
  induction ls as [|l0 ls IH]; intros H i j l l' x Hij Hi Hj Hx Hx'; [destruct i; discriminate|]. cbn [concat] in H. apply S in H. destruct H as [H1 H2].
  destruct i as [|i], j as [|j]; cbn [nth_error] in *; [congruence| | |].
  - injection Hi as <-. apply (H1 x Hx). apply in_concat. exists l'. split; [apply (nth_error_In _ _ Hj)|exact Hx'].
  - injection Hj as <-. apply (H1 x Hx'). apply in_concat. exists l. split; [apply (nth_error_In _ _ Hi)|exact Hx].
  - apply (IH H2 i j l l' x); auto.
Qed.
Lemma concat_map_snd : concat (map (fun faces : list face => flat_map snd faces) threads) = flat_map snd (concat threads).
Proof. induction threads as [|l k IH]; [reflexivity|]. cbn [map concat]. rewrite flat_map_app, IH. reflexivity. Qed.
Lemma numbered_nth i p : nth_error numbered i = Some p -> fst p = i /\ nth_error threads i = Some (snd p).
Proof.
  unfold numbered. assert (G : forall a n (k : list (list face)), length k = n -> nth_error (combine (seq a n) k) i = Some p -> fst p = (a + i)%nat /\ nth_error k i = Some (snd p)).
  { clear. revert p. induction i as [|i IH]; intros p a [|n] [|x k] E H; try discriminate.
    - cbn in H. injection H as <-. cbn. split; [lia|reflexivity].
    - cbn [seq combine nth_error] in H. injection E as E. destruct (IH _ _ _ _ E H) as [A B]. split; [lia|exact B]. }
  intros H. apply (G 0%nat _ threads eq_refl H).
Qed.
Hypothesis split : well_split f valid test threads.
Lemma split_NoDup : NoDup (flat_map snd (concat threads)).
Proof. eapply Permutation_NoDup; [apply Permutation_sym, split|apply NoDup_box]. Qed.
Lemma programs_apart : apart (programs f valid test threads).
Proof.
  intros i j l l' a b Hij Hi Hj Ha Hb. rewrite programs_jobs in Hi, Hj. rewrite nth_error_map in Hi, Hj.
  destruct (nth_error numbered i) as [p|] eqn:Ep; [|discriminate]. destruct (nth_error numbered j) as [q|] eqn:Eq; [|discriminate].
  cbn in Hi, Hj. injection Hi as <-. injection Hj as <-. apply in_flat_map in Ha. apply in_flat_map in Hb. destruct Ha as (ja & Ja & Ha), Hb as (jb & Jb & Hb).
  destruct (run_job_mem _ _ Ha) as [A1 A2], (run_job_mem _ _ Hb) as [B1 B2].
  destruct (numbered_nth _ _ Ep) as [P1 P2], (numbered_nth _ _ Eq) as [Q1 Q2].
  assert (Ta : jthread ja = i).
  { unfold jobs_of in Ja. apply in_flat_map in Ja. destruct Ja as (? & _ & Ja). apply in_map_iff in Ja. destruct Ja as (? & <- & _). exact P1. }
  assert (Tb : jthread jb = j).
  { unfold jobs_of in Jb. apply in_flat_map in Jb. destruct Jb as (? & _ & Jb). apply in_map_iff in Jb. destruct Jb as (? & <- & _). exact Q1. }
  assert (D : jindex ja <> jindex jb).
  { intros E. pose proof split_NoDup as N. rewrite <- concat_map_snd in N.
    apply (NoDup_concat _ N i j (flat_map snd (snd p)) (flat_map snd (snd q)) (jindex ja) Hij).
    - rewrite nth_error_map, P2. reflexivity.
    - rewrite nth_error_map, Q2. reflexivity.
    - rewrite <- jobs_index. apply in_map, Ja.
    - rewrite E, <- jobs_index. apply in_map, Jb. }
  split.
  - destruct A1 as [A1|A1]; [left; exact A1|right]. rewrite A1. destruct B1 as [B1|B1]; rewrite B1; congruence.
  - destruct A2 as [A2|A2]; [left; exact A2|right]. rewrite A2. destruct B2 as [B2|B2]; rewrite B2; congruence.
Qed.
Definition skipped (i : index) : bool := existsb (fun j => eqi i (jindex j) && jskip j) alljobs.
Lemma job_skip j : In j alljobs -> (jskip j = true <-> f_ignore_boundary f = true /\ at_boundary test (f_radius f) (jindex j)).
Proof.
  intros Hj. destruct (in_job j Hj) as (faces & fc & H1 & H2 & H3 & H4 & _). rewrite H4, andb_true_iff.
  rewrite (proj2 split faces fc (jindex j) H1 H2 H3). tauto.
Qed.
Lemma skipped_job j : In j alljobs -> jskip j = skipped (jindex j).
Proof.
  intros Hj. unfold skipped. destruct (existsb _ _) eqn:E.
  - apply existsb_exists in E. destruct E as (k & Hk & E). apply andb_true_iff in E. destruct E as [E1 E2]. apply eqi_true in E1.
    apply (job_skip j Hj). rewrite E1. apply (job_skip k Hk), E2.
  - destruct (jskip j) eqn:S; [|reflexivity]. exfalso.
    assert (X : existsb (fun k => eqi (jindex j) (jindex k) && jskip k) alljobs = true).
    { apply existsb_exists. exists j. split; [exact Hj|]. rewrite S, (proj2 (eqi_true _ _) eq_refl). reflexivity. }
    congruence.
Qed.
Lemma alljobs_pixel i : In i (map jindex alljobs) <-> In i (pixels valid).
Proof. rewrite alljobs_index. split; apply Permutation_in; [|apply Permutation_sym]; apply split. Qed.
Lemma job_of i : In i (pixels valid) -> exists j, In j alljobs /\ jindex j = i.
Proof. intros H. apply alljobs_pixel in H. apply in_map_iff in H. destruct H as (j & E & Hj). eauto. Qed.

Definition reported_list : list index := map jindex (List.filter (fun j => counted f valid test (jskip j) (jindex j)) alljobs).

Lemma run_result schedule res : filter_run f valid test threads schedule res ->
  (forall i, out_image res i = if existsb (eqi i) (map jindex alljobs) then Some (written_value f valid test (skipped i) i) else None) /\
  NumberOfPixelsWithDifferences res = Z.of_nat (length reported_list) /\
  TotalMagnitude res = fold_left add64 (map (fun u => fold_left add64 (map (fun j => sqrt64 (snd (found_difference f valid test (jindex j)))) (List.filter (fun j => Nat.eqb u (jthread j) && counted f valid test (jskip j) (jindex j)) alljobs)) zero64) (seq 0 (length threads))) zero64 /\
  MeanMagnitude res = div64 (TotalMagnitude res) (of_int64 (Z.of_nat (length (pixels valid)))).
Proof.
  intros [Hi ->]. pose proof (interleaving_sequential _ _ Hi programs_apart BeforeThreadedGenerateData) as (S1 & S2 & S3 & _).
  rewrite concat_programs in S1, S2, S3.
  destruct (jobs_exec f valid test alljobs BeforeThreadedGenerateData skipped skipped_job) as (J1 & J2 & J3).
  unfold AfterThreadedGenerateData. cbn [out_image NumberOfPixelsWithDifferences TotalMagnitude MeanMagnitude].
  split; [intros i; rewrite S1, J1; reflexivity|]. split; [|split; [|reflexivity]].
  - rewrite (map_ext _ (fun u => Z.of_nat (length (List.filter (fun j => Nat.eqb u (jthread j) && counted f valid test (jskip j) (jindex j)) alljobs)))).
    2: { intros u. rewrite S3, J2. reflexivity. }
    rewrite (sum_counts (length threads) jthread (fun j => counted f valid test (jskip j) (jindex j)) alljobs).
    2: { intros j Hj. destruct (in_job j Hj) as (? & ? & _ & _ & _ & _ & L). exact L. }
    unfold reported_list. rewrite map_length. reflexivity.
  - f_equal. apply map_ext. intros u. rewrite S2, J3. reflexivity.
Qed.
Lemma reported_in i : comparable valid test -> 0 <= f_radius f -> (In i reported_list <-> reported f valid test i).
Proof.
  intros (C1 & C2 & C3) Hr. unfold reported_list. rewrite in_map_iff.
  assert (P : forall i, In i (pixels valid) <-> in_image valid i) by (intros; apply in_box, C3).
  assert (Q : forall i, in_image test i <-> in_image valid i) by (intros; unfold in_image; rewrite C1, C2; tauto).
  split.
  - intros (j & <- & Hj). apply filter_In in Hj. destruct Hj as [Hj Hc]. unfold counted in Hc. apply andb_true_iff in Hc. destruct Hc as [Hs Hh].
    assert (I : in_image valid (jindex j)) by (apply P, alljobs_pixel, in_map, Hj).
    split; [exact I|]. split.
    + apply hit_differs in Hh; [exact Hh|exact Hr|apply Q, I].
    + intros Hg Hb. rewrite (proj2 (job_skip j Hj) (conj Hg Hb)) in Hs. discriminate.
  - intros (I & D & B). destruct (job_of i) as (j & Hj & E); [apply P, I|]. exists j. split; [exact E|]. apply filter_In. split; [exact Hj|].
    unfold counted. apply andb_true_iff. rewrite E. split.
    + destruct (jskip j) eqn:S; [|reflexivity]. apply (job_skip j Hj) in S. destruct S as [S1 S2]. rewrite E in S2. destruct (B S1 S2).
    + apply hit_differs; [exact Hr|apply Q, I|exact D].
Qed.
Lemma reported_NoDup : NoDup reported_list.
Proof.
  unfold reported_list. pose proof split_NoDup as N. rewrite <- alljobs_index in N. induction alljobs as [|j l IH]; [constructor|].
  cbn [map List.filter] in *. inversion N as [|? ? N1 N2]. destruct (counted _ _ _ _ _); [|apply IH, N2]. cbn [map]. constructor; [|apply IH, N2].
  intros Hq. apply N1. apply in_map_iff in Hq. destruct Hq as (k & <- & Hk). apply filter_In in Hk. apply in_map, Hk.
Qed.
Lemma run_count schedule res : comparable valid test -> 0 <= f_radius f -> filter_run f valid test threads schedule res ->
  how_many (reported f valid test) (NumberOfPixelsWithDifferences res).
Proof.
  intros Hc Hr Hrun. destruct (run_result _ _ Hrun) as (_ & E & _). rewrite E. exists reported_list.
  split; [exact reported_NoDup|]. split; [intros i; apply reported_in; assumption|reflexivity].
Qed.
Lemma run_out schedule res i : comparable valid test -> 0 <= f_radius f -> filter_run f valid test threads schedule res ->
  (~ in_image valid i -> out_image res i = None) /\
  (in_image valid i -> ~ reported f valid test i -> out_image res i = Some (S754_zero false)) /\
  (reported f valid test i -> exists d, out_image res i = Some d /\ closest_difference (f_radius f) valid test i d).
Proof.
  intros Hc Hr Hrun. destruct (run_result _ _ Hrun) as (E & _). rewrite E. clear E.
  pose proof Hc as (C1 & C2 & C3).
  assert (P : forall i, In i (map jindex alljobs) <-> in_image valid i) by (intros; rewrite alljobs_pixel; apply in_box, C3).
  assert (X : forall i, existsb (eqi i) (map jindex alljobs) = true <-> in_image valid i).
  { intros k. rewrite <- P, existsb_exists. split; [intros (y & H & Ey); apply eqi_true in Ey; subst; exact H|intros H; exists k; split; [exact H|apply eqi_true; reflexivity]]. }
  assert (K : in_image valid i -> (counted f valid test (skipped i) i = true <-> reported f valid test i)).
  { intros I. apply P in I. apply in_map_iff in I. destruct I as (j & Ej & Hj). rewrite <- Ej, <- (skipped_job j Hj). rewrite <- reported_in by assumption.
    unfold reported_list. rewrite in_map_iff. split.
    - intros Cj. exists j. split; [reflexivity|]. apply filter_In. split; assumption.
    - intros (k & Ek & Hk). apply filter_In in Hk. destruct Hk as [Hk Ck]. rewrite (skipped_job j Hj), <- Ek, <- (skipped_job k Hk). exact Ck. }
  split; [|split].
  - intros I. destruct (existsb _ _) eqn:G; [|reflexivity]. apply X in G. contradiction.
  - intros I R. rewrite (proj2 (X i) I). unfold written_value. specialize (K I). destruct (counted _ _ _ _ _); [|reflexivity]. destruct (R (proj1 K eq_refl)).
  - intros R. pose proof (proj1 R) as I. rewrite (proj2 (X i) I). unfold written_value. rewrite (proj2 (K I) R). eexists. split; [reflexivity|].
    assert (It : in_image test i) by (unfold in_image in *; rewrite C1, C2; exact I).
    apply (found_closest f valid test i Hr It). apply hit_differs; [exact Hr|exact It|apply R].
Qed.
End Whole.
Lemma how_many_unique P a b : how_many P a -> how_many P b -> a = b.
Proof.
  intros (l & N1 & H1 & ->) (k & N2 & H2 & ->). f_equal. apply Nat.le_antisymm; apply NoDup_incl_length; auto; intros x Hx.
  - apply H2, H1, Hx.
  - apply H1, H2, Hx.
Qed.

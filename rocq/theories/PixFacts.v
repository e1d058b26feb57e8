(** Facts about the image comparison for any pixel type. *)
From Coq Require Import Floats.SpecFloat Permutation.
From Verif Require Import Base Str MeasModel ImgModel ImgFacts ImgSpec ImgBox ImgPixel ImgRun ImgMore PixModel PixSpec.
Local Open Scope Z_scope.

Section Pix.
Variable T : pixeltype.
Notation image := (pimage T). Notation mem := (qmem T). Notation act := (qact T).
Notation exec1 := (q_exec1 T). Notation exec := (q_exec T).
Arguments q_out {T}. Arguments q_sum {T}. Arguments q_count {T}. Arguments q_rsum {T}. Arguments q_rcount {T}.

(** * Memory *)
Definition same (s s' : mem) : Prop :=
  (forall i, q_out s i = q_out s' i) /\ (forall t, q_sum s t = q_sum s' t) /\ (forall t, q_count s t = q_count s' t) /\
  (forall t, q_rsum s t = q_rsum s' t) /\ (forall t, q_rcount s t = q_rcount s' t).
Lemma same_refl s : same s s. Proof. repeat split. Qed.
Lemma same_trans a b c : same a b -> same b c -> same a c.
Proof. intros (A1 & A2 & A3 & A4 & A5) (B1 & B2 & B3 & B4 & B5). repeat split; intros; etransitivity; eauto. Qed.
Lemma same_sym a b : same a b -> same b a.
Proof. intros (A1 & A2 & A3 & A4 & A5). repeat split; auto. Qed.
Lemma exec1_same s s' a : same s s' -> same (exec1 s a) (exec1 s' a).
Proof.
  intros (A1 & A2 & A3 & A4 & A5). destruct a; cbn [q_exec1]; repeat split; intros; cbn [q_out q_sum q_count q_rsum q_rcount]; auto;
    unfold updi, updn; try (destruct (eqi _ _)); try (destruct (Nat.eqb _ _)); rewrite ?A2, ?A3, ?A4, ?A5; auto.
Qed.
Lemma exec_same l : forall s s', same s s' -> same (exec s l) (exec s' l).
Proof. unfold q_exec. induction l as [|a l IH]; intros s s' H; [exact H|]. cbn [fold_left]. apply IH, exec1_same, H. Qed.
Lemma exec_app a b s : exec s (a ++ b) = exec (exec s a) b.
Proof. apply fold_left_app. Qed.

Definition thread_of (a : act) : option nat :=
  match a with QOut _ _ _ | QBad _ => None | QLoadSum _ t | QStoreSum _ t _ | QLoadCount _ t | QStoreCount _ t => Some t end.
Definition index_of (a : act) : option index := match a with QOut _ i _ => Some i | _ => None end.
Definition independent (a b : act) : Prop :=
  (index_of a = None \/ index_of a <> index_of b) /\ (thread_of a = None \/ thread_of a <> thread_of b).
Lemma commute a b s : independent a b -> same (exec1 (exec1 s a) b) (exec1 (exec1 s b) a).
Proof.
  intros [[H1|H1] [H2|H2]]; destruct a, b; cbn [index_of thread_of] in *; try discriminate;
    cbn [q_exec1]; (repeat split; intros; cbn [q_out q_sum q_count q_rsum q_rcount]; try reflexivity);
    try (assert (D : t <> t0) by congruence);
    try (rewrite ?(updn_other _ t _ t0), ?(updn_other _ t0 _ t) by congruence; try (apply updn_comm; congruence); reflexivity);
    try (apply updi_comm; congruence).
Qed.
Lemma commute_list l x s : (forall b, In b l -> independent b x) -> same (exec (exec1 s x) l) (exec1 (exec s l) x).
Proof.
  revert s. induction l as [|b l IH]; intros s H; [apply same_refl|]. unfold q_exec in *. cbn [fold_left].
  eapply same_trans; [|apply IH; intros; apply H; right; assumption].
  apply (exec_same l). apply same_sym, commute, H. left. reflexivity.
Qed.
Definition apart (ls : list (list act)) : Prop :=
  forall i j l l' a b, i <> j -> nth_error ls i = Some l -> nth_error ls j = Some l' -> In a l -> In b l' -> independent a b.
Lemma interleaving_sequential ls r : interleaving ls r -> apart ls -> forall s, same (exec s r) (exec s (concat ls)).
Proof.
  induction 1 as [ls H|ls1 x l ls2 r H IH]; intros Ha s.
  - assert (E : concat ls = []) by (induction H as [|? ? -> _ IH']; [reflexivity|exact (IH' (fun i j l l' a b Hij A B => Ha (S i) (S j) l l' a b (fun E => Hij (Nat.succ_inj _ _ E)) A B))]).
    rewrite E. apply same_refl.
  - assert (Ha' : apart (ls1 ++ l :: ls2)).
    { intros i j k k' a b Hij A B C D.
      assert (G : forall i k a, nth_error (ls1 ++ l :: ls2) i = Some k -> In a k -> exists k0, nth_error (ls1 ++ (x :: l) :: ls2) i = Some k0 /\ In a k0).
      { clear. intros i k a. destruct (Nat.lt_ge_cases i (length ls1)) as [L|L].
        - rewrite !nth_error_app1 by exact L. eauto.
        - rewrite !nth_error_app2 by exact L. destruct (i - length ls1)%nat; cbn [nth_error]; [|eauto].
          intros E. injection E as <-. intros I. eexists. split; [reflexivity|right; exact I]. }
      destruct (G i k a A C) as (k0 & A0 & C0). destruct (G j k' b B D) as (k1 & B1 & D1). exact (Ha i j k0 k1 a b Hij A0 B1 C0 D1). }
    change (exec s (x :: r)) with (exec (exec1 s x) r). eapply same_trans; [apply IH, Ha'|].
    rewrite !concat_app. cbn [concat]. rewrite !exec_app.
    change (exec (exec s (concat ls1)) (x :: l)) with (exec (exec1 (exec s (concat ls1)) x) l).
    apply exec_same, exec_same. apply commute_list. intros b Hb. apply in_concat in Hb. destruct Hb as (k & Hk & Hb).
    apply In_nth_error in Hk. destruct Hk as [i Hi].
    assert (L : (i < length ls1)%nat) by (apply nth_error_Some; congruence).
    apply (Ha i (length ls1) k (x :: l) b x).
    + lia.
    + rewrite nth_error_app1 by exact L. exact Hi.
    + rewrite nth_error_app2, Nat.sub_diag by lia. reflexivity.
    + exact Hb.
    + left. reflexivity.
Qed.
(** a schedule contains the same accesses as the threads *)
Lemma interleaving_in ls (r : list act) : interleaving ls r -> forall a, In a r <-> In a (concat ls).
Proof.
  induction 1 as [ls H|ls1 x l ls2 r H IH]; intros a.
  - split; [intros []|]. intros Ha. apply in_concat in Ha. destruct Ha as (l & Hl & Ha). rewrite Forall_forall in H. rewrite (H l Hl) in Ha. destruct Ha.
  - cbn [In]. rewrite IH. rewrite !concat_app, !in_app_iff. cbn [concat app In]. rewrite !in_app_iff. tauto.
Qed.

(** * One pixel *)
Section Run.
Variables (f : filter) (valid test : image).
Definition found (i : index) : p_real T * spec_float :=
  q_closest T (f_threshold f) (q_pix T valid i) (q_pix T test i) (q_neighbourhood T test (f_radius f) i).
Definition hit (i : index) : bool := SFltb (mul64 (f_threshold f) (f_threshold f)) (snd (found i)).
Definition counted (skip : bool) (i : index) : bool := negb skip && hit i.

(** a pixel with the place whose zero value is written *)
Definition job : Type := nat * bool * index * index.
Definition jthread (j : job) : nat := fst (fst (fst j)).
Definition jskip (j : job) : bool := snd (fst (fst j)).
Definition jindex (j : job) : index := snd (fst j).
Definition jzero (j : job) : index := snd j.
Definition value (j : job) : option (p_out T) :=
  if counted (jskip j) (jindex j) then p_cast T (fst (found (jindex j))) else Some (p_zero T (q_pix T valid (jzero j))).
Definition run_job (j : job) : list act :=
  match value j with Some v => QOut T (jindex j) v | None => QBad T end ::
  if counted (jskip j) (jindex j) then [QLoadSum T (jthread j); QStoreSum T (jthread j) (sqrt64 (snd (found (jindex j)))); QLoadCount T (jthread j); QStoreCount T (jthread j)] else [].
Definition face_jobs (t : nat) (fc : face) : list job :=
  if negb (fst fc) || negb (f_ignore_boundary f) then map (fun i => (t, false, i, i)) (snd fc)
  else match snd fc with [] => [] | i0 :: _ => map (fun i => (t, true, i, i0)) (snd fc) end.
Definition jobs_of (p : nat * list face) : list job := flat_map (face_jobs (fst p)) (snd p).
Lemma pixel_job t i : q_pixel T f valid test t i = run_job (t, false, i, i).
Proof.
  unfold q_pixel, run_job, value, counted, jskip, jindex, jthread, jzero. cbn [fst snd negb andb]. unfold hit. fold (found i). destruct (found i) as [d m]. cbn [fst snd].
  destruct (SFltb _ m); reflexivity.
Qed.
Lemma flat_map_map {A B C} (g : B -> list C) (h : A -> B) l : flat_map g (map h l) = flat_map (fun x => g (h x)) l.
Proof. induction l as [|x l IH]; [reflexivity|]. cbn. rewrite IH. reflexivity. Qed.
Lemma face_as_jobs t fc : q_face T f valid test t fc = flat_map run_job (face_jobs t fc).
Proof.
  unfold q_face, face_jobs. destruct (negb (fst fc) || negb (f_ignore_boundary f)).
  - rewrite flat_map_map. induction (snd fc) as [|i l IH]; [reflexivity|]. cbn [flat_map]. rewrite IH, pixel_job. reflexivity.
  - destruct (snd fc) as [|i0 l]; [reflexivity|]. rewrite flat_map_map. generalize (i0 :: l). intros k. induction k as [|i k IH]; [reflexivity|].
    cbn [map flat_map]. rewrite IH. reflexivity.
Qed.
Lemma thread_jobs p : q_thread T f valid test (snd p) (fst p) = flat_map run_job (jobs_of p).
Proof.
  unfold q_thread, jobs_of. induction (snd p) as [|fc l IH]; [reflexivity|]. cbn [flat_map]. rewrite flat_map_app, face_as_jobs, IH. reflexivity.
Qed.
Lemma job_exec j s :
  let s' := exec s (run_job j) in
  (forall i, q_out s' i = match value j with Some v => if eqi i (jindex j) then Some v else q_out s i | None => q_out s i end) /\
  (forall u, q_count s' u = q_count s u + (if Nat.eqb u (jthread j) && counted (jskip j) (jindex j) then 1 else 0)) /\
  (forall u, q_sum s' u = if Nat.eqb u (jthread j) && counted (jskip j) (jindex j) then add64 (q_sum s u) (sqrt64 (snd (found (jindex j)))) else q_sum s u).
Proof.
  unfold run_job. set (t := jthread j). destruct (counted (jskip j) (jindex j)); destruct (value j); cbn [q_exec fold_left q_exec1 q_out q_sum q_count q_rsum q_rcount];
    (split; [reflexivity|]); split; intros u; unfold updn; rewrite ?Nat.eqb_refl, ?andb_true_r, ?andb_false_r;
      try (destruct (Nat.eqb_spec u t) as [->|]); try reflexivity; try lia.
Qed.
Lemma jobs_exec js : forall s, 
  let s' := exec s (flat_map run_job js) in
  (forall i, (~ In i (map jindex js) -> q_out s' i = q_out s i) /\
     (forall j, NoDup (map jindex js) -> In j js -> value j <> None -> q_out s' (jindex j) = value j)) /\
  (forall u, q_count s' u = q_count s u + Z.of_nat (length (List.filter (fun j => Nat.eqb u (jthread j) && counted (jskip j) (jindex j)) js))) /\
  (forall u, q_sum s' u = fold_left add64 (map (fun j => sqrt64 (snd (found (jindex j)))) (List.filter (fun j => Nat.eqb u (jthread j) && counted (jskip j) (jindex j)) js)) (q_sum s u)).
Proof.
  induction js as [|j js IH]; intros s.
  - cbn. split; [intros i; split; [reflexivity|intros ? _ []]|]. split; intros; [lia|reflexivity].
  - cbn [flat_map map List.filter]. cbv zeta. rewrite exec_app.
    pose proof (job_exec j s) as (A1 & A2 & A3).
    destruct (IH (exec s (run_job j))) as (B1 & B2 & B3).
    split; [|split].
    + intros i. split.
      * intros N. cbn [In] in N. rewrite (proj1 (B1 i)) by tauto. rewrite A1. destruct (value j); [|reflexivity].
        destruct (eqi i (jindex j)) eqn:E; [apply eqi_true in E; subst; tauto|reflexivity].
      * intros k N [->|Hk] Hv; inversion N as [|? ? N1 N2]; subst.
        -- rewrite (proj1 (B1 (jindex k)) N1), A1. destruct (value k); [|congruence]. rewrite (proj2 (eqi_true _ _) eq_refl). reflexivity.
        -- exact (proj2 (B1 i) k N2 Hk Hv).
    + intros u. rewrite B2, A2. destruct (Nat.eqb u (jthread j) && counted (jskip j) (jindex j)); cbn [length]; lia.
    + intros u. rewrite B3, A3. destruct (Nat.eqb u (jthread j) && counted (jskip j) (jindex j)); reflexivity.
Qed.
End Run.
End Pix.

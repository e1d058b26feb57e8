(** Facts about the image comparison. *)
From Coq Require Import Floats.SpecFloat Permutation.
From Verif Require Import Base Str MeasModel ImgModel.
Local Open Scope Z_scope.

(** * Memory *)
Definition same (s s' : mem) : Prop :=
  (forall i, m_out s i = m_out s' i) /\ (forall t, m_sum s t = m_sum s' t) /\ (forall t, m_count s t = m_count s' t) /\
  (forall t, r_sum s t = r_sum s' t) /\ (forall t, r_count s t = r_count s' t).
Lemma same_refl s : same s s. Proof. repeat split. Qed.
Lemma same_trans a b c : same a b -> same b c -> same a c.
Proof. intros (A1 & A2 & A3 & A4 & A5) (B1 & B2 & B3 & B4 & B5). repeat split; intros; etransitivity; eauto. Qed.
Lemma same_sym a b : same a b -> same b a.
Proof. intros (A1 & A2 & A3 & A4 & A5). repeat split; auto. Qed.
Lemma eqi_true a b : eqi a b = true <-> a = b.
Proof. unfold eqi. destruct (list_eq_dec Z.eq_dec a b); split; congruence. Qed.
Lemma exec1_same s s' a : same s s' -> same (exec1 s a) (exec1 s' a).
Proof.
  intros (A1 & A2 & A3 & A4 & A5). destruct a; cbn [exec1]; repeat split; intros; cbn [m_out m_sum m_count r_sum r_count]; auto;
    unfold updi, updn; try (destruct (eqi _ _)); try (destruct (Nat.eqb _ _)); rewrite ?A2, ?A3, ?A4, ?A5; auto.
Qed.
Lemma exec_same l : forall s s', same s s' -> same (exec s l) (exec s' l).
Proof. unfold exec. induction l as [|a l IH]; intros s s' H; [exact H|]. cbn [fold_left]. apply IH, exec1_same, H. Qed.
Lemma exec_app a b s : exec s (a ++ b) = exec (exec s a) b.
Proof. apply fold_left_app. Qed.

Definition thread_of (a : act) : option nat :=
  match a with AOut _ _ => None | ALoadSum t | AStoreSum t _ | ALoadCount t | AStoreCount t => Some t end.
Definition index_of (a : act) : option index := match a with AOut i _ => Some i | _ => None end.
(** the accesses touch different memory *)
Definition independent (a b : act) : Prop :=
  (index_of a = None \/ index_of a <> index_of b) /\ (thread_of a = None \/ thread_of a <> thread_of b).
Lemma updn_comm {A} (f : nat -> A) i j x y k : i <> j -> updn (updn f i x) j y k = updn (updn f j y) i x k.
Proof. intros H. unfold updn. destruct (Nat.eqb_spec k j), (Nat.eqb_spec k i); congruence. Qed.
Lemma updi_comm {A} (f : index -> A) i j x y k : i <> j -> updi (updi f i x) j y k = updi (updi f j y) i x k.
Proof. intros H. unfold updi. destruct (eqi k j) eqn:E1, (eqi k i) eqn:E2; try reflexivity. rewrite eqi_true in *. congruence. Qed.
Lemma updn_other {A} (f : nat -> A) i x k : k <> i -> updn f i x k = f k.
Proof. intros H. unfold updn. destruct (Nat.eqb_spec k i); congruence. Qed.
Lemma updn_same {A} (f : nat -> A) i x : updn f i x i = x.
Proof. unfold updn. rewrite Nat.eqb_refl. reflexivity. Qed.
Lemma updi_same {A} (f : index -> A) i x : updi f i x i = x.
Proof. unfold updi. rewrite (proj2 (eqi_true i i) eq_refl). reflexivity. Qed.
Lemma updi_other {A} (f : index -> A) i x k : k <> i -> updi f i x k = f k.
Proof. intros H. unfold updi. destruct (eqi k i) eqn:E; [apply eqi_true in E; contradiction|reflexivity]. Qed.
Lemma commute a b s : independent a b -> same (exec1 (exec1 s a) b) (exec1 (exec1 s b) a).
Proof.
  intros [[H1|H1] [H2|H2]]; destruct a, b; cbn [index_of thread_of] in *; try discriminate;
    cbn [exec1]; (repeat split; intros; cbn [m_out m_sum m_count r_sum r_count]; try reflexivity);
    try (assert (D : t <> t0) by congruence);
    try (rewrite ?(updn_other _ t _ t0), ?(updn_other _ t0 _ t) by congruence; try (apply updn_comm; congruence); reflexivity);
    try (apply updi_comm; congruence).
Qed.
Lemma commute_list l x s : (forall b, In b l -> independent b x) -> same (exec (exec1 s x) l) (exec1 (exec s l) x).
Proof.
  revert s. induction l as [|b l IH]; intros s H; [apply same_refl|]. unfold exec in *. cbn [fold_left].
  eapply same_trans; [|apply IH; intros; apply H; right; assumption].
  apply (exec_same l). apply same_sym, commute, H. left. reflexivity.
Qed.
(** threads that touch different memory: any schedule has the effect of running one after the other *)
Definition apart (ls : list (list act)) : Prop :=
  forall i j l l' a b, i <> j -> nth_error ls i = Some l -> nth_error ls j = Some l' -> In a l -> In b l' -> independent a b.
Lemma interleaving_sequential ls r : interleaving ls r -> apart ls -> forall s, same (exec s r) (exec s (concat ls)).
Proof.
  induction 1 as [ls H|ls1 x l ls2 r H IH]; intros Ha s.
  - assert (E : concat ls = []) by (induction H as [|? ? -> _ IH']; [reflexivity|exact (IH' (fun i j l l' a b Hij A B => Ha (S i) (S j) l l' a b (fun E => Hij (Nat.succ_inj _ _ E)) A B))]).
    rewrite E. apply same_refl.
  - assert (Ha' : apart (ls1 ++ l :: ls2)).
    { intros i j k k' a b Hij A B C D.
      assert (G : forall i k a, nth_error (ls1 ++ l :: ls2) i = Some k -> In a k -> exists k0, nth_error (ls1 ++ (x :: l) :: ls2) i = Some k0 /\ In a k0).
      { clear. intros i k a. destruct (Nat.lt_ge_cases i (length ls1)) as [L|L].
        - rewrite !nth_error_app1 by exact L. eauto.
        - rewrite !nth_error_app2 by exact L. destruct (i - length ls1)%nat; cbn [nth_error]; [|eauto].
          intros E. injection E as <-. intros I. eexists. split; [reflexivity|right; exact I]. }
      destruct (G i k a A C) as (k0 & A0 & C0). destruct (G j k' b B D) as (k1 & B1 & D1). exact (Ha i j k0 k1 a b Hij A0 B1 C0 D1). }
    change (exec s (x :: r)) with (exec (exec1 s x) r). eapply same_trans; [apply IH, Ha'|].
    rewrite !concat_app. cbn [concat]. rewrite !exec_app.
    change (exec (exec s (concat ls1)) (x :: l)) with (exec (exec1 (exec s (concat ls1)) x) l).
    apply exec_same, exec_same. apply commute_list. intros b Hb. apply in_concat in Hb. destruct Hb as (k & Hk & Hb).
    apply In_nth_error in Hk. destruct Hk as [i Hi].
    assert (L : (i < length ls1)%nat) by (apply nth_error_Some; congruence).
    apply (Ha i (length ls1) k (x :: l) b x).
    + lia.
    + rewrite nth_error_app1 by exact L. exact Hi.
    + rewrite nth_error_app2, Nat.sub_diag by lia. reflexivity.
    + exact Hb.
    + left. reflexivity.
Qed.

(** * One pixel *)
Section Run.
Variables (f : filter) (valid test : image).
Definition found_difference (i : index) : spec_float * spec_float :=
  closest (f_threshold f) (ipix valid i) (ipix test i) (neighbourhood test (f_radius f) i).
(** the pixel is counted, if its face is not skipped *)
Definition hit (i : index) : bool := SFltb (mul64 (f_threshold f) (f_threshold f)) (snd (found_difference i)).
Definition counted (skip : bool) (i : index) : bool := negb skip && hit i.
Definition written_value (skip : bool) (i : index) : spec_float := if counted skip i then fst (found_difference i) else zero64.

Definition job_actions (t : nat) (skip : bool) (i : index) : list act :=
  if skip then [AOut i zero64] else pixel_actions f valid test t i.
Lemma pixel_actions_eq t i : pixel_actions f valid test t i =
  if hit i then [AOut i (fst (found_difference i)); ALoadSum t; AStoreSum t (sqrt64 (snd (found_difference i))); ALoadCount t; AStoreCount t]
  else [AOut i zero64].
Proof. unfold pixel_actions, hit. fold (found_difference i). destruct (found_difference i). reflexivity. Qed.
Lemma face_jobs t fc : face_actions f valid test t fc = flat_map (job_actions t (fst fc && f_ignore_boundary f)) (snd fc).
Proof.
  unfold face_actions, job_actions. destruct (fst fc), (f_ignore_boundary f); cbn [negb orb andb]; try reflexivity;
    (induction (snd fc) as [|i l IH]; [reflexivity|]; cbn [map flat_map app]; rewrite IH; reflexivity).
Qed.
Lemma job_exec t skip i s :
  let s' := exec s (job_actions t skip i) in
  (forall j, m_out s' j = if eqi j i then Some (written_value skip i) else m_out s j) /\
  (forall u, m_count s' u = m_count s u + (if Nat.eqb u t && counted skip i then 1 else 0)) /\
  (forall u, m_sum s' u = if Nat.eqb u t && counted skip i then add64 (m_sum s u) (sqrt64 (snd (found_difference i))) else m_sum s u).
Proof.
  unfold job_actions, written_value, counted. rewrite pixel_actions_eq. destruct skip; cbn [negb andb].
  - cbn. split; [reflexivity|]. split; intros u; rewrite andb_false_r; [lia|reflexivity].
  - destruct (hit i); cbn [exec fold_left exec1 m_out m_sum m_count r_sum r_count].
    + split; [reflexivity|]. split; intros u; unfold updn; rewrite Nat.eqb_refl, andb_true_r;
        destruct (Nat.eqb_spec u t) as [->|]; try reflexivity; try lia.
    + split; [reflexivity|]. split; intros u; rewrite andb_false_r; [lia|reflexivity].
Qed.

(** * All pixels *)
Definition job : Type := nat * bool * index.
Definition jthread (j : job) : nat := fst (fst j).
Definition jskip (j : job) : bool := snd (fst j).
Definition jindex (j : job) : index := snd j.
Definition run_job (j : job) : list act := job_actions (jthread j) (jskip j) (jindex j).
Definition jobs_of (p : nat * list face) : list job :=
  flat_map (fun fc => map (fun i => (fst p, fst fc && f_ignore_boundary f, i)) (snd fc)) (snd p).
Lemma thread_jobs p : ThreadedGenerateData f valid test (snd p) (fst p) = flat_map run_job (jobs_of p).
Proof.
  unfold ThreadedGenerateData, jobs_of. induction (snd p) as [|fc l IH]; [reflexivity|]. cbn [flat_map]. rewrite flat_map_app. f_equal; [|exact IH]. clear IH.
  rewrite face_jobs. unfold run_job. induction (snd fc) as [|i k IH2]; [reflexivity|]. cbn [map flat_map]. rewrite IH2. reflexivity.
Qed.
Lemma jobs_exec js : forall s (sk : index -> bool), (forall j, In j js -> jskip j = sk (jindex j)) ->
  let s' := exec s (flat_map run_job js) in
  (forall i, m_out s' i = if existsb (eqi i) (map jindex js) then Some (written_value (sk i) i) else m_out s i) /\
  (forall u, m_count s' u = m_count s u + Z.of_nat (length (List.filter (fun j => Nat.eqb u (jthread j) && counted (jskip j) (jindex j)) js))) /\
  (forall u, m_sum s' u = fold_left add64 (map (fun j => sqrt64 (snd (found_difference (jindex j)))) (List.filter (fun j => Nat.eqb u (jthread j) && counted (jskip j) (jindex j)) js)) (m_sum s u)).
Proof.
  induction js as [|j js IH]; intros s sk Hs.
  - cbn. split; [reflexivity|]. split; intros; [lia|reflexivity].
  - cbn [flat_map map existsb List.filter]. cbv zeta. rewrite exec_app.
    pose proof (job_exec (jthread j) (jskip j) (jindex j) s) as (A1 & A2 & A3). fold (run_job j) in A1, A2, A3.
    destruct (IH (exec s (run_job j)) sk (fun k Hk => Hs k (or_intror Hk))) as (B1 & B2 & B3).
    split; [|split].
    + intros i. rewrite B1, A1. destruct (eqi i (jindex j)) eqn:E; cbn [orb].
      * apply eqi_true in E. subst i. rewrite (Hs j (or_introl eq_refl)). destruct (existsb _ _); reflexivity.
      * reflexivity.
    + intros u. rewrite B2, A2. destruct (Nat.eqb u (jthread j) && counted (jskip j) (jindex j)); cbn [length]; lia.
    + intros u. rewrite B3, A3. destruct (Nat.eqb u (jthread j) && counted (jskip j) (jindex j)); reflexivity.
Qed.
End Run.

Lemma sum_counts {A} (n : nat) (g : A -> nat) (P : A -> bool) (js : list A) : (forall j, In j js -> (g j < n)%nat) ->
  fold_left Z.add (map (fun u => Z.of_nat (length (List.filter (fun j => Nat.eqb u (g j) && P j) js))) (seq 0 n)) 0
  = Z.of_nat (length (List.filter P js)).
Proof.
  intros H.
  assert (F : forall (h : nat -> Z) l z, fold_left Z.add (map h l) z = z + fold_left Z.add (map h l) 0).
  { intros h l. induction l as [|u l IH]; intros z; cbn [map fold_left]; [lia|]. rewrite (IH (z + h u)), (IH (0 + h u)). lia. }
  induction js as [|j js IH].
  - cbn [List.filter length]. induction (seq 0 n) as [|u l IHl]; [reflexivity|]. cbn [map fold_left]. exact IHl.
  - specialize (IH (fun k Hk => H k (or_intror Hk))). specialize (H j (or_introl eq_refl)). cbn [List.filter].
    assert (E : fold_left Z.add (map (fun u => Z.of_nat (length (if Nat.eqb u (g j) && P j then j :: List.filter (fun j0 => Nat.eqb u (g j0) && P j0) js else List.filter (fun j0 => Nat.eqb u (g j0) && P j0) js))) (seq 0 n)) 0
      = (if P j then 1 else 0) + fold_left Z.add (map (fun u => Z.of_nat (length (List.filter (fun j0 => Nat.eqb u (g j0) && P j0) js))) (seq 0 n)) 0).
    { clear IH. assert (G : forall a m, fold_left Z.add (map (fun u => Z.of_nat (length (if Nat.eqb u (g j) && P j then j :: List.filter (fun j0 => Nat.eqb u (g j0) && P j0) js else List.filter (fun j0 => Nat.eqb u (g j0) && P j0) js))) (seq a m)) 0
        = (if P j && (a <=? g j)%nat && (g j <? a + m)%nat then 1 else 0) + fold_left Z.add (map (fun u => Z.of_nat (length (List.filter (fun j0 => Nat.eqb u (g j0) && P j0) js))) (seq a m)) 0).
      { intros a m. revert a. induction m as [|m IHm]; intros a.
        - cbn [seq map fold_left]. destruct (Nat.leb_spec a (g j)), (Nat.ltb_spec (g j) (a + 0)); try lia; rewrite ?andb_false_r; cbn [andb]; lia.
        - cbn [seq map fold_left]. rewrite F, IHm. symmetry. rewrite F. symmetry.
          destruct (P j); cbn [andb]; [|rewrite andb_false_r; reflexivity]. rewrite andb_true_r.
          destruct (Nat.eqb_spec a (g j)); cbn [length];
          destruct (Nat.leb_spec (S a) (g j)), (Nat.ltb_spec (g j) (S a + m)), (Nat.leb_spec a (g j)), (Nat.ltb_spec (g j) (a + S m)); cbn [andb]; try lia. }
      rewrite G. destruct (Nat.leb_spec 0 (g j)), (Nat.ltb_spec (g j) (0 + n)); try lia. rewrite !andb_true_r. reflexivity. }
    rewrite E, IH. destruct (P j); cbn [length]; lia.
Qed.

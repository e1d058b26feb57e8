(** Facts about IntModel. *)
From Coq Require Import Floats.SpecFloat.
From Verif Require Import Base Str Dec PathModel MeasModel VisitModel XmlModel ReadModel ReadFacts ReadBack RegModel RegSpec ArgFacts RegFacts RegStart RegMain ImgModel ItkModel ItkSim ItkMain IntModel.

(** * What does not touch the counter *)
Definition idle {A} (m : M A) : Prop := forall s, s_unmatched (fst (m s)) = s_unmatched s.
Lemma idle_bind {A B} (m : M A) (k : A -> M B) : idle m -> (forall a, idle (k a)) -> idle (mbind m k).
Proof. intros Hm Hk s. unfold mbind. specialize (Hm s). destruct (m s) as [s1 [a|i| | |]]; cbn [fst] in *; try exact Hm. rewrite Hk. exact Hm. Qed.
Lemma idle_ret {A} (a : A) : idle (mret a). Proof. intros s. reflexivity. Qed.
Lemma idle_lift {A} (r : res A) : idle (mlift r). Proof. intros s. reflexivity. Qed.
Lemma idle_gets {A} (g : rst -> A) : idle (gets g). Proof. intros s. reflexivity. Qed.
Lemma idle_pure {A} (g : rst -> res A) : idle (fun s => (s, g s)). Proof. intros s. reflexivity. Qed.
Lemma idle_modify g : (forall s, s_unmatched (g s) = s_unmatched s) -> idle (modify g). Proof. intros H s. apply H. Qed.
Lemma idle_put t : idle (put t).
Proof. intros s. unfold put, modify. cbn [fst]. unfold put_text. destruct (s_os s) as [k|]; [|reflexivity]. destruct (s_files s k) as [[r w b|r w x]|]; reflexivity. Qed.
Lemma idle_put_meas m : idle (put_meas m).
Proof. intros s. rewrite put_meas_eq. apply (idle_put (print_of m ++ [nl]) s). Qed.
Lemma idle_say t : idle (say t). Proof. intros s. reflexivity. Qed.
Lemma idle_say_meas m : idle (say_meas m).
Proof. apply idle_bind; [apply idle_lift|]. intros t. apply idle_say. Qed.
Ltac idles := repeat first
  [ apply idle_ret | apply idle_lift | apply idle_gets | apply idle_pure | apply idle_put | apply idle_put_meas | apply idle_say | apply idle_say_meas | apply idle_modify; reflexivity
  | apply idle_bind; [|intros ?] | match goal with |- idle (match ?x with _ => _ end) => destruct x | |- idle (if ?x then _ else _) => destruct x | |- idle (let _ := _ in _) => cbv zeta end ].
Lemma idle_thing ie im f n : idle (ImageThing ie im f n). Proof. unfold ImageThing. idles. Qed.
Lemma idle_pictures ie tol b m : idle (DifferenceTestImage ie tol b m).
Proof. unfold DifferenceTestImage, report. idles; apply idle_thing. Qed.
Lemma idle_itk_Compare ie tol c b m : idle (itk_Compare ie tol c b m). Proof. unfold itk_Compare. idles. Qed.
Lemma idle_mode e : idle (GetCompareMode e). Proof. intros s. reflexivity. Qed.

(** * Counting *)
(** [c] is [m] with the bounded counter *)
Definition within {A} (m c : M A) : Prop := forall s, let '(s', r) := m s in
  (s_unmatched s <= s_unmatched s')%Z /\ ((s_unmatched s <= INT_MAX)%Z -> ((s_unmatched s' <= INT_MAX)%Z -> c s = (s', r)) /\ ((INT_MAX < s_unmatched s')%Z -> snd (c s) = UB)).
Lemma within_idle {A} (m : M A) : idle m -> within m m.
Proof. intros H s. specialize (H s). destruct (m s) as [s' r] eqn:E. cbn [fst] in H. split; [lia|]. intros L. split; [reflexivity|lia]. Qed.
Lemma within_bind {A B} (m c : M A) (k kc : A -> M B) : within m c -> (forall a, within (k a) (kc a)) -> within (mbind m k) (mbind c kc).
Proof.
  intros Hm Hk s. unfold mbind. specialize (Hm s). destruct (m s) as [s1 r1]. destruct Hm as [M1 M2].
  destruct r1 as [a|i| | |]; try (split; [exact M1|]; intros L; destruct (M2 L) as [E N]; split; [intros L1; rewrite (E L1); reflexivity|intros L1; specialize (N L1); destruct (c s) as [s2 r2]; cbn [snd] in N; subst r2; reflexivity]).
  specialize (Hk a s1). destruct (k a s1) as [s2 r2]. destruct Hk as [K1 K2]. split; [lia|]. intros L. destruct (M2 L) as [E N].
  destruct (Z_le_gt_dec (s_unmatched s1) INT_MAX) as [L1|L1].
  - rewrite (E L1). exact (K2 L1).
  - split; [lia|]. intros _. specialize (N ltac:(lia)). destruct (c s) as [s3 r3]. cbn [snd] in N. subst r3. reflexivity.
Qed.
Lemma within_count : within (modify (fun s => set_unmatched s (s_unmatched s + 1))) count_one.
Proof.
  intros s. unfold modify, count_one. cbn [set_unmatched s_unmatched]. split; [lia|]. intros L. split; intros L1.
  - rewrite (proj2 (Z.ltb_lt _ _)) by lia. reflexivity.
  - rewrite (proj2 (Z.ltb_ge _ _)) by lia. reflexivity.
Qed.
Lemma within_unmatched m : within (UnmatchedMeasurement m) (i_UnmatchedMeasurement m).
Proof. apply within_bind; [apply within_count|]. intros _. apply within_idle, idle_put_meas. Qed.
Lemma within_difference e m b : within (DifferenceMeasurement e m b) (i_DifferenceMeasurement e m b).
Proof. apply within_bind; [apply within_count|]. intros _. apply within_idle. idles. Qed.
Lemma within_compare e m t : within (CompareMeasurement e m t) (i_CompareMeasurement e m t).
Proof.
  apply within_bind; [apply within_idle, idle_gets|]. intros [|b rest]; [apply within_bind; [apply within_unmatched|intros _; apply within_idle, idle_ret]|].
  apply within_bind; [apply within_idle; idles|]. intros _. destruct (_ && _); [|apply within_bind; [apply within_unmatched|intros _; apply within_idle, idle_ret]].
  apply within_bind; [apply within_idle, idle_pure|]. intros b'. apply within_bind; [apply within_idle, idle_gets|]. intros [[b1 m1] v]. apply within_bind; [apply within_idle, idle_lift|].
  intros [|]; [apply within_idle, idle_ret|]. apply within_bind; [apply within_difference|]. intros _. apply within_idle, idle_ret.
Qed.
Lemma within_measure e c : within (Measure e c) (i_Measure e c).
Proof. apply within_bind; [apply within_idle, idle_mode|]. intros [|]; [apply within_compare|apply within_idle; idles]. Qed.
Lemma within_run e p : within (run e p) (i_run e p).
Proof.
  induction p as [z|x|c k IH|t k IH|z k IH|path b k IH]; cbn [run i_run]; try (apply within_idle; solve [idles]); try (apply within_bind; [apply within_idle; idles|intros _; exact IH]).
  apply within_bind; [apply within_measure|exact IH].
Qed.
Lemma within_itk_difference ie tol m b : within (itk_Difference ie tol m b) (i_itk_Difference ie tol m b).
Proof.
  unfold itk_Difference, i_itk_Difference. destruct b as [d|b], m as [d'|t]; try apply within_difference. destruct (eqs _ _); [|apply within_difference].
  apply within_bind; [apply within_count|]. intros _. apply within_idle, idle_pictures.
Qed.
Lemma within_itk_compare ie tol m t : within (itk_CompareMeasurement ie tol m t) (i_itk_CompareMeasurement ie tol m t).
Proof.
  apply within_bind; [apply within_idle, idle_gets|]. intros [|b rest]; [apply within_bind; [apply within_unmatched|intros _; apply within_idle, idle_ret]|].
  apply within_bind; [apply within_idle; idles|]. intros _. destruct (_ && _); [|apply within_bind; [apply within_unmatched|intros _; apply within_idle, idle_ret]].
  apply within_bind; [apply within_idle, idle_pure|]. intros b'. apply within_bind; [apply within_idle, idle_gets|]. intros c. apply within_bind; [apply within_idle, idle_itk_Compare|].
  intros [[b1 m1] [|]]; [apply within_idle, idle_ret|]. apply within_bind; [apply within_itk_difference|]. intros _. apply within_idle, idle_ret.
Qed.
Lemma within_irun ie args p : forall tol n, within (irun ie args p tol n) (i_irun ie args p tol n).
Proof.
  induction p as [z|i|c q IH|f nm q IH|t q IH|ext root q IH|t q IH|t q IH|z q IH|path b q IH]; intros tol n; cbn [irun i_irun]; try (apply within_idle; solve [idles]);
    try (apply within_bind; [apply within_idle; idles|intros; apply IH]).
  - apply within_bind; [|intros r; apply IH]. apply within_bind; [apply within_idle, idle_mode|]. intros [|]; [apply within_itk_compare|apply within_idle; idles].
  - apply within_bind; [|intros r; apply IH]. apply within_bind; [apply within_idle, idle_mode|]. intros [|]; [apply within_itk_compare|apply within_idle; idles].
  - apply IH.
Qed.

(** * Nesting *)
(** the level after these events; levels reached *)
Definition level_after (d : nat) (v : event) : nat := match v with EStart _ _ => S d | EEnd _ => pred d | EData _ => d end.
Definition levels (evs : list event) : nat := fold_left level_after evs 0.
Lemma start_level asserts p n al p' : on_start asserts p n al = Ok p' -> pdepth p' = S (pdepth p).
Proof.
  unfold on_start. destruct (asserts && _); [discriminate|]. destruct (asserts && _); [discriminate|]. destruct (pdepth p =? 1).
  - destruct (eqs n data_elem || eqs n file_elem).
    + destruct (start_measurement n al) as [m|i| | |]; cbn [bind]; try discriminate. intros H. injection H as <-. reflexivity.
    + intros H. injection H as <-. reflexivity.
  - intros H. injection H as <-. reflexivity.
Qed.
Lemma event_level asserts p v p' : on_event asserts p v = Ok p' -> pdepth p' = level_after (pdepth p) v.
Proof.
  destruct v as [n al|n|s]; cbn [on_event level_after].
  - apply start_level.
  - intros H. injection H as <-. reflexivity.
  - intros H. injection H as <-. unfold on_data. destruct (pdepth p =? 2); reflexivity.
Qed.
Definition fits (d : nat) (evs : list event) : Prop := forall a b, evs = a ++ b -> (Z.of_nat (fold_left level_after a d) <= INT_MAX)%Z.
Lemma shallow_events asserts evs : forall p, fits (pdepth p) evs -> i_on_events asserts p evs = on_events asserts p evs.
Proof.
  induction evs as [|v evs IH]; intros p F; [reflexivity|]. cbn [i_on_events on_events].
  assert (E : i_on_event asserts p v = on_event asserts p v).
  { destruct v as [n al|n|s]; try reflexivity. cbn [i_on_event on_event]. unfold i_on_start. specialize (F [EStart n al] evs eq_refl). cbn [fold_left level_after] in F.
    rewrite (proj2 (Z.ltb_lt _ _)) by lia. destruct (on_start asserts p n al); reflexivity. }
  rewrite E. destruct (on_event asserts p v) as [p'|i| | |] eqn:Ev; try reflexivity. cbn [bind]. apply IH. intros a b Hab.
  rewrite (event_level _ _ _ _ Ev). apply (F (v :: a) b). cbn [app]. rewrite Hab. reflexivity.
Qed.
Lemma deep_events asserts evs : forall p q, on_events asserts p evs = Ok q -> (exists a b, evs = a ++ b /\ (INT_MAX < Z.of_nat (fold_left level_after a (pdepth p)))%Z) -> (Z.of_nat (pdepth p) <= INT_MAX)%Z ->
  i_on_events asserts p evs = UB.
Proof.
  induction evs as [|v evs IH]; intros p q Ho (a & b & Eab & L) Lp.
  - destruct a; [|discriminate Eab]. cbn [fold_left] in L. lia.
  - cbn [i_on_events on_events] in *. destruct (on_event asserts p v) as [p'|i| | |] eqn:Ev; try discriminate Ho. cbn [bind] in Ho.
    pose proof (event_level _ _ _ _ Ev) as Lv.
    destruct (Z_le_gt_dec (Z.of_nat (pdepth p')) INT_MAX) as [L1|L1].
    + assert (E : i_on_event asserts p v = Ok p').
      { rewrite <- Ev. destruct v as [n al|n|s]; try reflexivity. cbn [i_on_event on_event level_after] in *. unfold i_on_start. rewrite Ev. cbn [bind].
        rewrite (proj2 (Z.ltb_lt _ _)) by lia. reflexivity. }
      rewrite E. cbn [bind]. apply (IH p' q Ho); [|exact L1]. destruct a as [|v' a]; [cbn [fold_left] in L; lia|]. injection Eab as <- ->. exists a, b. split; [reflexivity|]. rewrite Lv. exact L.
    + assert (E : i_on_event asserts p v = UB).
      { destruct v as [n al|n|s]; cbn [level_after] in Lv; try lia. cbn [i_on_event on_event] in *. unfold i_on_start. rewrite Ev. cbn [bind]. rewrite (proj2 (Z.ltb_ge _ _)) by lia. reflexivity. }
      rewrite E. reflexivity.
Qed.

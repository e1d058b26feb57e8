(** The accounting of HeapFacts through a whole run. *)
From Coq Require Import Floats.SpecFloat Permutation.
From Verif Require Import Base Str Dec PathModel MeasModel DiffModel VisitModel XmlModel ReadModel RegModel RegFacts RegStart HeapModel HeapFacts HeapXml.

(** * Without the pointers it is the driver of RegModel *)
Definition adeq {A} (m : H A) (b : M A) : Prop := forall h, b (h_s h) = (h_s (fst (m h)), snd (m h)).
Lemma adeq_bind {A B} (m : H A) (b : M A) (k : A -> H B) (c : A -> M B) : adeq m b -> (forall a, adeq (k a) (c a)) -> adeq (hbind m k) (mbind b c).
Proof.
  intros Hm Hk h. unfold hbind, mbind. rewrite (Hm h). destruct (m h) as [h' r]. cbn [fst snd]. destruct r as [a| | | |]; try reflexivity. apply Hk.
Qed.
Lemma adeq_plain {A} (m : M A) : adeq (plain m) m.
Proof. intros h. unfold plain. destruct (m (h_s h)) as [s r]. reflexivity. Qed.
Lemma adeq_skip {A B} (m : H A) (k : A -> H B) (b : M B) : (forall h, h_s (fst (m h)) = h_s h /\ exists a, snd (m h) = Ok a) -> (forall a, adeq (k a) b) -> adeq (hbind m k) b.
Proof. intros Hm Hk h. destruct (Hm h) as [E [a Ea]]. unfold hbind. destruct (m h) as [h' r]. cbn [fst snd] in *. subst r. rewrite <- E. apply Hk. Qed.
Lemma adeq_ret {A} (a : A) : adeq (hret a) (mret a).
Proof. intros h. reflexivity. Qed.
Ltac skip := apply adeq_skip; [intros ?h; split; [reflexivity|eexists; reflexivity]|intros ?a].
Lemma adeq_end {A} (m : H A) (b : M A) : adeq (hbind m hret) b -> adeq m b.
Proof. intros Hm h. specialize (Hm h). unfold hbind in Hm. destruct (m h) as [h' r]. cbn [fst snd] in *. destruct r; exact Hm. Qed.
Lemma mbind_ret_r {A} (b : M A) s : mbind b mret s = b s.
Proof. unfold mbind. destruct (b s) as [s' r]. destruct r; reflexivity. Qed.
Lemma adeq_ext {A} (m : H A) (b b' : M A) : (forall s, b s = b' s) -> adeq m b -> adeq m b'.
Proof. intros E Hm h. rewrite <- E. apply Hm. Qed.
Lemma adeq_then {A} (m : H A) (b : M A) (k : A -> H A) : adeq m b -> (forall a, adeq (k a) (mret a)) -> adeq (hbind m k) b.
Proof. intros Hm Hk. apply (adeq_ext _ (mbind b mret)); [apply mbind_ret_r|]. apply adeq_bind; assumption. Qed.
Lemma adeq_put t : adeq (h_put t) (put t).
Proof. unfold h_put. do 2 skip. apply adeq_plain. Qed.
Lemma adeq_put_meas m : adeq (h_put_meas m) (put_meas m).
Proof. apply adeq_bind; [apply adeq_plain|]. intros t. apply adeq_put. Qed.
Lemma delete_opt_base p h : h_s (fst (hdelete_opt p h)) = h_s h /\ exists a, snd (hdelete_opt p h) = Ok a.
Proof. destruct p; split; try reflexivity; eexists; reflexivity. Qed.
Lemma adeq_on_throw {A} (m : H A) (b : M A) u : adeq m b -> (forall h, h_s (fst (u h)) = h_s h) -> adeq (on_throw m u) b.
Proof. intros Hm Hu h. unfold on_throw. rewrite (Hm h). destruct (m h) as [h' r]. cbn [fst snd]. destruct r; cbn [fst snd]; rewrite ?Hu; reflexivity. Qed.
Lemma adeq_open_output e : adeq (h_open_output e) (open_output e).
Proof.
  intros h. unfold h_open_output. destruct (s_out (h_s h)) as [|c n] eqn:E; [unfold open_output; rewrite E; reflexivity|].
  match goal with |- context [h_s (fst (?t h))] => assert (X : adeq t (open_output e)) end; [|exact (X h)].
  do 2 skip. apply adeq_on_throw; [apply adeq_plain|]. intros h0. destruct h0 as [s hp ps [o|] i]; reflexivity.
Qed.
Definition new_input (e : env) : H unit := p <* hnew KStream ;; _ <* set_h_is (Some p) ;; on_throw (plain (open_input e)) (is <* get_h h_is ;; _ <* hdelete_opt is ;; set_h_is None).
Lemma open_input_cases e h : h_open_input e h = match s_in (h_s h) with [] => (h, Ok tt) | c :: n =>
  match search e (h_s h) (c :: n) with Ok _ => new_input e h | Throw x => (h, Throw x) | UB => (h, UB) | Abort => (h, Abort) | Hang => (h, Hang) end end.
Proof. unfold h_open_input. destruct (s_in (h_s h)) as [|c n]; [reflexivity|]. unfold hbind at 1. unfold plain at 1. destruct h as [s hp ps os is]. cbn [h_s h_heap h_ptrs h_os h_is]. destruct (search _ _ _); reflexivity. Qed.
Lemma adeq_open_input e : adeq (h_open_input e) (open_input e).
Proof.
  intros h. rewrite open_input_cases. destruct (s_in (h_s h)) as [|c n] eqn:E; [unfold open_input; rewrite E; reflexivity|].
  destruct (search e (h_s h) (c :: n)) as [q| | | |] eqn:Es; try (unfold open_input; rewrite E, Es; reflexivity).
  assert (X : adeq (new_input e) (open_input e)); [|exact (X h)].
  do 2 skip. apply adeq_on_throw; [apply adeq_plain|]. intros h0. destruct h0 as [s hp ps o [i|]]; reflexivity.
Qed.
Lemma adeq_read_input e : adeq (h_read_input e) (read_input e).
Proof.
  unfold h_read_input. do 2 skip. intros h. destruct (s_is (h_s h)) as [k|] eqn:Ei; [|apply adeq_plain]. destruct (s_files (h_s h) k) as [[r w b|r w x]|] eqn:Ef.
  - destruct (a_ReadXMLInput _ _ b (h_heap h)) as [hp l]. match goal with |- context [h_s (fst (?t h))] => assert (X : adeq t (read_input e)) end; [|exact (X h)].
    skip. apply adeq_then; [apply adeq_plain|]. intros u h0. destruct u. reflexivity.
  - match goal with |- context [h_s (fst (?t h))] => assert (X : adeq t (read_input e)) end; [|exact (X h)]. skip. apply adeq_plain.
  - match goal with |- context [h_s (fst (?t h))] => assert (X : adeq t (read_input e)) end; [|exact (X h)]. skip. apply adeq_plain.
Qed.
Lemma adeq_Begin e : adeq (h_Begin e) (BeginMeasurement e).
Proof.
  apply adeq_bind; [apply adeq_open_output|]. intros _. apply adeq_bind; [apply adeq_open_input|]. intros _. apply adeq_bind; [apply adeq_plain|]. intros [|]; [apply adeq_read_input|apply adeq_put].
Qed.
Lemma delete_all_base l : forall h, h_s (fst (delete_all l h)) = h_s h /\ exists a, snd (delete_all l h) = Ok a.
Proof. induction l as [|p l IH]; intros h; [split; [reflexivity|eexists; reflexivity]|]. cbn [delete_all]. unfold hbind. unfold hdelete, on_heap. apply (IH (Hst (h_s h) (dealloc p (h_heap h)) (h_ptrs h) (h_os h) (h_is h))). Qed.
Lemma adeq_free : adeq h_free (modify (fun s => set_input s [])).
Proof. unfold h_free. skip. apply adeq_skip; [apply delete_all_base|]. intros _. skip. apply adeq_plain. Qed.
Lemma adeq_End e : adeq (h_End e) (EndMeasurement e).
Proof.
  apply adeq_bind; [apply adeq_plain|]. intros cm. apply adeq_bind; [destruct cm; [apply adeq_free|apply adeq_put]|]. intros ?.
  skip. apply adeq_skip; [apply delete_opt_base|]. intros _. skip. skip. apply adeq_skip; [apply delete_opt_base|]. intros _. skip. apply adeq_plain.
Qed.
Lemma adeq_Unmatched m : adeq (h_Unmatched m) (UnmatchedMeasurement m).
Proof. apply adeq_bind; [apply adeq_plain|]. intros _. apply adeq_put_meas. Qed.
Lemma adeq_Difference e m bp b : adeq (h_Difference e m bp b) (DifferenceMeasurement e m b).
Proof.
  apply adeq_bind; [apply adeq_plain|]. intros _. do 3 skip. apply adeq_bind; [apply adeq_plain|]. intros t. apply adeq_then; [apply adeq_put|]. intros u h. destruct u. reflexivity.
Qed.
Lemma adeq_Compare e m t : adeq (h_Compare e m t) (CompareMeasurement e m t).
Proof.
  apply adeq_bind; [apply adeq_plain|]. intros [|b rest]; [apply adeq_bind; [apply adeq_Unmatched|intros _; apply adeq_ret]|].
  skip. cbv zeta. skip. apply adeq_bind; [apply adeq_plain|]. intros _. skip.
  apply adeq_then; [|intros r; skip; apply adeq_ret].
  destruct (eqs (mname b) (mname m) && eqs (mtype b) (mtype m)); [|apply adeq_bind; [apply adeq_Unmatched|intros _; apply adeq_ret]].
  apply adeq_bind; [apply adeq_plain|]. intros b'. do 3 skip. apply adeq_bind; [apply adeq_plain|]. intros [[b1 m1] v]. apply adeq_bind; [apply adeq_plain|]. intros same.
  apply adeq_then; [|intros r; skip; apply adeq_ret]. destruct same; [apply adeq_ret|]. apply adeq_bind; [apply adeq_Difference|]. intros _. apply adeq_ret.
Qed.
Lemma adeq_Measure e c : adeq (h_Measure e c) (Measure e c).
Proof. apply adeq_bind; [apply adeq_plain|]. intros [|]; [apply adeq_Compare|]. apply adeq_bind; [apply adeq_put_meas|]. intros _. apply adeq_ret. Qed.
Lemma adeq_run e p : adeq (h_run e p) (run e p).
Proof.
  induction p as [z|x|c k IH|t k IH|z k IH|path b k IH]; cbn [h_run run]; try (apply adeq_bind; [apply adeq_plain|intros _; exact IH]).
  - apply adeq_ret.
  - apply adeq_plain.
  - apply adeq_bind; [apply adeq_Measure|exact IH].
Qed.
Lemma adeq_body e test argv : adeq (h_main_body e test argv) (main_body e test argv).
Proof. apply adeq_bind; [apply adeq_plain|]. intros [argc argv']. apply adeq_bind; [apply adeq_Begin|]. intros _. apply adeq_run. Qed.
Lemma adeq_Main e test argv h : Main e test argv (h_s h) = (h_s (fst (fst (h_Main e test argv h))), snd (fst (h_Main e test argv h))).
Proof.
  unfold Main, h_Main. cbv zeta. set (h1 := fst (plain (modify _) h)). change (set_unmatched (h_s h) (s_unmatched (h_s h) + 1)) with (h_s h1). rewrite (adeq_body e test argv h1).
  destruct (h_main_body e test argv h1) as [h2 r]. cbn [fst snd]. destruct r as [ret| | | |]; try reflexivity.
  - rewrite (adeq_End e h2). destruct (h_End e h2) as [h3 r]. cbn [fst snd]. destruct r as [u| | | |]; try reflexivity.
    + cbn [plain modify fst h_s]. destruct (negb _); reflexivity.
    + destruct (negb _); reflexivity.
  - destruct (negb _); reflexivity.
Qed.

(** * The objects *)
Definition vs (l : list nat) : list (nat * kind) := map (fun p => (p, KVisitor)) l.
Definition owned (h : hst) : list (nat * kind) := ms (h_ptrs h) ++ ss (opt (h_os h)) ++ ss (opt (h_is h)).
(** [F]: objects owned by nobody else; [L]: lost before; [b]: nothing was left over at the start of the run *)
Record state (b : bool) (F : list (nat * kind)) (L : nat -> option kind) (h : hst) : Prop := {
  st_len : length (h_ptrs h) = length (s_input (h_s h));
  st_os : h_os h = None <-> s_os (h_s h) = None;
  st_is : h_is h = None <-> s_is (h_s h) = None;
  st_mode : b = true -> s_is (h_s h) = None -> h_ptrs h = [];
  st_holds : holds (owned h ++ F) L (h_heap h) }.
(** [all]: what is claimed about a function that does not return holds also when the program stops there (undefined behaviour, abort, endless loop), not only when an exception is thrown *)
Section All.
Variable all : bool.
Definition counts {A} (r : res A) : Prop := match r with Throw _ => True | _ => all = true end.
Definition ht {A} (Pre : hst -> Prop) (m : H A) (Post : A -> hst -> Prop) (Exc : hst -> Prop) : Prop := forall h, Pre h ->
  match m h with (h', Ok a) => Post a h' | (h', r) => counts r -> Exc h' end.
Lemma ht_bind {A B} Pre (m : H A) Q X (k : A -> H B) R : ht Pre m Q X -> (forall a, ht (Q a) (k a) R X) -> ht Pre (hbind m k) R X.
Proof. intros Hm Hk h HP. specialize (Hm h HP). unfold hbind. destruct (m h) as [h' r]. destruct r as [a| | | |]; try exact Hm. exact (Hk a h' Hm). Qed.
Lemma ht_post {A} (Pre : hst -> Prop) (m : H A) (Q Q' : A -> hst -> Prop) (X X' : hst -> Prop) : ht Pre m Q X -> (forall a h, Q a h -> Q' a h) -> (forall h, X h -> X' h) -> ht Pre m Q' X'.
Proof. intros Hm HQ HX h HP. specialize (Hm h HP). destruct (m h) as [h' [a| | | |]]; auto. Qed.
Lemma ht_ret {A} (Pre : hst -> Prop) (a : A) (Q : A -> hst -> Prop) X : (forall h, Pre h -> Q a h) -> ht Pre (hret a) Q X.
Proof. intros H0 h HP. apply H0, HP. Qed.
Lemma ht_all {A} (Pre : hst -> Prop) (m : H A) (Q : A -> hst -> Prop) (X : hst -> Prop) : (forall h, Pre h -> match m h with (h', Ok a) => Q a h' | (h', _) => X h' end) -> ht Pre m Q X.
Proof. intros H0 h HP. specialize (H0 h HP). destruct (m h) as [h' [a| | | |]]; auto. Qed.
Lemma ht_plain {A} (Pre : hst -> Prop) (m : M A) (Q : A -> hst -> Prop) (X : hst -> Prop) :
  (forall h, Pre h -> match m (h_s h) with (s', Ok a) => Q a (Hst s' (h_heap h) (h_ptrs h) (h_os h) (h_is h)) | (s', _) => X (Hst s' (h_heap h) (h_ptrs h) (h_os h) (h_is h)) end) -> ht Pre (plain m) Q X.
Proof. intros H0. apply ht_all. intros h HP. specialize (H0 h HP). unfold plain. destruct (m (h_s h)) as [s' [a| | | |]]; exact H0. Qed.
(** computations that leave the pointers and what they point at *)
Definition inert {A} (m : M A) : Prop := forall s, s_input (fst (m s)) = s_input s /\ s_os (fst (m s)) = s_os s /\ s_is (fst (m s)) = s_is s.
Lemma state_inert b F L h s' : state b F L h -> s_input s' = s_input (h_s h) -> s_os s' = s_os (h_s h) -> s_is s' = s_is (h_s h) -> state b F L (Hst s' (h_heap h) (h_ptrs h) (h_os h) (h_is h)).
Proof. intros [A B C D E] E1 E2 E3. constructor; cbn [h_s h_ptrs h_os h_is h_heap]; rewrite ?E1, ?E2, ?E3; assumption. Qed.
Definition lasting (Q : hst -> Prop) : Prop := forall h s', Q h -> s_input s' = s_input (h_s h) -> s_os s' = s_os (h_s h) -> s_is s' = s_is (h_s h) -> Q (Hst s' (h_heap h) (h_ptrs h) (h_os h) (h_is h)).
Lemma ht_inert {A} (Q : hst -> Prop) (m : M A) : lasting Q -> inert m -> ht Q (plain m) (fun _ => Q) Q.
Proof.
  intros HQ I. apply ht_plain. intros h HP. destruct (I (h_s h)) as (A1 & A2 & A3). destruct (m (h_s h)) as [s' r]. cbn [fst] in *. specialize (HQ h s' HP A1 A2 A3). destruct r; exact HQ.
Qed.
Lemma lasting_state b F L : lasting (state b F L).
Proof. intros h s' H0 E1 E2 E3. apply state_inert; assumption. Qed.
Lemma inert_bind {A B} (m : M A) (k : A -> M B) : inert m -> (forall a, inert (k a)) -> inert (mbind m k).
Proof.
  intros Hm Hk s. destruct (Hm s) as (A1 & A2 & A3). unfold mbind. destruct (m s) as [s' r]. cbn [fst] in *. destruct r as [a| | | |]; try (cbn [fst]; auto). destruct (Hk a s') as (B1 & B2 & B3). repeat split; congruence.
Qed.
Lemma inert_lift {A} (r : res A) : inert (mlift r).
Proof. intros s. auto. Qed.
Lemma inert_gets {A} (f : rst -> A) : inert (gets f).
Proof. intros s. auto. Qed.
Lemma inert_put t : inert (put t).
Proof. intros s. unfold put, modify, put_text. cbn [fst]. destruct (s_os s) as [k|] eqn:E; [|cbn; auto]. destruct (s_files s k) as [[r w b|r w x]|]; cbn; auto. Qed.
Lemma inert_mode e : inert (GetCompareMode e).
Proof. intros s. auto. Qed.
Lemma inert_loop e : forall fuel argc argv inf outf, inert (parse_loop e fuel argc argv inf outf).
Proof.
  induction fuel as [|fuel IH]; intros argc argv inf outf s; [cbn; auto|]. cbn [parse_loop]. destruct (argc <=? 1); [cbn; auto|]. revert s.
  match goal with |- forall s, s_input (fst (?t s)) = _ /\ _ => change (inert t) end.
  apply inert_bind; [apply inert_lift|]. intros a.
  repeat first [apply IH | apply inert_lift | apply inert_gets | apply inert_bind; [|intros ?] | match goal with |- inert (modify _) => intros ?; auto | |- context [if ?x then _ else _] => destruct x | |- inert (mret _) => intros ?; auto end].
Qed.
Lemma inert_Parse e fuel argv : inert (ParseAndRemoveArguments e fuel argv).
Proof.
  apply inert_bind; [apply inert_loop|]. intros [[[argc argv'] inf] outf]. apply inert_bind; [intros s; cbn; destruct inf; auto|]. intros _. apply inert_bind; [intros s; cbn; destruct outf; auto|]. intros _ s. cbn. auto.
Qed.

(** * Single steps *)
Lemma ht_new b F L k X : ht (state b F L) (hnew k) (fun p => state b ((p, k) :: F) L) X.
Proof.
  intros h [A B C D E]. unfold hnew. pose proof (holds_alloc _ _ _ k E) as Ha. destruct (alloc k (h_heap h)) as [hp p] eqn:Ea. assert (p = next (h_heap h)) as -> by (unfold alloc in Ea; congruence). cbn [fst] in Ha.
  constructor; cbn [h_s h_ptrs h_os h_is h_heap owned]; try assumption. eapply holds_perm; [|exact Ha]. apply Permutation_middle.
Qed.
Lemma ht_delete b F L p k X : ht (state b ((p, k) :: F) L) (hdelete p) (fun _ => state b F L) X.
Proof.
  intros h [A B C D E]. unfold hdelete, on_heap. constructor; cbn [h_s h_ptrs h_os h_is h_heap owned]; try assumption. apply (holds_delete p k). eapply holds_perm; [|exact E]. apply Permutation_sym, Permutation_middle.
Qed.
Lemma ht_use b F L p k X : In (p, k) F -> ht (state b F L) (huse p) (fun _ => state b F L) X.
Proof.
  intros I h [A B C D E]. unfold huse, on_heap. constructor; cbn [h_s h_ptrs h_os h_is h_heap owned]; try assumption. rewrite (holds_access p k _ L _ (in_or_app _ _ _ (or_intror I)) E). exact E.
Qed.
Lemma ht_perm b F F' L : Permutation F F' -> forall h, state b F L h -> state b F' L h.
Proof. intros P h [A B C D E]. constructor; try assumption. eapply holds_perm; [|exact E]. apply Permutation_app_head, P. Qed.
Lemma state_weak b F L h : state b F L h -> state false F L h.
Proof. intros [A B C D E]. constructor; try assumption. discriminate. Qed.
Lemma os_access F L h b : state b F L h -> access_opt (h_os h) (h_heap h) = h_heap h.
Proof. intros [A B C D E]. apply (holds_access_opt _ KStream (owned h ++ F) L); [|exact E]. intros q Eq. apply in_or_app. left. unfold owned. rewrite Eq. apply in_or_app. right. left. reflexivity. Qed.
Lemma is_access F L h b : state b F L h -> access_opt (h_is h) (h_heap h) = h_heap h.
Proof. intros [A B C D E]. apply (holds_access_opt _ KStream (owned h ++ F) L); [|exact E]. intros q Eq. apply in_or_app. left. unfold owned. rewrite Eq. apply in_or_app. right. apply in_or_app. right. left. reflexivity. Qed.
Lemma ht_put b F L t X : ht (state b F L) (h_put t) (fun _ => state b F L) X.
Proof.
  intros h S. unfold h_put, hbind, get_h, on_heap, plain. rewrite (os_access F L h b S). cbn [h_s h_heap h_ptrs h_os h_is]. destruct (inert_put t (h_s h)) as (A1 & A2 & A3).
  unfold put, modify in *. cbn [fst] in *. apply state_inert; assumption.
Qed.
Lemma ht_put_meas b F L m : ht (state b F L) (h_put_meas m) (fun _ => state b F L) (state b F L).
Proof. unfold h_put_meas. eapply ht_bind; [apply ht_inert; [apply lasting_state|apply inert_lift]|]. intros t. apply ht_put. Qed.
Lemma ht_weak {A} (Pre : hst -> Prop) (m : H A) Q (X X' : hst -> Prop) : (forall h, X h -> X' h) -> ht Pre m Q X -> ht Pre m Q X'.
Proof. intros I Hm. eapply ht_post; [exact Hm|auto|exact I]. Qed.

(** * Comparing one measurement *)
Lemma inert_count : inert (modify (fun s => set_unmatched s (s_unmatched s + 1))).
Proof. intros s. auto. Qed.
Lemma ht_Unmatched b F L m : ht (state b F L) (h_Unmatched m) (fun _ => state b F L) (state b F L).
Proof. unfold h_Unmatched. eapply ht_bind; [apply ht_inert; [apply lasting_state|apply inert_count]|]. intros ?. apply ht_put_meas. Qed.
(** what an exception leaves behind: the visitors [V] *)
Definition after_throw (F : list (nat * kind)) (L : nat -> option kind) (n : nat) (h : hst) : Prop := exists V, length V <= n /\ state false (vs V ++ F) L h.
Lemma throw_none b F L n h : state b F L h -> after_throw F L n h.
Proof. intros S. exists []. split; [apply Nat.le_0_l|]. apply state_weak in S. exact S. Qed.
Lemma throw_one b F L n p h : state b ((p, KVisitor) :: F) L h -> 1 <= n -> after_throw F L n h.
Proof. intros S Hn. exists [p]. split; [exact Hn|]. apply state_weak in S. exact S. Qed.
Lemma throw_more F L n p h : after_throw ((p, KVisitor) :: F) L n h -> after_throw F L (S n) h.
Proof. intros (V & HV & S). exists (V ++ [p]). split; [rewrite app_length; cbn; lia|]. unfold vs in *. rewrite map_app, <- app_assoc. exact S. Qed.
(** [DifferenceMeasurement] throws nothing *)
Definition in_difference : nat := if all then 1 else 0.
Lemma ht_Difference b F L e m bp bl : In (bp, KMeasurement) F -> ht (state b F L) (h_Difference e m bp bl) (fun _ => state b F L) (after_throw F L in_difference).
Proof.
  intros I. unfold h_Difference.
  eapply ht_bind; [eapply ht_weak; [intros h; apply (throw_none b)|]; apply ht_inert; [apply lasting_state|apply inert_count]|]. intros ?.
  eapply ht_bind; [apply ht_new|]. intros v. cbv beta.
  eapply ht_bind; [apply (ht_use b _ L v KVisitor); left; reflexivity|]. intros ?.
  eapply ht_bind; [apply (ht_use b _ L bp KMeasurement); right; exact I|]. intros ?.
  eapply ht_bind with (Q := fun _ => state b ((v, KVisitor) :: F) L).
  { intros h S. unfold plain, mlift. pose proof (difference_calm (e_sc e) (e_asserts e) (e_oob e) bl m) as Dc. unfold in_difference, counts.
    assert (Y : all = true -> after_throw F L (if all then 1 else 0) h) by (intros ->; apply (throw_one b F L 1 v h S), le_n).
    assert (Eh : Hst (h_s h) (h_heap h) (h_ptrs h) (h_os h) (h_is h) = h) by (destruct h; reflexivity). rewrite Eh.
    destruct (snd (Difference (e_sc e) (e_asserts e) (e_oob e) bl m)) as [t|i| | |]; auto. elim (Dc i). reflexivity. }
  intros t. eapply ht_bind; [apply ht_put|]. intros ?. apply ht_delete.
Qed.
Lemma ht_if {A} Pre (c : bool) (m n : H A) Q X : ht Pre m Q X -> ht Pre n Q X -> ht Pre (if c then m else n) Q X.
Proof. intros Hm Hn. destruct c; assumption. Qed.
Definition after_compare (F : list (nat * kind)) (L : nat -> option kind) (h : hst) : Prop := exists B V, length B <= 1 /\ length V <= S in_difference /\ state false (ms B ++ vs V ++ F) L h.
Lemma after_compare_none b F L h : state b F L h -> after_compare F L h.
Proof. intros S. exists [], []. cbn [length ms vs map app]. split; [lia|]. split; [lia|]. apply state_weak in S. exact S. Qed.
Lemma after_compare_throw F L n p h : n <= S in_difference -> after_throw ((p, KMeasurement) :: F) L n h -> after_compare F L h.
Proof.
  intros Hn (V & HV & S). exists [p], V. cbn [length ms map app]. split; [lia|]. split; [lia|]. eapply ht_perm; [|exact S]. apply Permutation_sym, Permutation_middle.
Qed.
Lemma ht_Compare b F L e m t : ht (state b F L) (h_Compare e m t) (fun _ => state b F L) (after_compare F L).
Proof.
  intros h S. unfold h_Compare. unfold hbind at 1. unfold plain at 1. unfold gets. destruct (s_input (h_s h)) as [|bl rest] eqn:Ei.
  - assert (X : ht (state b F L) (_ <* h_Unmatched m ;; hret 1%Z) (fun _ => state b F L) (after_compare F L)).
    { eapply ht_bind; [eapply ht_weak; [intros h'; apply (after_compare_none b)|]; apply ht_Unmatched|]. intros ?. apply ht_ret. auto. }
    destruct h as [s hp ps os is]. apply X. exact S.
  - unfold hbind at 1. unfold get_h. cbv zeta. unfold hbind at 1. unfold set_h_ptrs. unfold hbind at 1. unfold plain at 1. unfold modify. cbn [h_s h_heap h_ptrs h_os h_is].
    destruct (h_ptrs h) as [|bp ps] eqn:Ep; [pose proof (st_len _ _ _ _ S) as El; rewrite Ei, Ep in El; discriminate El|]. cbn [hd tl].
    set (F' := (bp, KMeasurement) :: F). set (h1 := Hst _ _ _ _ _).
    assert (S1 : state b F' L h1).
    { destruct S as [A B C D E]. constructor; unfold h1; cbn [h_s h_ptrs h_os h_is h_heap].
      - rewrite Ei, Ep in A. cbn in *. congruence.
      - exact B.
      - exact C.
      - intros Hb Hi. specialize (D Hb Hi). rewrite Ep in D. discriminate D.
      - unfold owned in *. rewrite Ep in E. cbn [ms map app h_ptrs h_os h_is] in *. eapply holds_perm; [|exact E]. unfold F'. apply Permutation_middle. }
    match goal with |- match ?t h1 with _ => _ end => cut (ht (state b F' L) t (fun _ => state b F L) (after_compare F L)); [intros X; exact (X h1 S1)|] end. clear S S1 h1.
    assert (I : In (bp, KMeasurement) F') by (left; reflexivity).
    eapply ht_bind; [apply (ht_use b F' L bp KMeasurement); exact I|]. intros ?.
    eapply ht_bind with (Q := fun _ => state b F' L).
    2:{ intros r. eapply ht_bind; [apply ht_delete|]. intros ?. apply ht_ret. auto. }
    apply (ht_weak _ _ _ (after_throw F' L (S in_difference))); [intros h'; apply (after_compare_throw F L (S in_difference) bp h'), le_n|].
    apply ht_if.
    2:{ eapply ht_bind; [eapply ht_weak; [intros h'; apply (throw_none b)|]; apply ht_Unmatched|]. intros ?. apply ht_ret. auto. }
    eapply ht_bind; [eapply ht_weak; [intros h'; apply (throw_none b)|]; apply ht_inert; [apply lasting_state|intros s; auto]|]. intros bl'.
    eapply ht_bind; [apply ht_new|]. intros v. cbv beta.
    eapply ht_bind; [apply (ht_use b _ L v KVisitor); left; reflexivity|]. intros ?.
    eapply ht_bind; [apply (ht_use b _ L bp KMeasurement); right; exact I|]. intros ?.
    assert (W : forall h', state b ((v, KVisitor) :: F') L h' -> after_throw F' L (S in_difference) h') by (intros h' Hh; apply (throw_one b F' L (S in_difference) v h' Hh); lia).
    eapply ht_bind; [eapply ht_weak; [exact W|]; apply ht_inert; [apply lasting_state|apply inert_gets]|]. intros [[b1 m1] vd].
    eapply ht_bind; [eapply ht_weak; [exact W|]; apply ht_inert; [apply lasting_state|apply inert_lift]|]. intros same.
    eapply ht_bind with (Q := fun _ => state b ((v, KVisitor) :: F') L).
    + apply ht_if; [apply ht_ret; auto|]. eapply ht_bind; [apply (ht_weak _ _ (fun _ => state b ((v, KVisitor) :: F') L) (after_throw ((v, KVisitor) :: F') L in_difference)); [intros h'; apply throw_more|]; apply ht_Difference; right; exact I|]. intros ?. apply ht_ret. auto.
    + intros r. eapply ht_bind; [apply ht_delete|]. intros ?. apply ht_ret. auto.
Qed.
Lemma ht_Measure b F L e c : ht (state b F L) (h_Measure e c) (fun _ => state b F L) (after_compare F L).
Proof.
  unfold h_Measure. eapply ht_bind; [eapply ht_weak; [intros h'; apply (after_compare_none b)|]; apply ht_inert; [apply lasting_state|apply inert_mode]|]. intros cm. apply ht_if; [apply ht_Compare|].
  eapply ht_bind; [eapply ht_weak; [intros h'; apply (after_compare_none b)|]; apply ht_put_meas|]. intros ?. apply ht_ret. auto.
Qed.
Lemma ht_run b F L e p : ht (state b F L) (h_run e p) (fun _ => state b F L) (after_compare F L).
Proof.
  induction p as [z|x|c k IH|t k IH|z k IH|path by_ k IH]; cbn [h_run].
  - apply ht_ret. auto.
  - eapply ht_weak; [intros h'; apply (after_compare_none b)|]. apply ht_inert; [apply lasting_state|apply inert_lift].
  - eapply ht_bind; [apply ht_Measure|]. intros r. apply IH.
  - eapply ht_bind; [eapply ht_weak; [intros h'; apply (after_compare_none b)|]; apply ht_inert; [apply lasting_state|intros s; auto]|]. intros ?. apply IH.
  - eapply ht_bind; [eapply ht_weak; [intros h'; apply (after_compare_none b)|]; apply ht_inert; [apply lasting_state|intros s; auto]|]. intros ?. apply IH.
  - eapply ht_bind; [eapply ht_weak; [intros h'; apply (after_compare_none b)|]; apply ht_inert; [apply lasting_state|intros s; auto]|]. intros ?. apply IH.
Qed.

(** * Beginning *)
Lemma ht_eq {A} (Pre : hst -> Prop) (m n : H A) Q X : (forall h, m h = n h) -> ht Pre n Q X -> ht Pre m Q X.
Proof. intros E Hn h HP. rewrite E. apply Hn, HP. Qed.
Definition at_start (b : bool) (F : list (nat * kind)) (L : nat -> option kind) (h : hst) : Prop := state b F L h /\ (b = true -> h_ptrs h = [] /\ h_is h = None).
(** the stream opened before, if any, is lost *)
Definition dropped (b : bool) (was : option nat) (F : list (nat * kind)) (L : nat -> option kind) (Q : list (nat * kind) -> hst -> Prop) (h : hst) : Prop :=
  exists D, (D = [] \/ D = opt was) /\ Q (ss D ++ F) h.
Lemma state_drop_os b F L h v hp s' : state b F L h -> holds (owned (Hst s' hp (h_ptrs h) v (h_is h)) ++ ss (opt (h_os h)) ++ F) L hp ->
  (v = None <-> s_os s' = None) -> s_input s' = s_input (h_s h) -> s_is s' = s_is (h_s h) -> state b (ss (opt (h_os h)) ++ F) L (Hst s' hp (h_ptrs h) v (h_is h)).
Proof. intros [A B C D E] Hh Hv E1 E2. constructor; cbn [h_s h_ptrs h_os h_is h_heap]; rewrite ?E1, ?E2; assumption. Qed.
Lemma owned_os h s' hp p F : Permutation ((p, KStream) :: owned h ++ F) (owned (Hst s' hp (h_ptrs h) (Some p) (h_is h)) ++ ss (opt (h_os h)) ++ F).
Proof.
  unfold owned. cbn [h_ptrs h_os h_is opt ss map]. rewrite <- !app_assoc. cbn [app]. eapply Permutation_trans; [|apply Permutation_middle]. apply Permutation_cons; [reflexivity|].
  apply Permutation_app_head. rewrite !app_assoc. apply Permutation_app_tail, Permutation_app_comm.
Qed.
Lemma owned_is h s' hp p F : Permutation ((p, KStream) :: owned h ++ F) (owned (Hst s' hp (h_ptrs h) (h_os h) (Some p)) ++ ss (opt (h_is h)) ++ F).
Proof.
  unfold owned. cbn [h_ptrs h_os h_is opt ss map]. rewrite <- !app_assoc. cbn [app]. rewrite !(app_assoc (ms (h_ptrs h)) (ss (opt (h_os h)))). apply Permutation_middle.
Qed.
Lemma open_output_effect e s : s_out s <> [] -> let r := open_output e s in
  s_input (fst r) = s_input s /\ s_is (fst r) = s_is s /\ (snd r = Ok tt /\ s_os (fst r) <> None \/ snd r = Throw ExnRuntime /\ s_os (fst r) = None).
Proof.
  intros N. cbv zeta. unfold open_output. destruct (s_out s) as [|c n]; [congruence|]. assert (X : forall k, Some k <> @None str) by discriminate.
  destruct (slot e (c :: n)) as [k|]; [|cbn; auto]. destruct (s_files s k) as [[r [|] b|r w x]|]; cbn; auto 7. destruct (e_cancreate e _); cbn; auto 7.
Qed.
Definition new_output (e : env) : H unit := p <* hnew KStream ;; _ <* set_h_os (Some p) ;; on_throw (plain (open_output e)) (os <* get_h h_os ;; _ <* hdelete_opt os ;; set_h_os None).
Lemma open_output_cases e h : h_open_output e h = match s_out (h_s h) with [] => (h, Ok tt) | _ => new_output e h end.
Proof. reflexivity. Qed.
Lemma new_output_spec b F L e h : state b F L h -> s_out (h_s h) <> [] ->
  exists v, fst (new_output e h) = Hst (fst (open_output e (h_s h))) (h_heap (fst (new_output e h))) (h_ptrs h) v (h_is h) /\ state b (ss (opt (h_os h)) ++ F) L (fst (new_output e h)).
Proof.
  intros S N. destruct (open_output_effect e (h_s h) N) as (E1 & E2 & E3). unfold new_output, hbind, hnew, set_h_os, on_throw, plain, get_h. cbn [alloc h_s h_heap h_ptrs h_os h_is].
  pose proof (holds_alloc _ _ _ KStream (st_holds _ _ _ _ S)) as Ha. cbn [alloc fst] in Ha. set (hp := Heap _ _ _) in *. destruct (open_output e (h_s h)) as [s' r]. cbn [fst snd] in *.
  destruct E3 as [[-> E3]|[-> E3]]; cbn [fst snd h_s h_heap h_ptrs h_os h_is hdelete_opt hdelete on_heap]; eexists; (split; [reflexivity|]); apply state_drop_os; try assumption.
  - eapply holds_perm; [apply (owned_os h s' hp)|exact Ha].
  - split; [discriminate|congruence].
  - eapply holds_perm; [|eapply holds_delete; exact Ha]. unfold owned. cbn [h_ptrs h_os h_is opt ss map app]. rewrite <- !app_assoc. apply Permutation_app_head. rewrite !app_assoc. apply Permutation_app_tail, Permutation_app_comm.
  - tauto.
Qed.
(** the two ways to open *)
Lemma ht_open_output b F L e was : ht (fun h => at_start b F L h /\ h_os h = was) (h_open_output e)
  (fun _ h => exists D, (D = [] \/ D = opt was) /\ at_start b (ss D ++ F) L h) (fun h => exists D, (D = [] \/ D = opt was) /\ state b (ss D ++ F) L h).
Proof.
  intros h ((S & I) & <-). rewrite open_output_cases. destruct (s_out (h_s h)) as [|c n] eqn:E; [exists []; split; [auto|split; assumption]|].
  assert (N : s_out (h_s h) <> []) by (rewrite E; discriminate). destruct (new_output_spec b F L e h S N) as (v & Ev & S'). destruct (new_output e h) as [h' r]. cbn [fst] in *.
  assert (at_start b (ss (opt (h_os h)) ++ F) L h') by (split; [exact S'|]; intros Hb; destruct (I Hb) as [I1 I2]; rewrite Ev; cbn; auto).
  destruct r; exists (opt (h_os h)); auto.
Qed.
Lemma open_input_effect e s : s_in s <> [] -> (exists p, search e s (s_in s) = Ok p) -> let r := open_input e s in
  s_input (fst r) = s_input s /\ s_os (fst r) = s_os s /\ (snd r = Ok tt /\ s_is (fst r) <> None \/ snd r = Throw ExnRuntime /\ s_is (fst r) = None).
Proof.
  intros N [p Ep]. cbv zeta. unfold open_input. destruct (s_in s) as [|c n] eqn:E; [congruence|]. rewrite Ep. set (q := match p with [] => _ | _ => _ end).
  destruct (can_open e (s_files s) q) eqn:Ec; [|cbn; auto]. cbn. repeat split. left. split; [reflexivity|]. unfold can_open, node_at in Ec. destruct (slot e q); discriminate.
Qed.
Lemma state_drop_is b F L h v hp s' : state b F L h -> (b = true -> h_ptrs h = []) -> holds (owned (Hst s' hp (h_ptrs h) (h_os h) v) ++ ss (opt (h_is h)) ++ F) L hp ->
  (v = None <-> s_is s' = None) -> s_input s' = s_input (h_s h) -> s_os s' = s_os (h_s h) -> state b (ss (opt (h_is h)) ++ F) L (Hst s' hp (h_ptrs h) (h_os h) v).
Proof. intros [A B C D E] Hb Hh Hv E1 E2. constructor; cbn [h_s h_ptrs h_os h_is h_heap]; rewrite ?E1, ?E2; try assumption. intros Eb _. apply Hb, Eb. Qed.
Lemma new_input_spec b F L e h : state b F L h -> (b = true -> h_ptrs h = []) -> s_in (h_s h) <> [] -> (exists p, search e (h_s h) (s_in (h_s h)) = Ok p) ->
  h_ptrs (fst (new_input e h)) = h_ptrs h /\ state b (ss (opt (h_is h)) ++ F) L (fst (new_input e h)).
Proof.
  intros S Hb N Hp. destruct (open_input_effect e (h_s h) N Hp) as (E1 & E2 & E3). unfold new_input, hbind, hnew, set_h_is, on_throw, plain, get_h. cbn [alloc h_s h_heap h_ptrs h_os h_is].
  pose proof (holds_alloc _ _ _ KStream (st_holds _ _ _ _ S)) as Ha. cbn [alloc fst] in Ha. set (hp := Heap _ _ _) in *. destruct (open_input e (h_s h)) as [s' r]. cbn [fst snd] in *.
  destruct E3 as [[-> E3]|[-> E3]]; cbn [fst snd h_s h_heap h_ptrs h_os h_is hdelete_opt hdelete on_heap]; (split; [reflexivity|]); apply state_drop_is; try assumption.
  - eapply holds_perm; [apply (owned_is h s' hp)|exact Ha].
  - split; [discriminate|congruence].
  - eapply holds_perm; [|eapply holds_delete; exact Ha]. unfold owned. cbn [h_ptrs h_os h_is opt ss map app]. rewrite <- !app_assoc. apply Permutation_refl.
  - tauto.
Qed.
Definition was_is (b : bool) (D : list nat) : Prop := length D <= 1 /\ (b = true -> D = []).
Lemma ht_open_input b F L e : ht (at_start b F L) (h_open_input e)
  (fun _ h => exists D, was_is b D /\ state b (ss D ++ F) L h /\ (b = true -> h_ptrs h = [])) (fun h => exists D, was_is b D /\ state b (ss D ++ F) L h).
Proof.
  intros h (S & I). assert (Ip : b = true -> h_ptrs h = []) by (intros Hb; apply I, Hb). rewrite open_input_cases. destruct (s_in (h_s h)) as [|c n] eqn:E; [exists []; split; [split; [cbn; lia|reflexivity]|split; assumption]|].
  destruct (search e (h_s h) (c :: n)) as [p| | | |] eqn:Es; try (exists []; split; [split; [cbn; lia|reflexivity]|exact S]).
  destruct (new_input_spec b F L e h S Ip) as (Ev & S'); [rewrite E; discriminate|exists p; rewrite E; exact Es|]. destruct (new_input e h) as [h' r]. cbn [fst] in *.
  assert (W : was_is b (opt (h_is h))) by (split; [destruct (h_is h); cbn; lia|intros Hb; destruct (I Hb) as [_ ->]; reflexivity]).
  destruct r; exists (opt (h_is h)); rewrite ?Ev; auto.
Qed.

(** * Reading the baseline *)
(** lost while the baseline is read: on a failure the parser and measurements *)
Definition read_loss (P : list nat) (X : list (nat * kind)) : Prop := X = [] \/ exists q Y, X = (q, KParser) :: ms Y.
Lemma a_ReadXMLInput_spec asserts ext file F L hp : holds F L hp ->
  let r := a_ReadXMLInput asserts ext file hp in
  match ReadXMLInput asserts ext file with
  | Ok l => exists X, holds (ms (snd r) ++ ms X ++ F) L (fst r) /\ length (snd r) = length l /\ ((forall b, well_reported (ext b)) -> X = [])
  | _ => exists q Y, holds ((q, KParser) :: ms Y ++ F) L (fst r)
  end.
Proof.
  intros Ho. cbv zeta. unfold a_ReadXMLInput. pose proof (holds_alloc _ _ _ KParser Ho) as Ha. destruct (alloc KParser hp) as [hp1 q] eqn:Eq. assert (q = next hp) as -> by (unfold alloc in Eq; congruence). cbn [fst] in Ha.
  destruct (buffers (S (length file)) (length file) file) as [bufs| | | |] eqn:Eb; unfold ReadXMLInput; rewrite Eb; cbn [bind fst snd]; try (exists (next hp), []; exact Ha).
  destruct (expat ext (concat (map fst bufs))) as [evs ok] eqn:Ex. assert (P0 : paired pd0 (PP None [])) by (constructor; cbn; [tauto|reflexivity|congruence]).
  destruct (a_events_spec asserts evs pd0 (PP None []) ((next hp, KParser) :: F) L hp1 P0 Ha) as (X & HX & HD & HP). destruct (a_on_events asserts pd0 evs (PP None []) hp1) as [hp2 q2]. cbn [fst snd] in *.
  assert (Z : exists q Y, holds ((q, KParser) :: ms Y ++ F) L hp2).
  { exists (next hp), (opt (pp_m q2) ++ pp_list q2 ++ X). eapply holds_perm; [|exact HX]. perm. }
  destruct (on_events asserts pd0 evs) as [p'| | | |] eqn:Ee; cbn [bind fst snd]; try exact Z.
  destruct (asserts && negb (match pm p' with None => true | _ => false end)) eqn:Ea; cbn [bind fst snd]; [exact Z|]. destruct ok; [|exact Z]. cbn [fst snd]. specialize (HP p' eq_refl).
  exists (opt (pp_m q2) ++ X). split; [|split; [apply (pa_len _ _ HP)|]].
  - apply (holds_delete (next hp) KParser). eapply holds_perm; [|exact HX]. perm.
  - intros W. pose proof (expat_sound ext (concat (map fst bufs)) (W _)) as Sd. rewrite Ex in Sd. destruct (Sd eq_refl) as (Ds & Dp). cbn [fst] in *. rewrite (HD Ds). apply on_events_depth in Ee. cbn [pdepth pd0] in Ee. rewrite Dp in Ee.
    assert (N : pm p' = None) by (destruct (pm p') eqn:Em; [|reflexivity]; assert (2 <= pdepth p') by (apply (pa_deep _ _ HP); rewrite Em; discriminate); lia). rewrite (proj2 (pa_m _ _ HP) N). reflexivity.
Qed.
(** after reading: [X] is lost *)
Lemma ht_read_input b F L e : (b = true -> forall x, well_reported (e_ext e x)) ->
  ht (fun h => state b F L h /\ (b = true -> h_ptrs h = [])) (h_read_input e) (fun _ h => exists X, (b = true -> X = []) /\ state b (ms X ++ F) L h) (fun h => state false F L h \/ exists q Y, state false ((q, KParser) :: ms Y ++ F) L h).
Proof.
  intros W. apply ht_all. intros h (S & Hb). unfold h_read_input, hbind at 1 2. unfold get_h, on_heap at 1. rewrite (is_access F L h b S).
  destruct h as [s hp ps os is]. cbn [h_s h_heap h_ptrs h_os h_is] in *. destruct (s_is s) as [k|] eqn:Ei.
  2:{ unfold plain, read_input. cbn [h_s h_heap h_ptrs h_os h_is]. rewrite Ei. left. apply state_weak in S. exact S. }
  destruct (s_files s k) as [[r w by_|r w x]|] eqn:Ef.
  - pose proof (a_ReadXMLInput_spec (e_asserts e) (e_ext e) by_ _ L hp (st_holds _ _ _ _ S)) as Sp. cbv zeta in Sp. destruct (a_ReadXMLInput (e_asserts e) (e_ext e) by_ hp) as [hp1 l]. cbn [fst snd] in Sp.
    unfold hbind, on_heap, plain, read_input, set_h_ptrs. cbn [h_s h_heap h_ptrs h_os h_is]. rewrite Ei, Ef.
    destruct (ReadXMLInput (e_asserts e) (e_ext e) by_) as [ml| | | |] eqn:Er; cbn [h_s h_heap h_ptrs h_os h_is].
    + destruct Sp as (X & HX & El & EX). exists (X ++ ps). destruct S as [A B C D E]. cbn [h_s h_heap h_ptrs h_os h_is owned] in *. split; [intros Eb; rewrite (EX (W Eb)), (Hb Eb); reflexivity|].
      constructor; cbn [h_s h_heap h_ptrs h_os h_is set_input s_input s_os s_is] in *; try assumption.
      * intros _ Ei'. rewrite Ei in Ei'. discriminate Ei'.
      * eapply holds_perm; [|exact HX]. unfold owned. cbn [h_ptrs h_os h_is]. perm.
    + destruct Sp as (q & Y & HY). right. exists q, Y. destruct S as [A B C D E]. constructor; cbn [h_s h_heap h_ptrs h_os h_is] in *; try assumption; [discriminate|]. eapply holds_perm; [|exact HY]. unfold owned; cbn [h_ptrs h_os h_is]. perm.
    + destruct Sp as (q & Y & HY). right. exists q, Y. destruct S as [A B C D E]. constructor; cbn [h_s h_heap h_ptrs h_os h_is] in *; try assumption; [discriminate|]. eapply holds_perm; [|exact HY]. unfold owned; cbn [h_ptrs h_os h_is]. perm.
    + destruct Sp as (q & Y & HY). right. exists q, Y. destruct S as [A B C D E]. constructor; cbn [h_s h_heap h_ptrs h_os h_is] in *; try assumption; [discriminate|]. eapply holds_perm; [|exact HY]. unfold owned; cbn [h_ptrs h_os h_is]. perm.
    + destruct Sp as (q & Y & HY). right. exists q, Y. destruct S as [A B C D E]. constructor; cbn [h_s h_heap h_ptrs h_os h_is] in *; try assumption; [discriminate|]. eapply holds_perm; [|exact HY]. unfold owned; cbn [h_ptrs h_os h_is]. perm.
  - pose proof (ht_new b F L KParser (fun _ => False) _ S) as Sn. unfold hbind. destruct (hnew KParser _) as [h1 [q| | | |]] eqn:En; try discriminate En. unfold hnew in En. cbn [alloc h_s h_heap h_ptrs h_os h_is] in En. assert (E1 : h_s h1 = s) by (injection En as <-; reflexivity).
    unfold plain, read_input. rewrite E1, Ei, Ef. right. exists q, []. apply state_weak in Sn. rewrite <- E1. destruct h1. exact Sn.
  - pose proof (ht_new b F L KParser (fun _ => False) _ S) as Sn. unfold hbind. destruct (hnew KParser _) as [h1 [q| | | |]] eqn:En; try discriminate En. unfold hnew in En. cbn [alloc h_s h_heap h_ptrs h_os h_is] in En. assert (E1 : h_s h1 = s) by (injection En as <-; reflexivity).
    unfold plain, read_input. rewrite E1, Ei, Ef. right. exists q, []. apply state_weak in Sn. rewrite <- E1. destruct h1. exact Sn.
Qed.

(** * A whole run *)
Definition idle (h : hst) : Prop := h_ptrs h = [] /\ h_os h = None /\ h_is h = None.
(** lost by a failure: the parser with the measurements read, or the measurement compared and the visitors *)
Definition few (X : list (nat * kind)) : Prop := (exists q Y, X = (q, KParser) :: ms Y) \/ exists B V, length B <= 1 /\ length V <= S in_difference /\ X = ms B ++ vs V.
Definition done_ok (b : bool) (F : list (nat * kind)) (L : nat -> option kind) (h : hst) : Prop := exists X, (b = true -> X = []) /\ state b (X ++ F) L h.
Definition failed (b : bool) (F : list (nat * kind)) (L : nat -> option kind) (h : hst) : Prop := exists X, (b = true -> few X) /\ state false (X ++ F) L h.
Lemma few_nil : few [].
Proof. right. exists [], []. cbn [length]. repeat split; lia. Qed.
Lemma failed_more b F L D h : (b = true -> D = []) -> failed b (D ++ F) L h -> failed b F L h.
Proof.
  intros HD (X & HX & S). exists (X ++ D). split; [intros Eb; rewrite (HD Eb), app_nil_r; apply HX, Eb|]. rewrite <- app_assoc. exact S.
Qed.
Lemma done_more b F L D h : (b = true -> D = []) -> done_ok b (D ++ F) L h -> done_ok b F L h.
Proof.
  intros HD (X & HX & S). exists (X ++ D). split; [intros Eb; rewrite (HD Eb), (HX Eb); reflexivity|]. rewrite <- app_assoc. exact S.
Qed.
Lemma failed_none b b' F L h : state b' F L h -> failed b F L h.
Proof. intros S. exists []. split; [intros _; apply few_nil|]. apply state_weak in S. exact S. Qed.
Lemma done_none b F L h : state b F L h -> done_ok b F L h.
Proof. intros S. exists []. split; [reflexivity|exact S]. Qed.
(** sequencing when [D] objects were lost on the way *)
Lemma ht_lossy {A B} b F L (Pre : hst -> Prop) (m : H A) (k : A -> H B) (R : list (nat * kind) -> hst -> Prop) :
  ht Pre m (fun _ h => exists D, (b = true -> D = []) /\ R (D ++ F) h) (failed b F L) ->
  (forall a D, (b = true -> D = []) -> ht (R (D ++ F)) (k a) (fun _ => done_ok b (D ++ F) L) (failed b (D ++ F) L)) -> ht Pre (hbind m k) (fun _ => done_ok b F L) (failed b F L).
Proof.
  intros Hm Hk. eapply ht_bind; [exact Hm|]. intros a h (D & HD & HR). specialize (Hk a D HD h HR). destruct (k a h) as [h' [x| | | |]]; [apply (done_more b F L D h' HD Hk)|..]; (intros Hc; exact (failed_more b F L D h' HD (Hk Hc))).
Qed.
Lemma ht_Begin b F L e : (b = true -> forall x, well_reported (e_ext e x)) ->
  ht (fun h => state b F L h /\ (b = true -> idle h)) (h_Begin e) (fun _ => done_ok b F L) (failed b F L).
Proof.
  intros W. unfold h_Begin.
  apply (ht_lossy b F L _ _ _ (fun F h => at_start b F L h)).
  { intros h (S & I). assert (P : at_start b F L h /\ h_os h = h_os h) by (split; [split; [exact S|intros Hb; destruct (I Hb) as (A & B & C); auto]|reflexivity]).
    pose proof (ht_open_output b F L e (h_os h) h P) as Ho. assert (Z : b = true -> opt (h_os h) = []) by (intros Hb; destruct (I Hb) as (A & -> & C); reflexivity).
    assert (Y : (exists D, (D = [] \/ D = opt (h_os h)) /\ state b (ss D ++ F) L (fst (h_open_output e h))) -> failed b F L (fst (h_open_output e h))).
    { intros (D & HD & S'). apply (failed_more b F L (ss D)); [|apply (failed_none b b), S']. intros Hb. destruct HD as [->| ->]; [reflexivity|]. rewrite (Z Hb). reflexivity. }
    destruct (h_open_output e h) as [h' [u| | | |]]; auto. destruct Ho as (D & HD & S').
    exists (ss D). split; [|exact S']. intros Hb. destruct HD as [->| ->]; [reflexivity|]. rewrite (Z Hb). reflexivity. }
  intros _ D0 _. generalize (D0 ++ F). clear F D0. intros F.
  apply (ht_lossy b F L _ _ _ (fun F h => state b F L h /\ (b = true -> h_ptrs h = []))).
  { intros h Hh. pose proof (ht_open_input b F L e h Hh) as Ho. 
    assert (Y : (exists D, was_is b D /\ state b (ss D ++ F) L (fst (h_open_input e h))) -> failed b F L (fst (h_open_input e h))).
    { intros (D & (HD1 & HD2) & S'). apply (failed_more b F L (ss D)); [|apply (failed_none b b), S']. intros Hb. rewrite (HD2 Hb). reflexivity. }
    destruct (h_open_input e h) as [h' [u| | | |]]; auto. destruct Ho as (D & (HD1 & HD2) & S'). exists (ss D). split; [intros Hb; rewrite (HD2 Hb); reflexivity|exact S']. }
  intros _ D0 _. generalize (D0 ++ F). clear F D0. intros F.
  eapply ht_bind with (Q := fun _ h => state b F L h /\ (b = true -> h_ptrs h = [])).
  { apply ht_all. intros h (S & I). unfold plain, GetCompareMode. destruct (compare_mode e (h_s h)); [split; [destruct h; exact S|exact I]|..]; (apply (failed_none b b); destruct h; exact S). }
  intros cm. apply ht_if.
  - intros h Hh. pose proof (ht_read_input b F L e W h Hh) as Ho.
    assert (Y : (state false F L (fst (h_read_input e h)) \/ exists q Y, state false ((q, KParser) :: ms Y ++ F) L (fst (h_read_input e h))) -> failed b F L (fst (h_read_input e h))).
    { intros [S'|(q & Y & S')]; [exact (failed_none b false F L _ S')|]. exists ((q, KParser) :: ms Y). split; [intros _; left; eauto|exact S']. }
    destruct (h_read_input e h) as [h' [u| | | |]]; auto. destruct Ho as (X & HX & S'). exists (ms X). split; [intros Hb; rewrite (HX Hb); reflexivity|exact S'].
  - eapply ht_post with (X := fun _ => False); [|intros u h; apply done_none|intros h []]. intros h (S & _). exact (ht_put b F L (header e) (fun _ => False) h S).
Qed.
Lemma ht_body b F L e test argv : (b = true -> forall x, well_reported (e_ext e x)) ->
  ht (fun h => state b F L h /\ (b = true -> idle h)) (h_main_body e test argv) (fun _ => done_ok b F L) (failed b F L).
Proof.
  intros W. unfold h_main_body. eapply ht_bind with (Q := fun _ h => state b F L h /\ (b = true -> idle h)).
  { apply (ht_weak _ _ _ (fun h => state b F L h /\ (b = true -> idle h))); [intros h (S & _); exact (failed_none b b F L h S)|]. apply ht_inert; [|apply inert_Parse]. intros h s' (S & I) E1 E2 E3. split; [apply state_inert; assumption|exact I]. }
  intros [argc argv']. apply (ht_lossy b F L _ _ _ (fun F h => state b F L h)); [apply ht_Begin, W|].
  intros _ D HD h S. pose proof (ht_run b (D ++ F) L e (test (firstn argc argv')) h S) as Hr. destruct (h_run e (test (firstn argc argv')) h) as [h' [x| | | |]]; [apply done_none, Hr|..].
  all: intros Hc; destruct (Hr Hc) as (B & V & HB & HV & S'); exists (ms B ++ vs V); (split; [intros _; right; eauto|]); rewrite <- app_assoc; exact S'.
Qed.

(** * The end *)
Lemma delete_all_spec b F L : forall l, ht (state b (ms l ++ F) L) (delete_all l) (fun _ => state b F L) (fun _ => False).
Proof. induction l as [|p l IH]; cbn [delete_all ms map app]; [apply ht_ret; auto|]. eapply ht_bind; [apply ht_delete|]. intros ?. exact IH. Qed.
(** the list given up before it is emptied *)
Lemma ht_free b F L h : state b F L h -> exists h', h_free h = (h', Ok tt) /\ state b F L h' /\ h_ptrs h' = [].
Proof.
  intros S. unfold h_free, hbind at 1, get_h. set (l := h_ptrs h).
  assert (S1 : state b (ms l ++ F) L (Hst (set_input (h_s h) []) (h_heap h) [] (h_os h) (h_is h))).
  { destruct S as [A B C D E]. constructor; cbn [h_s h_heap h_ptrs h_os h_is set_input s_input s_os s_is]; try assumption; try reflexivity. eapply holds_perm; [|exact E]. unfold owned. cbn [h_ptrs h_os h_is]. fold l. perm. }
  pose proof (delete_all_spec b F L l _ S1) as Hd. destruct h as [s hp ps os is]. cbn [h_s h_heap h_ptrs h_os h_is] in *. subst l. clear S S1.
  assert (X : forall l s' ps' hp, exists hp', delete_all l (Hst s hp ps os is) = (Hst s hp' ps os is, Ok tt) /\ delete_all l (Hst s' hp ps' os is) = (Hst s' hp' ps' os is, Ok tt)).
  { clear. induction l as [|p l IH]; intros s' ps' hp; cbn [delete_all]; [exists hp; split; reflexivity|]. unfold hbind, hdelete, on_heap. cbn [h_s h_heap h_ptrs h_os h_is]. apply IH. }
  destruct (X ps (set_input s []) [] hp) as (hp' & E1 & E2). unfold hbind at 1. rewrite E1. rewrite E2 in Hd. unfold hbind, set_h_ptrs, plain, modify. cbn [h_s h_heap h_ptrs h_os h_is]. eexists. split; [reflexivity|]. split; [exact Hd|reflexivity].
Qed.
Lemma holds_opt p k F L hp : holds (map (fun q => (q, k)) (opt p) ++ F) L hp -> holds F L (match p with Some q => dealloc q hp | None => hp end).
Proof. intros Ho. destruct p as [q|]; [|exact Ho]. eapply holds_delete. exact Ho. Qed.
Definition closed (h : hst) : hst := Hst (set_is (set_os (h_s h) None) None)
  (match h_is h with Some q => dealloc q | None => fun x => x end (match h_os h with Some q => dealloc q (h_heap h) | None => h_heap h end)) (h_ptrs h) None None.
Lemma ht_End b F L e : ht (state b F L) (h_End e) (fun _ h => state b F L h /\ h_os h = None /\ h_is h = None /\ (b = true -> h_ptrs h = [])) (state false F L).
Proof.
  unfold h_End. eapply ht_bind with (Q := fun cm h => state b F L h /\ (cm = false -> s_is (h_s h) = None)).
  { apply ht_all. intros h S. unfold plain, GetCompareMode. destruct (compare_mode e (h_s h)) as [cm| | | |] eqn:Ec; cbn [h_s]; try (apply state_weak in S; destruct h; exact S).
    split; [destruct h; exact S|]. intros ->. unfold compare_mode in Ec. destruct (s_is (h_s h)); [discriminate Ec|reflexivity]. }
  intros cm. eapply ht_bind with (Q := fun _ h => state b F L h /\ (b = true -> h_ptrs h = [])).
  { destruct cm.
    - intros h (S & _). destruct (ht_free b F L h S) as (h' & -> & S' & E). split; [exact S'|intros _; exact E].
    - intros h (S & Hi). pose proof (ht_put b F L footer (fun _ => False) h S) as Hp. destruct (h_put footer h) as [h' [u| | | |]] eqn:Eh; [|unfold h_put, hbind, get_h, on_heap, plain, put, modify in Eh; discriminate Eh..]. split; [exact Hp|]. intros Hb. apply (st_mode _ _ _ _ Hp Hb).
      assert (Y : h_s h' = fst (put footer (h_s h))) by (unfold h_put, hbind, get_h, on_heap, plain in Eh; cbn [h_s h_heap h_ptrs h_os h_is] in Eh; destruct (put footer (h_s h)); injection Eh as <- _; reflexivity).
      rewrite Y. destruct (inert_put footer (h_s h)) as (_ & _ & ->). apply Hi. reflexivity. }
  intros u h (S & Hp).
  match goal with |- match ?t h with _ => _ end => assert (E : t h = (closed h, Ok tt)) by (destruct h as [s hp ps [o|] [i|]]; reflexivity) end. rewrite E. clear E.
  split; [|auto]. destruct S as [A B C D E]. constructor; cbn [closed h_s h_heap h_ptrs h_os h_is set_is set_os s_input s_os s_is]; try assumption; try tauto.
  unfold owned in *. cbn [closed h_ptrs h_os h_is opt ss map app]. rewrite !app_nil_r.
  assert (X : holds (ms (h_ptrs h) ++ F) L (match h_is h with Some q => dealloc q (match h_os h with Some q0 => dealloc q0 (h_heap h) | None => h_heap h end) | None => match h_os h with Some q0 => dealloc q0 (h_heap h) | None => h_heap h end end)).
  { apply (holds_opt _ KStream), (holds_opt _ KStream). eapply holds_perm; [|exact E]. perm. }
  destruct (h_is h); exact X.
Qed.
(** The whole program.  The boolean: an exception was caught. *)
Definition quiet (b : bool) (F : list (nat * kind)) (L : nat -> option kind) (h : hst) : Prop :=
  exists X, (b = true -> X = []) /\ state b (X ++ F) L h /\ h_os h = None /\ h_is h = None /\ (b = true -> h_ptrs h = []).
Lemma ht_Main b F L e test argv h : (b = true -> forall x, well_reported (e_ext e x)) -> state b F L h -> (b = true -> idle h) ->
  let '(h', r, caught) := h_Main e test argv h in
  match r with
  | Ok _ | Throw _ => if caught then failed b F L h' else quiet b F L h'
  | _ => all = true -> failed b F L h' \/ quiet b F L h'
  end.
Proof.
  intros W S I. assert (I0 : True) by exact Logic.I. unfold h_Main. cbv zeta. set (h1 := fst (plain _ h)). assert (S1 : state b F L h1) by (unfold h1, plain, modify; cbn [fst]; apply state_inert; auto). assert (I1 : b = true -> idle h1) by exact I. clearbody h1.
  pose proof (ht_body b F L e test argv W h1 (conj S1 I1)) as Hb. destruct (h_main_body e test argv h1) as [h2 [ret| | | |]]; try (intros Ha; left; exact (Hb Ha)).
  - destruct Hb as (X & HX & S2). pose proof (ht_End b (X ++ F) L e h2 S2) as He. destruct (h_End e h2) as [h3 [u| | | |]].
    + destruct He as (S3 & Ho & Hi & Hp). set (h4 := fst (plain _ h3)). assert (S4 : state b (X ++ F) L h4) by (unfold h4, plain, modify; cbn [fst]; apply state_inert; auto).
      assert (Y : quiet b F L h4) by (exists X; refine (conj HX (conj S4 (conj Ho (conj Hi Hp))))).
      clearbody h4. destruct (negb _); [exact Y|]. destruct (compare_mode e (h_s h4)); cbn [bind]; auto.
    + assert (Z : failed b F L h3) by (apply (failed_more b F L X); [exact HX|exact (failed_none b false _ L h3 (He I0))]). destruct (negb _); [exact Z|]. destruct (compare_mode e (h_s h3)); cbn [bind]; auto.
    + intros Ha. left. apply (failed_more b F L X); [exact HX|exact (failed_none b false _ L h3 (He Ha))].
    + intros Ha. left. apply (failed_more b F L X); [exact HX|exact (failed_none b false _ L h3 (He Ha))].
    + intros Ha. left. apply (failed_more b F L X); [exact HX|exact (failed_none b false _ L h3 (He Ha))].
  - specialize (Hb I0). destruct (negb _); [exact Hb|]. destruct (compare_mode e (h_s h2)); cbn [bind]; auto.
Qed.
End All.
(** what was lost counts as not ours *)
Definition lose (X : list (nat * kind)) (L : nat -> option kind) (p : nat) : option kind :=
  match find (fun x => fst x =? p) X with Some (_, k) => Some k | None => L p end.
Lemma holds_lose X F L hp : holds (X ++ F) L hp -> holds F (lose X L) hp.
Proof.
  intros [A B C D E G]. rewrite map_app in *.
  assert (F1 : forall p k, In (p, k) X -> lose X L p = Some k).
  { intros p k I. unfold lose. destruct (find (fun x => fst x =? p) X) as [[q k']|] eqn:Ef.
    - apply find_some in Ef. destruct Ef as [I' Eq]. apply Nat.eqb_eq in Eq. cbn in Eq. subst q. assert (Y : Some k' = Some k) by (rewrite <- (B p k'), <- (B p k); [reflexivity|apply in_or_app; auto|apply in_or_app; auto]). exact Y.
    - pose proof (find_none _ _ Ef _ I) as Y. cbn in Y. rewrite Nat.eqb_refl in Y. discriminate Y. }
  assert (F2 : forall p, ~ In p (map fst X) -> lose X L p = L p).
  { intros p N. unfold lose. destruct (find (fun x => fst x =? p) X) as [[q k']|] eqn:Ef; [|reflexivity]. apply find_some in Ef. destruct Ef as [I' Eq]. apply Nat.eqb_eq in Eq. cbn in Eq. subst q. elim N. apply in_map_iff. exists (p, k'). auto. }
  assert (Ap : forall p, In p (map fst F) -> ~ In p (map fst X)). { intros p I J. clear - A I J. induction (map fst X) as [|x l IH]; [destruct J|]. cbn [app] in A. apply NoDup_cons_iff in A. destruct A as [N A]. destruct J as [->|J]; [apply N, in_or_app; right; exact I|exact (IH A J)]. }
  constructor; try assumption.
  - clear - A. induction (map fst X) as [|x l IH]; [exact A|]. apply IH. cbn [app] in A. apply NoDup_cons_iff in A. apply A.
  - intros p k I. apply B. apply in_or_app. auto.
  - intros p N. destruct (in_dec Nat.eq_dec p (map fst X)) as [I|N'].
    + apply in_map_iff in I. destruct I as ([q k] & Eq & I). cbn in Eq. subst q. rewrite (F1 p k I). apply B, in_or_app. auto.
    + rewrite (F2 p N'). apply C. intros J. apply in_app_or in J. tauto.
  - intros p I. rewrite (F2 p (Ap p I)). apply D. apply in_or_app. auto.
Qed.
Lemma state_lose X F L h : state false (X ++ F) L h -> exists L', state false F L' h.
Proof. intros [A B C D E]. exists (lose X L). constructor; try assumption. apply holds_lose. eapply holds_perm; [|exact E]. perm. Qed.
Lemma destroy_spec b F L h : state b F L h -> holds (ss (opt (h_os h)) ++ ss (opt (h_is h)) ++ F) L (destroy h).
Proof.
  intros S. unfold destroy. destruct (ht_free true b F L h S) as (h' & Eh & Hf & _). destruct h as [s hp ps os is]. unfold h_free, hbind, get_h in *. cbn [h_ptrs h_s h_os h_is h_heap] in *.
  assert (X : forall l hp, exists hp', delete_all l (Hst s hp ps os is) = (Hst s hp' ps os is, Ok tt)) by (clear; induction l as [|p l IH]; intros hp; cbn [delete_all]; [exists hp; reflexivity|]; unfold hbind, hdelete, on_heap; apply IH).
  destruct (X ps hp) as [hp' E]. rewrite E in *. cbn [set_h_ptrs plain modify h_ptrs h_s h_os h_is h_heap fst] in *. injection Eh as <-. apply st_holds in Hf. unfold owned in Hf. cbn [h_ptrs h_os h_is ms map app] in Hf. rewrite <- app_assoc in Hf. exact Hf.
Qed.

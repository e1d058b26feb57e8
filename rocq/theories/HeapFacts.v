(** Accounting for the objects of HeapModel: which are owned by the test object, which by the running functions, which are lost. *)
From Coq Require Import Floats.SpecFloat Permutation.
From Verif Require Import Base Str Dec PathModel MeasModel DiffModel VisitModel XmlModel ReadModel RegModel RegStart HeapModel.

Definition opt (p : option nat) : list nat := match p with Some p => [p] | None => [] end.
Definition ms (l : list nat) : list (nat * kind) := map (fun p => (p, KMeasurement)) l.
Definition ss (l : list nat) : list (nat * kind) := map (fun p => (p, KStream)) l.
Definition obj_dec : forall x y : nat * kind, {x = y} + {x <> y}.
Proof. repeat decide equality. Defined.
Ltac perm := apply (Permutation_count_occ obj_dec); intros ?x; unfold ms, ss; rewrite ?map_app; cbn [opt map app]; repeat (rewrite count_occ_app || cbn [count_occ app]);
  repeat match goal with |- context [obj_dec ?a ?b] => destruct (obj_dec a b) end; lia.
(** the objects of [F] are alive, apart from them exactly those of [L]; nothing wrong has happened *)
Record holds (F : list (nat * kind)) (L : nat -> option kind) (hp : heap) : Prop := {
  ho_nodup : NoDup (map fst F);
  ho_live : forall p k, In (p, k) F -> live hp p = Some k;
  ho_lost : forall p, ~ In p (map fst F) -> live hp p = L p;
  ho_apart : forall p, In p (map fst F) -> L p = None;
  ho_next : forall p, next hp <= p -> live hp p = None;
  ho_right : wrong hp = false }.
Lemma holds_perm F F' L hp : Permutation F F' -> holds F L hp -> holds F' L hp.
Proof.
  intros P [A B C D E G]. assert (Pm : Permutation (map fst F) (map fst F')) by (apply Permutation_map, P). constructor; try assumption.
  - eapply Permutation_NoDup; eassumption.
  - intros p k I. apply B. eapply Permutation_in; [apply Permutation_sym, P|exact I].
  - intros p I. apply C. intros J. apply I. eapply Permutation_in; eassumption.
  - intros p I. apply D. eapply Permutation_in; [apply Permutation_sym, Pm|exact I].
Qed.
Lemma holds_alloc F L hp k : holds F L hp -> holds ((next hp, k) :: F) L (fst (alloc k hp)).
Proof.
  intros [A B C D E G]. assert (N : ~ In (next hp) (map fst F)).
  { intros I. apply in_map_iff in I. destruct I as ([p k'] & Ep & I). cbn in Ep. subst p. apply B in I. rewrite (E (next hp) (le_n _)) in I. discriminate I. }
  constructor; cbn [alloc fst live next wrong map].
  - constructor; assumption.
  - intros p k' [X|I]; unfold put_at.
    + injection X as <- <-. rewrite Nat.eqb_refl. reflexivity.
    + destruct (Nat.eqb_spec p (next hp)) as [->|_]; [|apply B, I]. elim N. apply in_map_iff. exists (next hp, k'). auto.
  - intros p I. unfold put_at. destruct (Nat.eqb_spec p (next hp)) as [->|_]; [elim I; left; reflexivity|]. apply C. intros J. apply I. right. exact J.
  - intros p [<-|I]; [|apply D, I]. rewrite <- (C _ N). apply E. apply le_n.
  - intros p Hp. unfold put_at. destruct (Nat.eqb_spec p (next hp)); [lia|]. apply E. lia.
  - exact G.
Qed.
Lemma holds_delete p k F L hp : holds ((p, k) :: F) L hp -> holds F L (dealloc p hp).
Proof.
  intros [A B C D E G]. cbn [map fst] in A. apply NoDup_cons_iff in A. destruct A as [N A]. unfold dealloc. rewrite (B p k (or_introl eq_refl)).
  constructor; cbn [live next wrong].
  - exact A.
  - intros q k' I. unfold put_at. destruct (Nat.eqb_spec q p) as [->|_]; [|apply B; right; exact I]. elim N. apply in_map_iff. exists (p, k'). auto.
  - intros q I. unfold put_at. destruct (Nat.eqb_spec q p) as [->|Nq]; [symmetry; apply D; left; reflexivity|]. apply C. intros [X|X]; [apply Nq; symmetry; exact X|exact (I X)].
  - intros q I. apply D. right. exact I.
  - intros q Hq. unfold put_at. destruct (q =? p); [reflexivity|apply E, Hq].
  - exact G.
Qed.
Lemma holds_access p k F L hp : In (p, k) F -> holds F L hp -> access p hp = hp.
Proof. intros I H. unfold access. rewrite (ho_live _ _ _ H p k I). reflexivity. Qed.
Lemma holds_access_opt p k F L hp : (forall q, p = Some q -> In (q, k) F) -> holds F L hp -> access_opt p hp = hp.
Proof. intros I H. destruct p as [p|]; [|reflexivity]. exact (holds_access p k F L hp (I p eq_refl) H). Qed.

(** * The reader *)
Definition is_type (x : str * str) : bool := eqs (fst x) ($"type").
Definition types (al : list (str * str)) : nat := length (List.filter is_type al).
Lemma nodup_types al : NoDup (map fst al) -> types al <= 1.
Proof.
  induction al as [|[k v] al IH]; intros N; [cbn; lia|]. cbn [map fst] in N. apply NoDup_cons_iff in N. destruct N as [N N']. specialize (IH N'). unfold types in *. cbn [List.filter is_type fst].
  unfold is_type at 1. cbn [fst]. destruct (eqs_spec k ($"type")) as [->|_]; [|exact IH]. cbn [length].
  assert (Z : List.filter is_type al = []); [|rewrite Z; cbn; lia]. destruct (List.filter is_type al) as [|[k' v'] r] eqn:Ef; [reflexivity|]. exfalso. apply N.
  assert (I : In (k', v') (List.filter is_type al)) by (rewrite Ef; left; reflexivity). apply filter_In in I. destruct I as [I Et]. apply eqs_true in Et. cbn in Et. subst k'. apply in_map_iff. exists ($"type", v'). auto.
Qed.
Lemma a_find_type_spec : forall al d d0 F L hp, (d = None <-> d0 = None) -> holds (ms (opt d) ++ F) L hp ->
  exists X, holds (ms (opt (snd (a_find_type al d hp))) ++ ms X ++ F) L (fst (a_find_type al d hp)) /\ (snd (a_find_type al d hp) = None <-> find_type al d0 = None) /\
    (length (opt d) + types al <= 1 -> X = []).
Proof.
  induction al as [|[k v] al IH]; intros d d0 F L hp Hd Ho; [exists []; auto|]. cbn [a_find_type find_type].
  assert (Et : types ((k, v) :: al) = if eqs k ($"type") then S (types al) else types al) by (unfold types; cbn [List.filter]; unfold is_type at 1; cbn [fst]; destruct (eqs k ($"type")); reflexivity). rewrite Et. destruct (eqs k ($"type")).
  - pose proof (holds_alloc _ _ _ KMeasurement Ho) as Ha. cbn [alloc fst snd] in *. set (hp1 := Heap _ _ _) in *.
    destruct (IH (Some (next hp)) (Some (new_dm (match CreateDataMeasurement v with Some c => c | None => CPlain end))) (ms (opt d) ++ F) L hp1) as (X & HX & HN & HZ); [split; discriminate|exact Ha|].
    exists (X ++ opt d). split; [|split; [exact HN|]].
    + unfold ms in *. rewrite map_app, <- app_assoc. exact HX.
    + cbn [opt length]. intros Hl. destruct d; cbn [opt length] in *; [lia|]. rewrite HZ by lia. reflexivity.
  - apply IH; assumption.
Qed.
Lemma a_set_attrs_spec : forall al d F L hp, (forall p, d = Some p -> In (p, KMeasurement) F) -> holds F L hp -> a_set_attrs al d hp = hp.
Proof.
  induction al as [|[k v] al IH]; intros d F L hp I Ho; [reflexivity|]. cbn [a_set_attrs]. rewrite (holds_access_opt d KMeasurement F L hp I Ho). destruct (_ || _); apply (IH d F L hp I Ho).
Qed.
Definition distinct (evs : list event) : Prop := forall n al, In (EStart n al) evs -> NoDup (map fst al).
(** the pointers of the reader against what it has read *)
Record paired (p : pdata) (q : pptrs) : Prop := {
  pa_m : pp_m q = None <-> pm p = None;
  pa_len : length (pp_list q) = length (plist p);
  pa_deep : pm p <> None -> 2 <= pdepth p }.
Lemma set_attrs_none al d d' : set_attrs al d = Ok d' -> (d' = None <-> d = None).
Proof.
  revert d d'. induction al as [|[k v] al IH]; intros d d' E; cbn [set_attrs] in E; [injection E as <-; tauto|].
  destruct d as [d|].
  - assert (Q : exists d1, set_attrs al (Some d1) = Ok d') by (destruct (eqs k ($"name")); [|destruct (eqs k ($"type")); [|destruct (eqs k ($"encoding")); [|destruct (eqs k ($"compression"))]]]; cbn [bind] in E; eexists; exact E).
    destruct Q as [d1 Q]. apply IH in Q. split; intros X; [|discriminate X]. apply Q in X. discriminate X.
  - assert (Q : set_attrs al None = Ok d') by (destruct (eqs k ($"name")); [|destruct (eqs k ($"type")); [|destruct (eqs k ($"encoding")); [|destruct (eqs k ($"compression"))]]]; cbn [bind] in E; try discriminate E; exact E).
    apply IH in Q. exact Q.
Qed.
Lemma a_event_spec asserts p e q F L hp : paired p q -> holds (ms (opt (pp_m q)) ++ ms (pp_list q) ++ F) L hp ->
  exists X, holds (ms (opt (pp_m (snd (a_on_event p e q hp)))) ++ ms (pp_list (snd (a_on_event p e q hp))) ++ ms X ++ F) L (fst (a_on_event p e q hp)) /\
    (distinct [e] -> X = []) /\ (forall p', on_event asserts p e = Ok p' -> paired p' (snd (a_on_event p e q hp))).
Proof.
  intros [Pm Pl Pd] Ho. destruct e as [n al|n|s]; cbn [a_on_event on_event].
  - unfold a_on_start, on_start. destruct (Nat.eqb_spec (pdepth p) 1) as [E1|N1].
    + assert (Z : pm p = None) by (destruct (pm p); [|reflexivity]; assert (2 <= pdepth p) by (apply Pd; discriminate); lia). pose proof (proj2 Pm Z) as Zq. rewrite Zq in Ho. cbn [opt ms map app] in Ho.
      destruct (eqs n data_elem || eqs n file_elem) eqn:En.
      * unfold a_start_measurement, start_measurement. destruct (eqs n data_elem).
        { destruct (a_find_type_spec al None None (ms (pp_list q) ++ F) L hp) as (X & HX & HN & HZ); [tauto|exact Ho|]. destruct (a_find_type al None hp) as [hp1 d]. cbn [fst snd] in *.
          rewrite (a_set_attrs_spec al d (ms (opt d) ++ ms X ++ ms (pp_list q) ++ F) L hp1); [|intros p0 ->; left; reflexivity|exact HX]. cbn [fst snd pp_m pp_list]. exists X. split; [|split].
          - eapply holds_perm; [|exact HX]. apply Permutation_app_head. rewrite !app_assoc. apply Permutation_app_tail, Permutation_app_comm.
          - intros Ds. apply HZ. cbn. apply nodup_types. apply (Ds n al). left. reflexivity.
          - intros p' E. destruct (asserts && negb (match pm p with None => true | _ => false end)); [discriminate|]. destruct (asserts && _); [discriminate|]. cbn [bind] in E.
            destruct (set_attrs al (find_type al None)) as [d'| | | |] eqn:Es; cbn [bind] in E; try discriminate E. injection E as <-. apply set_attrs_none in Es.
            constructor; cbn [pp_m pm pp_list plist pdepth]; [|exact Pl|lia]. rewrite HN, <- Es. destruct d'; cbn; split; congruence. }
        { cbn [orb] in En. rewrite En. cbn [alloc]. set (hp1 := Heap _ _ _). assert (Ha : holds ((next hp, KMeasurement) :: ms (pp_list q) ++ F) L hp1) by (apply (holds_alloc _ _ _ KMeasurement Ho)).
          rewrite (holds_access _ KMeasurement _ L hp1 (in_eq (next hp, KMeasurement) _) Ha). cbn [fst snd pp_m pp_list opt ms map app]. exists []. split; [exact Ha|]. split; [reflexivity|].
          intros p' E. destruct (asserts && negb (match pm p with None => true | _ => false end)); [discriminate|]. destruct (asserts && _); [discriminate|]. cbn [bind] in E. injection E as <-.
          constructor; cbn [pp_m pm pp_list plist pdepth]; [split; discriminate|exact Pl|lia]. }
      * cbn [fst snd]. exists []. split; [rewrite Zq; exact Ho|]. split; [reflexivity|].
        intros p' E. destruct (asserts && negb (match pm p with None => true | _ => false end)); [discriminate|]. destruct (asserts && _); [discriminate|]. injection E as <-.
        constructor; cbn [pp_m pm pp_list plist pdepth]; [exact Pm|exact Pl|intros Hp; specialize (Pd Hp); lia].
    + cbn [fst snd]. exists []. split; [exact Ho|]. split; [reflexivity|].
      intros p' E. destruct (asserts && negb (match pm p with None => true | _ => false end)); [discriminate|]. destruct (asserts && _); [discriminate|]. injection E as <-.
      constructor; cbn [pp_m pm pp_list plist pdepth]; [exact Pm|exact Pl|intros Hp; specialize (Pd Hp); lia].
  - unfold a_on_end. exists []. destruct (pp_m q) as [m|] eqn:Eq.
    + assert (Np : exists m', pm p = Some m') by (destruct (pm p); [eauto|]; pose proof (proj2 Pm eq_refl) as Q; discriminate Q). destruct Np as [m' Em].
      cbn [opt ms map app] in Ho. destruct (Nat.eqb_spec (pdepth p) 2) as [E2|N2]; cbn [fst snd pp_m pp_list opt ms map app].
      * rewrite (holds_access m KMeasurement _ L hp (in_eq (m, KMeasurement) _) Ho). split; [|split; [reflexivity|]].
        { eapply holds_perm; [|exact Ho]. rewrite map_app, <- app_assoc. cbn [map app]. apply Permutation_middle. }
        { intros p' E. injection E as <-. unfold on_end. rewrite Em, E2. constructor; cbn [pp_m pm pp_list plist pdepth]; [tauto|rewrite !app_length, Pl; reflexivity|congruence]. }
      * split; [eapply holds_delete; exact Ho|]. split; [reflexivity|]. intros p' E. injection E as <-. unfold on_end. rewrite Em. rewrite (proj2 (Nat.eqb_neq _ _) N2). constructor; cbn [pp_m pm pp_list plist pdepth]; [tauto|rewrite app_nil_r; exact Pl|congruence].
    + assert (Em : pm p = None) by (apply Pm; reflexivity). cbn [fst snd pp_m pp_list]. split; [exact Ho|]. split; [reflexivity|]. intros p' E. injection E as <-. unfold on_end. rewrite Em. constructor; cbn [pp_m pm pp_list plist pdepth]; [tauto|rewrite app_nil_r; exact Pl|congruence].
  - exists []. split; [exact Ho|]. split; [reflexivity|]. intros p' E. injection E as <-. unfold on_data. destruct (pdepth p =? 2) eqn:E2; constructor; cbn [fst snd pp_m pm pp_list plist pdepth]; assumption.
Qed.
Lemma a_events_spec asserts : forall evs p q F L hp, paired p q -> holds (ms (opt (pp_m q)) ++ ms (pp_list q) ++ F) L hp ->
  exists X, holds (ms (opt (pp_m (snd (a_on_events asserts p evs q hp)))) ++ ms (pp_list (snd (a_on_events asserts p evs q hp))) ++ ms X ++ F) L (fst (a_on_events asserts p evs q hp)) /\
    (distinct evs -> X = []) /\ (forall p', on_events asserts p evs = Ok p' -> paired p' (snd (a_on_events asserts p evs q hp))).
Proof.
  induction evs as [|e evs IH]; intros p q F L hp Hp Ho; cbn [a_on_events on_events].
  - exists []. split; [exact Ho|]. split; [reflexivity|]. intros p' E. injection E as <-. exact Hp.
  - destruct (a_event_spec asserts p e q F L hp Hp Ho) as (X & HX & HD & HP). destruct (a_on_event p e q hp) as [hp1 q1]. cbn [fst snd] in *.
    destruct (on_event asserts p e) as [p1| | | |] eqn:E1; cbn [bind fst snd]; try (exists X; split; [exact HX|]; split; [intros D; apply HD; intros n al [I|[]]; apply (D n al); left; exact I|discriminate]).
    destruct (IH p1 q1 (ms X ++ F) L hp1 (HP p1 eq_refl) HX) as (Y & HY & HD' & HP').
    exists (Y ++ X). split; [|split; [|exact HP']].
    + unfold ms in *. rewrite map_app, <- !app_assoc. exact HY.
    + intros D. rewrite HD', HD; [reflexivity| |]; intros n al I; apply (D n al); [destruct I as [I|[]]; left; exact I|right; exact I].
Qed.

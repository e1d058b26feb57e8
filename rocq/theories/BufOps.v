(** The operations of BufModel, one by one. *)
From Coq Require Import Floats.SpecFloat.
From Verif Require Import Base Str B64Model MeasModel BufModel BufFacts BufActs BufGentle BufEqual BufFile BufSpec BufSteps.

Lemma update_twice {A} (x y : A) : forall l n, update n x (update n y l) = update n x l.
Proof. induction l as [|z l IH]; intros [|n]; cbn; congruence. Qed.
Lemma replaced_twice s o x y : replaced (replaced s o x) o y = replaced s o y.
Proof. unfold replaced. cbn [b_heap b_objs]. rewrite update_twice. reflexivity. Qed.
Definition assigned_obj (x m : obj) : obj := Obj (o_name m) (o_esc m) (o_cls x) (o_enc m) (o_comp m) (o_text m) (S (o_ver x)) None (Some 0) (o_local x).
Lemma Assign_run o o' s x m : alive s o x -> alive s o' m -> b_Assign o o' s = (replaced s o (assigned_obj x m), Ok tt).
Proof.
  intros L L'. unfold b_Assign, bbind. rewrite (get_alive _ _ _ L'), (get_alive _ _ _ L). unfold BufModel.put. set (x1 := with_esc (with_name x (o_name m)) (o_esc m)). fold (replaced s o x1).
  pose proof (alive_replaced s o x x1 L) as L1. rewrite (get_alive _ _ _ L1). set (x2 := with_data x1 None (Some 0)). fold (replaced (replaced s o x1) o x2). rewrite replaced_twice.
  pose proof (alive_replaced s o x x2 L) as L2. destruct (Nat.eq_dec o' o) as [->|N].
  - pose proof (alive_same _ _ _ _ L L') as Exm. subst m. rewrite !(get_alive _ _ _ L2). set (x3 := with_comp (with_enc x2 (o_enc x2)) (o_comp x2)). fold (replaced (replaced s o x2) o x3). rewrite replaced_twice.
    pose proof (alive_replaced s o x x3 L) as L3. rewrite !(get_alive _ _ _ L3). fold (replaced (replaced s o x3) o (with_text x3 (o_text x3))). rewrite replaced_twice. reflexivity.
  - pose proof (proj2 (alive_other s o x2 o' m N) L') as M2. rewrite (get_alive _ _ _ M2), (get_alive _ _ _ L2). set (x3 := with_comp (with_enc x2 (o_enc m)) (o_comp m)). fold (replaced (replaced s o x2) o x3). rewrite replaced_twice.
    pose proof (alive_replaced s o x x3 L) as L3. pose proof (proj2 (alive_other s o x3 o' m N) L') as M3. rewrite (get_alive _ _ _ M3), (get_alive _ _ _ L3). fold (replaced (replaced s o x3) o (with_text x3 (o_text m))). rewrite replaced_twice. reflexivity.
Qed.
Definition its_block (x : obj) : list nat := match o_data x with Some a => [a] | None => [] end.
Lemma assign_sound o s x y : good s -> alive s o x -> o_local x = false -> o_data y = None -> o_local y = false -> sound (eq o) (its_block x) [] s (replaced s o y).
Proof.
  intros [G1 G2] L C Dy Cy. pose proof (alive_replaced s o x y L) as Ly. set (s' := replaced s o y) in *.
  assert (K : forall k z, k <> o -> alive s' k z <-> alive s k z) by (intros k z N; apply alive_other; exact N).
  assert (Ow : forall a, owned s' a <-> owned s a /\ o_data x <> Some a).
  { intros a. split.
    - intros (k & z & Z & Cz & D). destruct (Nat.eq_dec k o) as [->|N]; [rewrite (alive_same _ _ _ _ Z Ly) in D; congruence|]. apply (K k z N) in Z. split; [exists k, z; auto|].
      intros E. apply N. apply (G2 k o a); [exists z; auto|exists x; auto].
    - intros [(k & z & Z & Cz & D) N]. destruct (Nat.eq_dec k o) as [->|Nk]; [rewrite (alive_same _ _ _ _ Z L) in D; contradiction|]. exists k, z. split; [apply K; auto|auto]. }
  split.
  - split.
    + intros k z a Z D. destruct (Nat.eq_dec k o) as [->|N]; [rewrite (alive_same _ _ _ _ Z Ly) in D; congruence|]. apply (K k z N) in Z. exact (G1 k z a Z D).
    + intros k k' a (z & Z & D) (z' & Z' & D'). destruct (Nat.eq_dec k o) as [->|N]; [rewrite (alive_same _ _ _ _ Z Ly) in D; congruence|]. destruct (Nat.eq_dec k' o) as [->|N']; [rewrite (alive_same _ _ _ _ Z' Ly) in D'; congruence|].
      apply (K k z N) in Z. apply (K k' z' N') in Z'. apply (G2 k k' a); [exists z|exists z']; auto.
  - intros k z Z N. split; [apply K; [intros ->; apply N; reflexivity|exact Z]|reflexivity].
  - intros k z Z _. left. destruct (Nat.eq_dec k o) as [->|N]; [eauto|]. exists z. apply K; auto.
  - intros a. rewrite !stray_owned, Ow. change (live s' a) with (live s a). unfold its_block. split.
    + intros [H N]. destruct (o_data x) as [b|] eqn:D; [|left; split; [exact H|]; intros O; apply N; split; [exact O|discriminate]].
      destruct (Nat.eq_dec b a) as [->|Nb]; [right; apply in_eq|]. left. split; [exact H|]. intros O. apply N. split; [exact O|congruence].
    + intros [[H N]|I].
      * split; [exact H|]. intros [O _]. contradiction.
      * destruct (o_data x) as [b|] eqn:D; [|destruct I]. destruct I as [<-|[]]. split; [destruct (G1 o x b L D) as (l & Hl & _); eauto|]. intros [_ X]. apply X. reflexivity.
  - split; [unfold its_block; destruct (o_data x); [constructor; [intros []|constructor]|constructor]|]. intros a I X. apply stray_owned in X. destruct X as [_ X]. apply X. unfold its_block in I. destruct (o_data x) as [b|] eqn:D; [|destruct I]. destruct I as [<-|[]]. exists o, x. auto.
  - intros k. cbn [In]. split.
    + intros (z & Z & Cz). left. destruct (Nat.eq_dec k o) as [->|N]; [exfalso; rewrite (alive_same s' o _ _ Z Ly) in Cz; congruence|]. exists z. split; [apply (K k z N); exact Z|exact Cz].
    + intros [(z & Z & Cz)|[]]. destruct (Nat.eq_dec k o) as [->|N]; [exfalso; rewrite (alive_same s o _ _ Z L) in Cz; congruence|]. exists z. split; [apply (K k z N); exact Z|exact Cz].
  - split; [constructor|]. intros k [].
  - intros k a X. left. apply buffer_owned in X. apply buffer_owned. destruct X as (z & Z & Cz & D). destruct (Nat.eq_dec k o) as [->|N]; [rewrite (alive_same _ _ _ _ Z Ly) in D; congruence|]. exists z. split; [apply (K k z N); exact Z|auto].
  - reflexivity.
  - intros a l Hl _. exact Hl.
Qed.
(** when SetContentAsData reaches its end, it was given bytes in reach *)
Definition in_range (s : bst) (p : src) : Prop := match p with At (PBuf a) => a < length (b_heap s) | _ => True end.
Lemma SetData_defined o p n s x : good s -> alive s o x -> in_range s p -> snd (b_SetData o p n s) <> UB -> exists cells, source_of s p n cells /\ ~ is_own s o p.
Proof.
  intros G L R. destruct (acts_Delete o s x G L) as (s1 & x1 & E1 & G1 & T1 & L1 & V1 & C1). cbn [lift seen fst snd] in *. apply pair_equal_spec in V1. destruct V1 as [V1 W1].
  unfold b_SetData, bbind at 1. rewrite E1. unfold bbind at 1, alloc at 1.
  assert (Ed : o_data x1 = None) by (apply (no_data s1 o x1 G1 L1); rewrite V1; reflexivity).
  destruct (allocate s1 o x1 (repeat None n) G1 L1 Ed) as (G3 & T3 & L3 & H3). rewrite repeat_length in *.
  set (a := length (b_heap s1)) in *. set (z := with_data x1 (Some a) (Some n)) in *.
  unfold bbind at 1, get at 1. cbn [b_objs]. rewrite (L1 : nth_error _ _ = _). unfold bbind at 1, BufModel.put at 1. cbn [b_heap b_objs]. fold z.
  set (s3 := Bst (b_heap s1 ++ [Live (repeat None n)]) (update o (Some z) (b_objs s1))) in *.
  pose proof (touch_trans _ _ _ _ T1 T3) as T13.
  unfold bbind at 1. unfold take_bytes, bbind at 1. destruct p as [b|q].
  - intros D. unfold bret at 1 in D. unfold cell in *. destruct (n <=? length (map (@Some ascii) b)) eqn:En; [|exfalso; apply D; reflexivity]. apply Nat.leb_le in En.
    exists (firstn n (map Some b)). split; [exists (map Some b); auto|intros []].
  - destruct (look q s3) as [s4 [l|i| | |]] eqn:El.
    + intros D. unfold cell in *. destruct (n <=? length l) eqn:En; [|exfalso; apply D; unfold bfail; reflexivity]. apply Nat.leb_le in En. exists (firstn n l).
      assert (X : snd (look q s) = Ok l /\ ~ is_own s o (At q)).
      { destruct q as [c|k v]; cbn [look is_own in_range] in *.
        - unfold fetch in El. destruct (nth_error (b_heap s3) c) as [[lc|]|] eqn:Ec; try discriminate El. apply pair_equal_spec in El. destruct El as [_ El]. injection El as ->.
          destruct (t_keep _ _ _ T13 c l Ec) as [(y & Y & Dy)|((l' & Hl') & N)].
          + rewrite (alive_same _ _ _ _ Y L3) in Dy. injection Dy as <-. pose proof (t_grow _ _ _ T1). unfold a in *. lia.
          + split; [|exact N]. pose proof (t_heap _ _ _ T13 c _ Hl' N) as X. rewrite (fetch_live _ _ _ Hl'). cbn [snd]. f_equal. unfold live in *. congruence.
        - split; [|intros []]. unfold bbind in *. destruct (Nat.eq_dec k o) as [->|Nk].
          + rewrite (get_alive _ _ _ L3) in El. rewrite (get_alive _ _ _ L).
            replace (o_ver z) with (o_ver x) in El by (symmetry; exact W1). replace (o_text z) with (o_text x) in El by (change (o_text z) with (dcontent (erase (b_heap s1) x1)); rewrite V1; reflexivity).
            destruct (v =? o_ver x); [|discriminate El]. apply pair_equal_spec in El. apply El.
          + unfold get in *. rewrite (t_objs _ _ _ T13 k Nk) in El. destruct (nth_error (b_objs s) k) as [[y|]|]; try discriminate El. destruct (v =? o_ver y); [|discriminate El]. apply pair_equal_spec in El. apply El. }
      destruct X as [X1 X2]. split; [exists l; auto|exact X2].
    + exfalso. destruct q as [c|k v]; cbn [look] in El; [unfold fetch in El; destruct (nth_error (b_heap s3) c) as [[]|]; discriminate El|]. unfold bbind, get in El. destruct (nth_error (b_objs s3) k) as [[y|]|]; try discriminate El. destruct (v =? o_ver y); discriminate El.
    + intros D. exfalso. apply D. reflexivity.
    + exfalso. destruct q as [c|k v]; cbn [look] in El; [unfold fetch in El; destruct (nth_error (b_heap s3) c) as [[]|]; discriminate El|]. unfold bbind, get in El. destruct (nth_error (b_objs s3) k) as [[y|]|]; try discriminate El. destruct (v =? o_ver y); discriminate El.
    + exfalso. destruct q as [c|k v]; cbn [look] in El; [unfold fetch in El; destruct (nth_error (b_heap s3) c) as [[]|]; discriminate El|]. unfold bbind, get in El. destruct (nth_error (b_objs s3) k) as [[y|]|]; try discriminate El. destruct (v =? o_ver y); discriminate El.
Qed.

(** Steps of BufModel that keep every object's attributes and every block. *)
From Coq Require Import Floats.SpecFloat.
From Verif Require Import Base Str B64Model MeasModel BufModel BufFacts BufActs.

(** everything but the cache *)
Definition attrs (x y : obj) : Prop :=
  o_name x = o_name y /\ o_esc x = o_esc y /\ o_cls x = o_cls y /\ o_enc x = o_enc y /\ o_comp x = o_comp y /\ o_text x = o_text y /\ o_ver x = o_ver y /\ o_local x = o_local y.
Lemma attrs_refl x : attrs x x. Proof. unfold attrs. auto 10. Qed.
Lemma attrs_trans x y z : attrs x y -> attrs y z -> attrs x z.
Proof. unfold attrs. intuition congruence. Qed.
Definition owned (s : bst) (a : nat) : Prop := exists k x, alive s k x /\ o_local x = false /\ o_data x = Some a.
(** [P]: the objects that may have got a cache; [LB], [LO]: new blocks and objects that the program has no object for *)
Record gentle (P : nat -> Prop) (LB LO : list nat) (s s' : bst) : Prop := {
  g_good : good s';
  g_obj : forall k x, alive s k x -> exists x', alive s' k x' /\ attrs x' x /\ (o_data x' = o_data x \/ o_data x = None /\ forall a, o_data x' = Some a -> length (b_heap s) <= a) /\ (P k \/ x' = x);
  g_back : forall k x', alive s' k x' -> (exists x, alive s k x) \/ In k LO /\ o_local x' = true;
  g_lo : forall k, In k LO -> length (b_objs s) <= k /\ exists x', alive s' k x' /\ o_local x' = true;
  g_live : forall a l, live s a l -> live s' a l;
  g_new : forall a l, live s' a l -> live s a l \/ owned s' a \/ In a LB;
  g_lb : forall a, In a LB -> length (b_heap s) <= a /\ (exists l, live s' a l) /\ ~ owned s' a;
  g_nd : NoDup LB /\ NoDup LO;
  g_len : length (b_heap s) <= length (b_heap s') /\ length (b_objs s) <= length (b_objs s') }.

Lemma alive_lt s k x : alive s k x -> k < length (b_objs s).
Proof. intros H. apply nth_error_Some. unfold alive in H. congruence. Qed.
Lemma live_lt s a l : live s a l -> a < length (b_heap s).
Proof. intros H. apply nth_error_Some. unfold live in H. congruence. Qed.
Lemma alive_same s k x y : alive s k x -> alive s k y -> x = y.
Proof. unfold alive. congruence. Qed.
Lemma live_same s a l m : live s a l -> live s a m -> l = m.
Proof. unfold live. congruence. Qed.

Lemma gentle_refl P s : good s -> gentle P [] [] s s.
Proof.
  intros G. split; auto.
  - intros k x L. exists x. split; [exact L|]. split; [apply attrs_refl|]. auto.
  - intros k x L. left. eauto.
  - intros k [].
  - intros a [].
  - split; constructor.
Qed.
Lemma gentle_weak (P Q : nat -> Prop) LB LO s s' : (forall k x, alive s k x -> P k -> Q k) -> gentle P LB LO s s' -> gentle Q LB LO s s'.
Proof.
  intros H G. split; try apply G. intros k x L. destruct (g_obj _ _ _ _ _ G k x L) as (x' & L' & A & D & [E|E]); exists x'; eauto 10.
Qed.
Lemma nodup_app {A} (l m : list A) : NoDup l -> NoDup m -> (forall x, In x l -> In x m -> False) -> NoDup (l ++ m).
Proof.
  intros H K D. induction H as [|x l N H IH]; [exact K|]. cbn [app]. constructor.
  - rewrite in_app_iff. intros [I|I]; [contradiction|]. exact (D x (in_eq _ _) I).
  - apply IH. intros y I J. exact (D y (in_cons _ _ _ I) J).
Qed.
(** an owned block of the later state was not a live one the program had no object for *)
Lemma owned_before P LB LO s s' a : gentle P LB LO s s' -> owned s' a -> owned s a \/ length (b_heap s) <= a.
Proof.
  intros G (k & x' & L' & C & D). destruct (g_back _ _ _ _ _ G k x' L') as [(x & L)|[_ E]]; [|congruence].
  destruct (g_obj _ _ _ _ _ G k x L) as (y & Ly & (_ & _ & _ & _ & _ & _ & _ & Cy) & Dy & _). rewrite (alive_same _ _ _ _ Ly L') in *.
  destruct Dy as [Dy|[_ Dy]]; [left; exists k, x; split; [exact L|split; congruence]|right; exact (Dy a D)].
Qed.
Lemma gentle_trans P LB LO LB' LO' s s1 s2 : gentle P LB LO s s1 -> gentle P LB' LO' s1 s2 -> gentle P (LB ++ LB') (LO ++ LO') s s2.
Proof.
  intros A C. split.
  - apply C.
  - intros k x L. destruct (g_obj _ _ _ _ _ A k x L) as (x1 & L1 & E1 & D1 & U1). destruct (g_obj _ _ _ _ _ C k x1 L1) as (x2 & L2 & E2 & D2 & U2).
    exists x2. split; [exact L2|]. split; [exact (attrs_trans _ _ _ E2 E1)|]. split.
    + destruct D1 as [D1|[D1 N1]], D2 as [D2|[D2 N2]].
      * left. congruence.
      * right. split; [congruence|]. intros a Ha. pose proof (N2 a Ha). pose proof (proj1 (g_len _ _ _ _ _ A)). lia.
      * right. split; [exact D1|]. intros a Ha. apply N1. congruence.
      * right. split; [exact D1|]. intros a Ha. pose proof (N2 a Ha). pose proof (proj1 (g_len _ _ _ _ _ A)). lia.
    + destruct U1 as [U1|U1], U2 as [U2|U2]; auto. right. congruence.
  - intros k x2 L2. destruct (g_back _ _ _ _ _ C k x2 L2) as [(x1 & L1)|[I E]]; [|right; split; [apply in_or_app; auto|exact E]].
    destruct (g_back _ _ _ _ _ A k x1 L1) as [X|[I E]]; [auto|]. right. split; [apply in_or_app; auto|].
    destruct (g_obj _ _ _ _ _ C k x1 L1) as (y & Ly & (_ & _ & _ & _ & _ & _ & _ & Cy) & _). rewrite (alive_same _ _ _ _ Ly L2) in *. congruence.
  - intros k I. apply in_app_or in I. destruct I as [I|I].
    + destruct (g_lo _ _ _ _ _ A k I) as (Le & x1 & L1 & C1). split; [exact Le|]. destruct (g_obj _ _ _ _ _ C k x1 L1) as (y & Ly & (_ & _ & _ & _ & _ & _ & _ & Cy) & _). exists y. split; [exact Ly|congruence].
    + destruct (g_lo _ _ _ _ _ C k I) as (Le & X). split; [|exact X]. pose proof (proj2 (g_len _ _ _ _ _ A)). lia.
  - intros a l H. apply (g_live _ _ _ _ _ C), (g_live _ _ _ _ _ A), H.
  - intros a l H. destruct (g_new _ _ _ _ _ C a l H) as [H1|[O|I]]; [|auto|right; right; apply in_or_app; auto].
    destruct (g_new _ _ _ _ _ A a l H1) as [H0|[(k & x1 & L1 & C1 & D1)|I]]; [auto| |right; right; apply in_or_app; auto].
    right; left. destruct (g_obj _ _ _ _ _ C k x1 L1) as (y & Ly & (_ & _ & _ & _ & _ & _ & _ & Cy) & [Dy|[Dy _]] & _); [|congruence]. exists k, y. split; [exact Ly|split; congruence].
  - intros a I. apply in_app_or in I. destruct I as [I|I].
    + destruct (g_lb _ _ _ _ _ A a I) as (Le & (l & H) & N). split; [exact Le|]. split; [exists l; exact (g_live _ _ _ _ _ C a l H)|].
      intros O. destruct (owned_before _ _ _ _ _ _ C O) as [O1|Ge]; [contradiction|]. pose proof (live_lt _ _ _ H). lia.
    + destruct (g_lb _ _ _ _ _ C a I) as (Le & X). split; [|exact X]. pose proof (proj1 (g_len _ _ _ _ _ A)). lia.
  - split; apply nodup_app; try apply (g_nd _ _ _ _ _ A); try apply (g_nd _ _ _ _ _ C).
    + intros a I J. destruct (g_lb _ _ _ _ _ A a I) as (_ & (l & H) & _). destruct (g_lb _ _ _ _ _ C a J) as (Le & _). pose proof (live_lt _ _ _ H). lia.
    + intros k I J. destruct (g_lo _ _ _ _ _ A k I) as (_ & x & L & _). destruct (g_lo _ _ _ _ _ C k J) as (Le & _). pose proof (alive_lt _ _ _ L). lia.
  - pose proof (g_len _ _ _ _ _ A). pose proof (g_len _ _ _ _ _ C). lia.
Qed.

(** work on an object without cache *)
Definition block_of (x : obj) : list nat := match o_data x with Some a => if o_local x then [a] else [] | None => [] end.
Lemma touch_gentle o s s' x x' : touch o s s' -> good s -> good s' -> alive s o x -> alive s' o x' -> o_data x = None -> attrs x' x -> gentle (eq o) (block_of x') [] s s'.
Proof.
  intros T G G' L L' D A.
  assert (NO : forall a, ~ owns s o a) by (intros a (y & Ly & Dy); rewrite (alive_same _ _ _ _ Ly L) in Dy; congruence).
  assert (K : forall k y, k <> o -> alive s' k y <-> alive s k y) by (intros k y N; unfold alive; rewrite (t_objs _ _ _ T k N); reflexivity).
  assert (F : forall a, o_data x' = Some a -> length (b_heap s) <= a).
  { intros a Da. destruct (t_own _ _ _ T a) as [O|Le]; [exists x'; auto|exfalso; exact (NO a O)|exact Le]. }
  split.
  - exact G'.
  - intros k y Ly. destruct (Nat.eq_dec k o) as [->|N].
    + rewrite (alive_same _ _ _ _ Ly L). exists x'. auto 10.
    + exists y. split; [apply K; auto|]. split; [apply attrs_refl|]. auto.
  - intros k y Ly. left. destruct (Nat.eq_dec k o) as [->|N]; [eauto|]. exists y. apply K; auto.
  - intros k [].
  - intros a l H. apply (t_heap _ _ _ T); [exact H|apply NO].
  - intros a l H. destruct (t_keep _ _ _ T a l H) as [(y & Ly & Dy)|((l0 & H0) & _)].
    + rewrite (alive_same _ _ _ _ Ly L') in Dy. unfold block_of. rewrite Dy. right. destruct (o_local x') eqn:C; [right; apply in_eq|left; exists o, x'; auto].
    + left. pose proof (t_heap _ _ _ T a _ H0 (NO a)) as H1. unfold live in *. congruence.
  - intros a I. unfold block_of in I. destruct (o_data x') as [b|] eqn:E; [|destruct I]. destruct (o_local x') eqn:C; [|destruct I]. destruct I as [<-|[]]. split; [exact (F b eq_refl)|].
    destruct (proj1 G' o x' b L' E) as (l & H & _). split; [eauto|]. intros (k & y & Ly & Cy & Dy).
    assert (k = o) as -> by (apply (proj2 G' k o b); [exists y; auto|exists x'; auto]). rewrite (alive_same _ _ _ _ Ly L') in Cy. congruence.
  - split; [|constructor]. unfold block_of. destruct (o_data x'); [|constructor]. destruct (o_local x'); [|constructor]. constructor; [intros []|constructor].
  - split; [apply T|rewrite (t_len _ _ _ T); auto].
Qed.
(** nothing but the cache changes when it is filled *)
Lemma erase_attrs h x h' y : dname (erase h x) = dname (erase h' y) -> desc (erase h x) = desc (erase h' y) -> dcls (erase h x) = dcls (erase h' y) -> denc (erase h x) = denc (erase h' y) ->
  dcomp (erase h x) = dcomp (erase h' y) -> dcontent (erase h x) = dcontent (erase h' y) -> o_ver x = o_ver y -> o_local x = o_local y -> attrs x y.
Proof. unfold attrs, erase. cbn. auto 10. Qed.
Lemma update_attrs sc d : let d' := fst (UpdateContentAsData sc d) in
  dname d' = dname d /\ desc d' = desc d /\ dcls d' = dcls d /\ denc d' = denc d /\ dcomp d' = dcomp d /\ dcontent d' = dcontent d /\ (denc d = $"none" -> ddata d' = None /\ snd (UpdateContentAsData sc d) = Ok tt).
Proof.
  unfold UpdateContentAsData. cbv zeta. change (denc (DeleteContentAsData d)) with (denc d). destruct (eqs (denc d) ($"none")) eqn:E; [cbn [fst snd]; auto 10|].
  assert (N : denc d <> $"none") by (apply eqs_false; exact E).
  destruct (eqs (denc d) ($"base64")); [|cbn [fst snd]; repeat (refine (conj eq_refl _)); intros H; contradiction].
  destruct (IsBase64 sc default_opts (dcontent (DeleteContentAsData d))) as [[|n]|i| | |]; try (cbn [fst snd]; repeat (refine (conj eq_refl _)); intros H; contradiction).
  destruct (Decode sc default_opts (dcontent (DeleteContentAsData d)) (repeat None (S n))) as [mem r]. cbn [fst snd]; repeat (refine (conj eq_refl _)); intros H; contradiction.
Qed.
Lemma ensure_gentle sc o s x : good s -> alive s o x -> (o_local x = true -> o_enc x = $"none") -> exists s' x', b_ensure sc o s = (s', snd (ensure_data sc (erase (b_heap s) x))) /\ gentle (eq o) [] [] s s' /\ alive s' o x' /\
  attrs x' x /\ erase (b_heap s') x' = fst (ensure_data sc (erase (b_heap s) x)) /\ (o_data x <> None -> s' = s /\ x' = x).
Proof.
  intros G L C. destruct (acts_ensure sc o s x G L) as (s1 & x1 & E1 & G1 & T1 & L1 & V1 & C1). unfold lift in *. cbn [seen fst snd] in *. apply pair_equal_spec in V1. destruct V1 as [V1 W1].
  destruct (o_data x) as [a|] eqn:D.
  - exists s, x. unfold ensure_data in *. destruct (proj1 G o x a L D) as (l & H & _). pose proof (cells_live _ _ _ H) as Hc. cbn [erase ddata] in *. rewrite D, Hc in *. cbn [fst snd] in *.
    split; [unfold b_ensure, bbind; rewrite (get_alive _ _ _ L), D; reflexivity|]. split; [apply gentle_refl; exact G|]. split; [exact L|]. split; [apply attrs_refl|]. split; [|auto]. unfold erase. rewrite D, Hc. reflexivity.
  - exists s1, x1. split; [exact E1|].
    assert (Ev : ensure_data sc (erase (b_heap s) x) = UpdateContentAsData sc (erase (b_heap s) x)) by (unfold ensure_data; cbn [erase ddata]; rewrite D; reflexivity).
    destruct (update_attrs sc (erase (b_heap s) x)) as (A1 & A2 & A3 & A4 & A5 & A6 & A7). rewrite Ev in *. rewrite <- V1 in A1, A2, A3, A4, A5, A6, A7.
    assert (At : attrs x1 x) by (eapply erase_attrs; eassumption).
    assert (NB : block_of x1 = []).
    { unfold block_of. destruct (o_data x1) as [b|] eqn:D1; [|reflexivity]. destruct (o_local x1) eqn:Lc; [|reflexivity]. exfalso.
      destruct A7 as [A7 _]; [apply C; congruence|]. rewrite (no_data s1 o x1 G1 L1 A7) in D1. discriminate D1. }
    split; [pose proof (touch_gentle o s s1 x x1 T1 G G1 L L1 D At) as Tg; rewrite NB in Tg; exact Tg|]. split; [exact L1|]. split; [exact At|]. split; [exact V1|]. intros X. contradiction.
Qed.
(** objects the step is not about *)
Lemma gentle_other (P : nat -> Prop) LB LO s s' k x : gentle P LB LO s s' -> good s -> alive s k x -> ~ P k -> alive s' k x /\ erase (b_heap s') x = erase (b_heap s) x.
Proof.
  intros H G L N. destruct (g_obj _ _ _ _ _ H k x L) as (x' & L' & _ & _ & [U|U]); [contradiction|]. rewrite U in L'. split; [exact L'|].
  unfold erase. destruct (o_data x) as [a|] eqn:D; [|reflexivity]. destruct (proj1 G k x a L D) as (l & Hl & _). rewrite (cells_live _ _ _ Hl), (cells_live _ _ _ (g_live _ _ _ _ _ H a l Hl)). reflexivity.
Qed.
(** pointers stay valid *)
Lemma gentle_look P LB LO s s' p l : gentle P LB LO s s' -> look p s = (s, Ok l) -> look p s' = (s', Ok l).
Proof.
  intros H E. destruct p as [a|k v]; cbn [look] in *.
  - unfold fetch in E. destruct (nth_error (b_heap s) a) as [[c|]|] eqn:Ea; try discriminate E. apply fetch_live. apply (g_live _ _ _ _ _ H). injection E as <-. exact Ea.
  - unfold bbind in *. unfold get at 1 in E. destruct (nth_error (b_objs s) k) as [[x|]|] eqn:Ek; try discriminate E.
    destruct (g_obj _ _ _ _ _ H k x Ek) as (x' & L' & (_ & _ & _ & _ & _ & Et & Ev & _) & _). rewrite (get_alive _ _ _ L'), Et, Ev. destruct (v =? o_ver x); [|discriminate E]. unfold bret in *. injection E as <-. reflexivity.
Qed.
(** a new object *)
Lemma gentle_create x s : good s -> o_data x = None -> gentle (fun _ => False) [] (if o_local x then [length (b_objs s)] else []) s (Bst (b_heap s) (b_objs s ++ [Some x])) \/ o_local x = false.
Proof.
  intros [G1 G2] D. destruct (o_local x) eqn:C; [left|auto]. set (s' := Bst (b_heap s) (b_objs s ++ [Some x])).
  assert (K : forall k y, alive s' k y -> alive s k y \/ k = length (b_objs s) /\ y = x).
  { intros k y H. apply nth_app_inv in H. destruct H as [H|[H E]]; [auto|]. injection E as ->. auto. }
  assert (K' : forall k y, alive s k y -> alive s' k y) by (intros k y H; apply nth_app_l; exact H).
  split.
  - split.
    + intros k y a L E. destruct (K k y L) as [H|[_ ->]]; [exact (G1 k y a H E)|congruence].
    + intros k k' a (y & L & E) (y' & L' & E'). destruct (K k y L) as [H|[_ ->]]; [|congruence]. destruct (K k' y' L') as [H'|[_ ->]]; [|congruence]. apply (G2 k k' a); [exists y|exists y']; auto.
  - intros k y L. exists y. split; [apply K'; exact L|]. split; [apply attrs_refl|]. auto.
  - intros k y L. destruct (K k y L) as [H|[-> ->]]; [left; eauto|right; split; [apply in_eq|exact C]].
  - intros k [<-|[]]. split; [lia|]. exists x. split; [apply nth_app_end|exact C].
  - auto.
  - auto.
  - intros a [].
  - split; [constructor|]. constructor; [intros []|constructor].
  - cbn [b_heap b_objs s']. rewrite app_length. lia.
Qed.
(** a new block *)
Lemma gentle_alloc c s : good s -> gentle (fun _ => False) [length (b_heap s)] [] s (Bst (b_heap s ++ [Live c]) (b_objs s)).
Proof.
  intros [G1 G2]. set (s' := Bst (b_heap s ++ [Live c]) (b_objs s)).
  assert (H' : forall a l, live s a l -> live s' a l) by (intros a l H; apply nth_app_l; exact H).
  split.
  - split; [|exact G2]. intros k x a L D. destruct (G1 k x a L D) as (l & H & E). exists l. split; [apply H'; exact H|exact E].
  - intros k y L. exists y. split; [exact L|]. split; [apply attrs_refl|]. auto.
  - intros k y L. left. exists y. exact L.
  - intros k [].
  - exact H'.
  - intros a l H. apply nth_app_inv in H. destruct H as [H|[-> _]]; [auto|right; right; apply in_eq].
  - intros a [<-|[]]. split; [lia|]. split; [exists c; apply nth_app_end|]. intros (k & x & L & _ & D). destruct (G1 k x _ L D) as (l & H & _). pose proof (live_lt _ _ _ H). lia.
  - split; [constructor; [intros []|constructor]|constructor].
  - cbn [b_heap b_objs s']. rewrite app_length. lia.
Qed.
(** one of the new blocks is freed, one of the new objects is deleted *)
Lemma gentle_free P LB LO s s' a : gentle P (a :: LB) LO s s' -> (forall k, ~ owns s' k a) -> free a s' = (Bst (update a Freed (b_heap s')) (b_objs s'), Ok tt) /\ gentle P LB LO s (Bst (update a Freed (b_heap s')) (b_objs s')).
Proof.
  intros H N. destruct (g_lb _ _ _ _ _ H a (in_eq _ _)) as (Le & (l & Ha) & _). set (s2 := Bst (update a Freed (b_heap s')) (b_objs s')).
  split; [unfold free; rewrite (Ha : nth_error _ _ = _); reflexivity|].
  assert (K : forall b m, live s2 b m <-> live s' b m /\ b <> a).
  { intros b m. unfold live, s2. cbn [b_heap]. destruct (Nat.eq_dec a b) as [<-|Nb]; [rewrite (update_at _ _ _ _ Ha); split; [discriminate|intros [_ X]; contradiction]|].
    rewrite update_other by exact Nb. split; [intros X; split; auto|intros [X _]; exact X]. }
  destruct (g_nd _ _ _ _ _ H) as [ND NDO]. apply NoDup_cons_iff in ND. destruct ND as [NI ND].
  split; try apply H; auto.
  - split; [|apply (g_good _ _ _ _ _ H)]. intros k x b L D. destruct (proj1 (g_good _ _ _ _ _ H) k x b L D) as (m & Hm & E). exists m. split; [|exact E]. apply K. split; [exact Hm|]. intros ->. apply (N k). exists x. auto.
  - intros b m Hb. apply K. split; [apply (g_live _ _ _ _ _ H); exact Hb|]. intros ->. pose proof (live_lt _ _ _ Hb). lia.
  - intros b m Hb. apply K in Hb. destruct Hb as [Hb Nb]. destruct (g_new _ _ _ _ _ H b m Hb) as [X|[X|[X|X]]]; auto. congruence.
  - intros b I. destruct (g_lb _ _ _ _ _ H b (in_cons _ _ _ I)) as (Lb & (m & Hm) & X). split; [exact Lb|]. split; [|exact X]. exists m. apply K. split; [exact Hm|]. intros ->. contradiction.
  - cbn [s2 b_heap b_objs]. rewrite update_length. apply (g_len _ _ _ _ _ H).
Qed.

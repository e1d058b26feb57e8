(** Every operation of BufModel: the next state is good, its value is MeasModel's, and what it leaves without an owner is what [loses] says. *)
From Coq Require Import Floats.SpecFloat.
From Verif Require Import Base Str B64Model MeasModel BufModel BufFacts BufActs BufGentle BufEqual BufFile BufSpec.

Lemma value_alive s o x : alive s o x -> value s o = Some (erase (b_heap s) x).
Proof. unfold alive, value. intros ->. reflexivity. Qed.
Lemma alive_value s o d : value s o = Some d -> exists x, alive s o x /\ d = erase (b_heap s) x.
Proof. unfold alive, value. destruct (nth_error (b_objs s) o) as [[x|]|]; try discriminate. intros H. injection H as <-. exists x. auto. Qed.
Lemma mine_alive s o : mine s o = true -> exists x, alive s o x /\ o_local x = false.
Proof. unfold mine, alive. destruct (nth_error (b_objs s) o) as [[x|]|]; try discriminate. exists x. split; [reflexivity|]. apply negb_true_iff. exact H. Qed.
Lemma alive_mine s o x : alive s o x -> o_local x = false -> mine s o = true.
Proof. unfold mine, alive. intros -> ->. reflexivity. Qed.
Lemma buffer_owned s o a : buffer_of s o a <-> exists x, alive s o x /\ o_local x = false /\ o_data x = Some a.
Proof.
  unfold buffer_of. split.
  - intros (M & x & L & D). destruct (mine_alive s o M) as (y & Ly & C). rewrite (alive_same _ _ _ _ Ly L) in C. exists x. auto.
  - intros (x & L & C & D). split; [exact (alive_mine _ _ _ L C)|]. exists x. auto.
Qed.
Lemma stray_owned s a : stray s a <-> (exists l, live s a l) /\ ~ owned s a.
Proof.
  unfold stray, allocated, owned. split; intros [H N]; split; auto.
  - intros (k & X). apply (N k), buffer_owned. exact X.
  - intros k X. apply N. exists k. apply buffer_owned. exact X.
Qed.
Lemma value_none s o : length (b_objs s) <= o -> value s o = None.
Proof. intros H. apply nth_error_None in H. unfold value. rewrite H. reflexivity. Qed.

(** what a step may do *)
Record sound (P : nat -> Prop) (LB LO : list nat) (s s' : bst) : Prop := {
  z_good : good s';
  z_obj : forall k x, alive s k x -> ~ P k -> alive s' k x /\ erase (b_heap s') x = erase (b_heap s) x;
  z_new : forall k x, alive s' k x -> o_local x = false -> (exists y, alive s k y) \/ P k;
  z_stray : forall a, stray s' a <-> stray s a \/ In a LB;
  z_lb : NoDup LB /\ forall a, In a LB -> ~ stray s a;
  z_orphan : forall k, orphan s' k <-> orphan s k \/ In k LO;
  z_lo : NoDup LO /\ forall k, In k LO -> ~ orphan s k;
  z_own : forall k a, buffer_of s' k a -> buffer_of s k a \/ length (b_heap s) <= a;
  z_heap : length (b_heap s) <= length (b_heap s');
  z_live : forall a l, live s a l -> (forall k, P k -> ~ owns s k a) -> live s' a l }.
Lemma gentle_sound P LB LO s s' : good s -> gentle P LB LO s s' -> sound P LB LO s s'.
Proof.
  intros G H. split.
  - apply H.
  - intros k x L N. exact (gentle_other _ _ _ _ _ k x H G L N).
  - intros k x L C. left. destruct (g_back _ _ _ _ _ H k x L) as [X|[_ X]]; [exact X|congruence].
  - intros a. rewrite !stray_owned. split.
    + intros [(l & Hl) N]. destruct (g_new _ _ _ _ _ H a l Hl) as [X|[X|X]]; [|contradiction|auto]. left. split; [eauto|]. intros (k & x & L & C & D). apply N.
      destruct (g_obj _ _ _ _ _ H k x L) as (x' & L' & (_ & _ & _ & _ & _ & _ & _ & C') & [D'|[D' _]] & _); [|congruence]. exists k, x'. split; [exact L'|split; congruence].
    + intros [[(l & Hl) N]|I].
      * split; [exists l; exact (g_live _ _ _ _ _ H a l Hl)|]. intros O. destruct (owned_before _ _ _ _ _ _ H O) as [X|X]; [contradiction|]. pose proof (live_lt _ _ _ Hl). lia.
      * destruct (g_lb _ _ _ _ _ H a I) as (_ & X & Y). auto.
  - split; [apply H|]. intros a I X. apply stray_owned in X. destruct X as [(l & Hl) _]. destruct (g_lb _ _ _ _ _ H a I) as (Le & _). pose proof (live_lt _ _ _ Hl). lia.
  - intros k. split.
    + intros (x' & L' & C). destruct (g_back _ _ _ _ _ H k x' L') as [(x & L)|[X _]]; [|auto]. left. destruct (g_obj _ _ _ _ _ H k x L) as (y & Ly & (_ & _ & _ & _ & _ & _ & _ & Cy) & _). rewrite (alive_same _ _ _ _ Ly L') in Cy. exists x. split; [exact L|congruence].
    + intros [(x & L & C)|I].
      * destruct (g_obj _ _ _ _ _ H k x L) as (y & Ly & (_ & _ & _ & _ & _ & _ & _ & Cy) & _). exists y. split; [exact Ly|congruence].
      * destruct (g_lo _ _ _ _ _ H k I) as (_ & X). exact X.
  - split; [apply H|]. intros k I (x & L & _). destruct (g_lo _ _ _ _ _ H k I) as (Le & _). pose proof (alive_lt s k x L). lia.
  - intros k a X. apply buffer_owned in X. destruct X as (x' & L' & C & D). destruct (g_back _ _ _ _ _ H k x' L') as [(x & L)|[_ X]]; [|congruence].
    destruct (g_obj _ _ _ _ _ H k x L) as (y & Ly & (_ & _ & _ & _ & _ & _ & _ & Cy) & Dy & _). rewrite (alive_same _ _ _ _ Ly L') in *. destruct Dy as [Dy|[_ Dy]]; [left; apply buffer_owned; exists x; split; [exact L|split; congruence]|right; exact (Dy a D)].
  - exact (proj1 (g_len _ _ _ _ _ H)).
  - intros a l Hl _. exact (g_live _ _ _ _ _ H a l Hl).
Qed.
Lemma touch_sound o s s' x x' : touch o s s' -> good s -> good s' -> alive s o x -> alive s' o x' -> o_local x = false -> o_local x' = false -> sound (eq o) [] [] s s'.
Proof.
  intros T G G' L L' C C'.
  assert (K : forall k y, k <> o -> alive s' k y <-> alive s k y) by (intros k y N; unfold alive; rewrite (t_objs _ _ _ T k N); reflexivity).
  assert (Ow : forall a, owned s a -> ~ owns s o a -> owned s' a).
  { intros a (k & z & Z & Cz & D) N. destruct (Nat.eq_dec k o) as [->|Nk]; [exfalso; apply N; exists z; auto|]. exists k, z. split; [apply K; auto|auto]. }
  split.
  - exact G'.
  - intros k z Z N. assert (Nk : k <> o) by (intros ->; apply N; reflexivity). split; [apply K; auto|]. unfold erase. f_equal. destruct (o_data z) as [a|] eqn:D; [|reflexivity]. destruct (proj1 G k z a Z D) as (l & Hl & _). rewrite (cells_live _ _ _ Hl).
    apply (cells_live s'). apply (t_heap _ _ _ T); [exact Hl|]. intros O. apply Nk. apply (proj2 G k o a); [exists z; auto|exact O].
  - intros k z Z _. left. destruct (Nat.eq_dec k o) as [->|Nk]; [eauto|]. exists z. apply K; auto.
  - intros a. rewrite !stray_owned. cbn [In]. split.
    + intros [(l & Hl) N]. left. destruct (t_keep _ _ _ T a l Hl) as [(z & Z & D)|(X & NO)]; [exfalso; apply N; rewrite (alive_same _ _ _ _ Z L') in D; exists o, x'; auto|]. split; [exact X|]. intros O. apply N. apply Ow; auto.
    + intros [[(l & Hl) N]|[]]. assert (NO : ~ owns s o a) by (intros (z & Z & D); apply N; rewrite (alive_same _ _ _ _ Z L) in D; exists o, x; auto). split; [exists l; exact (t_heap _ _ _ T a _ Hl NO)|].
      intros (k & z & Z & Cz & D). destruct (Nat.eq_dec k o) as [->|Nk].
      * destruct (t_own _ _ _ T a) as [O|Le]; [exists z; auto|contradiction|]. pose proof (live_lt _ _ _ Hl). lia.
      * apply N. exists k, z. split; [apply K; auto|auto].
  - split; [constructor|]. intros a [].
  - intros k. cbn [In]. split.
    + intros (z & Z & Cz). left. destruct (Nat.eq_dec k o) as [->|Nk]; [exfalso; rewrite (alive_same s' o _ _ Z L') in Cz; congruence|]. exists z. split; [apply K; auto|exact Cz].
    + intros [(z & Z & Cz)|[]]. destruct (Nat.eq_dec k o) as [->|Nk]; [exfalso; rewrite (alive_same s o _ _ Z L) in Cz; congruence|]. exists z. split; [apply K; auto|exact Cz].
  - split; [constructor|]. intros a [].
  - intros k a X. apply buffer_owned in X. destruct X as (z & Z & Cz & D). destruct (Nat.eq_dec k o) as [->|Nk].
    + destruct (t_own _ _ _ T a) as [(w & W & Dw)|Le]; [exists z; auto| |auto]. left. apply buffer_owned. exists x. rewrite (alive_same _ _ _ _ W L) in Dw. auto.
    + left. apply buffer_owned. exists z. split; [apply K; auto|auto].
  - apply T.
  - intros a l Hl N. exact (t_heap _ _ _ T a _ Hl (N o eq_refl)).
Qed.
(** a new object of the program *)
Lemma create_sound x s : good s -> o_data x = None -> o_local x = false -> sound (eq (length (b_objs s))) [] [] s (Bst (b_heap s) (b_objs s ++ [Some x])) /\ alive (Bst (b_heap s) (b_objs s ++ [Some x])) (length (b_objs s)) x.
Proof.
  intros [G1 G2] D C. set (s' := Bst (b_heap s) (b_objs s ++ [Some x])). assert (Lx : alive s' (length (b_objs s)) x) by apply nth_app_end. split; [|exact Lx].
  assert (K : forall k y, alive s' k y -> alive s k y \/ k = length (b_objs s) /\ y = x).
  { intros k y H. apply nth_app_inv in H. destruct H as [H|[H E]]; [auto|]. injection E as ->. auto. }
  assert (K' : forall k y, alive s k y -> alive s' k y) by (intros k y H; apply nth_app_l; exact H).
  assert (Ow : forall a, owned s' a <-> owned s a).
  { intros a. split; intros (k & y & L & R); exists k, y; (split; [|exact R]); [|apply K'; exact L]. destruct (K k y L) as [X|[_ ->]]; [exact X|]. destruct R. congruence. }
  split.
  - split.
    + intros k y a L E. destruct (K k y L) as [H|[_ ->]]; [exact (G1 k y a H E)|congruence].
    + intros k k' a (y & L & E) (y' & L' & E'). destruct (K k y L) as [H|[_ ->]]; [|congruence]. destruct (K k' y' L') as [H'|[_ ->]]; [|congruence]. apply (G2 k k' a); [exists y|exists y']; auto.
  - intros k y L _. split; [apply K'; exact L|reflexivity].
  - intros k y L _. destruct (K k y L) as [X|[-> _]]; [left; eauto|right; reflexivity].
  - intros a. rewrite !stray_owned, Ow. cbn [In]. change (live s' a) with (live s a). tauto.
  - split; [constructor|]. intros a [].
  - intros k. cbn [In]. split.
    + intros (y & L & Cy). left. destruct (K k y L) as [X|[_ ->]]; [exists y; auto|congruence].
    + intros [(y & L & Cy)|[]]. exists y. split; [exact (K' k y L)|exact Cy].
  - split; [constructor|]. intros a [].
  - intros k a X. left. apply buffer_owned in X. apply buffer_owned. destruct X as (y & L & Cy & Dy). destruct (K k y L) as [X|[_ ->]]; [exists y; auto|congruence].
  - reflexivity.
  - intros a l Hl _. exact Hl.
Qed.
(** an object of the program destroyed *)
Lemma destroy_sound o s x : good s -> alive s o x -> o_local x = false -> exists s', b_Destroy o s = (s', Ok tt) /\ sound (eq o) [] [] s s' /\ value s' o = None /\ (forall a, owns s o a -> nth_error (b_heap s') a = Some Freed).
Proof.
  intros G L C. destruct (acts_Delete o s x G L) as (s1 & x1 & E1 & G1 & T1 & L1 & V1 & C1). cbn [lift seen fst snd] in *. apply pair_equal_spec in V1. destruct V1 as [V1 _].
  assert (D1 : o_data x1 = None) by (apply (no_data s1 o x1 G1 L1); rewrite V1; reflexivity).
  pose proof (touch_sound o s s1 x x1 T1 G G1 L L1 C) as S1. specialize (S1 ltac:(congruence)).
  set (s2 := Bst (b_heap s1) (update o None (b_objs s1))).
  assert (E2 : b_Destroy o s = (s2, Ok tt)) by (unfold b_Destroy, bbind; rewrite E1; reflexivity).
  exists s2. split; [exact E2|].
  assert (K : forall k z, alive s2 k z <-> alive s1 k z /\ k <> o).
  { intros k z. unfold alive, s2. cbn [b_objs]. destruct (Nat.eq_dec o k) as [<-|N]; [rewrite (update_at _ _ _ _ L1); split; [discriminate|intros [_ X]; contradiction]|].
    rewrite update_other by exact N. split; [intros X; split; auto|intros [X _]; exact X]. }
  assert (Ow : forall a, owned s2 a <-> owned s1 a).
  { intros a. split; intros (k & z & Z & R); exists k, z; (split; [|exact R]); [apply K in Z; apply Z|]. apply K. split; [exact Z|]. intros ->. rewrite (alive_same _ _ _ _ Z L1) in R. destruct R. congruence. }
  split; [|split].
  - split.
    + split.
      * intros k z a Z D. apply K in Z. destruct Z as [Z _]. exact (proj1 G1 k z a Z D).
      * intros k k' a (z & Z & D) (z' & Z' & D'). apply K in Z, Z'. apply (proj2 G1 k k' a); [exists z; split; [apply Z|exact D]|exists z'; split; [apply Z'|exact D']].
    + intros k z Z N. destruct (z_obj _ _ _ _ _ S1 k z Z N) as [X Y]. split; [apply K; split; [exact X|intros ->; apply N; reflexivity]|exact Y].
    + intros k z Z Cz. apply K in Z. apply (z_new _ _ _ _ _ S1 k z (proj1 Z) Cz).
    + intros a. rewrite <- (z_stray _ _ _ _ _ S1 a). rewrite !stray_owned, Ow. change (live s2 a) with (live s1 a). tauto.
    + split; [constructor|]. intros a [].
    + intros k. rewrite <- (z_orphan _ _ _ _ _ S1 k). split; intros (z & Z & Cz); exists z; (split; [|exact Cz]); [apply (K k z) in Z; apply Z|]. apply (K k z). split; [exact Z|]. intros ->. rewrite (alive_same s1 o _ _ Z L1) in Cz. congruence.
    + split; [constructor|]. intros a [].
    + intros k a X. apply (z_own _ _ _ _ _ S1 k a). apply buffer_owned in X. apply buffer_owned. destruct X as (z & Z & R). exists z. split; [apply K in Z; apply Z|exact R].
    + apply S1.
    + apply (z_live _ _ _ _ _ S1).
  - unfold value. cbn [s2 b_objs]. rewrite (update_at _ _ _ _ L1). reflexivity.
  - intros a (z & Z & D). rewrite (alive_same _ _ _ _ Z L) in D. destruct (proj1 G o x a L D) as (l & Hl & _). cbn [s2 b_heap].
    unfold b_Delete, bbind, get in E1. rewrite (L : nth_error _ _ = _), D in E1. unfold free in E1. rewrite (Hl : nth_error _ _ = _) in E1. unfold BufModel.put in E1. injection E1 as <-. cbn [b_heap]. exact (update_at _ _ _ _ Hl).
Qed.

(** Facts about BufModel: every member function touches its own object and its own block only, and has the value MeasModel gives it. *)
From Coq Require Import Floats.SpecFloat.
From Verif Require Import Base Str B64Model MeasModel BufModel.

(** * Lists *)
Lemma update_length {A} (x : A) : forall l n, length (update n x l) = length l.
Proof. induction l as [|y l IH]; intros [|n]; cbn; auto. Qed.
Lemma update_at {A} (x : A) : forall l n y, nth_error l n = Some y -> nth_error (update n x l) n = Some x.
Proof. induction l as [|z l IH]; intros [|n] y H; cbn in *; try discriminate; eauto. Qed.
Lemma update_other {A} (x : A) : forall l n m, n <> m -> nth_error (update n x l) m = nth_error l m.
Proof. induction l as [|z l IH]; intros [|n] [|m] H; cbn; auto; try congruence. Qed.
Lemma nth_app_l {A} (l : list A) r n x : nth_error l n = Some x -> nth_error (l ++ r) n = Some x.
Proof. intros H. rewrite nth_error_app1; [exact H|]. apply nth_error_Some. congruence. Qed.
Lemma nth_app_end {A} (l : list A) x : nth_error (l ++ [x]) (length l) = Some x.
Proof. rewrite nth_error_app2, Nat.sub_diag by lia. reflexivity. Qed.
Lemma nth_none_end {A} (l : list A) : nth_error l (length l) = None.
Proof. apply nth_error_None. lia. Qed.
Lemma nth_app_inv {A} (l : list A) x n y : nth_error (l ++ [x]) n = Some y -> nth_error l n = Some y \/ n = length l /\ y = x.
Proof.
  intros H. destruct (lt_dec n (length l)) as [L|L]; [rewrite nth_error_app1 in H by exact L; auto|]. right.
  rewrite nth_error_app2 in H by lia. destruct (n - length l) as [|k] eqn:E; cbn in H; [injection H as <-; split; [lia|reflexivity]|destruct k; discriminate].
Qed.
(** decoding does not change the size of the memory *)
Lemma decode_loop_length sc o : forall input out j k buf n p, length (fst (decode_loop sc o input out j k buf n p)) = length out.
Proof.
  induction input as [|c input IH]; intros out j k buf n p; cbn [decode_loop]; [reflexivity|].
  repeat (match goal with
    | |- context [match ?x with _ => _ end] => match x with context [decode_loop] => fail 1 | _ => destruct x eqn:? end
    | H : B64Model.put _ _ ?l = Some ?l' |- _ => unfold B64Model.put in H; apply set_at_length in H
    end; cbn [fst]); try reflexivity; try (rewrite IH); try congruence; try (cbn [fst]; congruence).
Qed.
Lemma decode_length sc o input out : length (fst (Decode sc o input out)) = length out.
Proof. apply decode_loop_length. Qed.

(** * The state *)
Definition alive (s : bst) (o : nat) (x : obj) : Prop := nth_error (b_objs s) o = Some (Some x).
Definition live (s : bst) (a : nat) (l : list cell) : Prop := nth_error (b_heap s) a = Some (Live l).
Definition owns (s : bst) (o a : nat) : Prop := exists x, alive s o x /\ o_data x = Some a.
(** what MeasModel calls the object *)
Definition cells_at (h : list block) (d : option nat) : option (list cell) :=
  match d with Some a => match nth_error h a with Some (Live l) => Some l | _ => None end | None => None end.
Definition erase (h : list block) (x : obj) : dm := Dm (o_name x) (o_esc x) (o_cls x) (o_enc x) (o_comp x) (o_text x) (cells_at h (o_data x)).
(** every object's block is allocated, of the size noted, and its own *)
Definition good (s : bst) : Prop :=
  (forall o x a, alive s o x -> o_data x = Some a -> exists l, live s a l /\ o_size x = Some (length l)) /\
  (forall o o' a, owns s o a -> owns s o' a -> o = o').
(** [s'] comes from [s] by work on [o] *)
Record touch (o : nat) (s s' : bst) : Prop := {
  t_objs : forall k, k <> o -> nth_error (b_objs s') k = nth_error (b_objs s) k;
  t_len : length (b_objs s') = length (b_objs s);
  t_heap : forall a b, nth_error (b_heap s) a = Some b -> ~ owns s o a -> nth_error (b_heap s') a = Some b;
  t_grow : length (b_heap s) <= length (b_heap s');
  t_own : forall a, owns s' o a -> owns s o a \/ length (b_heap s) <= a;
  t_keep : forall a l, live s' a l -> owns s' o a \/ (exists l', live s a l') /\ ~ owns s o a }.
Lemma touch_refl o s : touch o s s.
Proof.
  split; auto. intros a l H.
  assert (D : owns s o a \/ ~ owns s o a).
  { unfold owns, alive. destruct (nth_error (b_objs s) o) as [[x|]|]; [|right; intros (y & Y & _); discriminate|right; intros (y & Y & _); discriminate].
    destruct (o_data x) as [b|] eqn:E; [|right; intros (y & Y & Z); injection Y as <-; congruence]. destruct (Nat.eq_dec b a) as [->|N]; [left; exists x; auto|right; intros (y & Y & Z); injection Y as <-; congruence]. }
  destruct D; [auto|right; split; [eauto|assumption]].
Qed.
Lemma touch_trans o s1 s2 s3 : touch o s1 s2 -> touch o s2 s3 -> touch o s1 s3.
Proof.
  intros A C. split.
  - intros k N. rewrite (t_objs _ _ _ C k N). apply (t_objs _ _ _ A k N).
  - rewrite (t_len _ _ _ C). apply (t_len _ _ _ A).
  - intros a b H N. apply (t_heap _ _ _ C); [exact (t_heap _ _ _ A a b H N)|]. intros O. destruct (t_own _ _ _ A a O) as [O'|L]; [contradiction|].
    apply nth_error_None in L. congruence.
  - pose proof (t_grow _ _ _ A). pose proof (t_grow _ _ _ C). lia.
  - intros a O. destruct (t_own _ _ _ C a O) as [O'|L]; [exact (t_own _ _ _ A a O')|]. right. pose proof (t_grow _ _ _ A). lia.
  - intros a l H. destruct (t_keep _ _ _ C a l H) as [O|((l' & H') & N)]; [auto|]. destruct (t_keep _ _ _ A a l' H') as [O|K]; [contradiction|auto].
Qed.

(** a step of work on one object: the new state is good, the value, the version of the text and the answer are those of [f] *)
Definition seen (h : list block) (x : obj) : dm * nat := (erase h x, o_ver x).
Definition lift {A} (f : dm -> dm * res A) : dm * nat -> dm * nat * res A := fun p => (fst (f (fst p)), snd p, snd (f (fst p))).
Definition done {A} (o : nat) (s : bst) (x : obj) (out : bst * res A) (d : dm * nat) (r : res A) : Prop :=
  exists s' x', out = (s', r) /\ good s' /\ touch o s s' /\ alive s' o x' /\ seen (b_heap s') x' = d /\ o_local x' = o_local x.
Definition acts {A} (o : nat) (m : B A) (f : dm * nat -> dm * nat * res A) : Prop :=
  forall s x, good s -> alive s o x -> done o s x (m s) (fst (f (seen (b_heap s) x))) (snd (f (seen (b_heap s) x))).
Lemma done_here {A} o s x (r : res A) : good s -> alive s o x -> done o s x (s, r) (seen (b_heap s) x) r.
Proof. intros G L. exists s, x. split; [reflexivity|]. split; [exact G|]. split; [apply touch_refl|]. split; [exact L|]. split; reflexivity. Qed.
Lemma done_after {A} o s x s1 x1 (out : bst * res A) d r : touch o s s1 -> o_local x1 = o_local x -> done o s1 x1 out d r -> done o s x out d r.
Proof.
  intros T C (s2 & x2 & E & G & T2 & L & V & C2). exists s2, x2. split; [exact E|]. split; [exact G|]. split; [exact (touch_trans _ _ _ _ T T2)|]. split; [exact L|]. split; [exact V|congruence].
Qed.

(** * One object changed *)
Definition replaced (s : bst) (o : nat) (x : obj) : bst := Bst (b_heap s) (update o (Some x) (b_objs s)).
Lemma alive_replaced s o x y : alive s o x -> alive (replaced s o y) o y.
Proof. unfold alive, replaced. cbn [b_objs]. apply update_at. Qed.
Lemma alive_other s o y k z : k <> o -> alive (replaced s o y) k z <-> alive s k z.
Proof. unfold alive, replaced. cbn [b_objs]. intros N. rewrite update_other by auto. reflexivity. Qed.
(** attributes: the block stays *)
Lemma replaced_same s o x y : good s -> alive s o x -> o_data y = o_data x -> (forall a, o_data x = Some a -> o_size y = o_size x) -> good (replaced s o y) /\ touch o s (replaced s o y).
Proof.
  intros [G1 G2] L Ed Es.
  assert (O : forall k a, owns (replaced s o y) k a <-> owns s k a).
  { intros k a. destruct (Nat.eq_dec k o) as [->|N].
    - split; intros (z & Z & D); [exists x|exists y]; (split; [auto|]).
      + pose proof (alive_replaced s o x y L) as Y. unfold alive in *. congruence.
      + apply (alive_replaced s o x y L).
      + unfold alive in *. congruence.
    - split; intros (z & Z & D); exists z; (split; [apply (alive_other s o y k z N); exact Z|exact D]). }
  split; [split|].
  - intros k z a Z D. destruct (Nat.eq_dec k o) as [->|N].
    + assert (z = y) by (pose proof (alive_replaced s o x y L) as Y; unfold alive in *; congruence). subst z. rewrite (Es a) by congruence. apply (G1 o x a L). congruence.
    + apply (alive_other s o y k z N) in Z. exact (G1 k z a Z D).
  - intros k k' a. rewrite !O. apply G2.
  - split; cbn [replaced b_heap b_objs]; auto.
    + intros k N. apply update_other. auto.
    + apply update_length.
    + intros a H. left. apply O. exact H.
    + intros a l H. destruct (t_keep _ _ _ (touch_refl o s) a l H) as [X|X]; [left; apply O; exact X|right; exact X].
Qed.
Lemma acts_attr o (g : obj -> obj) (g' : dm * nat -> dm * nat) : (forall x, o_data (g x) = o_data x /\ o_size (g x) = o_size x /\ o_local (g x) = o_local x) -> (forall h x, seen h (g x) = g' (seen h x)) ->
  acts o (x <. get o ;; put o (g x)) (fun d => (g' d, Ok tt)).
Proof.
  intros H E s x G L. destruct (H x) as (A & C & D). destruct (replaced_same s o x (g x) G L A (fun _ _ => C)) as [G' T].
  exists (replaced s o (g x)), (g x). split; [|split; [exact G'|split; [exact T|split; [exact (alive_replaced s o x _ L)|split; [apply E|exact D]]]]].
  unfold bbind, get. unfold alive in L. rewrite L. reflexivity.
Qed.

(** * The cache *)
Lemma erase_none h x : o_data x = None -> erase h x = Dm (o_name x) (o_esc x) (o_cls x) (o_enc x) (o_comp x) (o_text x) None.
Proof. intros E. unfold erase. rewrite E. reflexivity. Qed.
Lemma acts_Delete o : acts o (b_Delete o) (lift (fun d => (DeleteContentAsData d, Ok tt))).
Proof.
  intros s x G L. pose proof G as [G1 G2]. unfold b_Delete, bbind, get. pose proof L as L0. unfold alive in L0. rewrite L0. cbn [fst snd].
  set (y := with_data x None (Some 0)).
  destruct (o_data x) as [a|] eqn:Ed.
  - destruct (G1 o x a L Ed) as (l & H & Es). unfold free. unfold live in H. rewrite H. cbn [BufModel.put b_heap b_objs]. unfold put. cbn [b_heap b_objs].
    set (s' := Bst (update a Freed (b_heap s)) (update o (Some y) (b_objs s))).
    assert (Ly : alive s' o y) by (unfold alive, s'; cbn [b_objs]; eapply update_at; exact L).
    assert (LO : forall k z, k <> o -> alive s' k z <-> alive s k z) by (intros k z N; unfold alive, s'; cbn [b_objs]; rewrite update_other by auto; reflexivity).
    assert (NO : forall b, ~ owns s' o b) by (intros b (z & Z & D); unfold alive in *; rewrite Ly in Z; injection Z as <-; discriminate D).
    assert (Oa : owns s o a) by (exists x; auto).
    exists s', y. split; [reflexivity|]. split; [split|].
    + intros k z b Z D. destruct (Nat.eq_dec k o) as [->|N]; [exfalso; apply (NO b); exists z; auto|]. apply (LO k z N) in Z. destruct (G1 k z b Z D) as (l' & H' & Es').
      exists l'. split; [|exact Es']. unfold live, s'. cbn [b_heap]. rewrite update_other; [exact H'|]. intros <-. apply N. apply (G2 k o a); [exists z; auto|exact Oa].
    + intros k k' b O O'. destruct (Nat.eq_dec k o) as [->|N]; [exfalso; exact (NO b O)|]. destruct (Nat.eq_dec k' o) as [->|N']; [exfalso; exact (NO b O')|].
      destruct O as (z & Z & D), O' as (z' & Z' & D'). apply (LO k z N) in Z. apply (LO k' z' N') in Z'. apply (G2 k k' b); [exists z|exists z']; auto.
    + split; [|split; [exact Ly|split; [unfold seen; rewrite erase_none by reflexivity; reflexivity|reflexivity]]]. split.
      * intros k N. unfold s'. cbn [b_objs]. apply update_other. auto.
      * unfold s'. cbn [b_objs]. apply update_length.
      * intros b bl Hb N. unfold s'. cbn [b_heap]. rewrite update_other; [exact Hb|]. intros <-. exact (N Oa).
      * unfold s'. cbn [b_heap]. rewrite update_length. lia.
      * intros b O. exfalso. exact (NO b O).
      * intros b l' Hb. right. unfold live, s' in Hb. cbn [b_heap] in Hb. destruct (Nat.eq_dec a b) as [<-|N]; [rewrite (update_at _ _ _ _ H) in Hb; discriminate|]. rewrite update_other in Hb by auto.
        split; [exists l'; exact Hb|]. intros (z & Z & D). unfold alive in *. congruence.
  - unfold put. cbn [bret]. unfold bret. fold (replaced s o y).
    assert (Ly : alive (replaced s o y) o y) by exact (alive_replaced s o x y L).
    assert (NO : forall b, ~ owns (replaced s o y) o b) by (intros b (z & Z & D); unfold alive in *; rewrite Ly in Z; injection Z as <-; discriminate D).
    assert (NO0 : forall b, ~ owns s o b) by (intros b (z & Z & D); unfold alive in *; congruence).
    exists (replaced s o y), y. split; [reflexivity|]. split; [split|].
    + intros k z b Z D. destruct (Nat.eq_dec k o) as [->|N]; [exfalso; apply (NO b); exists z; auto|]. apply (alive_other s o y k z N) in Z. exact (G1 k z b Z D).
    + intros k k' b O O'. destruct (Nat.eq_dec k o) as [->|N]; [exfalso; exact (NO b O)|]. destruct (Nat.eq_dec k' o) as [->|N']; [exfalso; exact (NO b O')|].
      destruct O as (z & Z & D), O' as (z' & Z' & D'). apply (alive_other s o y k z N) in Z. apply (alive_other s o y k' z' N') in Z'. apply (G2 k k' b); [exists z|exists z']; auto.
    + split; [|split; [exact Ly|split; [unfold seen; rewrite erase_none by reflexivity; reflexivity|reflexivity]]]. split; cbn [replaced b_heap b_objs]; auto.
      * intros k N. apply update_other. auto.
      * apply update_length.
      * intros b O. exfalso. exact (NO b O).
      * intros b l' Hb. right. split; [exists l'; exact Hb|apply NO0].
Qed.
(** a new block for an object without one *)
Lemma allocate s o x cells : good s -> alive s o x -> o_data x = None -> let a := length (b_heap s) in
  let s' := Bst (b_heap s ++ [Live cells]) (update o (Some (with_data x (Some a) (Some (length cells)))) (b_objs s)) in
  good s' /\ touch o s s' /\ alive s' o (with_data x (Some a) (Some (length cells))) /\ live s' a cells.
Proof.
  intros [G1 G2] L Ed a s'. set (y := with_data x (Some a) (Some (length cells))).
  assert (Ly : alive s' o y) by (unfold alive, s'; cbn [b_objs]; eapply update_at; exact L).
  assert (LO : forall k z, k <> o -> alive s' k z <-> alive s k z) by (intros k z N; unfold alive, s'; cbn [b_objs]; rewrite update_other by auto; reflexivity).
  assert (Ha : live s' a cells) by (unfold live, s'; cbn [b_heap]; apply nth_app_end).
  assert (OO : forall b, owns s' o b -> b = a) by (intros b (z & Z & D); unfold alive in *; rewrite Ly in Z; injection Z as <-; injection D as <-; reflexivity).
  assert (NO0 : forall b, ~ owns s o b) by (intros b (z & Z & D); unfold alive in *; congruence).
  assert (Na : forall k, k <> o -> ~ owns s' k a).
  { intros k N (z & Z & D). apply (LO k z N) in Z. destruct (G1 k z a Z D) as (l & H & _). unfold live, a in H. rewrite nth_none_end in H. discriminate H. }
  split; [split|split; [|split; [exact Ly|exact Ha]]].
  - intros k z b Z D. destruct (Nat.eq_dec k o) as [->|N].
    + unfold alive in *. rewrite Ly in Z. injection Z as <-. injection D as <-. exists cells. split; [exact Ha|reflexivity].
    + apply (LO k z N) in Z. destruct (G1 k z b Z D) as (l & H & Es). exists l. split; [|exact Es]. unfold live, s'. cbn [b_heap]. apply nth_app_l. exact H.
  - intros k k' b O O'. destruct (Nat.eq_dec k o) as [->|N], (Nat.eq_dec k' o) as [->|N']; auto.
    + rewrite (OO b O) in O'. exfalso. exact (Na k' N' O').
    + rewrite (OO b O') in O. exfalso. exact (Na k N O).
    + destruct O as (z & Z & D), O' as (z' & Z' & D'). apply (LO k z N) in Z. apply (LO k' z' N') in Z'. apply (G2 k k' b); [exists z|exists z']; auto.
  - split.
    + intros k N. unfold s'. cbn [b_objs]. apply update_other. auto.
    + unfold s'. cbn [b_objs]. apply update_length.
    + intros b bl Hb N. unfold s'. cbn [b_heap]. apply nth_app_l. exact Hb.
    + unfold s'. cbn [b_heap]. rewrite app_length. lia.
    + intros b O. right. rewrite (OO b O). reflexivity.
    + intros b l Hb. unfold live, s' in Hb. cbn [b_heap] in Hb. apply nth_app_inv in Hb. destruct Hb as [Hb|[-> E]]; [right; split; [exists l; exact Hb|apply NO0]|]. left. exists y. auto.
Qed.
(** the bytes of an object's block are written *)
Lemma written_block s o x a l mem : good s -> alive s o x -> o_data x = Some a -> live s a l -> length mem = length l ->
  let s' := Bst (update a (Live mem) (b_heap s)) (b_objs s) in good s' /\ touch o s s' /\ live s' a mem.
Proof.
  intros [G1 G2] L Ed H Em s'. assert (Oa : owns s o a) by (exists x; auto).
  assert (Ha : live s' a mem) by (unfold live, s'; cbn [b_heap]; eapply update_at; exact H).
  split; [split|split; [|exact Ha]].
  - intros k z b Z D. change (alive s k z) in Z. destruct (G1 k z b Z D) as (l' & H' & Es). destruct (Nat.eq_dec a b) as [<-|N].
    + exists mem. split; [exact Ha|]. unfold live in *. congruence.
    + exists l'. split; [|exact Es]. unfold live, s'. cbn [b_heap]. rewrite update_other by auto. exact H'.
  - exact G2.
  - split; auto.
    + intros b bl Hb N. unfold s'. cbn [b_heap]. rewrite update_other; [exact Hb|]. intros <-. exact (N Oa).
    + unfold s'. cbn [b_heap]. rewrite update_length. lia.
    + intros b l' Hb. destruct (Nat.eq_dec a b) as [<-|N]; [left; exact Oa|]. unfold live, s' in Hb. cbn [b_heap] in Hb. rewrite update_other in Hb by auto.
      right. split; [exists l'; exact Hb|]. intros (z & Z & D). unfold alive in *. congruence.
Qed.

(** Histories of BufModel: what holds along them. *)
From Coq Require Import Floats.SpecFloat.
From Verif Require Import Base Str B64Model MeasModel BufModel BufFacts BufActs BufGentle BufEqual BufFile BufSpec BufSteps BufOps BufStep.

(** the pointers the program got *)
Definition held (h : list (op * res answer)) (o : nat) (q : ptr) : Prop := In (GetData o, Ok (APtr q)) h.
Definition from (s : bst) (o : nat) (q : ptr) : Prop :=
  match q with PBuf a => a < length (b_heap s) /\ forall k, buffer_of s k a -> k = o | PText k _ => k = o end.
Definition invariant (h : list (op * res answer)) (s : bst) : Prop := good s /\ forall o q, held h o q -> from s o q.
Lemma good_nothing : good nothing.
Proof. split; [intros [|o] x a H; discriminate H|intros [|o] o' a (x & H & _); discriminate H]. Qed.
Lemma GetData_answer e o s s' q : good s -> mine s o = true -> perform e (GetData o) s = (s', Ok (APtr q)) -> exists x, alive s' o x /\ q = ptr_of o x /\ good s' /\ o_local x = false /\ gentle (eq o) [] [] s s'.
Proof.
  intros G M E. destruct (mine_alive s o M) as (x & L & C). destruct (Data_gentle (e_sc e) o s x G L) as (s1 & x1 & E1 & H & L1 & A & V); [congruence|]. cbn [perform] in E. rewrite (bmap_run _ _ _ _ _ E1) in E. apply pair_equal_spec in E. destruct E as [<- E].
  exists x1. split; [exact L1|]. split; [|split; [apply H|split; [|exact H]]].
  - destruct (snd (ensure_data (e_sc e) (erase (b_heap s) x))); try discriminate E. cbn [bind answered] in E. injection E as <-. reflexivity.
  - destruct A as (_ & _ & _ & _ & _ & _ & _ & Ca). congruence.
Qed.
Lemma held_reach h s p : invariant h s -> (forall q, In q (uses p) -> exists o, In (GetData o, Ok (APtr q)) h) -> in_reach s p.
Proof. intros [_ H] U a I. destruct (U _ I) as (o & X). exact (proj1 (H o _ X)). Qed.
Lemma invariant_step e h s p s' r : invariant h s -> forallb (mine s) (handles p) = true -> (forall q, In q (uses p) -> exists o, In (GetData o, Ok (APtr q)) h) -> perform e p s = (s', r) -> ended r -> invariant (h ++ [(p, r)]) s'.
Proof.
  intros I M U E X. destruct (step e p s s' r (proj1 I) M (held_reach h s p I U) E) as [_ S]. destruct (S X) as (LB & LO & Z & _). split; [apply Z|].
  intros o q Hq. unfold held in Hq. apply in_app_or in Hq. destruct Hq as [Hq|[Hq|[]]].
  - pose proof (proj2 I o q Hq) as F. destruct q as [a|k v]; cbn [from] in *; [|exact F]. destruct F as [La F]. split; [pose proof (z_heap _ _ _ _ _ Z); lia|]. intros k B. destruct (z_own _ _ _ _ _ Z k a B) as [B'|Le]; [exact (F k B')|lia].
  - apply pair_equal_spec in Hq. destruct Hq as [-> ->]. cbn [handles forallb] in M. apply andb_prop in M. destruct (GetData_answer e o s s' q (proj1 I) (proj1 M) E) as (x & L & -> & G' & C & _). unfold ptr_of. destruct (o_data x) as [a|] eqn:D; cbn [from]; [|reflexivity].
    destruct (proj1 G' o x a L D) as (l & Hl & _). split; [exact (live_lt _ _ _ Hl)|]. intros k B. apply buffer_owned in B. destruct B as (y & Y & _ & Dy). apply (proj2 G' k o a); [exists y; auto|exists x; auto].
Qed.
Lemma history_invariant e h s : history e h s -> invariant h s.
Proof.
  induction 1 as [|h s p s' r H IH M U E X]; [split; [exact good_nothing|intros o q []]|]. exact (invariant_step e h s p s' r IH M U E X).
Qed.
(** a history's last operation *)
Lemma history_snoc e h p r s' : history e (h ++ [(p, r)]) s' -> exists s, history e h s /\ forallb (mine s) (handles p) = true /\ (forall q, In q (uses p) -> exists o, In (GetData o, Ok (APtr q)) h) /\ perform e p s = (s', r) /\ ended r.
Proof.
  intros H. remember (h ++ [(p, r)]) as l eqn:El. destruct H as [|h0 s p0 s1 r0 H M U E X]; [destruct h; discriminate El|]. apply app_inj_tail in El. destruct El as [-> El]. apply pair_equal_spec in El. destruct El as [-> ->]. exists s. auto.
Qed.
Lemma history_nil e s : history e [] s -> s = nothing.
Proof. intros H. remember [] as l eqn:El. destruct H as [|h0 s0 p0 s1 r0 H M U E X]; [reflexivity|]. apply app_eq_nil in El. destruct El as [_ El]. discriminate El. Qed.
Lemma history_unique e h : forall s s', history e h s -> history e h s' -> s = s'.
Proof.
  induction h as [|[p r] h IH] using rev_ind; intros s s' H H'; [rewrite (history_nil e s H), (history_nil e s' H'); reflexivity|].
  destruct (history_snoc _ _ _ _ _ H) as (s1 & H1 & _ & _ & E1 & _). destruct (history_snoc _ _ _ _ _ H') as (s2 & H2 & _ & _ & E2 & _). rewrite (IH s1 s2 H1 H2) in E1. congruence.
Qed.

(** * Pointers *)
Definition writes (p : op) : option nat := match p with SetText o _ | SetData o _ _ | Assign o _ | Destroy o => Some o | _ => None end.
Lemma points_text s o v l : points s (PText o v) l <-> exists x, alive s o x /\ o_ver x = v /\ l = map Some (o_text x ++ [chr 0]).
Proof.
  unfold points. cbn [look]. unfold bbind, get, alive. split.
  - destruct (nth_error (b_objs s) o) as [[x|]|]; try discriminate. destruct (v =? o_ver x) eqn:E; [|discriminate]. unfold bret. intros H. apply Nat.eqb_eq in E. exists x. split; [reflexivity|]. split; [auto|]. congruence.
  - intros (x & -> & <- & ->). rewrite Nat.eqb_refl. reflexivity.
Qed.
Lemma points_buf s a l : points s (PBuf a) l <-> live s a l.
Proof. unfold points, live. cbn [look]. unfold fetch. split; [destruct (nth_error (b_heap s) a) as [[c|]|]; try discriminate; congruence|intros ->; reflexivity]. Qed.
Lemma attr_points o g s s' r q l : attr o g s = (s', r) -> mine s o = true -> (forall x, o_text (g x) = o_text x /\ o_ver (g x) = o_ver x) -> points s q l -> points s' q l.
Proof.
  intros E M A P. destruct (mine_alive s o M) as (x & L & _). unfold attr, bbind in E. rewrite (get_alive _ _ _ L) in E. unfold BufModel.put, bret in E. apply pair_equal_spec in E. destruct E as [<- _]. fold (replaced s o (g x)).
  destruct q as [a|k v]; [apply points_buf in P; apply points_buf; exact P|]. apply points_text in P. destruct P as (y & Y & Ev & El). apply points_text. destruct (Nat.eq_dec k o) as [->|N].
  - rewrite (alive_same _ _ _ _ Y L) in *. destruct (A x) as [A1 A2]. exists (g x). split; [exact (alive_replaced s o x (g x) L)|]. split; congruence.
  - exists y. split; [apply alive_other; auto|auto].
Qed.
Lemma gentle_points P LB LO s s' q l : gentle P LB LO s s' -> points s q l -> points s' q l.
Proof. intros H. apply (gentle_look _ _ _ _ _ _ _ H). Qed.
(** work on another object *)
Lemma not_new {A} (m : B A) s s' r : bmap (fun _ => ANone) m s = (s', r) -> forall j, r <> Ok (AObj j).
Proof. unfold bmap, bbind. destruct (m s) as [s1 [a|i| | |]]; unfold bret; intros E j X; apply pair_equal_spec in E; destruct E as [_ E]; rewrite X in E; discriminate E. Qed.
Lemma sound_points k o LB LO s s' r q l : sound (fun j => In j [k] \/ r = Ok (AObj j)) LB LO s s' -> (forall j, r <> Ok (AObj j)) -> mine s k = true -> k <> o -> from s o q -> points s q l -> points s' q l.
Proof.
  intros S NN M N F P. destruct (mine_alive s k M) as (z & Lz & Cz). destruct q as [a|j v]; cbn [from] in F.
  - apply points_buf in P. apply points_buf. apply (z_live _ _ _ _ _ S a l P). intros j [[<-|[]]|X] (y & Y & D); [|exact (NN j X)]. apply N, (proj2 F). apply buffer_owned. rewrite (alive_same _ _ _ _ Y Lz) in D. exists z. auto.
  - subst j. apply points_text in P. destruct P as (x & L & R). apply points_text. exists x. split; [|exact R]. apply (z_obj _ _ _ _ _ S o x L). intros [[X|[]]|X]; [contradiction|exact (NN o X)].
Qed.
Lemma step_points e h s p s' r o q l : invariant h s -> forallb (mine s) (handles p) = true -> (forall q, In q (uses p) -> exists o, In (GetData o, Ok (APtr q)) h) -> perform e p s = (s', r) -> ended r ->
  held h o q -> writes p <> Some o -> points s q l -> points s' q l.
Proof.
  intros I M U E X Hq W P. pose proof (proj1 I) as G. pose proof (proj2 I o q Hq) as F. pose proof (step e p s s' r G M (held_reach h s p I U) E) as [_ S]. destruct (S X) as (LB & LO & Z & _). clear S.
  destruct p as [c|k|k k'|k|k t|k n|k b|k n|k n|k p n|k|k|q'|k k'|f k|f g]; cbn [handles forallb writes] in *; try (apply andb_prop in M; destruct M as [M M']); try (apply andb_prop in M'; destruct M' as [M' _]);
    try (assert (N : k <> o) by (intros ->; apply W; reflexivity));
    try (apply (sound_points k o LB LO s s' r q l Z (not_new _ _ _ _ E) M N F P)).
  - unfold perform, bmap, bbind, create in E. injection E as <- <-. destruct q as [a|j v]; [apply points_buf in P; apply points_buf; exact P|]. apply points_text in P. destruct P as (x & L & R). apply points_text. exists x. split; [apply nth_app_l; exact L|exact R].
  - destruct (mine_alive s k M) as (x & L & _). unfold perform, bmap, bbind, b_Copy, bbind in E. rewrite (get_alive _ _ _ L) in E. unfold create in E. injection E as <- <-.
    destruct q as [a|j v]; [apply points_buf in P; apply points_buf; exact P|]. apply points_text in P. destruct P as (y & Y & R). apply points_text. exists y. split; [apply nth_app_l; exact Y|exact R].
  - destruct (mine_alive s k M) as (x & L & _). destruct (mine_alive s k' M') as (m & L' & _). cbn [perform] in E. rewrite (bmap_run _ _ _ _ _ (Assign_run k k' s x m L L')) in E. apply pair_equal_spec in E. destruct E as [<- _].
    destruct q as [a|j v]; [apply points_buf in P; apply points_buf; exact P|]. cbn [from] in F. subst j. apply points_text in P. destruct P as (y & Y & R). apply points_text. exists y. split; [apply alive_other; auto|exact R].
  - apply (attr_points _ _ _ _ _ q l E M); [intros; split; reflexivity|exact P].
  - apply (attr_points _ _ _ _ _ q l E M); [intros; split; reflexivity|exact P].
  - apply (attr_points _ _ _ _ _ q l E M); [intros; split; reflexivity|exact P].
  - apply (attr_points _ _ _ _ _ q l E M); [intros; split; reflexivity|exact P].
  - destruct (mine_alive s k M) as (x & L & C). destruct (Data_gentle (e_sc e) k s x G L) as (s1 & x1 & E1 & H & _); [congruence|]. cbn [perform] in E. rewrite (bmap_run _ _ _ _ _ E1) in E. apply pair_equal_spec in E. destruct E as [<- _]. exact (gentle_points _ _ _ _ _ _ _ H P).
  - destruct (mine_alive s k M) as (x & L & C). destruct (Size_gentle (e_sc e) k s x G L) as (s1 & x1 & E1 & H & _); [congruence|]. cbn [perform] in E. rewrite (bmap_run _ _ _ _ _ E1) in E. apply pair_equal_spec in E. destruct E as [<- _]. exact (gentle_points _ _ _ _ _ _ _ H P).
  - pose proof (look_state q' s) as Q. cbn [perform] in E. destruct (look q' s) as [s1 r1] eqn:E1. cbn [fst] in Q. rewrite (bmap_run _ _ _ _ _ E1) in E. apply pair_equal_spec in E. destruct E as [<- _]. rewrite Q. exact P.
  - destruct (mine_alive s k M) as (x & L & C). destruct (mine_alive s k' M') as (y & L' & C'). cbn [perform] in E. destruct (Nat.eq_dec k k') as [<-|N].
    + destruct (Equal_self (e_sc e) k s x G L) as (s1 & x1 & E1 & H & _); [congruence|]. rewrite (bmap_run _ _ _ _ _ E1) in E. apply pair_equal_spec in E. destruct E as [<- _]. exact (gentle_points _ _ _ _ _ _ _ H P).
    + destruct (Equal_two (e_sc e) k k' s x y G L L' N) as (s1 & x1 & y1 & E1 & H & _); [congruence|congruence|]. rewrite (bmap_run _ _ _ _ _ E1) in E. apply pair_equal_spec in E. destruct E as [<- _]. exact (gentle_points _ _ _ _ _ _ _ H P).
  - destruct (mine_alive s k M) as (x & L & C). destruct (FileEqual_spec e f k s x G L) as (s1 & x1 & LB1 & LO1 & E1 & H & _); [congruence|]. cbn [perform] in E. rewrite (bmap_run _ _ _ _ _ E1) in E. apply pair_equal_spec in E. destruct E as [<- _]. exact (gentle_points _ _ _ _ _ _ _ H P).
  - destruct (FilesEqual_spec e f g s G) as (s1 & LB1 & LO1 & E1 & H & _). cbn [perform] in E. rewrite (bmap_run _ _ _ _ _ E1) in E. apply pair_equal_spec in E. destruct E as [<- _]. exact (gentle_points _ _ _ _ _ _ _ H P).
Qed.
(** * The bill *)
Lemma both_0_r a : both a (0, 0) = a.
Proof. destruct a. unfold both. cbn [fst snd]. f_equal; lia. Qed.
Lemma both_assoc a b c : both a (both b c) = both (both a b) c.
Proof. unfold both. cbn [fst snd]. f_equal; lia. Qed.
Fixpoint replay (e : benv) (ops : list op) (s : bst) : bst := match ops with [] => s | p :: l => replay e l (fst (perform e p s)) end.
Lemma bill_snoc e p : forall l s, bill e (l ++ [p]) s = both (bill e l s) (loses e (replay e l s) p (snd (perform e p (replay e l s)))).
Proof.
  induction l as [|q l IH]; intros s; cbn [app bill replay].
  - destruct (perform e p s) as [s' r]. cbn [snd]. rewrite both_0_r. unfold both. cbn [fst snd]. destruct (loses e s p r). reflexivity.
  - destruct (perform e q s) as [s' r] eqn:E. rewrite IH, both_assoc. cbn [fst]. reflexivity.
Qed.
Lemma replay_snoc e p : forall l s, replay e (l ++ [p]) s = fst (perform e p (replay e l s)).
Proof. induction l as [|q l IH]; intros s; cbn [app replay]; [reflexivity|apply IH]. Qed.
Lemma history_replay e h s : history e h s -> replay e (map fst h) nothing = s.
Proof. induction 1 as [|h s p s' r H IH M U E X]; [reflexivity|]. rewrite map_app. cbn [map fst]. rewrite replay_snoc, IH, E. reflexivity. Qed.
Lemma history_bill e h s : history e h s -> exists L M, NoDup L /\ NoDup M /\ (length L, length M) = bill e (map fst h) nothing /\ (forall a, stray s a <-> In a L) /\ (forall k, orphan s k <-> In k M).
Proof.
  induction 1 as [|h s p s' r H IH M U E X].
  - exists [], []. split; [constructor|]. split; [constructor|]. split; [reflexivity|]. split.
    + intros a. split; [|intros []]. intros [(l & Hl) _]. destruct a; discriminate Hl.
    + intros k. split; [|intros []]. intros (x & Hx & _). destruct k; discriminate Hx.
  - destruct IH as (L & N & NL & NN & Eb & SL & SN). pose proof (history_invariant _ _ _ H) as I. destruct (step e p s s' r (proj1 I) M (held_reach h s p I U) E) as [_ S]. destruct (S X) as (LB & LO & Z & El).
    exists (L ++ LB), (N ++ LO). split; [|split; [|split; [|split]]].
    + apply nodup_app; [exact NL|apply Z|]. intros a Ia Ja. apply SL in Ia. exact (proj2 (z_lb _ _ _ _ _ Z) a Ja Ia).
    + apply nodup_app; [exact NN|apply Z|]. intros a Ia Ja. apply SN in Ia. exact (proj2 (z_lo _ _ _ _ _ Z) a Ja Ia).
    + rewrite map_app. cbn [map fst]. rewrite bill_snoc. rewrite (history_replay _ _ _ H). cbn [fst]. rewrite E. cbn [snd]. rewrite <- Eb, <- El. unfold both. cbn [fst snd]. rewrite !app_length. reflexivity.
    + intros a. rewrite (z_stray _ _ _ _ _ Z a), SL, in_app_iff. reflexivity.
    + intros k. rewrite (z_orphan _ _ _ _ _ Z k), SN, in_app_iff. reflexivity.
Qed.

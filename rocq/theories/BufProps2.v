(** C78, continued: pointers into measurement objects, and what is left allocated. *)
From Coq Require Import Floats.SpecFloat.
From Verif Require Import Base Str B64Model MeasModel BufModel BufSpec BufFacts BufActs BufGentle BufEqual BufFile BufSteps BufOps BufStep BufLife BufProps B64Props.

(** * Giving an object its own data *)
Theorem C78_own_data : forall e h s o s' q d, history e h s -> mine s o = true -> perform e (GetData o) s = (s', Ok (APtr q)) -> value s' o = Some d ->
  (ddata d <> None -> forall n, snd (perform e (SetData o (At q) n) s') = UB) /\
  (ddata d = None -> forall n, n <= length (dcontent d) ->
    let '(s2, r) := perform e (SetData o (At q) n) s' in r = answered none (snd (SetContentAsData d (firstn n (dcontent d)))) /\ value s2 o = Some (fst (SetContentAsData d (firstn n (dcontent d))))).
Proof.
  intros e h s o s' q d H M E V. pose proof (history_invariant _ _ _ H) as I. destruct (GetData_answer e o s s' q (proj1 I) M E) as (x & L & -> & G & C & _).
  rewrite (value_alive _ _ _ L) in V. injection V as <-. split.
  - intros N n. cbn [perform]. destruct (b_SetData o (At (ptr_of o x)) n s') as [s2 r2] eqn:E2. rewrite (bmap_run _ _ _ _ _ E2). cbn [snd].
    destruct (ddata (erase (b_heap s') x)) as [l|] eqn:D; [|contradiction]. destruct (some_data _ _ _ _ G L D) as (a & Da & La & _).
    assert (U : r2 = UB \/ r2 <> UB) by (destruct r2; try (right; discriminate); left; reflexivity). destruct U as [->|U]; [reflexivity|exfalso].
    destruct (SetData_defined o (At (ptr_of o x)) n s' x G L) as (cells & _ & NO); [unfold ptr_of; rewrite Da; exact (live_lt _ _ _ La)|rewrite E2; exact U|].
    apply NO. unfold ptr_of. rewrite Da. cbn [is_own]. exists x. auto.
  - intros D n Hn. pose proof (no_data _ _ _ G L D) as Dx. destruct (perform e (SetData o (At (ptr_of o x)) n) s') as [s2 r2] eqn:E2.
    assert (Mo : mine s' o = true) by exact (alive_mine _ _ _ L C).
    assert (My : may (h ++ [(GetData o, Ok (APtr (ptr_of o x)))]) s' (SetData o (At (ptr_of o x)) n)).
    { split; [cbn [handles forallb]; rewrite Mo; reflexivity|]. intros q [<-|[]]. exists o. apply in_or_app. right. apply in_eq. }
    assert (H' : history e (h ++ [(GetData o, Ok (APtr (ptr_of o x)))]) s').
    { apply (h_step e h s); [exact H|cbn [handles forallb]; rewrite M; reflexivity|intros q []|exact E|left; eauto]. }
    destruct (C78_values _ _ _ _ _ _ H' My E2) as [Dd _]. cbn [does] in Dd. apply (Dd _ (firstn n (o_text x)) (value_alive _ _ _ L)).
    cbn [given]. unfold ptr_of. rewrite Dx. split; [intros a X; discriminate X|]. exists (map Some (o_text x ++ [chr 0])). split; [apply points_text; exists x; auto|].
    change (dcontent (erase (b_heap s') x)) with (o_text x) in Hn. rewrite map_length, app_length. split; [lia|]. rewrite <- firstn_map, map_app, firstn_app, map_length. replace (n - length (o_text x)) with 0 by lia. rewrite firstn_O, app_nil_r. reflexivity.
Qed.
Print Assumptions C78_own_data.

(** * What is left allocated *)
Theorem C78_bill : forall e h s, history e h s -> exists L M, NoDup L /\ NoDup M /\ (length L, length M) = bill e (map fst h) nothing /\ (forall a, stray s a <-> In a L) /\ (forall k, orphan s k <-> In k M).
Proof. exact history_bill. Qed.
Print Assumptions C78_bill.

Definition assigns (p : op) : bool := match p with Assign _ _ => true | _ => false end.
Definition file_throws (p : op) (r : res answer) : bool := match p with FileEqual _ _ | FilesEqual _ _ => raised r | _ => false end.
Lemma loses_nothing e s p r : assigns p = false -> file_throws p r = false -> loses e s p r = (0, 0).
Proof. destruct p; cbn [assigns file_throws loses]; intros A F; try reflexivity; try discriminate A; rewrite F; reflexivity. Qed.
Lemma bill_nothing e h s : history e h s -> (forall p r, In (p, r) h -> assigns p = false /\ file_throws p r = false) -> bill e (map fst h) nothing = (0, 0).
Proof.
  induction 1 as [|h s p s' r H IH M U E X]; intros N; [reflexivity|]. rewrite map_app. cbn [map fst]. rewrite bill_snoc, IH; [|intros p0 r0 I; apply N, in_or_app; auto].
  rewrite (history_replay _ _ _ H), E. cbn [snd]. destruct (N p r) as [A F]; [apply in_or_app; right; apply in_eq|]. rewrite (loses_nothing _ _ _ _ A F). reflexivity.
Qed.
(** without assignments and without file comparisons that throw: memory is allocated for living objects only, and to destroy them frees it all *)
Theorem C78_no_leak : forall e h s, history e h s -> (forall p r, In (p, r) h -> assigns p = false /\ file_throws p r = false) ->
  (forall a, allocated s a -> exists o, buffer_of s o a) /\ (forall k, value s k <> None -> mine s k = true) /\ ((forall k, mine s k = false) -> forall a, ~ allocated s a).
Proof.
  intros e h s H N. destruct (history_bill e h s H) as (L & M & _ & _ & Eb & SL & SM). rewrite (bill_nothing e h s H N) in Eb. apply pair_equal_spec in Eb. destruct Eb as [El Em].
  destruct L as [|a0 L]; [|discriminate El]. destruct M as [|k0 M]; [|discriminate Em].
  assert (P : forall a, allocated s a -> exists o, buffer_of s o a).
  { intros a A. assert (D : owned s a \/ ~ owned s a).
    { destruct A as (l & Hl). clear -a. assert (Z : forall objs, (exists k x, nth_error objs k = Some (Some x) /\ o_local x = false /\ o_data x = Some a) \/ ~ (exists k x, nth_error objs k = Some (Some x) /\ o_local x = false /\ o_data x = Some a)).
      { induction objs as [|y objs IH]; [right; intros ([|k] & x & Hx & _); discriminate Hx|]. destruct IH as [(k & x & Hx)|No]; [left; exists (S k), x; exact Hx|].
        destruct y as [y|]; [|right; intros ([|k] & x & Hx & R); [discriminate Hx|apply No; exists k, x; auto]].
        destruct (o_local y) eqn:Cy; [right; intros ([|k] & x & Hx & R); [cbn in Hx; injection Hx as <-; destruct R; congruence|apply No; exists k, x; auto]|].
        destruct (o_data y) as [b|] eqn:Dy; [|right; intros ([|k] & x & Hx & R); [cbn in Hx; injection Hx as <-; destruct R; congruence|apply No; exists k, x; auto]].
        destruct (Nat.eq_dec b a) as [->|Nb]; [left; exists 0, y; auto|right; intros ([|k] & x & Hx & R); [cbn in Hx; injection Hx as <-; destruct R; congruence|apply No; exists k, x; auto]]. }
      apply Z. }
    destruct D as [(k & B)|NO]; [exists k; apply buffer_owned; exact B|]. exfalso. apply (proj1 (SL a)). split; [exact A|]. intros o B. apply NO. exists o. apply buffer_owned in B. exact B. }
  split; [exact P|]. split.
  - intros k V. unfold value in V. unfold mine. destruct (nth_error (b_objs s) k) as [[x|]|] eqn:E; try contradiction. destruct (o_local x) eqn:C; [|reflexivity]. exfalso. apply (proj1 (SM k)). exists x. auto.
  - intros Z a A. destruct (P a A) as (o & B & _). rewrite Z in B. discriminate B.
Qed.
Print Assumptions C78_no_leak.

(** * Pointers *)
Lemma pointer_step e h s p s' r o q l : history e h s -> forallb (mine s) (handles p) = true -> (forall q, In q (uses p) -> exists o, In (GetData o, Ok (APtr q)) h) -> perform e p s = (s', r) -> ended r ->
  held h o q -> writes p <> Some o -> points s q l -> points s' q l.
Proof. intros H. exact (step_points e h s p s' r o q l (history_invariant e h s H)). Qed.
(** a pointer of GetContentAsData stays valid, and its bytes the same, until the text or the data of that object are set, or it is assigned to or destroyed *)
Theorem C78_pointer : forall e h h' s s' o q l, history e h s -> history e (h ++ h') s' -> In (GetData o, Ok (APtr q)) h -> (forall p r, In (p, r) h' -> writes p <> Some o) -> points s q l -> points s' q l.
Proof.
  intros e h h'. induction h' as [|[p r] h' IH] using rev_ind; intros s s' o q l H H' Hq W P; [rewrite app_nil_r in H'; rewrite (history_unique e h s' s H' H); exact P|].
  rewrite app_assoc in H'. destruct (history_snoc _ _ _ _ _ H') as (s1 & H1 & M & U & E & X).
  assert (P1 : points s1 q l) by (apply (IH s s1 o q l H H1 Hq); [intros p0 r0 I; apply (W p0 r0), in_or_app; auto|exact P]).
  apply (pointer_step e (h ++ h') s1 p s' r o q l H1 M U E X); [apply in_or_app; left; exact Hq|apply (W p r), in_or_app; right; apply in_eq|exact P1].
Qed.
Print Assumptions C78_pointer.
(** a freed block is not used again *)
Definition stays {A} (m : B A) : Prop := forall s s' r a, m s = (s', r) -> nth_error (b_heap s) a = Some Freed -> nth_error (b_heap s') a = Some Freed.
Lemma stays_bind {A C} (m : B A) (k : A -> B C) : stays m -> (forall a, stays (k a)) -> stays (bbind m k).
Proof. intros Hm Hk s s' r a. unfold bbind. destruct (m s) as [s1 r1] eqn:E. intros F Z. pose proof (Hm _ _ _ _ E Z) as Z1. destruct r1 as [v|i| | |]; try (injection F as <- <-; exact Z1). exact (Hk v _ _ _ _ F Z1). Qed.
Lemma stays_same {A} (m : B A) : (forall s, b_heap (fst (m s)) = b_heap s) -> stays m.
Proof. intros H s s' r a E Z. specialize (H s). rewrite E in H. cbn [fst] in H. rewrite H. exact Z. Qed.
Lemma stays_ret {A} (v : A) : stays (bret v). Proof. apply stays_same. reflexivity. Qed.
Lemma stays_fail {A} (r : res A) : stays (bfail r). Proof. apply stays_same. reflexivity. Qed.
Lemma stays_get o : stays (get o). Proof. apply stays_same. reflexivity. Qed.
Lemma stays_put o x : stays (BufModel.put o x). Proof. apply stays_same. reflexivity. Qed.
Lemma stays_fetch a : stays (fetch a). Proof. apply stays_same. reflexivity. Qed.
Lemma stays_look q : stays (look q). Proof. apply stays_same. intros s. rewrite look_state. reflexivity. Qed.
Lemma stays_alloc l : stays (alloc l).
Proof. intros s s' r a E Z. injection E as <- <-. apply nth_app_l. exact Z. Qed.
Lemma stays_update a b s s' c l : nth_error (b_heap s) b = Some (Live l) -> s' = Bst (update b c (b_heap s)) (b_objs s) -> nth_error (b_heap s) a = Some Freed -> nth_error (b_heap s') a = Some Freed.
Proof. intros L -> Z. cbn [b_heap]. destruct (Nat.eq_dec b a) as [->|N]; [congruence|]. rewrite update_other; auto. Qed.
Lemma stays_free b : stays (free b).
Proof. intros s s' r a E Z. unfold free in E. destruct (nth_error (b_heap s) b) as [[l|]|] eqn:L; apply pair_equal_spec in E; destruct E as [<- _]; try exact Z. exact (stays_update a b s _ Freed l L eq_refl Z). Qed.
Lemma stays_store b c : stays (store_at b c).
Proof. intros s s' r a E Z. unfold store_at in E. destruct (nth_error (b_heap s) b) as [[l|]|] eqn:L; apply pair_equal_spec in E; destruct E as [<- _]; try exact Z. exact (stays_update a b s _ (Live c) l L eq_refl Z). Qed.
Create HintDb stays.
#[local] Hint Resolve stays_ret stays_fail stays_get stays_put stays_fetch stays_look stays_alloc stays_free stays_store : stays.
Lemma stays_Delete o : stays (b_Delete o).
Proof. unfold b_Delete. apply stays_bind; [auto with stays|intros x]. apply stays_bind; [destruct (o_data x); auto with stays|intros _; auto with stays]. Qed.
#[local] Hint Resolve stays_Delete : stays.
Lemma Delete_frees o s x a l : alive s o x -> o_data x = Some a -> live s a l -> nth_error (b_heap (fst (b_Delete o s))) a = Some Freed.
Proof. intros L D La. unfold b_Delete, bbind. rewrite (get_alive _ _ _ L), D. unfold free. rewrite (La : nth_error _ _ = _). unfold BufModel.put. cbn [fst b_heap]. exact (update_at Freed _ _ _ La). Qed.
Lemma SetData_frees o p n s s' r x a l : alive s o x -> o_data x = Some a -> live s a l -> b_SetData o p n s = (s', r) -> nth_error (b_heap s') a = Some Freed.
Proof.
  intros L D La E. pose proof (Delete_frees o s x a l L D La) as Z. unfold b_SetData, bbind at 1 in E. destruct (b_Delete o s) as [s1 r1]. cbn [fst] in Z. destruct r1 as [u|i| | |]; try (apply pair_equal_spec in E; destruct E as [<- _]; exact Z).
  refine (_ s1 s' r a E Z). clear. change (stays (a <. alloc (repeat None n) ;; x <. get o ;; _ <. BufModel.put o (with_data x (Some a) (Some n)) ;; l <. take_bytes p n ;; _ <. store_at a l ;;
    _ <. (if eqs (o_comp x) ($"none") then bret tt else b_Delete o) ;;
    if eqs (o_enc x) ($"none") then bret tt
    else if eqs (o_enc x) ($"base64") then
      x <. get o ;; l <. (match o_data x with Some a => fetch a | None => bret [] end) ;; t <. bfail (match known l with Some bytes => Encode default_opts bytes | None => UB end) ;; b_SetContent o t
    else bret tt)).
  apply stays_bind; [auto with stays|intros a]. apply stays_bind; [auto with stays|intros x]. apply stays_bind; [auto with stays|intros _]. apply stays_bind; [|intros l].
  - unfold take_bytes. apply stays_bind; [destruct p; auto with stays|intros l]. destruct (n <=? length l); auto with stays.
  - apply stays_bind; [auto with stays|intros _]. apply stays_bind; [destruct (eqs (o_comp x) ($"none")); auto with stays|intros _]. destruct (eqs (o_enc x) ($"none")); [auto with stays|]. destruct (eqs (o_enc x) ($"base64")); [|auto with stays].
    apply stays_bind; [auto with stays|intros y]. apply stays_bind; [destruct (o_data y); auto with stays|intros m]. apply stays_bind; [auto with stays|intros t]. unfold b_SetContent. apply stays_bind; [auto with stays|intros z]. apply stays_bind; auto with stays.
Qed.
(** and it no longer points to anything once the object has a new text or new data or is destroyed, except that a pointer to the text outlives new data that is not encoded; after an assignment to the object it points to memory nobody frees, if it was a buffer *)
Theorem C78_dangling : forall e h s o s1 q p s2 r, history e h s -> mine s o = true -> perform e (GetData o) s = (s1, Ok (APtr q)) -> may (h ++ [(GetData o, Ok (APtr q))]) s1 p -> writes p = Some o -> perform e p s1 = (s2, r) -> goes_on r ->
  match p with
  | Assign _ _ => forall d, value s1 o = Some d -> match ddata d with Some l => points s2 q l /\ exists a, q = PBuf a /\ stray s2 a | None => forall l, ~ points s2 q l end
  | SetText _ _ | Destroy _ => forall l, ~ points s2 q l
  | SetData _ _ _ => forall d, value s1 o = Some d -> match ddata d with Some _ => forall l, ~ points s2 q l | None => if eqs (denc d) ($"base64") then forall l, ~ points s2 q l else forall l, points s1 q l -> points s2 q l end
  | _ => True
  end.
Proof.
  intros e h s o s1 q p s2 r H M E [Mp U] W Ep X. pose proof (history_invariant _ _ _ H) as I. destruct (GetData_answer e o s s1 q (proj1 I) M E) as (x & L & -> & G & C & _).
  destruct p as [c|k|k k'|k|k t|k n|k b|k n|k n|k p n|k|k|q'|k k'|f k|f g]; cbn [writes handles forallb] in *; try discriminate W; injection W as ->.
  - apply andb_prop in Mp. destruct Mp as [_ Mp]. apply andb_prop in Mp. destruct (mine_alive s1 k' (proj1 Mp)) as (m & L' & C').
    intros d V. rewrite (value_alive _ _ _ L) in V. injection V as <-. cbn [perform] in Ep. rewrite (bmap_run _ _ _ _ _ (Assign_run o k' s1 x m L L')) in Ep. apply pair_equal_spec in Ep. destruct Ep as [<- _]. unfold ptr_of.
    destruct (ddata (erase (b_heap s1) x)) as [l|] eqn:D.
    + destruct (some_data _ _ _ _ G L D) as (a & Da & La & _). rewrite Da. split; [apply points_buf; exact La|]. exists a. split; [reflexivity|]. apply stray_owned. split; [exists l; exact La|]. intros (k & y & Y & Cy & Dy). destruct (Nat.eq_dec k o) as [->|Nk].
      * rewrite (alive_same _ _ _ _ Y (alive_replaced s1 o x (assigned_obj x m) L)) in Dy. discriminate Dy.
      * apply alive_other in Y; [|exact Nk]. apply Nk, (proj2 G k o a); [exists y; auto|exists x; auto].
    + rewrite (no_data _ _ _ G L D). intros l P. apply points_text in P. destruct P as (y & Y & Ev & _). rewrite (alive_same _ _ _ _ Y (alive_replaced s1 o x (assigned_obj x m) L)) in Ev. cbn in Ev. lia.
  - destruct (destroy_sound o s1 x G L C) as (s3 & E3 & Z & V & F). cbn [perform] in Ep. rewrite (bmap_run _ _ _ _ _ E3) in Ep. apply pair_equal_spec in Ep. destruct Ep as [<- _]. intros l P. unfold ptr_of in P. destruct (o_data x) as [a|] eqn:D.
    + apply points_buf in P. unfold live in P. rewrite (F a) in P; [discriminate P|]. exists x. auto.
    + apply points_text in P. destruct P as (y & Y & _). rewrite (value_alive _ _ _ Y) in V. discriminate V.
  - cbn [perform] in Ep. unfold bmap, b_SetContent, bbind in Ep. rewrite (get_alive _ _ _ L) in Ep. unfold BufModel.put in Ep. fold (replaced s1 o (with_text x t)) in Ep. pose proof (alive_replaced s1 o x (with_text x t) L) as L1. set (t1 := replaced s1 o (with_text x t)) in *.
    unfold b_Delete, bbind in Ep. rewrite (get_alive _ _ _ L1) in Ep. cbn [with_text o_data] in Ep. intros l P. unfold ptr_of in P. destruct (o_data x) as [a|] eqn:D.
    + destruct (proj1 G o x a L D) as (c & Hc & _). unfold free in Ep. change (b_heap t1) with (b_heap s1) in Ep. rewrite Hc in Ep. unfold BufModel.put, bret in Ep. apply pair_equal_spec in Ep. destruct Ep as [<- _]. apply points_buf in P. unfold live in P. cbn [b_heap] in P.
      rewrite (update_at Freed _ _ _ Hc) in P. discriminate P.
    + unfold bret, BufModel.put in Ep. apply pair_equal_spec in Ep. destruct Ep as [<- _]. apply points_text in P. destruct P as (y & Y & Ev & _).
      fold (replaced t1 o (with_data (with_text x t) None (Some 0))) in Y. rewrite (alive_same _ _ _ _ Y (alive_replaced t1 o _ _ L1)) in Ev. cbn in Ev. lia.
  - rewrite andb_true_r in Mp. destruct (b_SetData o p n s1) as [s3 r3] eqn:E3. cbn [perform] in Ep. rewrite (bmap_run _ _ _ _ _ E3) in Ep. apply pair_equal_spec in Ep. destruct Ep as [<- Er].
    intros d V. rewrite (value_alive _ _ _ L) in V. injection V as <-. unfold ptr_of. destruct (ddata (erase (b_heap s1) x)) as [l0|] eqn:D.
    + destruct (some_data _ _ _ _ G L D) as (a & Da & La & _). rewrite Da. intros l P. apply points_buf in P. unfold live in P. rewrite (SetData_frees o p n s1 s3 r3 x a l0 L Da La E3) in P. discriminate P.
    + rewrite (no_data _ _ _ G L D).
      assert (H' : invariant (h ++ [(GetData o, Ok (APtr (ptr_of o x)))]) s1).
      { apply (invariant_step e h s); [exact I|cbn [handles forallb]; rewrite M; reflexivity|intros q []|exact E|left; eauto]. }
      assert (R : in_range s1 p). { pose proof (held_reach _ s1 (SetData o p n) H' U) as R. destruct p as [b|[a|k v]]; cbn [in_range]; [exact Logic.I| |exact Logic.I]. apply R. apply in_eq. }
      assert (N3 : snd (b_SetData o p n s1) <> UB). { rewrite E3. cbn [snd]. intros ->. cbn [answered] in Er. subst r. destruct X as [(v & X)|(v & X)]; discriminate X. }
      destruct (SetData_defined o p n s1 x G L R N3) as (cells & Sc & No). destruct (SetData_spec o p n cells s1 x G L Sc No) as (s4 & x4 & E4 & G4 & _ & L4 & V4 & _). rewrite E3 in E4. apply pair_equal_spec in E4. destruct E4 as [<- E4].
      set (d := erase (b_heap s1) x) in *. unfold SetCells in V4, E4. cbv zeta in V4, E4. change (dcomp (set_data (DeleteContentAsData d) (Some cells))) with (dcomp d) in *.
      assert (Same : seen (b_heap s3) x4 = seen (b_heap s3) x4 -> o_ver x4 = o_ver x -> o_text x4 = o_text x -> forall l, points s1 (PText o (o_ver x)) l -> points s3 (PText o (o_ver x)) l).
      { intros _ Ev Et l P. apply points_text in P. destruct P as (y & Y & Ey & ->). rewrite (alive_same _ _ _ _ Y L) in *. apply points_text. exists x4. rewrite Et. auto. }
      set (pr := if eqs (dcomp d) ($"none") then (set_data (DeleteContentAsData d) (Some cells), cells) else (DeleteContentAsData (set_data (DeleteContentAsData d) (Some cells)), [])) in *.
      assert (De : denc (fst pr) = denc d /\ dcontent (fst pr) = dcontent d) by (unfold pr; destruct (eqs (dcomp d) ($"none")); split; reflexivity). destruct De as [De Dc]. destruct pr as [dd now]. cbn [fst snd] in *. rewrite De in *.
      destruct (eqs (denc d) ($"none")) eqn:Z1.
      * apply eqs_true in Z1. rewrite Z1. change (eqs ($"none") ($"base64")) with false. cbv iota. cbn [fst snd] in *. apply pair_equal_spec in V4. destruct V4 as [V4 W4]. apply Same; [reflexivity|exact W4|]. change (o_text x4) with (dcontent (erase (b_heap s3) x4)). rewrite V4, Dc. reflexivity.
      * destruct (eqs (denc d) ($"base64")) eqn:Z2.
        -- destruct (known now) as [bytes|]; [|cbn [snd] in E4; exfalso; apply N3; rewrite E3; exact E4]. destruct (C03_encode_memory_safe default_opts bytes) as (t & Et & _). rewrite Et in *. cbn [fst snd] in *. apply pair_equal_spec in V4. destruct V4 as [_ W4].
           intros l P. apply points_text in P. destruct P as (y & Y & Ey & _). rewrite (alive_same _ _ _ _ Y L4) in Ey. lia.
        -- cbn [fst snd] in *. apply pair_equal_spec in V4. destruct V4 as [V4 W4]. apply Same; [reflexivity|exact W4|]. change (o_text x4) with (dcontent (erase (b_heap s3) x4)). rewrite V4, Dc. reflexivity.
Qed.
Print Assumptions C78_dangling.

(** * Programs that run *)
Definition ptr_eqb (p q : ptr) : bool := match p, q with PBuf a, PBuf b => a =? b | PText o v, PText k w => (o =? k) && (v =? w) | _, _ => false end.
Lemma ptr_eqb_true p q : ptr_eqb p q = true -> p = q.
Proof. destruct p, q; cbn [ptr_eqb]; try discriminate; intros H; [apply Nat.eqb_eq in H|apply andb_prop in H; destruct H as [H K]; apply Nat.eqb_eq in H, K]; congruence. Qed.
Definition got (q : ptr) (x : op * res answer) : bool := match x with (GetData _, Ok (APtr p)) => ptr_eqb p q | _ => false end.
Fixpoint play (e : benv) (ops : list op) (h : list (op * res answer)) (s : bst) : option (list (op * res answer) * bst) :=
  match ops with
  | [] => Some (h, s)
  | p :: l =>
      if forallb (mine s) (handles p) && forallb (fun q => existsb (got q) h) (uses p) then
        let '(s', r) := perform e p s in match r with Ok _ | Throw _ => play e l (h ++ [(p, r)]) s' | _ => None end
      else None
  end.
Lemma play_history e : forall ops h s h' s', history e h s -> play e ops h s = Some (h', s') -> history e h' s'.
Proof.
  induction ops as [|p l IH]; cbn [play]; intros h s h' s' H E; [injection E as <- <-; exact H|].
  destruct (forallb (mine s) (handles p)) eqn:M; [|discriminate E]. destruct (forallb (fun q => existsb (got q) h) (uses p)) eqn:U; [|discriminate E]. cbn [andb] in E.
  destruct (perform e p s) as [s1 r] eqn:P. assert (X : (exists a, r = Ok a) \/ (exists i, r = Throw i)) by (destruct r; try discriminate E; eauto).
  apply (IH (h ++ [(p, r)]) s1); [|destruct r; try discriminate E; exact E]. apply (h_step e h s); auto.
  intros q Iq. rewrite forallb_forall in U. specialize (U q Iq). apply existsb_exists in U. destruct U as ([p0 r0] & I0 & G0). unfold got in G0. destruct p0; try discriminate G0. destruct r0 as [[]|i| | |]; try discriminate G0. apply ptr_eqb_true in G0. subst. eauto.
Qed.
Definition c78_env : benv := Benv true (fun _ => Missing) (Some 4).
Definition after (e : benv) (ops : list op) : list (op * res answer) * bst := match play e ops [] nothing with Some x => x | None => ([], nothing) end.
Lemma after_history e ops x : play e ops [] nothing = Some x -> history e (fst (after e ops)) (snd (after e ops)).
Proof. intros E. unfold after. rewrite E. destruct x as [h s]. exact (play_history e ops [] nothing h s (h_start e) E). Qed.

(** a program that assigns: all its objects are destroyed, and a block is still allocated; also when it assigns the object to itself *)
Theorem C78_assignment_refuted : exists e h s a, history e h s /\ (forall k, mine s k = false) /\ allocated s a /\ bill e (map fst h) nothing = (1, 0).
Proof.
  exists c78_env. set (ops := [New CPlain; SetData 0 (Own ($"abc")) 3; Assign 0 0; Destroy 0]). exists (fst (after c78_env ops)), (snd (after c78_env ops)), 0.
  split; [eapply after_history; vm_compute; reflexivity|]. split; [intros [|[|k]]; reflexivity|]. split; [exists (map Some ($"abc")); reflexivity|reflexivity].
Qed.
Print Assumptions C78_assignment_refuted.
(** a file comparison that throws leaves the object of the file, and its buffers *)
Theorem C78_throwing_comparison_refuted : exists e h s, history e h s /\ (forall k, mine s k = false) /\ bill e (map fst h) nothing = (2, 1).
Proof.
  exists (Benv true (fun _ => Unreadable) (Some 4)). set (e := Benv true (fun _ => Unreadable) (Some 4)). set (ops := [New CPlain; FileEqual (Mf ($"") true (type_of CPlain) ($"d")) 0; Destroy 0]). exists (fst (after e ops)), (snd (after e ops)).
  split; [eapply after_history; vm_compute; reflexivity|]. split; [intros [|[|[|k]]]; reflexivity|reflexivity].
Qed.
Print Assumptions C78_throwing_comparison_refuted.
(** [m.SetContentAsData(m.GetContentAsData(), n)] reads freed memory *)
Theorem C78_own_data_refuted : exists e h s q, history e h s /\ In (GetData 0, Ok (APtr q)) h /\ mine s 0 = true /\ snd (perform e (SetData 0 (At q) 3) s) = UB.
Proof.
  exists c78_env. set (ops := [New CPlain; SetData 0 (Own ($"abc")) 3; GetData 0]). exists (fst (after c78_env ops)), (snd (after c78_env ops)), (PBuf 0).
  split; [eapply after_history; vm_compute; reflexivity|]. split; [right; right; apply in_eq|]. split; reflexivity.
Qed.
Print Assumptions C78_own_data_refuted.

(** * The hypotheses are met *)
Local Notation ops1 := [New CPlain; SetText 0 ($"some text"); GetData 0; CopyOf 0; SetData 1 (At (PText 0 1)) 4; EqualTo 0 1; GetData 1; New CPlain; EqualTo 1 1].
Example C78_values_case : let h := fst (after c78_env ops1) in let s := snd (after c78_env ops1) in history c78_env h s /\ may h s (SetData 2 (At (PBuf 0)) 4) /\ goes_on (snd (perform c78_env (SetData 2 (At (PBuf 0)) 4) s)) /\ mine s 1 = true /\ (forall p r, In (p, r) h -> assigns p = false /\ file_throws p r = false).
Proof.
  cbv zeta. split; [eapply after_history; vm_compute; reflexivity|]. split; [|split; [|split]].
  - split; [reflexivity|]. intros q [<-|[]]. exists 1. vm_compute. tauto.
  - left. eexists. vm_compute. reflexivity.
  - reflexivity.
  - intros p r I. vm_compute in I. repeat (destruct I as [I|I]; [injection I as <- <-; split; reflexivity|]). destruct I.
Qed.
(** a program without base64, and with a pointer that still points to something *)
Example C78_no_faults_case : let h := fst (after c78_env ops1) in let s := snd (after c78_env ops1) in (forall p r, In (p, r) h -> match p with SetData _ (At _) _ => True | _ => ordinary p end) /\ points s (PBuf 0) (map Some ($"some")) /\ points s (PText 0 1) (map Some ($"some text" ++ [chr 0])).
Proof.
  cbv zeta. split; [|split; vm_compute; reflexivity]. intros p r I. vm_compute in I. repeat (destruct I as [I|I]; [injection I as <- <-; try exact Logic.I|]). destruct I.
Qed.
Local Notation ops2 := [New CPlain; SetText 0 ($"some text"); SetData 0 (Own ($"abcdef")) 4; GetData 0; ReadAt (PBuf 0); New CPlain; EqualTo 0 1].
Example C78_no_faults_case2 : let h := fst (after c78_env ops2) in let s := snd (after c78_env ops2) in history c78_env h s /\ (forall p r, In (p, r) h -> ordinary p) /\ may h s (ReadAt (PBuf 0)) /\ points s (PBuf 0) (map Some ($"abcd")).
Proof.
  cbv zeta. split; [eapply after_history; vm_compute; reflexivity|]. split; [|split; [split; [reflexivity|]|vm_compute; reflexivity]].
  - intros p r I. vm_compute in I. repeat (destruct I as [I|I]; [injection I as <- <-; try exact Logic.I|]); [cbn; lia|destruct I].
  - intros q [<-|[]]. exists 0. vm_compute. tauto.
Qed.
(** an object of which the data are its text, given to itself *)
Example C78_own_data_case : let s := snd (after c78_env [New CPlain; SetText 0 ($"some text")]) in let s' := fst (perform c78_env (GetData 0) s) in
  mine s 0 = true /\ snd (perform c78_env (GetData 0) s) = Ok (APtr (PText 0 1)) /\ (exists d, value s' 0 = Some d /\ ddata d = None /\ dcontent d = $"some text") /\ snd (perform c78_env (SetData 0 (At (PText 0 1)) 4) s') = Ok ANone.
Proof. cbv zeta. split; [reflexivity|]. split; [reflexivity|]. split; [eexists; split; [reflexivity|split; reflexivity]|vm_compute; reflexivity]. Qed.
(** a pointer kept while other objects change, and lost when its object does *)
Example C78_pointer_case : let h := fst (after c78_env ops2) in let s := snd (after c78_env ops2) in exists h' s', history c78_env (h ++ h') s' /\ h' <> [] /\ (forall p r, In (p, r) h' -> writes p <> Some 0) /\ In (GetData 0, Ok (APtr (PBuf 0))) h /\ points s' (PBuf 0) (map Some ($"abcd")) /\ (forall l, ~ points (fst (perform c78_env (SetText 0 []) s')) (PBuf 0) l).
Proof.
  cbv zeta. exists (skipn 7 (fst (after c78_env (ops2 ++ [SetText 1 ($"x"); SetName 0 ($"n"); Assign 1 0; Destroy 1])))), (snd (after c78_env (ops2 ++ [SetText 1 ($"x"); SetName 0 ($"n"); Assign 1 0; Destroy 1]))).
  split; [|split; [vm_compute; discriminate|split; [|split; [right; right; right; apply in_eq|split; [vm_compute; reflexivity|]]]]].
  - change (fst (after c78_env ops2) ++ skipn 7 (fst (after c78_env (ops2 ++ [SetText 1 ($"x"); SetName 0 ($"n"); Assign 1 0; Destroy 1])))) with (fst (after c78_env (ops2 ++ [SetText 1 ($"x"); SetName 0 ($"n"); Assign 1 0; Destroy 1]))).
    eapply after_history; vm_compute; reflexivity.
  - intros p r I. vm_compute in I. repeat (destruct I as [I|I]; [injection I as <- <-; discriminate|]). destruct I.
  - intros l P. vm_compute in P. discriminate P.
Qed.

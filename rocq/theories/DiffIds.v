(** BuildLines: the lines are the pieces between new-lines, and the ids
    identify them. *)
From Verif Require Import Base Str Dec DiffModel.
From Coq Require Import Sorting.Permutation Sorting.Sorted.
Local Open Scope Z_scope.

Lemma build_lines_split s : forall cur, free nl cur -> build_lines s cur = split nl (rev cur ++ s).
Proof.
  induction s as [|c r IH]; intros cur H; cbn [build_lines].
  - rewrite app_nil_r. symmetry. apply split_free. intros HI. apply H. apply in_rev in HI. exact HI.
  - destruct (eqc_spec c nl) as [->|Hn].
    + rewrite IH by apply free_nil. simpl. rewrite split_app; [reflexivity|].
      intros HI. apply H. apply in_rev. exact HI.
    + rewrite IH.
      * cbn [rev]. rewrite <- app_assoc. reflexivity.
      * apply free_cons. split; assumption.
Qed.
Lemma lines_split s : build_lines s [] = split nl s.
Proof. rewrite build_lines_split by apply free_nil. reflexivity. Qed.

Definition word (ls : list str) (e : Z * nat) : str := nth (snd e) ls [].
Definition keyle (a b : Z * nat) : Prop := fst a <= fst b.

Lemma tinsert_in h i t e : In e (tinsert h i t) <-> e = (h, i) \/ In e t.
Proof.
  induction t as [|[h' i'] r IH]; cbn [tinsert].
  - simpl. intuition congruence.
  - destruct (h <? h'); simpl in *; [intuition congruence|]. rewrite IH. intuition congruence.
Qed.
Lemma tinsert_length h i t : length (tinsert h i t) = S (length t).
Proof. induction t as [|[h' i'] r IH]; cbn [tinsert]; [reflexivity|]. destruct (h <? h'); simpl; lia. Qed.
Lemma tinsert_sorted h i t : StronglySorted keyle t -> StronglySorted keyle (tinsert h i t).
Proof.
  induction 1 as [|[h' i'] r Hs IH Hf]; cbn [tinsert].
  - repeat constructor.
  - destruct (Z.ltb_spec h h').
    + constructor; [constructor; assumption|].
      constructor; [unfold keyle; simpl; lia|].
      rewrite Forall_forall in Hf |- *. intros e He. specialize (Hf e He). unfold keyle in *; simpl in *; lia.
    + constructor; [exact IH|]. rewrite Forall_forall in Hf |- *. intros e He. apply tinsert_in in He.
      destruct He as [->|He]; [unfold keyle; simpl; lia|auto].
Qed.

Section Table.
Variable (sc : bool).
Notation hash := (hashString sc).

Definition tok (ls : list str) (t : table) : Prop :=
  StronglySorted keyle t /\ (forall e, In e t -> (snd e < length ls)%nat /\ fst e = hash (word ls e)).

Lemma fold_tinsert ls : forall (l : list (nat * str)) t,
  (forall p, In p l -> (fst p < length ls)%nat /\ snd p = nth (fst p) ls []) -> tok ls t ->
  let t' := fold_left (fun t p => tinsert (hash (snd p)) (fst p) t) l t in
  tok ls t' /\ length t' = (length l + length t)%nat /\
  (forall k, In k (map snd t') <-> In k (map fst l) \/ In k (map snd t)).
Proof.
  induction l as [|[i w] l IH]; intros t Hl Ht; cbn [fold_left fst snd].
  - simpl. intuition.
  - destruct (IH (tinsert (hash w) i t)) as (A & B & C).
    + intros p Hp. apply Hl. right; exact Hp.
    + destruct Ht as [Hs He]. split; [apply tinsert_sorted; exact Hs|].
      intros e HI. apply tinsert_in in HI. destruct HI as [->|HI]; [|auto].
      destruct (Hl (i, w) (or_introl eq_refl)) as [P1 P2]. cbn [fst snd] in P1, P2.
      unfold word. cbn [fst snd]. subst w. auto.
    + cbn zeta. split; [exact A|]. split; [rewrite B, tinsert_length; simpl; lia|].
      intros k. rewrite C. cbn [map fst].
      assert (HH : In k (map snd (tinsert (hash w) i t)) <-> k = i \/ In k (map snd t)).
      { rewrite !in_map_iff. split.
        - intros (e & <- & HI). apply tinsert_in in HI. destruct HI as [->|HI]; [left; reflexivity|right; eauto].
        - intros [->|(e & <- & HI)]; [exists (hash w, i)|exists e]; (split; [reflexivity|apply tinsert_in; auto]). }
      rewrite HH. simpl. intuition.
Qed.

Lemma combine_seq_in (ls : list str) : forall k p, In p (combine (seq k (length ls)) ls) ->
  (k <= fst p < k + length ls)%nat /\ snd p = nth (fst p - k) ls [].
Proof.
  induction ls as [|x ls IH]; intros k p H; simpl in H; [contradiction|].
  destruct H as [<-|H].
  - cbn [fst snd]. split; [simpl; lia|]. rewrite Nat.sub_diag. reflexivity.
  - destruct (IH _ _ H) as [A B]. split; [simpl; lia|].
    rewrite B. replace (fst p - k)%nat with (S (fst p - S k)) by lia. reflexivity.
Qed.
Lemma combine_seq_fst (ls : list str) : forall k, map fst (combine (seq k (length ls)) ls) = seq k (length ls).
Proof. induction ls as [|x ls IH]; intros k; simpl; [reflexivity|]. rewrite IH. reflexivity. Qed.

Lemma build_table_ok ls : tok ls (build_table sc ls) /\ length (build_table sc ls) = length ls /\
  (forall k, In k (map snd (build_table sc ls)) <-> (k < length ls)%nat).
Proof.
  unfold build_table.
  destruct (fold_tinsert ls (combine (seq 0 (length ls)) ls) []) as (A & B & C).
  - intros p Hp. destruct (combine_seq_in _ _ _ Hp) as [P1 P2]. rewrite Nat.sub_0_r in P2. split; [lia|exact P2].
  - split; [constructor|intros e []].
  - split; [exact A|]. split.
    + rewrite B. rewrite <- (map_length fst), combine_seq_fst, seq_length. simpl. lia.
    + intros k. rewrite C, combine_seq_fst, in_seq. simpl. lia.
Qed.

(** *** One scan *)
Definition keep (ls : list str) (w : str) (e : Z * nat) : bool := negb (eqs w (word ls e)).
Definition hit (ls : list str) (w : str) (t : table) : list nat :=
  map snd (filter (fun e => eqs w (word ls e)) t).

Lemma scan_spec ls w : forall t passed ids, tok ls t -> Forall (fun e => hash w <= fst e) t ->
  (exists ids', scan ls (hash w) w passed t ids = Ok (passed ++ filter (keep ls w) t, ids') /\
    (forall k, In k ids' <-> In k ids \/ In k (hit ls w t))) \/
  (scan ls (hash w) w passed t ids = UB /\
     exists e, (In e passed \/ (In e t /\ fst e = hash w /\ word ls e <> w))).
Proof.
  induction t as [|[h i] r IH]; intros passed ids Ht Hge; cbn [scan filter].
  - destruct passed as [|e p]; [left|right].
    + exists ids. split; [reflexivity|]. simpl. intuition.
    + split; [reflexivity|]. exists e. simpl; auto.
  - destruct Ht as [Hs He]. inversion Hs as [|? ? Hs' Hf]; subst.
    assert (Ht' : tok ls r) by (split; [exact Hs'|intros e Hin; apply He; right; exact Hin]).
    inversion Hge as [|? ? Hg1 Hg2]; subst. cbn [fst] in Hg1.
    destruct (He (h, i) (or_introl eq_refl)) as [Hi Hh]. cbn [fst snd] in Hi, Hh.
    change (keep ls w (h, i)) with (negb (eqs w (nth i ls []))). unfold word in Hh. cbn [snd] in Hh.
    destruct (Z.eqb_spec h (hash w)) as [E|E].
    + destruct (eqs_spec w (nth i ls [])) as [W|W]; cbn [negb].
      * destruct (IH passed (i :: ids) Ht' Hg2) as [(ids' & A & B)|[A B]].
        -- left. exists ids'. split; [exact A|]. intros k. rewrite B. unfold hit. cbn [filter].
           change (word ls (h, i)) with (nth i ls []). destruct (eqs_spec w (nth i ls [])); [|contradiction]. simpl. intuition.
        -- right. split; [exact A|]. destruct B as [e [B|(B1 & B2)]]; exists e; [auto|]. right; simpl; auto.
      * destruct (IH (passed ++ [(h, i)]) ids Ht' Hg2) as [(ids' & A & B)|[A B]].
        -- left. exists ids'. split; [rewrite A, <- app_assoc; reflexivity|]. intros k. rewrite B. unfold hit. cbn [filter].
           change (word ls (h, i)) with (nth i ls []). destruct (eqs_spec w (nth i ls [])); [contradiction|]. reflexivity.
        -- right. split; [exact A|]. destruct B as [e [B|(B1 & B2)]].
           ++ apply in_app_iff in B. destruct B as [B|[<-|[]]]; [exists e; auto|].
              exists (h, i). right. split; [simpl; auto|]. cbn [fst snd]. auto.
           ++ exists e. right; simpl; auto.
    + (* the run ends here: nothing further has the word w *)
      assert (Hgt : forall e, In e ((h, i) :: r) -> word ls e <> w).
      { intros e Hin Hw. destruct (He e Hin) as [_ Hk]. rewrite Hw in Hk.
        destruct Hin as [<-|Hin]; [cbn [fst] in Hk; congruence|].
        rewrite Forall_forall in Hf. specialize (Hf e Hin). unfold keyle in Hf. cbn [fst] in Hf. lia. }
      assert (Hw0 : eqs w (nth i ls []) = false).
      { apply eqs_false. intros W. apply (Hgt (h, i)); [left; reflexivity|]. unfold word; cbn [snd]; auto. }
      rewrite Hw0. cbn [negb].
      left. exists ids. split.
      * f_equal. f_equal. f_equal. f_equal. symmetry. clear - Hgt.
        assert (H : forall e, In e r -> word ls e <> w) by (intros; apply Hgt; right; assumption). clear Hgt.
        induction r as [|e r IHr]; [reflexivity|]. cbn [filter]. unfold keep at 1.
        destruct (eqs_spec w (word ls e)); [exfalso; apply (H e); [left; reflexivity|auto]|].
        cbn [negb]. f_equal. apply IHr. intros; apply H; right; assumption.
      * intros k. assert (hit ls w ((h, i) :: r) = []) as ->; [|simpl; intuition].
        unfold hit. clear - Hgt. induction ((h, i) :: r) as [|e l IHl]; [reflexivity|]. cbn [filter].
        destruct (eqs_spec w (word ls e)); [exfalso; apply (Hgt e); [left; reflexivity|auto]|].
        apply IHl. intros; apply Hgt; right; assumption.
Qed.

Lemma assign_nth id k : forall is v, (k < length v)%nat ->
  length (assign id is v) = length v /\
  nth k (assign id is v) 0 = if in_dec Nat.eq_dec k is then id else nth k v 0.
Proof.
  unfold assign. intros is. 
  assert (G : forall is v, length (fold_left (fun v i => match set_at i id v with Some v' => v' | None => v end) is v) = length v).
  { induction is0 as [|i r IHr]; intros v; cbn [fold_left]; [reflexivity|].
    rewrite IHr. destruct (set_at i id v) eqn:E; [eapply set_at_length; eauto|reflexivity]. }
  assert (S1 : forall (v : list Z) i v' k, set_at i id v = Some v' -> nth k v' 0 = if Nat.eq_dec k i then id else nth k v 0).
  { induction v as [|a v IHv]; intros i v' k0 E; [destruct i; discriminate|].
    destruct i; simpl in E.
    - inversion E; subst. destruct k0; reflexivity.
    - destruct (set_at i id v) eqn:E2; [|discriminate]. inversion E; subst.
      destruct k0; simpl; [reflexivity|]. rewrite (IHv _ _ k0 E2).
      destruct (Nat.eq_dec k0 i), (Nat.eq_dec (S k0) (S i)); try lia; reflexivity. }
  induction is as [|i r IHr]; intros v Hk.
  - split; reflexivity.
  - split; [apply (G (i :: r))|]. cbn [fold_left].
    destruct (set_at i id v) as [v'|] eqn:E.
    + destruct (IHr v') as [_ ->]; [rewrite (set_at_length _ _ _ _ E); exact Hk|].
      rewrite (S1 _ _ _ k E). destruct (in_dec Nat.eq_dec k r), (in_dec Nat.eq_dec k (i :: r)); try reflexivity.
      * exfalso; apply n; right; assumption.
      * destruct i0 as [->|]; [|contradiction]. destruct (Nat.eq_dec k k); [reflexivity|contradiction].
      * destruct (Nat.eq_dec k i) as [->|]; [exfalso; apply n0; left; reflexivity|reflexivity].
    + destruct (IHr v Hk) as [_ ->].
      destruct (in_dec Nat.eq_dec k r), (in_dec Nat.eq_dec k (i :: r)); try reflexivity.
      * exfalso; apply n; right; assumption.
      * destruct i0 as [->|]; [|contradiction].
        destruct (set_at_some v k id Hk) as [v' E']. congruence.
Qed.

(** *** The loop *)
Definition side (A : list (str * Z)) (ls : list str) (t : table) (v : list Z) : Prop :=
  tok ls t /\ length v = length ls /\
  (forall k, (k < length ls)%nat -> (In k (map snd t) <-> ~ In (nth k ls []) (map fst A))) /\
  (forall k, (k < length ls)%nat -> In (nth k ls []) (map fst A) -> In (nth k ls [], nth k v 0) A).

Lemma tok_filter ls t f : tok ls t -> tok ls (filter f t).
Proof.
  intros [Hs He]. split.
  - clear He. induction Hs as [|e r Hs IH Hf]; simpl; [constructor|].
    destruct (f e); [|exact IH]. constructor; [exact IH|].
    rewrite Forall_forall in *. intros x Hx. apply filter_In in Hx. apply Hf, Hx.
  - intros e H. apply filter_In in H. apply He, H.
Qed.

Lemma side_step A ls t v w id is : side A ls t v -> ~ In w (map fst A) ->
  (forall k, In k is <-> In k (hit ls w t)) ->
  side ((w, id) :: A) ls (filter (keep ls w) t) (assign id is v).
Proof.
  intros (Ht & Hv & H1 & H2) Hw His.
  assert (Hhit : forall k, (k < length ls)%nat -> (In k is <-> nth k ls [] = w)).
  { intros k Hk. rewrite His. unfold hit. rewrite in_map_iff. split.
    - intros (e & <- & HI). apply filter_In in HI. destruct HI as [_ HI]. apply eqs_true in HI. symmetry; exact HI.
    - intros Hkw. assert (Hin : In k (map snd t)) by (apply H1; [exact Hk|rewrite Hkw; exact Hw]).
      apply in_map_iff in Hin. destruct Hin as (e & <- & HI). exists e. split; [reflexivity|].
      apply filter_In. split; [exact HI|]. apply eqs_true. unfold word. symmetry; exact Hkw. }
  split; [apply tok_filter; exact Ht|]. split.
  { destruct v as [|a v]; [|destruct (assign_nth id 0 is (a :: v) ltac:(simpl; lia)) as [-> _]; exact Hv].
    unfold assign. clear - Hv. induction is as [|i r IHr]; [exact Hv|]. cbn [fold_left]. destruct i; exact IHr. }
  split.
  - intros k Hk. rewrite in_map_iff. simpl. split.
    + intros (e & <- & HI). apply filter_In in HI. destruct HI as [HI HK].
      unfold keep in HK. apply negb_true_iff, eqs_false in HK.
      intros [E|E]; [apply HK; exact E|].
      revert E. apply H1; [exact Hk|]. apply in_map. exact HI.
    + intros Hn. assert (Hin : In k (map snd t)) by (apply H1; [exact Hk|tauto]).
      apply in_map_iff in Hin. destruct Hin as (e & <- & HI). exists e. split; [reflexivity|].
      apply filter_In. split; [exact HI|]. unfold keep. apply negb_true_iff, eqs_false. unfold word. tauto.
  - intros k Hk Hin. destruct (assign_nth id k is v ltac:(lia)) as [_ ->].
    destruct (in_dec Nat.eq_dec k is) as [Hi|Hi].
    + apply Hhit in Hi; [|exact Hk]. rewrite Hi. left; reflexivity.
    + right. apply H2; [exact Hk|]. simpl in Hin. destruct Hin as [E|E]; [|exact E].
      exfalso. apply Hi, Hhit; auto.
Qed.

Lemma filter_len_le {B} (f : B -> bool) l : (length (filter f l) <= length l)%nat.
Proof. induction l as [|a l IH]; simpl; [lia|]. destruct (f a); simpl; lia. Qed.
Lemma filter_head ls h i r : (length (filter (keep ls (nth i ls [])) ((h, i) :: r)) < S (length r))%nat.
Proof.
  cbn [filter]. unfold keep at 1. unfold word. cbn [snd]. rewrite eqs_refl. cbn [negb].
  pose proof (filter_len_le (keep ls (nth i ls [])) r). lia.
Qed.

Definition ids_inj (A : list (str * Z)) : Prop :=
  forall w1 w2 i1 i2, In (w1, i1) A -> In (w2, i2) A -> (i1 = i2 <-> w1 = w2).

Definition collision (l0 l1 : list str) : Prop :=
  exists a b, In a (l0 ++ l1) /\ In b (l0 ++ l1) /\ a <> b /\ hash a = hash b.

Lemma ids_inj_cons A w id : ids_inj A -> Forall (fun p => snd p < id) A -> ~ In w (map fst A) ->
  ids_inj ((w, id) :: A).
Proof.
  intros HA Hlt Hw w1 w2 i1 i2 H1 H2. rewrite Forall_forall in Hlt.
  destruct H1 as [H1|H1], H2 as [H2|H2].
  - inversion H1; inversion H2; subst. tauto.
  - inversion H1; subst. specialize (Hlt _ H2) as L. cbn [snd] in L. split; [lia|]. intros <-.
    exfalso; apply Hw. apply in_map_iff. exists (w1, i2). auto.
  - inversion H2; subst. specialize (Hlt _ H1) as L. cbn [snd] in L. split; [lia|]. intros ->.
    exfalso; apply Hw. apply in_map_iff. exists (w2, i1). auto.
  - apply HA; assumption.
Qed.

(** The table is sorted, so its keys are all at least the first one's. *)
Lemma tok_min ls h i r : tok ls ((h, i) :: r) -> Forall (fun e => h <= fst e) ((h, i) :: r).
Proof.
  intros [Hs _]. inversion Hs as [|? ? _ Hf]; subst. constructor; [simpl; lia|].
  rewrite Forall_forall in *. intros e He. apply (Hf e He).
Qed.

Lemma filter_all ls w t : (forall e, In e t -> word ls e <> w) -> filter (keep ls w) t = t /\ hit ls w t = [].
Proof.
  intros H. induction t as [|e t IH]; [split; reflexivity|].
  destruct IH as [A B]; [intros; apply H; right; assumption|].
  unfold hit in *. cbn [filter]. unfold keep at 1.
  destruct (eqs_spec w (word ls e)) as [E|E]; [exfalso; apply (H e); [left; reflexivity|auto]|].
  cbn [negb]. rewrite A. auto.
Qed.

Definition id_result (l0 l1 : list str) (v0 v1 : list Z) : Prop :=
  length v0 = length l0 /\ length v1 = length l1 /\
  exists A, ids_inj A /\
   (forall k, (k < length l0)%nat -> In (nth k l0 [], nth k v0 0) A) /\
   (forall k, (k < length l1)%nat -> In (nth k l1 [], nth k v1 0) A).

Lemma word_in ls t e : tok ls t -> In e t -> In (word ls e) ls.
Proof. intros [_ H] He. apply nth_In. apply H; exact He. Qed.

Lemma side_notin A ls t v e : side A ls t v -> In e t -> ~ In (word ls e) (map fst A).
Proof.
  intros (Ht & _ & H1 & _) He. unfold word. apply H1; [apply Ht; exact He|]. apply in_map; exact He.
Qed.

Lemma id_loop_ok : forall fuel l0 l1 t0 t1 id v0 v1 A,
  (length t0 + length t1 < fuel)%nat -> side A l0 t0 v0 -> side A l1 t1 v1 ->
  ids_inj A -> Forall (fun p => snd p < id) A ->
  (exists v0' v1', id_loop fuel l0 l1 t0 t1 id v0 v1 = Ok (v0', v1') /\ id_result l0 l1 v0' v1') \/
  (id_loop fuel l0 l1 t0 t1 id v0 v1 = UB /\ collision l0 l1).
Proof.
  induction fuel as [|f IH]; intros l0 l1 t0 t1 id v0 v1 A Hf S0 S1 HA Hid; [lia|].
  assert (HidS : forall w, Forall (fun p : str * Z => snd p < id + 1) ((w, id) :: A)).
  { intros w. constructor; [simpl; lia|]. eapply Forall_impl; [|exact Hid]. simpl; intros; lia. }
  assert (Ht0 := proj1 S0). assert (Ht1 := proj1 S1).
  cbn [id_loop].
  destruct t0 as [|[h i] r0].
  - destruct t1 as [|[h1 i1] r1].
    + left. exists v0, v1. split; [reflexivity|].
      destruct S0 as (_ & L0 & P0 & Q0), S1 as (_ & L1 & P1 & Q1).
      split; [exact L0|]. split; [exact L1|]. exists A. split; [exact HA|]. split; intros k Hk.
      * apply Q0; [exact Hk|].
        destruct (in_dec str_eq_dec (nth k l0 []) (map fst A)) as [|n]; [assumption|].
        exfalso. apply (proj2 (P0 k Hk)) in n. exact n.
      * apply Q1; [exact Hk|].
        destruct (in_dec str_eq_dec (nth k l1 []) (map fst A)) as [|n]; [assumption|].
        exfalso. apply (proj2 (P1 k Hk)) in n. exact n.
    + destruct (proj2 Ht1 (h1, i1) (or_introl eq_refl)) as [Hi Hh]. cbn [fst snd] in Hi, Hh.
      unfold word in Hh; cbn [snd] in Hh.
      pose proof (side_notin A l1 _ v1 (h1, i1) S1 (or_introl eq_refl)) as Hw. unfold word in Hw; cbn [snd] in Hw.
      pose proof (tok_min _ _ _ _ Ht1) as Hmin. subst h1.
      destruct (scan_spec l1 (nth i1 l1 []) _ [] [] Ht1 Hmin) as [(ids & E & HI)|[E (e & [[]|(B1 & B2 & B3)])]].
      * rewrite E. cbn [bind app].
        apply IH with (A := (nth i1 l1 [], id) :: A); auto using ids_inj_cons.
        -- pose proof (filter_head l1 (hash (nth i1 l1 [])) i1 r1). simpl in *. lia.
        -- pose proof (side_step A l0 [] v0 (nth i1 l1 []) id [] S0 Hw) as Q. apply Q. reflexivity.
        -- apply side_step; auto. intros k. rewrite HI. simpl; tauto.
      * rewrite E. right. split; [reflexivity|]. exists (word l1 e), (nth i1 l1 []).
        rewrite !in_app_iff. split; [right; eapply word_in; eassumption|].
        split; [right; apply nth_In; exact Hi|]. split; [exact B3|].
        rewrite <- B2. symmetry. apply Ht1; exact B1.
  - destruct (proj2 Ht0 (h, i) (or_introl eq_refl)) as [Hi0 Hh0]. cbn [fst snd] in Hi0, Hh0.
    unfold word in Hh0; cbn [snd] in Hh0.
    pose proof (tok_min _ _ _ _ Ht0) as Hmin0.
    destruct (match t1 with (h1, _) :: _ => h1 <? h | [] => false end) eqn:E1.
    + destruct t1 as [|[h1 i1] r1]; [discriminate|]. apply Z.ltb_lt in E1.
      destruct (proj2 Ht1 (h1, i1) (or_introl eq_refl)) as [Hi Hh]. cbn [fst snd] in Hi, Hh.
      unfold word in Hh; cbn [snd] in Hh.
      pose proof (side_notin A l1 _ v1 (h1, i1) S1 (or_introl eq_refl)) as Hw. unfold word in Hw; cbn [snd] in Hw.
      pose proof (tok_min _ _ _ _ Ht1) as Hmin. subst h1.
      destruct (scan_spec l1 (nth i1 l1 []) _ [] [] Ht1 Hmin) as [(ids & E & HI)|[E (e & [[]|(B1 & B2 & B3)])]].
      * rewrite E. cbn [bind app].
        apply IH with (A := (nth i1 l1 [], id) :: A); auto using ids_inj_cons.
        -- pose proof (filter_head l1 (hash (nth i1 l1 [])) i1 r1). simpl in *. lia.
        -- destruct (filter_all l0 (nth i1 l1 []) ((h, i) :: r0)) as [F1 F2].
           { intros e He Hwe. destruct (proj2 Ht0 e He) as [_ Hk]. rewrite Hwe in Hk.
             rewrite Forall_forall in Hmin0. specialize (Hmin0 e He). lia. }
           pose proof (side_step A l0 ((h, i) :: r0) v0 (nth i1 l1 []) id [] S0 Hw) as Q.
           rewrite F1, F2 in Q. apply Q. reflexivity.
        -- apply side_step; auto. intros k. rewrite HI. simpl; tauto.
      * rewrite E. right. split; [reflexivity|]. exists (word l1 e), (nth i1 l1 []).
        rewrite !in_app_iff. split; [right; eapply word_in; eassumption|].
        split; [right; apply nth_In; exact Hi|]. split; [exact B3|].
        rewrite <- B2. symmetry. apply Ht1; exact B1.
    + pose proof (side_notin A l0 _ v0 (h, i) S0 (or_introl eq_refl)) as Hw. unfold word in Hw; cbn [snd] in Hw.
      assert (Hmin1 : Forall (fun e => h <= fst e) t1).
      { destruct t1 as [|[h1 i1] r1]; [constructor|]. apply Z.ltb_ge in E1.
        pose proof (tok_min _ _ _ _ Ht1) as M. eapply Forall_impl; [|exact M]. simpl; intros; lia. }
      subst h.
      destruct (scan_spec l0 (nth i l0 []) _ [] [] Ht0 Hmin0) as [(ids & E & HI)|[E (e & [[]|(B1 & B2 & B3)])]].
      * rewrite E. cbn [bind app].
        destruct (scan_spec l1 (nth i l0 []) t1 [] [] Ht1 Hmin1) as [(ids2 & E2 & HI2)|[E2 (e & [[]|(B1 & B2 & B3)])]].
        -- rewrite E2. cbn [bind app].
           apply IH with (A := (nth i l0 [], id) :: A); auto using ids_inj_cons.
           ++ pose proof (filter_head l0 (hash (nth i l0 [])) i r0). pose proof (filter_len_le (keep l1 (nth i l0 [])) t1). simpl in *. lia.
           ++ apply side_step; auto. intros k. rewrite HI. simpl; tauto.
           ++ apply side_step; auto. intros k. rewrite HI2. simpl; tauto.
        -- rewrite E2. right. split; [reflexivity|]. exists (word l1 e), (nth i l0 []).
           rewrite !in_app_iff. split; [right; eapply word_in; eassumption|].
           split; [left; apply nth_In; exact Hi0|]. split; [exact B3|].
           rewrite <- B2. symmetry. apply Ht1; exact B1.
      * rewrite E. right. split; [reflexivity|]. exists (word l0 e), (nth i l0 []).
        rewrite !in_app_iff. split; [left; eapply word_in; eassumption|].
        split; [left; apply nth_In; exact Hi0|]. split; [exact B3|].
        rewrite <- B2. symmetry. apply Ht0; exact B1.
Qed.

Lemma BuildLines_spec s0 s1 :
  (exists v0 v1, BuildLines sc s0 s1 = Ok (split nl s0, split nl s1, v0, v1) /\
     id_result (split nl s0) (split nl s1) v0 v1) \/
  (BuildLines sc s0 s1 = UB /\ collision (split nl s0) (split nl s1)).
Proof.
  unfold BuildLines. rewrite !lines_split.
  set (l0 := split nl s0). set (l1 := split nl s1).
  destruct (build_table_ok l0) as (A0 & B0 & C0), (build_table_ok l1) as (A1 & B1 & C1).
  destruct (id_loop_ok (S (length l0 + length l1)) l0 l1 (build_table sc l0) (build_table sc l1) 1
    (repeat 0 (length l0)) (repeat 0 (length l1)) []) as [(v0 & v1 & E & R)|[E R]].
  - lia.
  - split; [exact A0|]. split; [apply repeat_length|]. split; [|intros ? ? []].
    intros k Hk. rewrite C0. simpl. tauto.
  - split; [exact A1|]. split; [apply repeat_length|]. split; [|intros ? ? []].
    intros k Hk. rewrite C1. simpl. tauto.
  - intros ? ? ? ? [].
  - constructor.
  - left. exists v0, v1. rewrite E. split; [reflexivity|exact R].
  - right. rewrite E. split; [reflexivity|exact R].
Qed.
End Table.

(** Theorems about the line difference (properties C27-C35). *)
From Verif Require Import Base Str Dec DiffModel DiffMid DiffMid4 DiffGen DiffIds DiffSpec DiffFacts DiffPrint.
Local Open Scope Z_scope.

(** The size restriction of all theorems about complete differences: the two
    texts together have fewer than 2^31 - 8 lines ([length] of a middle snake
    is an unsigned int). *)
Definition small (s0 s1 : str) : Prop := len (lines s0) + len (lines s1) < 2147483640.
(** No two different lines of the two texts have the same hash value. *)
Definition distinct_hashes (sc : bool) (s0 s1 : str) : Prop :=
  forall a b, In a (lines s0 ++ lines s1) -> In b (lines s0 ++ lines s1) ->
    hashString sc a = hashString sc b -> a = b.

Lemma diff_cases sc s0 s1 : small s0 s1 ->
  ((exists v0 v1 es, BuildLines sc s0 s1 = Ok (lines s0, lines s1, v0, v1) /\
     id_result (lines s0) (lines s1) v0 v1 /\
     (forall asserts f, edits_of asserts (Some f) v0 v1 = Ok es) /\
     (forall asserts f, Diff sc asserts (Some f) s0 s1 = Ok (PrintEditList (lines s0) (lines s1) es)) /\
     align 0 0 (lines s0) (lines s1) es /\ (es = [] <-> lines s0 = lines s1)) \/
   ((forall asserts oob, Diff sc asserts oob s0 s1 = UB) /\ ~ distinct_hashes sc s0 s1)).
Proof.
  intros Hs. destruct (BuildLines_spec sc s0 s1) as [(v0 & v1 & E & R)|[E (a & b & Ha & Hb & Hne & Hh)]].
  - left. destruct R as (L0 & L1 & A & HA & Q0 & Q1). fold (lines s0) in *. fold (lines s1) in *.
    destruct (edits_ok v0 v1 (lines s0) (lines s1)) as (es & E1 & E2 & E3); auto.
    exists v0, v1, es. split; [exact E|]. split; [split; [exact L0|split; [exact L1|exists A; auto]]|].
    split; [exact E1|]. split; [|split; [exact E2|exact E3]].
    intros asserts f. unfold Diff. rewrite E. cbn [bind]. rewrite E1. reflexivity.
  - right. split; [intros; unfold Diff; rewrite E; reflexivity|].
    intros H. apply Hne. apply H; assumption.
Qed.

(** ** C27 *)
Theorem C27_lines_lossless : forall sc s0 s1 l0 l1 v0 v1, BuildLines sc s0 s1 = Ok (l0, l1, v0, v1) ->
  (join nl l0 = s0 /\ Forall (free nl) l0 /\ l0 <> []) /\ (join nl l1 = s1 /\ Forall (free nl) l1 /\ l1 <> []).
Proof.
  intros sc s0 s1 l0 l1 v0 v1 H.
  destruct (BuildLines_spec sc s0 s1) as [(w0 & w1 & E & _)|[E _]]; rewrite E in H; [|discriminate].
  injection H as <- <- <- <-. split; (split; [apply join_split|split; [apply split_elems|apply split_ne]]).
Qed.
Print Assumptions C27_lines_lossless.
Theorem C27_line_count : forall sc s0 s1 l0 l1 v0 v1, BuildLines sc s0 s1 = Ok (l0, l1, v0, v1) ->
  length l0 = S (count_occ ascii_dec s0 nl) /\ length l1 = S (count_occ ascii_dec s1 nl) /\
  length v0 = length l0 /\ length v1 = length l1.
Proof.
  assert (G : forall s, length (split nl s) = S (count_occ ascii_dec s nl)).
  { intros s. induction s as [|c s IH]; [reflexivity|]. cbn [count_occ].
    destruct (ascii_dec c nl) as [->|Hn].
    - change (nl :: s) with ([] ++ nl :: s). rewrite split_app by apply free_nil. cbn [length]. rewrite IH. reflexivity.
    - destruct (first_split nl s) as [F|(a & b & E & F)].
      + rewrite split_free; [|apply free_cons; auto]. rewrite split_free in IH by exact F. exact IH.
      + subst s. rewrite app_comm_cons. rewrite split_app; [|apply free_cons; auto].
        rewrite split_app in IH by exact F. exact IH. }
  intros sc s0 s1 l0 l1 v0 v1 H.
  destruct (BuildLines_spec sc s0 s1) as [(w0 & w1 & E & R)|[E _]]; rewrite E in H; [|discriminate].
  injection H as <- <- <- <-. destruct R as (R0 & R1 & _). auto.
Qed.
Print Assumptions C27_line_count.
Example C27_case : exists v0 v1, BuildLines true $"a
b
" $"b" = Ok ([$"a"; $"b"; []], [$"b"], v0, v1).
Proof. do 2 eexists. vm_compute. reflexivity. Qed.

(** ** C28 *)
Theorem C28_same_id_iff_same_line : forall sc s0 s1 l0 l1 v0 v1, BuildLines sc s0 s1 = Ok (l0, l1, v0, v1) ->
  let ls := l0 ++ l1 in let ids := v0 ++ v1 in
  length ids = length ls /\
  forall i j, (i < length ls)%nat -> (j < length ls)%nat ->
    (nth i ids 0 = nth j ids 0 <-> nth i ls [] = nth j ls []).
Proof.
  intros sc s0 s1 l0 l1 v0 v1 H ls ids.
  destruct (BuildLines_spec sc s0 s1) as [(w0 & w1 & E & R)|[E _]]; rewrite E in H; [|discriminate].
  injection H as <- <- <- <-. destruct R as (R0 & R1 & A & HA & Q0 & Q1).
  split; [unfold ids, ls; rewrite !app_length; lia|].
  assert (Q : forall i, (i < length ls)%nat -> In (nth i ls [], nth i ids 0) A).
  { intros i Hi. unfold ls, ids in *. rewrite app_length in Hi.
    destruct (Nat.lt_ge_cases i (length (split nl s0))) as [L|L].
    - rewrite !app_nth1 by lia. apply Q0. exact L.
    - rewrite !app_nth2 by lia. rewrite R0. apply Q1. lia. }
  intros i j Hi Hj. apply HA; auto.
Qed.
Print Assumptions C28_same_id_iff_same_line.
(** The identification always finishes, and without colliding hashes it succeeds. *)
Theorem C28_succeeds_without_collisions : forall sc s0 s1,
  (distinct_hashes sc s0 s1 -> is_ok (BuildLines sc s0 s1)) /\
  (is_ok (BuildLines sc s0 s1) \/ BuildLines sc s0 s1 = UB).
Proof.
  intros sc s0 s1. destruct (BuildLines_spec sc s0 s1) as [(w0 & w1 & E & R)|[E (a & b & Ha & Hb & Hne & Hh)]].
  - rewrite E. split; [intros _|left]; eexists; reflexivity.
  - split; [|right; exact E]. intros D. exfalso. apply Hne, D; assumption.
Qed.
Print Assumptions C28_succeeds_without_collisions.
(** With colliding hashes it can run past the end of a table: for instance for the lines "b\xc3\xa9" (UTF-8
    "b" + e-acute) and "aB)". *)
Theorem C28_collision_refuted : exists s0 s1, free nul s0 /\ free nul s1 /\
  forall asserts oob, Diff true asserts oob s0 s1 = UB.
Proof.
  exists ("b"%char :: "195"%char :: "169"%char :: nil), $"aB)".
  split; [apply freeb_spec; reflexivity|]. split; [apply freeb_spec; reflexivity|].
  intros asserts oob. unfold Diff.
  assert (BuildLines true ("b"%char :: "195"%char :: "169"%char :: nil) $"aB)" = UB) as -> by (vm_compute; reflexivity).
  reflexivity.
Qed.
Print Assumptions C28_collision_refuted.
Example C28_case : distinct_hashes true $"a
b
a" $"b
c" /\ exists v0 v1, BuildLines true $"a
b
a" $"b
c" = Ok ([$"a"; $"b"; $"a"], [$"b"; $"c"], v0, v1) /\ nth 0 v0 0 = nth 2 v0 0 /\ nth 1 v0 0 = nth 0 v1 0.
Proof.
  split.
  - intros a b Ha Hb. vm_compute in Ha, Hb.
    repeat (destruct Ha as [<-|Ha]; [repeat (destruct Hb as [<-|Hb]; [vm_compute; intros E; first [reflexivity|discriminate E]|]); destruct Hb|]).
    destruct Ha.
  - do 2 eexists. split; [vm_compute; reflexivity|]. split; reflexivity.
Qed.

(** ** C29 *)
(** One middle-snake search: it finishes, and both remaining boxes are smaller than the one searched. *)
Theorem C29_middle_snake_terminates : forall n v0 v1 xb xe yb ye D,
  0 <= xb < xe -> xe <= len v0 -> 0 <= yb < ye -> ye <= len v1 ->
  2 * ((xe - xb) + (ye - yb)) + 6 <= n ->
  nth (Z.to_nat xb) v0 0 <> nth (Z.to_nat yb) v1 0 ->
  nth (Z.to_nat (xe - 1)) v0 0 <> nth (Z.to_nat (ye - 1)) v1 0 ->
  exists xm ym l D', FindEditMidPoint n v0 v1 xb xe yb ye D = Ok ((xm, ym, l), D') /\
    xb <= xm <= xe /\ yb <= ym <= ye /\
    (xm - xb) + (ym - yb) < (xe - xb) + (ye - yb) /\ (xe - xm) + (ye - ym) < (xe - xb) + (ye - yb).
Proof.
  intros n v0 v1 xb xe yb ye D Hx Hxl Hy Hyl Hn Hb He.
  destruct (FindEditMidPoint_ok n v0 v1 xb xe yb ye) with (D := D) as (p & D1 & Ep & Hp); auto; try lia.
  destruct p as [[xm ym] l]. destruct Hp as (M1 & M2 & M3 & M4 & _).
  exists xm, ym, l, D1. split; [exact Ep|]. split; [lia|]. split; [lia|].
  split; (apply Z.nle_gt; intros Hle; first [apply M3; lia|apply M4; lia]).
Qed.
Print Assumptions C29_middle_snake_terminates.
Example C29_mid_case : exists p D, FindEditMidPoint 14 [1;2] [3;4] 0 2 0 2 (fun _ => None) = Ok (p, D).
Proof. do 2 eexists. vm_compute. reflexivity. Qed.
(** The whole difference finishes, whatever out-of-range reads give, with and without assertions; no assertion fails;
    and it succeeds whenever the lines hash to different values. *)
Theorem C29_diff_terminates : forall sc s0 s1, small s0 s1 ->
  (exists out, forall asserts f, Diff sc asserts (Some f) s0 s1 = Ok out) \/
  ((forall asserts oob, Diff sc asserts oob s0 s1 = UB) /\ ~ distinct_hashes sc s0 s1).
Proof.
  intros sc s0 s1 Hs. destruct (diff_cases sc s0 s1 Hs) as [(v0 & v1 & es & _ & _ & _ & E & _)|H]; [left|right; exact H].
  eexists. exact E.
Qed.
Print Assumptions C29_diff_terminates.
Theorem C29_diff_succeeds : forall sc s0 s1, small s0 s1 -> distinct_hashes sc s0 s1 ->
  exists out, forall asserts f, Diff sc asserts (Some f) s0 s1 = Ok out.
Proof. intros sc s0 s1 Hs Hd. destruct (C29_diff_terminates sc s0 s1 Hs) as [H|[_ H]]; [exact H|contradiction]. Qed.
Print Assumptions C29_diff_succeeds.

(** ** C30 *)
(** The search accesses its diagonal buffer only inside the [n] elements that [Diff] allocates and reads only elements
    written before, and reads the line identifiers only inside the sequences: in the model any other access is [UB]. *)
Theorem C30_search_in_bounds : forall v0 v1 xb xe yb ye D,
  0 <= xb < xe -> xe <= len v0 -> 0 <= yb < ye -> ye <= len v1 ->
  nth (Z.to_nat xb) v0 0 <> nth (Z.to_nat yb) v1 0 ->
  nth (Z.to_nat (xe - 1)) v0 0 <> nth (Z.to_nat (ye - 1)) v1 0 ->
  is_ok (FindEditMidPoint ((len v0 + len v1) * 2 + 6) v0 v1 xb xe yb ye D).
Proof.
  intros v0 v1 xb xe yb ye D Hx Hxl Hy Hyl Hb He.
  destruct (FindEditMidPoint_ok ((len v0 + len v1) * 2 + 6) v0 v1 xb xe yb ye) with (D := D) as (p & D1 & Ep & _); auto; try lia.
  eexists; exact Ep.
Qed.
Print Assumptions C30_search_in_bounds.
(** Nothing depends on the elements outside that GenerateEditList reads before testing the range. *)
Theorem C30_outside_reads_harmless : forall sc s0 s1 asserts asserts' f f', small s0 s1 ->
  Diff sc asserts (Some f) s0 s1 = Diff sc asserts' (Some f') s0 s1.
Proof.
  intros sc s0 s1 asserts asserts' f f' Hs.
  destruct (C29_diff_terminates sc s0 s1 Hs) as [[out H]|[H _]]; rewrite !H; reflexivity.
Qed.
Print Assumptions C30_outside_reads_harmless.
(** But it does read outside (the element before the first one): strictly, undefined behaviour, with or without assertions. *)
Theorem C30_in_bounds_refuted : exists s0 s1, distinct_hashes true s0 s1 /\
  forall asserts, Diff true asserts None s0 s1 = UB.
Proof.
  exists $"a", $"b". split.
  - intros a b Ha Hb. vm_compute in Ha, Hb.
    destruct Ha as [<-|[<-|[]]], Hb as [<-|[<-|[]]]; vm_compute; intros E; first [reflexivity|discriminate E].
  - intros []; vm_compute; reflexivity.
Qed.
Print Assumptions C30_in_bounds_refuted.

(** ** C31 *)
Theorem C31_edits_correct : forall sc s0 s1 l0 l1 v0 v1, small s0 s1 -> BuildLines sc s0 s1 = Ok (l0, l1, v0, v1) ->
  exists es, (forall asserts f, edits_of asserts (Some f) v0 v1 = Ok es) /\
    (forall asserts f, Diff sc asserts (Some f) s0 s1 = Ok (PrintEditList l0 l1 es)) /\
    apply_edits 0 (lines s0) (lines s1) es = lines s1.
Proof.
  intros sc s0 s1 l0 l1 v0 v1 Hs H.
  destruct (diff_cases sc s0 s1 Hs) as [(w0 & w1 & es & E & _ & E1 & E2 & A & _)|[E _]].
  - rewrite E in H. injection H as <- <- <- <-. exists es. split; [exact E1|]. split; [exact E2|].
    apply (align_apply 0 0 _ _ es A [] []); reflexivity.
  - specialize (E true (Some (fun _ _ => 0))). exfalso.
    destruct (BuildLines_spec sc s0 s1) as [(w0 & w1 & E' & R)|[E' _]]; [|congruence].
    destruct R as (L0 & L1 & A & HA & Q0 & Q1). fold (lines s0) in *. fold (lines s1) in *.
    destruct (edits_ok w0 w1 (lines s0) (lines s1)) as (es & E1 & _); auto.
    unfold Diff in E. rewrite E' in E. cbn [bind] in E. rewrite E1 in E. discriminate.
Qed.
Print Assumptions C31_edits_correct.
Example C31_case : edits_of true (Some (fun _ _ => 0)) [1;2;3;4] [1;5;3;4;6] = Ok [mkedit 1 1 1 1; mkedit 4 4 1 0].
Proof. vm_compute. reflexivity. Qed.

(** ** C32 *)
Theorem C32_edits_well_formed : forall sc s0 s1 l0 l1 v0 v1 asserts f es, small s0 s1 ->
  BuildLines sc s0 s1 = Ok (l0, l1, v0, v1) -> edits_of asserts (Some f) v0 v1 = Ok es ->
  well_formed false 0 0 (lines s0) (lines s1) es.
Proof.
  intros sc s0 s1 l0 l1 v0 v1 asserts f es Hs H He.
  destruct (diff_cases sc s0 s1 Hs) as [(w0 & w1 & es' & E & _ & E1 & E2 & A & _)|[E _]].
  - rewrite E in H. injection H as <- <- <- <-. rewrite E1 in He. apply Ok_inj in He. subst es'.
    apply (align_wf 0 0 _ _ es A false [] []); try reflexivity. discriminate.
  - exfalso. specialize (E asserts (Some f)). unfold Diff in E. rewrite H in E. cbn [bind] in E. rewrite He in E. discriminate.
Qed.
Print Assumptions C32_edits_well_formed.

(** ** C33 *)
Lemma PrintEdit_ne l0 l1 e : PrintEdit l0 l1 e <> [].
Proof.
  unfold PrintEdit. destruct (_ && _); [|destruct (negb _)]; intros E;
    repeat (apply app_eq_nil in E; destruct E as [? E]); try discriminate.
Qed.
Theorem C33_empty_iff_equal : forall sc asserts f s0 s1 out, small s0 s1 ->
  Diff sc asserts (Some f) s0 s1 = Ok out -> (out = [] <-> s0 = s1).
Proof.
  intros sc asserts f s0 s1 out Hs H.
  destruct (diff_cases sc s0 s1 Hs) as [(w0 & w1 & es & E & _ & E1 & E2 & A & E3)|[E _]].
  - rewrite E2 in H. apply Ok_inj in H. subst out. split.
    + intros Hp. assert (es = []) as Hes.
      { destruct es as [|e es]; [reflexivity|]. unfold PrintEditList in Hp. cbn [flat_map] in Hp.
        apply app_eq_nil in Hp. destruct Hp as [Hp _]. exfalso. exact (PrintEdit_ne _ _ _ Hp). }
      apply E3 in Hes. rewrite <- (join_split nl s0), <- (join_split nl s1). unfold lines in Hes. congruence.
    + intros ->. rewrite (proj2 E3 eq_refl). reflexivity.
  - rewrite E in H. discriminate.
Qed.
Print Assumptions C33_empty_iff_equal.
Example C33_case : Diff true true None $"x
y
x" $"x
y
x" = Ok [].
Proof. vm_compute. reflexivity. Qed.

(** ** C34 *)
Theorem C34_printed_difference_is_patch : forall sc asserts f s0 s1 out, small s0 s1 ->
  free nul s0 -> free nul s1 -> Diff sc asserts (Some f) s0 s1 = Ok out -> patch out s0 = Some s1.
Proof.
  intros sc asserts f s0 s1 out Hs N0 N1 H.
  destruct (diff_cases sc s0 s1 Hs) as [(w0 & w1 & es & E & _ & E1 & E2 & A & E3)|[E _]].
  - rewrite E2 in H. apply Ok_inj in H. subst out. unfold patch.
    assert (F : forall s, free nul s -> Forall (free nul) (lines s)).
    { intros s Hn. apply Forall_forall. intros l Hl Hc. apply Hn.
      rewrite <- (join_split nl s). clear - Hl Hc. unfold lines in Hl.
      induction (split nl s) as [|x ls IH]; [destruct Hl|]. destruct Hl as [->|Hl].
      - destruct ls; cbn [join]; [exact Hc|]. apply in_app_iff. left; exact Hc.
      - destruct ls as [|y ls]; [destruct Hl|]. change (join nl (x :: y :: ls)) with (x ++ nl :: join nl (y :: ls)).
        apply in_app_iff. right. right. apply IH. exact Hl. }
    assert (L : (length es <= length (PrintEditList (lines s0) (lines s1) es))%nat).
    { clear. generalize (lines s0), (lines s1). intros l0 l1. unfold PrintEditList.
      induction es as [|e es IH]; [simpl; lia|]. cbn [flat_map length]. rewrite app_length.
      pose proof (PrintEdit_ne l0 l1 e). destruct (PrintEdit l0 l1 e); [contradiction|]. simpl. lia. }
    pose proof (align_patch 0 0 _ _ es A [] [] (S (length (PrintEditList (lines s0) (lines s1) es)))
      eq_refl eq_refl (F s0 N0) (F s1 N1) (split_elems nl s0) (split_elems nl s1) ltac:(lia)) as P.
    cbn [app] in P. unfold lines at 2. fold (lines s0). 
    match goal with |- match ?x with _ => _ end = _ => replace x with (Some (lines s1)) by (symmetry; exact P) end.
    unfold lines. rewrite join_split. reflexivity.
  - rewrite E in H. discriminate.
Qed.
Print Assumptions C34_printed_difference_is_patch.
(** With a NUL character inside a line, only the part before it is printed, so the printed difference is not a patch. *)
Theorem C34_nul_refuted : exists s0 s1 out, Diff true true (Some (fun _ _ => 0)) s0 s1 = Ok out /\
  s0 <> s1 /\ patch out s0 <> Some s1.
Proof.
  exists $"a", ("b"%char :: nul :: $"c"). eexists. split; [vm_compute; reflexivity|]. split; [discriminate|].
  vm_compute. discriminate.
Qed.
Print Assumptions C34_nul_refuted.
Example C34_case : Diff true true (Some (fun _ _ => 7)) $"a
b
c
d" $"b
c
x
y" = Ok $"1d1
< a
4c3,4
< d
----
> x
> y
" /\ patch $"1d1
< a
4c3,4
< d
----
> x
> y
" $"a
b
c
d" = Some $"b
c
x
y".
Proof. split; vm_compute; reflexivity. Qed.

(** ** C35 *)
Fixpoint total (g : edit -> Z) (es : list edit) : Z := match es with [] => 0 | e :: r => g e + total g r end.
Lemma wf_total {A} (from to : list A) es : forall st x y, well_formed st x y from to es -> 0 <= x -> 0 <= y ->
  x + total deleted es <= len from /\ y + total inserted es <= len to /\
  len from - x - total deleted es = len to - y - total inserted es.
Proof.
  induction es as [|e es IH]; intros st x y H Hx Hy; cbn [well_formed total] in *.
  - destruct H as (H1 & H2 & H3). apply (f_equal (@length A)) in H3. rewrite !skipn_length in H3. unfold len. lia.
  - destruct H as (H1 & H2 & H3 & H4 & H5 & H6 & H7 & H8 & H9).
    assert (x <= line0 e) by (destruct st; lia).
    destruct (IH true _ _ H9) as (I1 & I2 & I3); try lia.
Qed.
(** The lines kept are equally many on both sides, and at least none. *)
Theorem C35_bounded : forall sc s0 s1 l0 l1 v0 v1 asserts f es, small s0 s1 ->
  BuildLines sc s0 s1 = Ok (l0, l1, v0, v1) -> edits_of asserts (Some f) v0 v1 = Ok es ->
  total deleted es <= len (lines s0) /\ total inserted es <= len (lines s1) /\
  len (lines s0) - total deleted es = len (lines s1) - total inserted es.
Proof.
  intros sc s0 s1 l0 l1 v0 v1 asserts f es Hs H He.
  pose proof (C32_edits_well_formed sc s0 s1 l0 l1 v0 v1 asserts f es Hs H He) as W.
  destruct (wf_total _ _ _ _ _ _ W) as (A & B & C); lia.
Qed.
Print Assumptions C35_bounded.
(** A shorter script can exist: here keeping the line "a" would need only 7 insertions. *)
Theorem C35_minimal_refuted : exists s0 s1 es es', 
  (exists l0 l1 v0 v1, BuildLines true s0 s1 = Ok (l0, l1, v0, v1) /\
     edits_of true (Some (fun _ _ => 0)) v0 v1 = Ok es) /\
  well_formed false 0 0 (lines s0) (lines s1) es' /\
  total deleted es' + total inserted es' < total deleted es + total inserted es.
Proof.
  exists $"a", $"e
a
e
c
c
b
d
b".
  exists [mkedit 0 0 8 1], [mkedit 0 0 1 0; mkedit 1 2 6 0]. split; [|split].
  - do 4 eexists. split; [vm_compute; reflexivity|]. vm_compute. reflexivity.
  - vm_compute. repeat split; discriminate.
  - vm_compute. reflexivity.
Qed.
Print Assumptions C35_minimal_refuted.

(** From the edit chains to the specification. *)
From Verif Require Import Base Str Dec DiffModel DiffMid DiffMid4 DiffGen DiffIds DiffSpec.
Local Open Scope Z_scope.

Definition len {A} (l : list A) : Z := Z.of_nat (length l).

(** [from], [to] are what is left of the two sequences at positions x, y. *)
Inductive align {A} : Z -> Z -> list A -> list A -> list edit -> Prop :=
| al_end x y c : align x y c c []
| al_edit x y c dl il a b es : 0 < len dl + len il ->
    align (x + len c + len dl) (y + len c + len il) a b es ->
    match es with [] => True | e :: _ => x + len c + len dl < line0 e end ->
    align x y (c ++ dl ++ a) (c ++ il ++ b) (mkedit (x + len c) (y + len c) (len il) (len dl) :: es).

Lemma len_app {A} (a b : list A) : len (a ++ b) = len a + len b.
Proof. unfold len. rewrite app_length. lia. Qed.
Lemma len_nil {A} : len (@nil A) = 0.
Proof. reflexivity. Qed.
Lemma len_nonneg {A} (a : list A) : 0 <= len a.
Proof. unfold len. lia. Qed.

Lemma align_eq {A} x y x' y' (a b : list A) es : align x y a b es -> x = x' -> y = y' -> align x' y' a b es.
Proof. intros H -> ->. exact H. Qed.

Lemma align_prefix {A} x y (c a b : list A) es : align (x + len c) (y + len c) a b es -> align x y (c ++ a) (c ++ b) es.
Proof.
  intros H. remember (x + len c) as x1. remember (y + len c) as y1. destruct H as [x1 y1 c'|x1 y1 c' dl il a b es Hp Ha Hs].
  - apply al_end.
  - rewrite !(app_assoc c c').
    assert (E : mkedit (x1 + len c') (y1 + len c') (len il) (len dl) = mkedit (x + len (c ++ c')) (y + len (c ++ c')) (len il) (len dl)).
    { rewrite len_app. f_equal; lia. }
    rewrite E. apply al_edit; [exact Hp| |].
    + rewrite len_app. eapply align_eq; [exact Ha|lia|lia].
    + destruct es; [exact I|]. rewrite len_app. lia.
Qed.

Lemma align_first {A} x y (a b : list A) e es : align x y a b (e :: es) -> x <= line0 e.
Proof. inversion 1; subst. simpl. pose proof (len_nonneg c). lia. Qed.

Lemma skipn_len {A} n (l : list A) : (n <= length l)%nat -> len (skipn n l) = len l - Z.of_nat n.
Proof. intros H. unfold len. rewrite skipn_length. lia. Qed.
Lemma firstn_len {A} n (l : list A) : (n <= length l)%nat -> len (firstn n l) = Z.of_nat n.
Proof. intros H. unfold len. rewrite firstn_length. lia. Qed.
Lemma nth_skipn {A} (d : A) n k (l : list A) : nth k (skipn n l) d = nth (n + k) l d.
Proof.
  revert l; induction n as [|n IH]; intros l; [reflexivity|]. destruct l; [destruct k; reflexivity|]. simpl. apply IH.
Qed.
Lemma nth_firstn {A} (d : A) n k (l : list A) : (k < n)%nat -> nth k (firstn n l) d = nth k l d.
Proof.
  revert k l; induction n as [|n IH]; intros k l H; [lia|]. destruct l; [reflexivity|]. destruct k; [reflexivity|].
  simpl. apply IH. lia.
Qed.

Lemma skipn_skipn {A} a b (l : list A) : skipn a (skipn b l) = skipn (a + b) l.
Proof.
  revert l; induction b as [|b IH]; intros l; [rewrite Nat.add_0_r; reflexivity|].
  rewrite Nat.add_succ_r. destruct l; [rewrite !skipn_nil; reflexivity|]. cbn [skipn]. apply IH.
Qed.

Section FromChain.
Variables (v0 v1 : list Z) (l0 l1 : list str).
Hypothesis H0 : length v0 = length l0.
Hypothesis H1 : length v1 = length l1.
Hypothesis Heq : forall i j, (i < length l0)%nat -> (j < length l1)%nat ->
  (nth i v0 0 = nth j v1 0 <-> nth i l0 [] = nth j l1 []).

Lemma common_run x y s : 0 <= x -> 0 <= y -> 0 <= s -> x + s <= len l0 -> y + s <= len l1 ->
  (forall t, 0 <= t < s -> at_ v0 (x + t) = at_ v1 (y + t)) ->
  exists c, len c = s /\ skipn (Z.to_nat x) l0 = c ++ skipn (Z.to_nat (x + s)) l0 /\
    skipn (Z.to_nat y) l1 = c ++ skipn (Z.to_nat (y + s)) l1.
Proof.
  intros Hx Hy Hs Hxl Hyl Hm. unfold len in *.
  exists (firstn (Z.to_nat s) (skipn (Z.to_nat x) l0)).
  assert (E : firstn (Z.to_nat s) (skipn (Z.to_nat x) l0) = firstn (Z.to_nat s) (skipn (Z.to_nat y) l1)).
  { apply nth_ext with (d := []) (d' := []).
    - rewrite !firstn_length, !skipn_length. lia.
    - intros k Hk. rewrite firstn_length, skipn_length in Hk.
      rewrite !nth_firstn by lia. rewrite !nth_skipn. apply Heq; try lia.
      specialize (Hm (Z.of_nat k) ltac:(lia)). unfold at_ in Hm.
      rewrite !Z2Nat.inj_add, !Nat2Z.id in Hm by lia. exact Hm. }
  split; [rewrite firstn_length, skipn_length; lia|]. split.
  - rewrite Z2Nat.inj_add by lia. rewrite Nat.add_comm, <- skipn_skipn, firstn_skipn. reflexivity.
  - rewrite E. rewrite Z2Nat.inj_add by lia. rewrite Nat.add_comm, <- skipn_skipn, firstn_skipn. reflexivity.
Qed.

Lemma chunk {A} x d (l : list A) : 0 <= x -> 0 <= d -> x + d <= len l ->
  exists dl, len dl = d /\ skipn (Z.to_nat x) l = dl ++ skipn (Z.to_nat (x + d)) l.
Proof.
  intros Hx Hd Hl. unfold len in *. exists (firstn (Z.to_nat d) (skipn (Z.to_nat x) l)).
  split; [rewrite firstn_length, skipn_length; lia|].
  rewrite Z2Nat.inj_add by lia. rewrite Nat.add_comm, <- skipn_skipn, firstn_skipn. reflexivity.
Qed.

Lemma chain_le x y l x' y' : chain v0 v1 x y l x' y' -> x <= x' /\ y <= y'.
Proof. induction 1; lia. Qed.

Lemma chain_align x y l x' y' : chain v0 v1 x y l x' y' -> 0 <= x -> 0 <= y -> forall s, 0 <= s ->
  x' + s = len l0 -> y' + s = len l1 -> (forall t, 0 <= t < s -> at_ v0 (x' + t) = at_ v1 (y' + t)) ->
  align x y (skipn (Z.to_nat x) l0) (skipn (Z.to_nat y) l1) l.
Proof.
  induction 1 as [x y i d Hi Hd Hp|x y i d r es x' y' Hi Hd Hp Hr Hm Hc IH]; intros Hx Hy s Hs Ex Ey Hsuf.
  - destruct (chunk x d l0) as (dl & Ld & Ed); try lia. destruct (chunk y i l1) as (il & Li & Ei); try lia.
    destruct (common_run (x + d) (y + i) s) as (c & Lc & Ec1 & Ec2); try lia; auto.
    rewrite Ed, Ei, Ec1, Ec2.
    replace (Z.to_nat (x + d + s)) with (length l0) by (unfold len in Ex; lia).
    replace (Z.to_nat (y + i + s)) with (length l1) by (unfold len in Ey; lia).
    rewrite !skipn_all, !app_nil_r.
    pose proof (al_edit x y [] dl il c c []) as Q. cbn [app] in Q.
    replace (mkedit x y i d) with (mkedit (x + len (@nil str)) (y + len (@nil str)) (len il) (len dl)).
    + apply Q; [lia|apply al_end|exact I].
    + rewrite Ld, Li. rewrite !len_nil; f_equal; lia.
  - pose proof (chain_le _ _ _ _ _ Hc).
    destruct (chunk x d l0) as (dl & Ld & Ed); try lia. destruct (chunk y i l1) as (il & Li & Ei); try lia.
    destruct (common_run (x + d) (y + i) r) as (c & Lc & Ec1 & Ec2); try lia; auto.
    specialize (IH ltac:(lia) ltac:(lia) s Hs Ex Ey Hsuf).
    rewrite Ed, Ei.
    pose proof (al_edit x y [] dl il (skipn (Z.to_nat (x + d)) l0) (skipn (Z.to_nat (y + i)) l1) es) as Q. cbn [app] in Q.
    replace (mkedit x y i d) with (mkedit (x + len (@nil str)) (y + len (@nil str)) (len il) (len dl)).
    + apply Q; [lia| |].
      * rewrite Ec1, Ec2. apply align_prefix. eapply align_eq; [exact IH| |]; rewrite ?len_nil; lia.
      * destruct (chain_ne _ _ _ _ _ _ _ Hc) as (i2 & d2 & r2 & -> & _). cbn [line0]. rewrite ?len_nil; lia.
    + rewrite Ld, Li. rewrite !len_nil; f_equal; lia.
Qed.
End FromChain.

(** ** Edits of two id vectors *)
Section Edits.
Variables (v0 v1 : list Z) (l0 l1 : list str).
Hypothesis H0 : length v0 = length l0.
Hypothesis H1 : length v1 = length l1.
Hypothesis Heq : forall i j, (i < length l0)%nat -> (j < length l1)%nat ->
  (nth i v0 0 = nth j v1 0 <-> nth i l0 [] = nth j l1 []).
Hypothesis Hsize : len l0 + len l1 < 2147483640.

Theorem edits_ok : exists es, (forall asserts f, edits_of asserts (Some f) v0 v1 = Ok es) /\
  align 0 0 l0 l1 es /\ (es = [] <-> l0 = l1).
Proof.
  unfold edits_of, len in *.
  destruct (eat_fwd_ok v0 v1 (Z.of_nat (length v0)) (Z.of_nat (length v1)) ltac:(lia) ltac:(lia)
    (S (length v0)) 0 0) as (s & S0 & S1 & S2 & S3 & S4 & S5); try lia.
  rewrite !Z.add_0_l in *.
  destruct (eat_back_ok v0 v1 s s ltac:(lia) ltac:(lia) (S (length v0)) (Z.of_nat (length v0)) (Z.of_nat (length v1)))
    as (t & T0 & T1 & T2 & T3 & T4 & T5); try lia.
  set (xe := Z.of_nat (length v0) - t) in *. set (ye := Z.of_nat (length v1) - t) in *.
  destruct (common_run v0 v1 l0 l1 H0 H1 Heq 0 0 s) as (c & Lc & Ec1 & Ec2); unfold len; try lia.
  cbn [Z.to_nat skipn] in Ec1, Ec2. rewrite !Z.add_0_l in Ec1, Ec2.
  destruct (Z.eq_dec s xe) as [Ex|Ex]; [destruct (Z.eq_dec s ye) as [Ey|Ey]|].
  - (* nothing left *)
    destruct (common_run v0 v1 l0 l1 H0 H1 Heq xe ye t) as (c' & Lc' & Ec1' & Ec2'); unfold len; try lia; auto.
    exists []. split.
    + intros asserts f. rewrite S1. cbn [bind]. rewrite T1. cbn [bind].
      rewrite (proj2 (Z.eqb_eq s xe) Ex), (proj2 (Z.eqb_eq s ye) Ey). reflexivity.
    + assert (E : l0 = l1).
      { rewrite Ec1, Ec2. f_equal. rewrite Ex at 1. rewrite Ey at 1. rewrite Ec1', Ec2'. f_equal.
        rewrite !skipn_all2; [reflexivity| |]; lia. }
      split; [|tauto]. rewrite E. apply al_end.
  - destruct (gen_ok ((Z.of_nat (length v0) + Z.of_nat (length v1)) * 2 + 6) v0 v1
      (S (Z.to_nat ((xe - s) + (ye - s)))) s xe s ye (fun _ => None)) as (l & D' & G & C); try lia.
    { intros A1 A2 A3. apply S5. split; [lia|]. split; [lia|]. exact A3. }
    { intros A1 A2 A3. apply T5. auto. }
    exists l. split.
    + intros asserts f. rewrite S1. cbn [bind]. rewrite T1. cbn [bind].
      rewrite (proj2 (Z.eqb_neq s ye) Ey). cbn [negb]. rewrite orb_true_r. rewrite G. reflexivity.
    + pose proof (chain_align v0 v1 l0 l1 H0 H1 Heq s s l xe ye C ltac:(lia) ltac:(lia) t T0) as Q.
      unfold len in Q. specialize (Q ltac:(lia) ltac:(lia) T4).
      split.
      * rewrite Ec1, Ec2. apply align_prefix. eapply align_eq; [exact Q| |]; lia.
      * destruct (chain_ne _ _ _ _ _ _ _ C) as (i & d & r & -> & _). split; [discriminate|]. intros E. exfalso.
        subst l1. lia.
  - destruct (gen_ok ((Z.of_nat (length v0) + Z.of_nat (length v1)) * 2 + 6) v0 v1
      (S (Z.to_nat ((xe - s) + (ye - s)))) s xe s ye (fun _ => None)) as (l & D' & G & C); try lia.
    { intros A1 A2 A3. apply S5. split; [lia|]. split; [lia|]. exact A3. }
    { intros A1 A2 A3. apply T5. auto. }
    exists l. split.
    + intros asserts f. rewrite S1. cbn [bind]. rewrite T1. cbn [bind].
      rewrite (proj2 (Z.eqb_neq s xe) Ex). cbn [negb orb]. rewrite G. reflexivity.
    + pose proof (chain_align v0 v1 l0 l1 H0 H1 Heq s s l xe ye C ltac:(lia) ltac:(lia) t T0) as Q.
      unfold len in Q. specialize (Q ltac:(lia) ltac:(lia) T4).
      split.
      * rewrite Ec1, Ec2. apply align_prefix. eapply align_eq; [exact Q| |]; lia.
      * destruct (chain_ne _ _ _ _ _ _ _ C) as (i & d & r & -> & _). split; [discriminate|]. intros E. exfalso.
        apply S5. split; [lia|]. split; [subst l1; lia|]. rewrite ?Z.add_0_l. unfold at_.
        apply Heq; [lia|subst l1; lia|]. rewrite E. reflexivity.
Qed.
End Edits.

(** ** Alignments satisfy the specification *)
Lemma slice_app {A} (pre c r : list A) a b : a = len pre -> b = a + len c -> slice a b (pre ++ c ++ r) = c.
Proof.
  intros -> ->. unfold slice, len. replace (Z.to_nat (Z.of_nat (length pre) + Z.of_nat (length c) - Z.of_nat (length pre))) with (length c) by lia.
  rewrite Nat2Z.id, skipn_app, skipn_all, Nat.sub_diag. cbn [skipn app].
  rewrite firstn_app, firstn_all, Nat.sub_diag. cbn [firstn]. apply app_nil_r.
Qed.
Lemma skipn_pre {A} (pre r : list A) a : a = len pre -> skipn (Z.to_nat a) (pre ++ r) = r.
Proof. intros ->. unfold len. rewrite Nat2Z.id, skipn_app, skipn_all, Nat.sub_diag. reflexivity. Qed.

Lemma align_apply {A} x y (a b : list A) es : align x y a b es -> forall p q, x = len p -> y = len q ->
  apply_edits x (p ++ a) (q ++ b) es = b.
Proof.
  induction 1 as [x y c|x y c dl il a b es Hp Ha IH Hs]; intros p q Ep Eq.
  - cbn [apply_edits]. apply skipn_pre. exact Ep.
  - cbn [apply_edits line0 line1 inserted deleted].
    rewrite (slice_app p c) by lia. f_equal.
    rewrite (app_assoc q c). rewrite (slice_app (q ++ c) il) by (rewrite ?len_app; lia). f_equal.
    replace (p ++ c ++ dl ++ a) with ((p ++ c ++ dl) ++ a) by (rewrite <- !app_assoc; reflexivity).
    replace ((q ++ c) ++ il ++ b) with ((q ++ c ++ il) ++ b) by (rewrite <- !app_assoc; reflexivity).
    apply IH; rewrite !len_app; lia.
Qed.

Lemma align_wf {A} x y (a b : list A) es : align x y a b es -> forall (st : bool) p q, x = len p -> y = len q ->
  (st = true -> match es with [] => True | e :: _ => x < line0 e end) ->
  well_formed st x y (p ++ a) (q ++ b) es.
Proof.
  induction 1 as [x y c|x y c dl il a b es Hp Ha IH Hs]; intros st p q Ep Eq Hst.
  - cbn [well_formed]. rewrite (skipn_pre p), (skipn_pre q) by assumption.
    subst. unfold len. rewrite !app_length. repeat split; lia.
  - cbn [well_formed line0 line1 inserted deleted].
    pose proof (len_nonneg c). pose proof (len_nonneg dl). pose proof (len_nonneg il).
    split; [destruct st; [cbn [line0] in Hst; specialize (Hst eq_refl); lia|lia]|].
    split; [lia|]. split; [rewrite (slice_app p c), (slice_app q c) by lia; reflexivity|].
    split; [lia|]. split; [lia|]. split; [lia|].
    split; [fold (len (p ++ c ++ dl ++ a)); rewrite !len_app; pose proof (len_nonneg a); lia|].
    split; [fold (len (q ++ c ++ il ++ b)); rewrite !len_app; pose proof (len_nonneg b); lia|].
    replace (p ++ c ++ dl ++ a) with ((p ++ c ++ dl) ++ a) by (rewrite <- !app_assoc; reflexivity).
    replace (q ++ c ++ il ++ b) with ((q ++ c ++ il) ++ b) by (rewrite <- !app_assoc; reflexivity).
    apply IH; rewrite ?len_app; try lia. intros _. exact Hs.
Qed.

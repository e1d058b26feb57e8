(** Regions and neighbourhoods. *)
From Coq Require Import Floats.SpecFloat Permutation.
From Verif Require Import Base Str MeasModel ImgModel ImgFacts ImgSpec.
Local Open Scope Z_scope.

Lemma in_zseq a n x : In x (zseq a n) <-> a <= x < a + n.
Proof.
  unfold zseq. rewrite in_map_iff. split.
  - intros (k & <- & H). apply in_seq in H. lia.
  - intros H. exists (Z.to_nat (x - a)). split; [lia|]. apply in_seq. lia.
Qed.
Lemma NoDup_zseq a n : NoDup (zseq a n).
Proof.
  unfold zseq. generalize (seq_NoDup (Z.to_nat n) 0). generalize (seq 0 (Z.to_nat n)). intros l H.
  induction H as [|x l H1 H2 IH]; [constructor|]. cbn [map]. constructor; [|exact IH].
  rewrite in_map_iff. intros (y & E & Hy). assert (y = x) by lia. congruence.
Qed.
Lemma in_region_nil : in_region [] [] [].
Proof. split; [reflexivity|]. split; [reflexivity|]. intros [|k]; discriminate. Qed.
Lemma in_region_cons a st n sz x j : in_region (a :: st) (n :: sz) (x :: j) <-> a <= x < a + n /\ in_region st sz j.
Proof.
  unfold in_region. cbn [length]. split.
  - intros (H1 & H2 & H3). split; [exact (H3 0%nat a n x eq_refl eq_refl eq_refl)|]. split; [lia|]. split; [lia|].
    intros k. exact (H3 (S k)).
  - intros (H0 & H1 & H2 & H3). split; [lia|]. split; [lia|]. intros [|k] a' n' x'; cbn [nth_error].
    + intros E1 E2 E3. injection E1 as <-. injection E2 as <-. injection E3 as <-. exact H0.
    + apply H3.
Qed.
Lemma in_box st sz i : length st = length sz -> (In i (box st sz) <-> in_region st sz i).
Proof.
  revert sz i. induction st as [|a st IH]; intros [|n sz] i E; try discriminate.
  - cbn [box In]. split; [intros [<-|[]]; apply in_region_nil|]. intros (_ & H & _). destruct i; [left; reflexivity|discriminate].
  - cbn [box]. rewrite in_flat_map. injection E as E. split.
    + intros (r & Hr & H). apply in_map_iff in H. destruct H as (x & <- & Hx). apply in_zseq in Hx.
      apply in_region_cons. split; [exact Hx|]. apply IH; assumption.
    + intros H. destruct i as [|x j]; [destruct H as (_ & H & _); discriminate|]. apply in_region_cons in H. destruct H as [H1 H2].
      exists j. split; [apply IH; assumption|]. apply in_map_iff. exists x. split; [reflexivity|]. apply in_zseq, H1.
Qed.
Lemma NoDup_app {A} (l k : list A) : NoDup l -> NoDup k -> (forall x, In x l -> ~ In x k) -> NoDup (l ++ k).
Proof.
  induction 1 as [|x l H1 H2 IH]; intros Hk H; [exact Hk|]. cbn [app]. constructor.
  - rewrite in_app_iff. intros [I|I]; [contradiction|]. exact (H x (or_introl eq_refl) I).
  - apply IH; [exact Hk|]. intros y Hy. apply H. right. exact Hy.
Qed.
Lemma NoDup_box st sz : NoDup (box st sz).
Proof.
  revert sz. induction st as [|a st IH]; intros [|n sz]; try (cbn [box]; constructor; [intros []|constructor]).
  cbn [box]. specialize (IH sz). induction IH as [|r l H1 H2 IH]; [constructor|]. cbn [flat_map]. apply NoDup_app.
  - generalize (NoDup_zseq a n). generalize (zseq a n). intros k Hk. induction Hk as [|x k G1 G2 IHk]; [constructor|].
    cbn [map]. constructor; [|exact IHk]. rewrite in_map_iff. intros (y & E & Hy). injection E as ->. contradiction.
  - exact IH.
  - intros x Hx Hf. apply in_map_iff in Hx. destruct Hx as (u & <- & _). apply in_flat_map in Hf. destruct Hf as (r' & Hr & Hx).
    apply in_map_iff in Hx. destruct Hx as (v & E & _). injection E as _ ->. contradiction.
Qed.
Lemma near_nil r : near r [] [].
Proof. split; [reflexivity|]. intros [|k]; discriminate. Qed.
Lemma near_cons r x i y j : near r (x :: i) (y :: j) <-> Z.abs (x - y) <= r /\ near r i j.
Proof.
  unfold near. cbn [length]. split.
  - intros (H1 & H2). split; [exact (H2 0%nat x y eq_refl eq_refl)|]. split; [lia|]. intros k. exact (H2 (S k)).
  - intros (H0 & H1 & H2). split; [lia|]. intros [|k] x' y'; cbn [nth_error].
    + intros E1 E2. injection E1 as <-. injection E2 as <-. exact H0.
    + apply H2.
Qed.
(** the clamped neighbourhood is exactly the part of the image within distance [r] *)
Lemma clamped st sz r i j : 0 <= r -> in_region st sz i ->
  ((exists off, In off (box (map (fun _ => - r) st) (map (fun _ => 2 * r + 1) st)) /\ j = clamp_to st sz (shift i off))
   <-> in_region st sz j /\ near r i j).
Proof.
  intros Hr. revert sz i j. induction st as [|a st IH]; intros [|n sz] [|x i] j Hi; try (destruct Hi as (A & B & _); discriminate).
  - cbn. split.
    + intros (off & [<-|[]] & ->). split; [apply in_region_nil|apply near_nil].
    + intros ((_ & E & _) & _). destruct j; [|discriminate]. exists []. split; [left; reflexivity|reflexivity].
  - apply in_region_cons in Hi. destruct Hi as [Hx Hi]. cbn [map]. split.
    + intros (off & Ho & ->). cbn [box] in Ho. apply in_flat_map in Ho. destruct Ho as (rest & Hrest & Ho).
      apply in_map_iff in Ho. destruct Ho as (d & <- & Hd). apply in_zseq in Hd.
      destruct (proj1 (IH sz i (clamp_to st sz (shift i rest)) Hi) (ex_intro _ rest (conj Hrest eq_refl))) as [G1 G2].
      cbn [shift clamp_to]. split.
      * apply in_region_cons. split; [unfold clamp1; lia|exact G1].
      * apply near_cons. split; [unfold clamp1; lia|exact G2].
    + intros [H1 H2]. destruct j as [|y j]; [destruct H2; discriminate|]. apply in_region_cons in H1. apply near_cons in H2.
      destruct H1 as [H1 H1'], H2 as [H2 H2']. destruct (proj2 (IH sz i j Hi) (conj H1' H2')) as (rest & Hrest & E).
      exists (y - x :: rest). split.
      * cbn [box]. apply in_flat_map. exists rest. split; [exact Hrest|]. apply in_map_iff. exists (y - x). split; [reflexivity|]. apply in_zseq. lia.
      * cbn [shift clamp_to]. f_equal; [unfold clamp1; lia|exact E].
Qed.
Lemma in_neighbourhood im r i x : 0 <= r -> in_image im i ->
  (In x (neighbourhood im r i) <-> exists j, in_image im j /\ near r i j /\ x = ipix im j).
Proof.
  intros Hr Hi. unfold neighbourhood. rewrite in_map_iff. split.
  - intros (off & <- & Ho). exists (clamp_to (istart im) (isize im) (shift i off)).
    destruct (proj1 (clamped _ _ r i (clamp_to (istart im) (isize im) (shift i off)) Hr Hi) (ex_intro _ off (conj Ho eq_refl))) as [A B].
    split; [exact A|]. split; [exact B|reflexivity].
  - intros (j & A & B & ->). destruct (proj2 (clamped _ _ r i j Hr Hi) (conj A B)) as (off & Ho & E). exists off. rewrite <- E. split; [reflexivity|exact Ho].
Qed.

(** Existence of runs, boundary test, more about counts. *)
From Coq Require Import Floats.SpecFloat Permutation.
From Verif Require Import Base Str MeasModel ImgModel ImgFacts ImgSpec ImgBox ImgPixel ImgRun.
Local Open Scope Z_scope.

Lemma interleaving_cons {A} (l : list A) ls r : interleaving ls r -> interleaving (l :: ls) (l ++ r).
Proof.
  intros H. induction l as [|x l IH].
  - cbn [app]. induction H as [ls H|ls1 x l ls2 r H IH]; [apply il_done; constructor; [reflexivity|exact H]|].
    exact (il_step ([] :: ls1) x l ls2 r IH).
  - exact (il_step [] x l ls (l ++ r) IH).
Qed.
(** running the threads one after the other is a schedule *)
Lemma interleaving_concat {A} (ls : list (list A)) : interleaving ls (concat ls).
Proof. induction ls as [|l ls IH]; [apply il_done; constructor|]. cbn [concat]. apply interleaving_cons, IH. Qed.
Definition sequential_run (f : filter) (valid test : image) (threads : list (list face)) : result :=
  AfterThreadedGenerateData (length threads) (Z.of_nat (length (pixels valid))) (exec BeforeThreadedGenerateData (concat (programs f valid test threads))).
Lemma sequential_is_run f valid test threads : filter_run f valid test threads (concat (programs f valid test threads)) (sequential_run f valid test threads).
Proof. split; [apply interleaving_concat|reflexivity]. Qed.

(** a test for [at_boundary] *)
Fixpoint crosses (start size : list Z) (r : Z) (i : index) : bool :=
  match start, size, i with
  | a :: st, n :: sz, x :: i' => (x - r <? a) || (a + n <=? x + r) || crosses st sz r i'
  | _, _, _ => false
  end.
Lemma region_dec st sz j : in_region st sz j \/ ~ in_region st sz j.
Proof.
  destruct (Nat.eq_dec (length st) (length sz)) as [E|E].
  - destruct (in_dec (list_eq_dec Z.eq_dec) j (box st sz)) as [H|H]; rewrite in_box in H by exact E; tauto.
  - right. intros (H & _). contradiction.
Qed.
Lemma crosses_spec st sz r i : 0 <= r -> in_region st sz i ->
  (crosses st sz r i = true <-> exists j, length j = length i /\ near r i j /\ ~ in_region st sz j).
Proof.
  intros Hr. revert sz i. induction st as [|a st IH]; intros [|n sz] [|x i] Hi; try (destruct Hi as (A & B & _); discriminate).
  - split; [discriminate|]. intros (j & E & _ & H). destruct j; [destruct H; apply in_region_nil|discriminate].
  - apply in_region_cons in Hi. destruct Hi as [Hx Hi]. cbn [crosses]. rewrite !orb_true_iff, (IH sz i Hi). rewrite Z.ltb_lt, Z.leb_le. split.
    + intros [[H|H]|(j & E & Hn & H)].
      * exists (x - r :: i). split; [reflexivity|]. split; [apply near_cons; split; [lia|apply near_refl, Hr]|]. rewrite in_region_cons. lia.
      * exists (x + r :: i). split; [reflexivity|]. split; [apply near_cons; split; [lia|apply near_refl, Hr]|]. rewrite in_region_cons. lia.
      * exists (x :: j). split; [cbn; lia|]. split; [apply near_cons; split; [lia|exact Hn]|]. rewrite in_region_cons. tauto.
    + intros ([|y j] & E & Hn & H); [discriminate|]. apply near_cons in Hn. destruct Hn as [Hd Hn]. rewrite in_region_cons in H.
      destruct (region_dec st sz j) as [I|I].
      * left. assert (~ a <= y < a + n) by tauto. lia.
      * right. exists j. split; [cbn in E; lia|]. auto.
Qed.
Lemma crosses_boundary im r i : 0 <= r -> in_image im i -> (crosses (istart im) (isize im) r i = true <-> at_boundary im r i).
Proof. intros Hr Hi. unfold at_boundary. apply crosses_spec; assumption. Qed.
(** one thread with two faces *)
Definition one_thread (f : filter) (valid : image) : list (list face) :=
  let c := crosses (istart valid) (isize valid) (f_radius f) in
  [[(false, List.filter (fun i => negb (c i)) (pixels valid)); (true, List.filter c (pixels valid))]].
Lemma partition_filter {A} (c : A -> bool) l : Permutation (List.filter (fun i => negb (c i)) l ++ List.filter c l) l.
Proof.
  induction l as [|x l IH]; [constructor|]. cbn [List.filter]. destruct (c x); cbn [negb app].
  - apply Permutation_sym, Permutation_cons_app, Permutation_sym, IH.
  - constructor. exact IH.
Qed.
Lemma one_thread_split f valid test : comparable valid test -> 0 <= f_radius f -> well_split f valid test (one_thread f valid).
Proof.
  intros (C1 & C2 & C3) Hr. split.
  - cbn [one_thread concat flat_map snd app]. rewrite app_nil_r. apply partition_filter.
  - intros faces fc i [<-|[]] Hf Hi.
    assert (P : In i (pixels valid)) by (destruct Hf as [<-|[<-|[]]]; cbn [snd] in Hi; apply filter_In in Hi; apply Hi).
    assert (I : in_image valid i) by (apply in_box; assumption).
    assert (It : in_image test i) by (unfold in_image in *; rewrite C1, C2; exact I).
    rewrite <- (crosses_boundary test (f_radius f) i Hr It), C1, C2.
    destruct Hf as [<-|[<-|[]]]; cbn [fst snd] in *; apply filter_In in Hi; destruct Hi as [_ Hi].
    + rewrite negb_true_iff in Hi. rewrite Hi. split; discriminate.
    + rewrite Hi. tauto.
Qed.

(** [diff] gives the count of some run of the filter, whatever the split and schedule *)
Definition runs_filter (diff : filter -> image -> image -> Z) : Prop :=
  forall f valid test, comparable valid test -> 0 <= f_radius f ->
    exists threads schedule res, well_split f valid test threads /\ filter_run f valid test threads schedule res /\
      diff f valid test = NumberOfPixelsWithDifferences res.
Definition some_diff (f : filter) (valid test : image) : Z := NumberOfPixelsWithDifferences (sequential_run f valid test (one_thread f valid)).
Lemma some_diff_runs : runs_filter some_diff.
Proof. intros f valid test Hc Hr. do 3 eexists. split; [apply one_thread_split; assumption|]. split; [apply sequential_is_run|reflexivity]. Qed.
Lemma runs_count diff f valid test : runs_filter diff -> comparable valid test -> 0 <= f_radius f -> how_many (reported f valid test) (diff f valid test).
Proof. intros H Hc Hr. destruct (H f valid test Hc Hr) as (th & sch & res & W & R & ->). exact (run_count f valid test th W sch res Hc Hr R). Qed.

Lemma how_many_mono (P Q : index -> Prop) n m : (forall i, P i -> Q i) -> how_many P n -> how_many Q m -> n <= m.
Proof.
  intros H (l & N1 & H1 & ->) (k & N2 & H2 & ->). apply Nat2Z.inj_le. apply NoDup_incl_length; [exact N1|]. intros x Hx. apply H2, H, H1, Hx.
Qed.
Lemma how_many_none (P : index -> Prop) n : (forall i, ~ P i) -> how_many P n -> n = 0.
Proof. intros H ([|x l] & _ & H1 & ->); [reflexivity|]. destruct (H x). apply H1. left. reflexivity. Qed.
Lemma how_many_pixels valid : length (istart valid) = length (isize valid) -> how_many (in_image valid) (Z.of_nat (length (pixels valid))).
Proof. intros E. exists (pixels valid). split; [apply NoDup_box|]. split; [intros i; apply in_box, E|reflexivity]. Qed.
Lemma how_many_nonneg P n : how_many P n -> 0 <= n.
Proof. intros (l & _ & _ & ->). lia. Qed.

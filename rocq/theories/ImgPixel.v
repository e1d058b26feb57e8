(** One pixel: the search and the threshold rule. *)
From Coq Require Import Floats.SpecFloat Permutation.
From Verif Require Import Base Str MeasModel ImgModel ImgFacts ImgSpec ImgBox.
Local Open Scope Z_scope.

Definition isnan (x : spec_float) : bool := match x with S754_nan => true | _ => false end.
Lemma compare_antisym x y : SFcompare y x = match SFcompare x y with Some c => Some (CompOpp c) | None => None end.
Proof.
  destruct x as [[]|[]| |[] m e], y as [[]|[]| |[] n f]; try reflexivity; cbn [SFcompare];
    rewrite <- (Zcompare_antisym e f); destruct (Z.compare e f); cbn [CompOpp]; try reflexivity;
    fold (Pos.compare m n) (Pos.compare n m); rewrite (Pos.compare_antisym m n); destruct (Pos.compare m n); reflexivity.
Qed.
Lemma compare_some x y : isnan x = false -> isnan y = false -> exists c, SFcompare x y = Some c.
Proof. destruct x as [[]|[]| |[] m e], y as [[]|[]| |[] n f]; intros; try discriminate; cbn [SFcompare]; eauto; destruct (Z.compare e f); eauto. Qed.
Lemma ltb_nan x y : SFltb x y = true -> isnan x = false /\ isnan y = false.
Proof. destruct x as [[]|[]| |[] m e], y as [[]|[]| |[] n f]; cbn; intros; try discriminate; split; reflexivity. Qed.
Lemma leb_nan x y : SFleb x y = true -> isnan x = false /\ isnan y = false.
Proof. destruct x as [[]|[]| |[] m e], y as [[]|[]| |[] n f]; cbn; intros; try discriminate; split; reflexivity. Qed.
Lemma ltb_not_leb x y : SFltb x y = true -> SFleb y x = false.
Proof. unfold SFltb, SFleb. rewrite (compare_antisym x y). destruct (SFcompare x y) as [[]|]; cbn; congruence. Qed.
Lemma leb_not_ltb x y : SFleb x y = true -> SFltb y x = false.
Proof. unfold SFltb, SFleb. rewrite (compare_antisym x y). destruct (SFcompare x y) as [[]|]; cbn; congruence. Qed.
Lemma not_leb_ltb x y : isnan x = false -> isnan y = false -> SFleb x y = false -> SFltb y x = true.
Proof.
  intros Hx Hy. destruct (compare_some x y Hx Hy) as [c E]. unfold SFltb, SFleb. rewrite (compare_antisym x y), E.
  destruct c; cbn; congruence.
Qed.
Lemma not_ltb_leb x y : isnan x = false -> isnan y = false -> SFltb x y = false -> SFleb y x = true.
Proof.
  intros Hx Hy. destruct (compare_some x y Hx Hy) as [c E]. unfold SFltb, SFleb. rewrite (compare_antisym x y), E.
  destruct c; cbn; congruence.
Qed.
Lemma fin_cmp s m e n f : SFcompare (S754_finite s m e) (S754_finite s n f) =
  Some (let c := match Z.compare e f with Lt => Lt | Gt => Gt | Eq => Pos.compare m n end in if s then CompOpp c else c).
Proof. destruct s; cbn [SFcompare]; destruct (Z.compare e f); reflexivity. Qed.
(** the order of the finite numbers of one sign: exponents, then mantissas *)
Definition lex (e : Z) (m : positive) (f : Z) (n : positive) : comparison :=
  match Z.compare e f with Lt => Lt | Gt => Gt | Eq => Pos.compare m n end.
Lemma lex_lt e m f n : lex e m f n = Lt <-> e < f \/ e = f /\ (m < n)%positive.
Proof.
  unfold lex. destruct (Z.compare_spec e f).
  - subst. fold ((m < n)%positive). split; [intros; right; split; [reflexivity|assumption]|intros [H|[_ H]]; [lia|exact H]].
  - split; [left; lia|reflexivity].
  - split; [discriminate|]. intros [G|[G _]]; lia.
Qed.
Lemma lex_gt e m f n : lex e m f n = Gt <-> f < e \/ e = f /\ (n < m)%positive.
Proof.
  unfold lex. destruct (Z.compare_spec e f).
  - subst. split.
    + intros G. right. split; [reflexivity|]. apply Pos.gt_lt, G.
    + intros [G|[_ G]]; [lia|]. apply Pos.lt_gt, G.
  - split; [discriminate|]. intros [G|[G _]]; lia.
  - split; [left; lia|reflexivity].
Qed.
Lemma lex_eq e m f n : lex e m f n = Eq <-> e = f /\ m = n.
Proof.
  unfold lex. destruct (Z.compare_spec e f).
  - subst. rewrite Pos.compare_eq_iff. tauto.
  - split; [discriminate|]. lia.
  - split; [discriminate|]. lia.
Qed.
Lemma leb_ltb_trans x y z : SFleb x y = true -> SFltb y z = true -> SFltb x z = true.
Proof.
  destruct x as [[]|[]| |[] m e], y as [[]|[]| |[] n f], z as [[]|[]| |[] p g]; try (cbn; congruence);
    unfold SFltb, SFleb; rewrite ?fin_cmp; cbv zeta; fold (lex e m f n) (lex f n g p) (lex e m g p);
    destruct (lex e m f n) eqn:A; destruct (lex f n g p) eqn:B; destruct (lex e m g p) eqn:C; cbn [CompOpp]; try congruence;
    try apply lex_lt in A; try apply lex_lt in B; try apply lex_lt in C;
    try apply lex_gt in A; try apply lex_gt in B; try apply lex_gt in C;
    try apply lex_eq in A; try apply lex_eq in B; try apply lex_eq in C; intros _ _; exfalso; clear -A B C; lia.
Qed.
Lemma ltb_trans x y z : SFltb x y = true -> SFltb y z = true -> SFltb x z = true.
Proof. intros H. apply leb_ltb_trans. unfold SFltb, SFleb in *. destruct (SFcompare x y) as [[]|]; congruence. Qed.
Lemma ltb_leb_trans x y z : SFltb x y = true -> SFleb y z = true -> SFltb x z = true.
Proof.
  intros H1 H2. pose proof (ltb_nan _ _ H1) as [Nx _]. pose proof (leb_nan _ _ H2) as [_ Nz].
  apply not_leb_ltb; [exact Nz|exact Nx|]. destruct (SFleb z x) eqn:E; [|reflexivity]. exfalso.
  pose proof (leb_ltb_trans _ _ _ E H1) as G. rewrite (leb_not_ltb _ _ H2) in G. discriminate.
Qed.

(** the search, from a minimum above the threshold *)
Lemma search_above t2 c nb : forall d m, SFltb t2 m = true ->
  (SFltb t2 (snd (search_loop t2 c nb d m)) = true <-> forall x, In x nb -> SFleb (SquaredTwoNorm (sub64 c x)) t2 = false).
Proof.
  induction nb as [|x nb IH]; intros d m H.
  - cbn. split; [intros _ ? []|intros _; exact H].
  - cbn [search_loop]. set (mx := SquaredTwoNorm (sub64 c x)). destruct (SFltb mx m) eqn:L.
    + destruct (SFleb mx t2) eqn:E.
      * cbn [snd]. rewrite (leb_not_ltb _ _ E). split; [discriminate|]. intros G. specialize (G x (or_introl eq_refl)). unfold mx in E. congruence.
      * assert (H' : SFltb t2 mx = true) by (apply not_leb_ltb; [apply (ltb_nan _ _ L)|apply (ltb_nan _ _ H)|exact E]).
        rewrite (IH _ _ H'). split; [intros G y [<-|Hy]; [exact E|exact (G y Hy)]|intros G y Hy; apply G; right; exact Hy].
    + rewrite (ltb_not_leb _ _ H). rewrite (IH _ _ H). split; [|intros G y Hy; apply G; right; exact Hy].
      intros G y [<-|Hy]; [|exact (G y Hy)]. fold mx. destruct (SFleb mx t2) eqn:E; [|reflexivity].
      rewrite (leb_ltb_trans _ _ _ E H) in L. discriminate.
Qed.
(** when nothing is tolerated, the result is the first of the smallest differences *)
Definition no_larger (a b : spec_float) : Prop := SFltb b a = false.
Lemma search_min t2 c nb : forall d m, SFltb t2 m = true -> m = SquaredTwoNorm d ->
  (forall x, In x nb -> SFleb (SquaredTwoNorm (sub64 c x)) t2 = false) ->
  let r := search_loop t2 c nb d m in
  snd r = SquaredTwoNorm (fst r) /\ (fst r = d \/ exists x, In x nb /\ fst r = sub64 c x) /\
  SFleb (snd r) m = true /\ forall x, In x nb -> no_larger (snd r) (SquaredTwoNorm (sub64 c x)).
Proof.
  assert (R : forall z, isnan z = false -> SFleb z z = true).
  { intros z Hz. destruct z as [[]|[]| |s m e]; try reflexivity; try discriminate. unfold SFleb. rewrite fin_cmp. cbv zeta.
    rewrite Z.compare_refl, Pos.compare_refl. destruct s; reflexivity. }
  assert (T : forall a b c0, SFleb a b = true -> SFleb b c0 = true -> SFleb a c0 = true).
  { intros a b c0 A B. apply not_ltb_leb; [apply (leb_nan _ _ B)|apply (leb_nan _ _ A)|].
    destruct (SFltb c0 a) eqn:E; [|reflexivity]. pose proof (ltb_leb_trans _ _ _ E A) as G. rewrite (leb_not_ltb _ _ B) in G. discriminate. }
  induction nb as [|x nb IH]; intros d m H Hm Hn.
  - cbn. split; [exact Hm|]. split; [left; reflexivity|]. split; [apply R, (ltb_nan _ _ H)|intros ? []].
  - cbn [search_loop]. cbv zeta. set (mx := SquaredTwoNorm (sub64 c x)).
    pose proof (Hn x (or_introl eq_refl)) as Ex. fold mx in Ex. destruct (SFltb mx m) eqn:L.
    + rewrite Ex. assert (H' : SFltb t2 mx = true) by (apply not_leb_ltb; [apply (ltb_nan _ _ L)|apply (ltb_nan _ _ H)|exact Ex]).
      destruct (IH (sub64 c x) mx H' eq_refl (fun y Hy => Hn y (or_intror Hy))) as (A & B & C & D). split; [exact A|]. split.
      { right. destruct B as [B|(y & Hy & B)]; [exists x; split; [left; reflexivity|exact B]|exists y; split; [right; exact Hy|exact B]]. }
      split; [apply (T _ mx); [exact C|]; unfold SFltb, SFleb in *; destruct (SFcompare mx m) as [[]|]; congruence|].
      intros y [<-|Hy]; [apply leb_not_ltb, C|exact (D y Hy)].
    + rewrite (ltb_not_leb _ _ H). destruct (IH d m H Hm (fun y Hy => Hn y (or_intror Hy))) as (A & B & C & D). split; [exact A|]. split.
      { destruct B as [B|(y & Hy & B)]; [left; exact B|right; exists y; split; [right; exact Hy|exact B]]. }
      split; [exact C|]. intros y [<-|Hy]; [|exact (D y Hy)]. unfold no_larger. fold mx. destruct (SFltb mx (snd (search_loop t2 c nb d m))) eqn:E; [|reflexivity].
      rewrite (ltb_leb_trans _ _ _ E C) in L. discriminate.
Qed.

Lemma hit_differs f valid test i : 0 <= f_radius f -> in_image test i ->
  (hit f valid test i = true <-> differs (f_threshold f) (f_radius f) valid test i).
Proof.
  intros Hr Hi. unfold hit, found_difference, closest, differs, above, tolerated.
  change (SFmul 53 1024) with mul64. change difference with sub64. unfold square. change (SFmul 53 1024) with mul64. fold (SquaredTwoNorm (f_threshold f)).
  set (t2 := SquaredTwoNorm (f_threshold f)). fold (SquaredTwoNorm (sub64 (ipix valid i) (ipix test i))).
  set (m := SquaredTwoNorm (sub64 (ipix valid i) (ipix test i))). destruct (SFltb t2 m) eqn:E.
  - rewrite (search_above _ _ _ _ _ E). split.
    + intros G. split; [reflexivity|]. intros j Hj Hn T.
      change (SFleb (SquaredTwoNorm (sub64 (ipix valid i) (ipix test j))) t2 = true) in T. rewrite (G (ipix test j)) in T; [discriminate|].
      apply in_neighbourhood; try assumption. exists j. auto.
    + intros [_ G] x Hx. apply in_neighbourhood in Hx; try assumption. destruct Hx as (j & A & B & ->).
      specialize (G j A B). change (SFleb (SquaredTwoNorm (sub64 (ipix valid i) (ipix test j))) t2 <> true) in G. destruct (SFleb _ _); congruence.
  - cbn [snd]. rewrite E. split; [discriminate|]. intros [G _]. discriminate.
Qed.
(** the value written for a reported pixel: the closest difference *)
Definition closest_difference (r : Z) (valid test : image) (i : index) (d : spec_float) : Prop :=
  (exists j, in_image test j /\ near r i j /\ d = difference (ipix valid i) (ipix test j)) /\
  forall j, in_image test j -> near r i j -> SFltb (square (difference (ipix valid i) (ipix test j))) (square d) = false.
Lemma near_refl r i : 0 <= r -> near r i i.
Proof. intros Hr. split; [reflexivity|]. intros k x y A B. rewrite A in B. injection B as ->. lia. Qed.
Lemma found_closest f valid test i : 0 <= f_radius f -> in_image test i -> hit f valid test i = true ->
  closest_difference (f_radius f) valid test i (fst (found_difference f valid test i)) /\
  snd (found_difference f valid test i) = square (fst (found_difference f valid test i)).
Proof.
  intros Hr Hi H. pose proof (proj1 (hit_differs f valid test i Hr Hi) H) as [Ha Hd]. unfold above in Ha.
  unfold found_difference, closest. change (mul64 (f_threshold f) (f_threshold f)) with (square (f_threshold f)).
  change (SquaredTwoNorm (sub64 (ipix valid i) (ipix test i))) with (square (difference (ipix valid i) (ipix test i))).
  rewrite Ha.
  destruct (search_min (square (f_threshold f)) (ipix valid i) (neighbourhood test (f_radius f) i)
    (sub64 (ipix valid i) (ipix test i)) (square (difference (ipix valid i) (ipix test i))) Ha eq_refl) as (A & B & C & D).
  - intros x Hx. apply in_neighbourhood in Hx; try assumption. destruct Hx as (j & Hj & Hn & ->). specialize (Hd j Hj Hn). unfold tolerated in Hd.
    change (SquaredTwoNorm (sub64 (ipix valid i) (ipix test j))) with (square (difference (ipix valid i) (ipix test j))). destruct (SFleb _ _); congruence.
  - split; [|exact A]. split.
    + destruct B as [B|(x & Hx & B)].
      * exists i. split; [exact Hi|]. split; [apply near_refl, Hr|exact B].
      * apply in_neighbourhood in Hx; try assumption. destruct Hx as (j & Hj & Hn & ->). exists j. auto.
    + intros j Hj Hn. specialize (D (ipix test j)). unfold no_larger in D. rewrite A in D. apply D.
      apply in_neighbourhood; try assumption. exists j. auto.
Qed.

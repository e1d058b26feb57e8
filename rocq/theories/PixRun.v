(** A whole run of the filter for any pixel type, any split into threads and any schedule. *)
From Coq Require Import Floats.SpecFloat Permutation.
From Verif Require Import Base Str MeasModel ImgModel ImgFacts ImgSpec ImgBox ImgPixel ImgRun ImgMore PixModel PixSpec PixFacts.
Local Open Scope Z_scope.

Section Pix.
Variable T : pixeltype.

(** * The search *)
Lemma search_above t2 c nb : forall d m, SFltb t2 m = true ->
  (SFltb t2 (snd (q_search T t2 c nb d m)) = true <-> forall x, In x nb -> SFleb (distance2 T c x) t2 = false).
Proof.
  induction nb as [|x nb IH]; intros d m H.
  - cbn. split; [intros _ ? []|intros _; exact H].
  - cbn [q_search]. fold (distance2 T c x). set (mx := distance2 T c x). destruct (SFltb mx m) eqn:L.
    + destruct (SFleb mx t2) eqn:E.
      * cbn [snd]. rewrite (leb_not_ltb _ _ E). split; [discriminate|]. intros G. specialize (G x (or_introl eq_refl)). unfold mx in E. congruence.
      * assert (H' : SFltb t2 mx = true) by (apply not_leb_ltb; [apply (ltb_nan _ _ L)|apply (ltb_nan _ _ H)|exact E]).
        rewrite (IH _ _ H'). split; [intros G y [<-|Hy]; [exact E|exact (G y Hy)]|intros G y Hy; apply G; right; exact Hy].
    + rewrite (ltb_not_leb _ _ H). rewrite (IH _ _ H). split; [|intros G y Hy; apply G; right; exact Hy].
      intros G y [<-|Hy]; [|exact (G y Hy)]. fold mx. destruct (SFleb mx t2) eqn:E; [|reflexivity].
      rewrite (leb_ltb_trans _ _ _ E H) in L. discriminate.
Qed.
Lemma isnan_true x : isnan x = true -> x = S754_nan.
Proof. destruct x; try discriminate. reflexivity. Qed.
Lemma smaller_than_rest a b m : SFltb a m = true -> SFltb b m = false -> SFltb a b = true \/ b = S754_nan.
Proof.
  intros A B. destruct (isnan b) eqn:N; [right; apply isnan_true, N|]. left.
  apply (ltb_leb_trans _ m); [exact A|]. apply not_ltb_leb; [exact N|apply (ltb_nan _ _ A)|exact B].
Qed.
Lemma search_first t2 c nb : forall d m, SFltb t2 m = true ->
  (forall x, In x nb -> SFleb (distance2 T c x) t2 = false) ->
  let r := q_search T t2 c nb d m in
  (r = (d, m) /\ forall x, In x nb -> SFltb (distance2 T c x) m = false) \/
  exists b x a, nb = b ++ x :: a /\ r = (p_sub T c x, distance2 T c x) /\ SFltb (distance2 T c x) m = true /\
    (forall y, In y b -> SFltb (distance2 T c x) (distance2 T c y) = true \/ distance2 T c y = S754_nan) /\
    (forall y, In y a -> SFltb (distance2 T c y) (distance2 T c x) = false).
Proof.
  induction nb as [|x nb IH]; intros d m H Hn.
  - left. split; [reflexivity|intros ? []].
  - cbn [q_search]. cbv zeta. fold (distance2 T c x). pose proof (Hn x (or_introl eq_refl)) as Ex. destruct (SFltb (distance2 T c x) m) eqn:L.
    + right. rewrite Ex. assert (H' : SFltb t2 (distance2 T c x) = true) by (apply not_leb_ltb; [apply (ltb_nan _ _ L)|apply (ltb_nan _ _ H)|exact Ex]).
      destruct (IH (p_sub T c x) (distance2 T c x) H' (fun y Hy => Hn y (or_intror Hy))) as [(E & A)|(b & y & a & E & R & S & B & A)].
      * exists [], x, nb. split; [reflexivity|]. split; [exact E|]. split; [exact L|]. split; [intros ? []|exact A].
      * exists (x :: b), y, a. split; [rewrite E; reflexivity|]. split; [exact R|]. split; [exact (ltb_trans _ _ _ S L)|]. split; [|exact A].
        intros z [<-|Hz]; [left; exact S|exact (B z Hz)].
    + rewrite (ltb_not_leb _ _ H). destruct (IH d m H (fun y Hy => Hn y (or_intror Hy))) as [(E & A)|(b & y & a & E & R & S & B & A)].
      * left. split; [exact E|]. intros y [<-|Hy]; [exact L|exact (A y Hy)].
      * right. exists (x :: b), y, a. split; [rewrite E; reflexivity|]. split; [exact R|]. split; [exact S|]. split; [|exact A].
        intros z [<-|Hz]; [exact (smaller_than_rest _ _ _ S L)|exact (B z Hz)].
Qed.
Lemma in_places (im : pimage T) r i j : 0 <= r -> in_image (shape T im) i ->
  (In j (order_of_search T im r i) <-> in_image (shape T im) j /\ near r i j).
Proof.
  intros Hr Hi. unfold order_of_search. cbn [In]. rewrite in_map_iff. pose proof (clamped _ _ r i j Hr Hi) as C. cbn [shape istart isize] in C. split.
  - intros [<-|(off & E & Ho)]; [split; [exact Hi|apply near_refl, Hr]|]. apply C. exists off. split; [exact Ho|symmetry; exact E].
  - intros H. right. destruct (proj2 C H) as (off & Ho & E). exists off. split; [symmetry; exact E|exact Ho].
Qed.
Lemma neighbourhood_places (im : pimage T) r i : map (q_pix T im) (order_of_search T im r i) = q_pix T im i :: q_neighbourhood T im r i.
Proof. unfold order_of_search, q_neighbourhood. cbn [map]. rewrite map_map. reflexivity. Qed.
Lemma hit_differs f valid test i : 0 <= f_radius f -> in_image (shape T test) i ->
  (hit T f valid test i = true <-> q_differs T (f_threshold f) (f_radius f) valid test i).
Proof.
  intros Hr Hi. unfold hit, found, q_closest, q_differs. fold (distance2 T (q_pix T valid i) (q_pix T test i)).
  change (square (f_threshold f)) with (mul64 (f_threshold f) (f_threshold f)). set (t2 := mul64 (f_threshold f) (f_threshold f)).
  set (m := distance2 T (q_pix T valid i) (q_pix T test i)). destruct (SFltb t2 m) eqn:E.
  - rewrite (search_above _ _ _ _ _ E). split.
    + intros G. split; [reflexivity|]. intros j Hj Hn. assert (P : In j (order_of_search T test (f_radius f) i)) by (apply in_places; auto). destruct P as [<-|P].
      * apply ltb_not_leb, E.
      * apply G. apply in_map_iff in P. destruct P as (off & <- & Ho). apply in_map_iff. exists off. split; [reflexivity|exact Ho].
    + intros [_ G] x Hx. apply in_map_iff in Hx. destruct Hx as (off & <- & Ho).
      assert (P : In (clamp_to (q_start T test) (q_size T test) (shift i off)) (order_of_search T test (f_radius f) i)).
      { right. apply in_map_iff. exists off. split; [reflexivity|exact Ho]. }
      apply in_places in P; try assumption. apply G; apply P.
  - cbn [snd]. rewrite E. split; [discriminate|]. intros [G _]. discriminate.
Qed.
Lemma found_first f valid test i : 0 <= f_radius f -> in_image (shape T test) i -> hit T f valid test i = true ->
  first_closest T (f_radius f) valid test i (fst (found T f valid test i)).
Proof.
  intros Hr Hi H. pose proof (proj1 (hit_differs f valid test i Hr Hi) H) as [Ha Hd].
  unfold found, q_closest. fold (distance2 T (q_pix T valid i) (q_pix T test i)). change (mul64 (f_threshold f) (f_threshold f)) with (square (f_threshold f)).
  rewrite Ha. set (c := q_pix T valid i) in *. set (offs := box (map (fun _ => - f_radius f) (q_start T test)) (map (fun _ => 2 * f_radius f + 1) (q_start T test))).
  set (pl := fun off => clamp_to (q_start T test) (q_size T test) (shift i off)).
  assert (Pl : forall off, In off offs -> SFleb (distance2 T c (q_pix T test (pl off))) (square (f_threshold f)) = false).
  { intros off Ho. assert (P : In (pl off) (order_of_search T test (f_radius f) i)) by (right; apply in_map_iff; exists off; split; [reflexivity|exact Ho]).
    apply in_places in P; try assumption. apply Hd; apply P. }
  destruct (search_first (square (f_threshold f)) c (q_neighbourhood T test (f_radius f) i) (p_sub T c (q_pix T test i)) (distance2 T c (q_pix T test i)) Ha) as [(E & A)|(b & x & a & E & R & S & B & A)].
  - intros x Hx. apply in_map_iff in Hx. destruct Hx as (off & <- & Ho). exact (Pl off Ho).
  - rewrite E. cbn [fst]. exists [], i, (map pl offs). split; [reflexivity|]. split; [reflexivity|]. split; [intros ? []|].
    intros k Hk. apply A. apply in_map_iff in Hk. destruct Hk as (off & <- & Ho). unfold q_neighbourhood. apply in_map_iff. exists off. split; [reflexivity|exact Ho].
  - rewrite R. cbn [fst]. unfold q_neighbourhood in E. fold offs in E. fold pl in E. change (map (fun off => q_pix T test (clamp_to (q_start T test) (q_size T test) (shift i off))) offs) with (map (fun off => q_pix T test (pl off)) offs) in E.
    apply map_eq_app in E. destruct E as (l1 & l2 & El & E1 & E2). destruct l2 as [|off l2]; [discriminate|]. cbn [map] in E2. injection E2 as E2 E3.
    exists (i :: map pl l1), (pl off), (map pl l2). split; [unfold order_of_search; fold offs; rewrite El, map_app; reflexivity|].
    split; [rewrite E2; reflexivity|]. fold (distance2 T c x). split.
    + intros k [<-|Hk]; [left; exact S|]. apply B. rewrite <- E1. apply in_map_iff in Hk. destruct Hk as (o & <- & Ho). apply in_map_iff. exists o. split; [reflexivity|exact Ho].
    + intros k Hk. apply A. rewrite <- E3. apply in_map_iff in Hk. destruct Hk as (o & <- & Ho). apply in_map_iff. exists o. split; [reflexivity|exact Ho].
Qed.

(** * All threads *)
Section Whole.
Variables (f : filter) (valid test : pimage T) (threads : list (list face)).
Definition numbered : list (nat * list face) := combine (seq 0 (length threads)) threads.
Definition alljobs : list job := flat_map (jobs_of f) numbered.
Notation jindex := PixFacts.jindex. Notation jskip := PixFacts.jskip. Notation jthread := PixFacts.jthread. Notation jobs_of := PixFacts.jobs_of.
Lemma programs_jobs : q_programs T f valid test threads = map (fun p => flat_map (run_job T f valid test) (jobs_of f p)) numbered.
Proof. unfold q_programs. fold numbered. apply map_ext. intros p. apply PixFacts.thread_jobs. Qed.
Lemma concat_programs : concat (q_programs T f valid test threads) = flat_map (run_job T f valid test) alljobs.
Proof.
  rewrite programs_jobs. unfold alljobs. induction numbered as [|p l IH]; [reflexivity|].
  cbn [map concat flat_map]. rewrite flat_map_app, IH. reflexivity.
Qed.
Lemma face_index t fc : map jindex (face_jobs f t fc) = snd fc.
Proof.
  unfold face_jobs. destruct (_ || _); [|destruct (snd fc) as [|i l]; [reflexivity|]]; rewrite map_map; unfold PixFacts.jindex; cbn [fst snd]; apply map_id.
Qed.
Lemma jobs_index p : map jindex (jobs_of f p) = flat_map snd (snd p).
Proof. unfold PixFacts.jobs_of. induction (snd p) as [|fc l IH]; [reflexivity|]. cbn [flat_map]. rewrite map_app, IH, face_index. reflexivity. Qed.
Lemma alljobs_index : map jindex alljobs = flat_map snd (concat threads).
Proof.
  unfold alljobs. transitivity (flat_map snd (concat (map snd numbered))).
  2: { unfold numbered. rewrite combine_snd by apply seq_length. reflexivity. }
  induction numbered as [|p l IH]; [reflexivity|]. cbn [flat_map map concat]. rewrite map_app, jobs_index, flat_map_app, IH. reflexivity.
Qed.
Lemma in_face_jobs t fc j : In j (face_jobs f t fc) -> In (jindex j) (snd fc) /\ In (jzero j) (snd fc) /\ jskip j = fst fc && f_ignore_boundary f /\ jthread j = t.
Proof.
  unfold face_jobs. destruct (negb (fst fc) || negb (f_ignore_boundary f)) eqn:E.
  - intros H. apply in_map_iff in H. destruct H as (i & <- & Hi). cbn. repeat split; try exact Hi. destruct (fst fc), (f_ignore_boundary f); try reflexivity; discriminate E.
  - destruct (snd fc) as [|i0 l]; [intros []|]. intros H. apply in_map_iff in H. destruct H as (i & <- & Hi). cbn [PixFacts.jindex PixFacts.jskip PixFacts.jthread jzero fst snd].
    split; [exact Hi|]. split; [left; reflexivity|]. split; [|reflexivity]. destruct (fst fc), (f_ignore_boundary f); try reflexivity; discriminate E.
Qed.
Lemma in_job j : In j alljobs -> exists faces fc, In faces threads /\ In fc faces /\ In (jindex j) (snd fc) /\ In (jzero j) (snd fc) /\
  jskip j = fst fc && f_ignore_boundary f /\ (jthread j < length threads)%nat.
Proof.
  unfold alljobs, PixFacts.jobs_of. rewrite in_flat_map. intros ((t & faces) & Hp & H). cbn [fst snd] in H. apply in_flat_map in H.
  destruct H as (fc & Hf & H). apply in_face_jobs in H. destruct H as (H1 & H2 & H3 & H4).
  exists faces, fc. unfold numbered in Hp. split; [apply (in_combine_r _ _ _ _ Hp)|]. split; [exact Hf|]. split; [exact H1|]. split; [exact H2|]. split; [exact H3|].
  apply in_combine_l in Hp. apply in_seq in Hp. lia.
Qed.
Lemma run_job_mem j a : In a (run_job T f valid test j) ->
  (PixFacts.index_of T a = None \/ PixFacts.index_of T a = Some (jindex j)) /\ (PixFacts.thread_of T a = None \/ PixFacts.thread_of T a = Some (jthread j)).
Proof.
  unfold run_job. destruct (value T f valid test j), (PixFacts.counted T f valid test (jskip j) (jindex j)); cbn [In];
    intros H; repeat destruct H as [H|H]; subst; cbn; auto; destruct H.
Qed.
Lemma concat_map_snd : concat (map (fun faces : list face => flat_map snd faces) threads) = flat_map snd (concat threads).
Proof. induction threads as [|l k IH]; [reflexivity|]. cbn [map concat]. rewrite flat_map_app, IH. reflexivity. Qed.
Hypothesis split : q_split T f valid test threads.
Lemma split_NoDup : NoDup (flat_map snd (concat threads)).
Proof. eapply Permutation_NoDup; [apply Permutation_sym, split|apply NoDup_box]. Qed.
Lemma programs_apart : PixFacts.apart T (q_programs T f valid test threads).
Proof.
  intros i j l l' a b Hij Hi Hj Ha Hb. rewrite programs_jobs in Hi, Hj. rewrite nth_error_map in Hi, Hj.
  destruct (nth_error numbered i) as [p|] eqn:Ep; [|discriminate]. destruct (nth_error numbered j) as [q|] eqn:Eq; [|discriminate].
  cbn in Hi, Hj. injection Hi as <-. injection Hj as <-. apply in_flat_map in Ha. apply in_flat_map in Hb. destruct Ha as (ja & Ja & Ha), Hb as (jb & Jb & Hb).
  destruct (run_job_mem _ _ Ha) as [A1 A2], (run_job_mem _ _ Hb) as [B1 B2].
  destruct (numbered_nth threads _ _ Ep) as [P1 P2], (numbered_nth threads _ _ Eq) as [Q1 Q2].
  assert (Ta : jthread ja = i).
  { unfold PixFacts.jobs_of in Ja. apply in_flat_map in Ja. destruct Ja as (? & _ & Ja). apply in_face_jobs in Ja. rewrite <- P1. apply Ja. }
  assert (Tb : jthread jb = j).
  { unfold PixFacts.jobs_of in Jb. apply in_flat_map in Jb. destruct Jb as (? & _ & Jb). apply in_face_jobs in Jb. rewrite <- Q1. apply Jb. }
  assert (D : jindex ja <> jindex jb).
  { intros E. pose proof split_NoDup as N. rewrite <- concat_map_snd in N.
    apply (NoDup_concat _ N i j (flat_map snd (snd p)) (flat_map snd (snd q)) (jindex ja) Hij).
    - rewrite nth_error_map, P2. reflexivity.
    - rewrite nth_error_map, Q2. reflexivity.
    - rewrite <- jobs_index. apply in_map, Ja.
    - rewrite E, <- jobs_index. apply in_map, Jb. }
  split.
  - destruct A1 as [A1|A1]; [left; exact A1|right]. rewrite A1. destruct B1 as [B1|B1]; rewrite B1; congruence.
  - destruct A2 as [A2|A2]; [left; exact A2|right]. rewrite A2. destruct B2 as [B2|B2]; rewrite B2; congruence.
Qed.
Lemma job_skip j : In j alljobs -> (jskip j = true <-> f_ignore_boundary f = true /\ at_boundary (shape T test) (f_radius f) (jindex j)).
Proof.
  intros Hj. destruct (in_job j Hj) as (faces & fc & H1 & H2 & H3 & _ & H4 & _). rewrite H4, andb_true_iff.
  rewrite (proj2 split faces fc (jindex j) H1 H2 H3). tauto.
Qed.
Lemma alljobs_pixel i : In i (map jindex alljobs) <-> In i (pixels (shape T valid)).
Proof. rewrite alljobs_index. split; apply Permutation_in; [|apply Permutation_sym]; apply split. Qed.
Lemma jzero_pixel j : In j alljobs -> In (jzero j) (pixels (shape T valid)).
Proof.
  intros Hj. destruct (in_job j Hj) as (faces & fc & H1 & H2 & _ & H3 & _). apply (Permutation_in _ (proj1 split)).
  apply in_flat_map. exists fc. split; [apply in_concat; exists faces; auto|exact H3].
Qed.
Definition reported_list : list index := map jindex (List.filter (fun j => PixFacts.counted T f valid test (jskip j) (jindex j)) alljobs).
Lemma counted_reported j : q_comparable T valid test -> 0 <= f_radius f -> In j alljobs ->
  (PixFacts.counted T f valid test (jskip j) (jindex j) = true <-> q_reported T f valid test (jindex j)).
Proof.
  intros (C1 & C2 & C3) Hr Hj.
  assert (I : in_image (shape T valid) (jindex j)) by (apply in_box; [exact C3|]; apply alljobs_pixel, in_map, Hj).
  assert (It : in_image (shape T test) (jindex j)) by (unfold in_image in *; rewrite C1, C2; exact I).
  unfold PixFacts.counted, q_reported. rewrite andb_true_iff, (hit_differs f valid test (jindex j) Hr It), negb_true_iff. pose proof (job_skip j Hj) as S.
  destruct (jskip j); split.
  - intros [H _]. discriminate.
  - intros (_ & _ & H). destruct (proj1 S eq_refl) as [S1 S2]. destruct (H S1 S2).
  - intros [_ H]. split; [exact I|]. split; [exact H|]. intros S1 S2. discriminate (proj2 S (conj S1 S2)).
  - intros (_ & H & _). split; [reflexivity|exact H].
Qed.
Lemma reported_in i : q_comparable T valid test -> 0 <= f_radius f -> (In i reported_list <-> q_reported T f valid test i).
Proof.
  intros C Hr. unfold reported_list. rewrite in_map_iff. split.
  - intros (j & <- & Hj). apply filter_In in Hj. apply counted_reported; tauto.
  - intros R. assert (P : In i (map jindex alljobs)) by (apply alljobs_pixel, in_box; [apply C|apply R]).
    apply in_map_iff in P. destruct P as (j & <- & Hj). exists j. split; [reflexivity|]. apply filter_In. split; [exact Hj|]. apply counted_reported; assumption.
Qed.
Lemma reported_NoDup : NoDup reported_list.
Proof.
  unfold reported_list. pose proof split_NoDup as N. rewrite <- alljobs_index in N. induction alljobs as [|j l IH]; [constructor|].
  cbn [map List.filter] in *. inversion N as [|? ? N1 N2]. destruct (PixFacts.counted _ _ _ _ _ _); [|apply IH, N2]. cbn [map]. constructor; [|apply IH, N2].
  intros Hq. apply N1. apply in_map_iff in Hq. destruct Hq as (k & <- & Hk). apply filter_In in Hk. apply in_map, Hk.
Qed.
(** some cast is undefined *)
Lemma bad_schedule schedule : interleaving (q_programs T f valid test threads) schedule ->
  (existsb (is_bad T) schedule = true <-> exists j, In j alljobs /\ value T f valid test j = None).
Proof.
  intros Hi. rewrite existsb_exists. split.
  - intros (a & Ha & B). apply (interleaving_in T _ _ Hi) in Ha. rewrite concat_programs in Ha. apply in_flat_map in Ha. destruct Ha as (j & Hj & Ha).
    exists j. split; [exact Hj|]. unfold run_job in Ha. destruct (value T f valid test j); [|reflexivity]. exfalso.
    destruct (PixFacts.counted _ _ _ _ _ _); cbn [In] in Ha; repeat destruct Ha as [Ha|Ha]; subst; try discriminate; destruct Ha.
  - intros (j & Hj & E). exists (QBad T). split; [|reflexivity]. apply (interleaving_in T _ _ Hi). rewrite concat_programs. apply in_flat_map. exists j. split; [exact Hj|].
    unfold run_job. rewrite E. left. reflexivity.
Qed.
Lemma run_result schedule r : q_comparable T valid test -> 0 <= f_radius f -> q_run T f valid test threads schedule r ->
  ((exists i d, q_reported T f valid test i /\ first_closest T (f_radius f) valid test i d /\ p_cast T d = None) /\ r = UB) \/
  (exists q, r = Ok q /\ q_number T q = Z.of_nat (length reported_list) /\
    q_total T q = fold_left add64 (map (fun u => fold_left add64 (map (fun j => sqrt64 (snd (found T f valid test (jindex j)))) (List.filter (fun j => Nat.eqb u (jthread j) && PixFacts.counted T f valid test (jskip j) (jindex j)) alljobs)) zero64) (seq 0 (length threads))) zero64 /\
    q_mean T q = div64 (q_total T q) (of_int64 (Z.of_nat (length (pixels (shape T valid))))) /\
    (forall i, ~ in_image (shape T valid) i -> q_image T q i = None) /\
    (forall i, in_image (shape T valid) i -> ~ q_reported T f valid test i -> exists c, in_image (shape T valid) c /\ q_image T q i = Some (p_zero T (q_pix T valid c))) /\
    (forall i, q_reported T f valid test i -> exists d v, first_closest T (f_radius f) valid test i d /\ d = fst (found T f valid test i) /\ p_cast T d = Some v /\ q_image T q i = Some v)).
Proof.
  intros C Hr [Hi ->].
  assert (F : forall j, In j alljobs -> PixFacts.counted T f valid test (jskip j) (jindex j) = true -> q_reported T f valid test (jindex j) /\ first_closest T (f_radius f) valid test (jindex j) (fst (found T f valid test (jindex j)))).
  { intros j Hj Hc. pose proof (proj1 (counted_reported j C Hr Hj) Hc) as R. split; [exact R|]. apply andb_true_iff in Hc. apply found_first; [exact Hr| |apply Hc].
    destruct C as (C1 & C2 & C3). pose proof (proj1 R) as I. unfold in_image in *. rewrite C1, C2. exact I. }
  destruct (existsb (is_bad T) schedule) eqn:B.
  - left. split; [|reflexivity]. apply (bad_schedule schedule Hi) in B. destruct B as (j & Hj & E). unfold value in E.
    destruct (PixFacts.counted T f valid test (jskip j) (jindex j)) eqn:Hc; [|discriminate]. destruct (F j Hj Hc) as [R D]. eauto.
  - right.
    assert (NB : forall j, In j alljobs -> value T f valid test j <> None).
    { intros j Hj E. assert (X : existsb (is_bad T) schedule = true) by (apply (bad_schedule schedule Hi); eauto). congruence. }
    eexists. split; [reflexivity|].
    pose proof (PixFacts.interleaving_sequential T _ _ Hi programs_apart (q_before T)) as (S1 & S2 & S3 & _). rewrite concat_programs in S1, S2, S3.
    destruct (PixFacts.jobs_exec T f valid test alljobs (q_before T)) as (J1 & J2 & J3).
    unfold q_after. cbn [q_number q_image q_total q_mean]. split; [|split; [|split; [reflexivity|split; [|split]]]].
    + rewrite (map_ext _ (fun u => Z.of_nat (length (List.filter (fun j => Nat.eqb u (jthread j) && PixFacts.counted T f valid test (jskip j) (jindex j)) alljobs)))).
      2: { intros u. rewrite S3, J2. reflexivity. }
      rewrite (sum_counts (length threads) jthread (fun j => PixFacts.counted T f valid test (jskip j) (jindex j)) alljobs).
      2: { intros j Hj. destruct (in_job j Hj) as (? & ? & _ & _ & _ & _ & _ & L). exact L. }
      unfold reported_list. rewrite map_length. reflexivity.
    + f_equal. apply map_ext. intros u. rewrite S2, J3. reflexivity.
    + intros i I. rewrite S1, (proj1 (J1 i)); [reflexivity|]. rewrite alljobs_pixel. intros P. apply I. apply in_box in P; [exact P|apply C].
    + intros i I R. assert (P : In i (map jindex alljobs)) by (apply alljobs_pixel, in_box; [apply C|exact I]). apply in_map_iff in P. destruct P as (j & <- & Hj).
      exists (jzero j). split; [apply in_box; [apply C|]; apply jzero_pixel, Hj|]. rewrite S1.
      rewrite (proj2 (J1 (jindex j)) j); [| |exact Hj|apply NB, Hj].
      2: { rewrite alljobs_index. apply split_NoDup. }
      unfold value. destruct (PixFacts.counted T f valid test (jskip j) (jindex j)) eqn:Hc; [|reflexivity]. destruct (R (proj1 (F j Hj Hc))).
    + intros i R. assert (P : In i (map jindex alljobs)) by (apply alljobs_pixel, in_box; [apply C|apply R]). apply in_map_iff in P. destruct P as (j & <- & Hj).
      pose proof (proj2 (counted_reported j C Hr Hj) R) as Hc. pose proof (NB j Hj) as N. rewrite S1, (proj2 (J1 (jindex j)) j); [| |exact Hj|exact N].
      2: { rewrite alljobs_index. apply split_NoDup. }
      unfold value in *. rewrite Hc in *. destruct (p_cast T (fst (found T f valid test (jindex j)))) as [v|] eqn:E; [|congruence].
      exists (fst (found T f valid test (jindex j))), v. split; [apply (F j Hj Hc)|]. auto.
Qed.
End Whole.
End Pix.

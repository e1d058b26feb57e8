(** Property C56: measurements of sizes, indexes, regions, points, vectors, arrays and matrices. *)
From Coq Require Import Floats.SpecFloat.
From Verif Require Import Base Str Dec PathModel MeasModel MeasFacts MeasFacts2 MeasProps VisitModel XmlText ReadModel ReadFacts ReadBack ReadProps RegModel ArgFacts ArgProps RegSpec RegFacts RegStart RegMain RegProps RegProps2 RegRound ImgModel ItkModel ItkSpec ItkRunProps.

(** * What is measured *)
(** "name_i" and "name_i_j" *)
Definition at1 (name : str) (i : nat) : str := name ++ $"_" ++ print_int (Z.of_nat i).
Definition at2 (name : str) (i j : nat) : str := name ++ $"_" ++ print_int (Z.of_nat i) ++ $"_" ++ print_int (Z.of_nat j).
(** the calls [cs] are one per component, in order, named by position *)
Definition size_calls (l : list Z) (name : str) (tolerant : bool) (cs : list call) : Prop :=
  length cs = length l /\ forall i x, nth_error l i = Some x -> nth_error cs i = Some (NumericInteger x (at1 name i) tolerant).
Definition point_calls (l : list spec_float) (name : str) (tolerant : bool) (cs : list call) : Prop :=
  length cs = length l /\ forall i x, nth_error l i = Some x -> nth_error cs i = Some (NumericDouble x (at1 name i) tolerant).
(** row by row, all rows of length [w] *)
Definition matrix_rows (rows : list (list spec_float)) (w : nat) (name : str) (tolerant : bool) (cs : list call) : Prop :=
  length cs = length rows * w /\
  forall i j r x, nth_error rows i = Some r -> nth_error r j = Some x -> nth_error cs (i * w + j) = Some (NumericDouble x (at2 name i j) tolerant).

Lemma numbered_ints_nth l name t : forall i0 i x, nth_error l i = Some x -> nth_error (numbered_ints l i0 name t) i = Some (NumericInteger x (at1 name (i0 + i)) t).
Proof.
  induction l as [|y l IH]; intros i0 [|i] x H; try discriminate; cbn in H |- *.
  - injection H as ->. rewrite Nat.add_0_r. reflexivity.
  - rewrite (IH (S i0) i x H). rewrite Nat.add_succ_r. reflexivity.
Qed.
Lemma numbered_ints_length l name t : forall i0, length (numbered_ints l i0 name t) = length l.
Proof. induction l as [|y l IH]; intros i0; [reflexivity|]. cbn. f_equal. apply IH. Qed.
Lemma numbered_doubles_nth l name t : forall i0 i x, nth_error l i = Some x -> nth_error (numbered_doubles l i0 name t) i = Some (NumericDouble x (at1 name (i0 + i)) t).
Proof.
  induction l as [|y l IH]; intros i0 [|i] x H; try discriminate; cbn in H |- *.
  - injection H as ->. rewrite Nat.add_0_r. reflexivity.
  - rewrite (IH (S i0) i x H). rewrite Nat.add_succ_r. reflexivity.
Qed.
Lemma numbered_doubles_length l name t : forall i0, length (numbered_doubles l i0 name t) = length l.
Proof. induction l as [|y l IH]; intros i0; [reflexivity|]. cbn. f_equal. apply IH. Qed.
Lemma size_ok l name t : size_calls l name t (numbered_ints l 0 name t).
Proof. split; [apply numbered_ints_length|]. intros i x H. apply (numbered_ints_nth l name t 0 i x H). Qed.
Lemma point_ok l name t : point_calls l name t (numbered_doubles l 0 name t).
Proof. split; [apply numbered_doubles_length|]. intros i x H. apply (numbered_doubles_nth l name t 0 i x H). Qed.
Lemma at1_at1 name i j : at1 (at1 name i) j = at2 name i j.
Proof. unfold at1, at2. rewrite <- !app_assoc. reflexivity. Qed.
Lemma matrix_ok rows w name t : Forall (fun r => length r = w) rows -> matrix_rows rows w name t (matrix_calls rows 0 name t).
Proof.
  intros F. unfold matrix_rows.
  assert (G : forall i0, length (matrix_calls rows i0 name t) = length rows * w /\
     forall i j r x, nth_error rows i = Some r -> nth_error r j = Some x -> nth_error (matrix_calls rows i0 name t) (i * w + j) = Some (NumericDouble x (at2 name (i0 + i) j) t)).
  { induction F as [|r rows Hr F IH]; intros i0; [split; [reflexivity|intros [|i]; discriminate]|].
    cbn [matrix_calls]. destruct (IH (S i0)) as [L H]. split.
    - rewrite app_length, numbered_doubles_length, L, Hr. reflexivity.
    - intros [|i] j r' x Hi Hj; cbn in Hi.
      + injection Hi as <-. cbn [Nat.mul Nat.add]. rewrite nth_error_app1.
        2: { rewrite numbered_doubles_length. apply nth_error_Some. rewrite Hj. discriminate. }
        change (name_i name i0) with (at1 name i0). rewrite (numbered_doubles_nth r (at1 name i0) t 0 j x Hj). rewrite at1_at1, Nat.add_0_r. reflexivity.
      + rewrite nth_error_app2 by (rewrite numbered_doubles_length, Hr; lia). rewrite numbered_doubles_length, Hr.
        replace (S i * w + j - w) with (i * w + j) by lia. rewrite (H i j r' x Hi Hj). rewrite Nat.add_succ_r. reflexivity. }
  apply (G 0).
Qed.

(** * Recording: these calls are all that is recorded, in this order *)
Lemma script_sum sc args n k cs : forall ret, script sc args n (sum_calls cs ret k) = map (fun c => Made (BaseCall c)) cs ++ script sc args n (k ret).
Proof. induction cs as [|c cs IH]; intros ret; [reflexivity|]. cbn. rewrite IH, Z.add_0_r. reflexivity. Qed.
Definition records (sc : bool) (args : list str) (n : Z) (p : iprog) (cs : list call) (k : iprog) : Prop :=
  script sc args n p = map (fun c => Made (BaseCall c)) cs ++ script sc args n k.
Theorem C56_recorded : forall sc args n name t k,
  (forall l, exists cs, size_calls l name t cs /\ records sc args n (InsightSize l name t k) cs (k 0%Z)) /\
  (forall index size, exists cs1 cs2, size_calls index (name ++ $" Index") t cs1 /\ size_calls size (name ++ $" Size") t cs2 /\
     records sc args n (InsightRegion index size name t k) (cs1 ++ cs2) (k 0%Z)) /\
  (forall l, exists cs, point_calls l name t cs /\ records sc args n (InsightPoint l name t k) cs (k 0%Z)) /\
  (forall rows w, Forall (fun r => length r = w) rows -> exists cs, matrix_rows rows w name t cs /\ records sc args n (InsightMatrix rows name t k) cs (k 0%Z)).
Proof.
  intros sc args n name t k. repeat split.
  - intros l. eexists. split; [apply size_ok|]. apply script_sum.
  - intros index size. do 2 eexists. split; [apply size_ok|]. split; [apply size_ok|]. unfold records, InsightRegion, InsightSize.
    rewrite script_sum, script_sum, map_app, app_assoc. reflexivity.
  - intros l. eexists. split; [apply point_ok|]. apply script_sum.
  - intros rows w F. eexists. split; [apply matrix_ok; exact F|]. apply script_sum.
Qed.
Print Assumptions C56_recorded.

(** * Comparing: the same calls, and the test goes on with the sum of the values they return; a call may raise an exception *)
Definition total (rs : list Z) : Z := fold_right Z.add 0%Z rs.
(** the calls [cs], made with the same tolerances, returning [rs]; then the rest *)
Definition calls_then (ie : ienv) (args : list str) (o : option str) (t : spec_float) (tol : tolerances) (n : Z) (x : Z) (cs : list call) (k : Z -> iprog)
    (ms : list imoment) (rs : list Z) (ns : list str) (x' : Z) (out : res Z) : Prop :=
  (exists ms1 ms2 rs1 rs2 f', ms = ms1 ++ ms2 /\ rs = rs1 ++ rs2 /\ map mo_call ms1 = map BaseCall cs /\ length rs1 = length cs /\
     Forall (fun mo => mo_rel mo = t /\ mo_tol mo = tol) ms1 /\ iunfolds ie args o t tol n f' x (k (total rs1)) ms2 rs2 ns x' out) \/
  (exists i c, out = Throw i /\ ns = [] /\ x' = x /\ length ms = S (length rs) /\ nth_error cs (length rs) = Some c /\
     map mo_call ms = map BaseCall (firstn (S (length rs)) cs) /\ Forall (fun mo => mo_rel mo = t /\ mo_tol mo = tol) ms).
Lemma calls_sum ie args o t tol n x k : forall cs ret f ms rs ns x' out, iunfolds ie args o t tol n f x (sum_calls cs ret k) ms rs ns x' out ->
  calls_then ie args o t tol n x cs (fun s => k (ret + s)%Z) ms rs ns x' out.
Proof.
  induction cs as [|c cs IH]; intros ret f ms rs ns x' out H; cbn [sum_calls] in H.
  - left. exists [], ms, [], rs, f. repeat split; auto. cbn. rewrite Z.add_0_r. exact H.
  - inversion H; subst.
    + match goal with H : iunfolds _ _ _ _ _ _ _ _ (sum_calls _ _ _) _ _ _ _ _ |- _ => destruct (IH _ _ _ _ _ _ _ H) as [(ms1 & ms2 & rs1 & rs2 & f2 & -> & -> & E & L & F & U)|(i & c' & -> & -> & -> & L & N & E & F)] end.
      * left. exists (IMoment (BaseCall c) t tol f :: ms1), ms2, (r :: rs1), rs2, f2. repeat split; cbn; [f_equal; exact E|f_equal; exact L|auto|].
        rewrite Z.add_assoc. exact U.
      * right. exists i, c'. cbn [length nth_error]. repeat split; auto. cbn [map firstn mo_call]. cbn [firstn map] in E. f_equal. exact E.
    + right. exists i, c. cbn. repeat split; auto.
Qed.
Theorem C56_compared : forall ie args o t tol n f x name tl k ms rs ns x' out,
  (forall l, iunfolds ie args o t tol n f x (InsightSize l name tl k) ms rs ns x' out ->
     exists cs, size_calls l name tl cs /\ calls_then ie args o t tol n x cs k ms rs ns x' out) /\
  (forall index size, iunfolds ie args o t tol n f x (InsightRegion index size name tl k) ms rs ns x' out ->
     exists cs1 cs2, size_calls index (name ++ $" Index") tl cs1 /\ size_calls size (name ++ $" Size") tl cs2 /\ calls_then ie args o t tol n x (cs1 ++ cs2) k ms rs ns x' out) /\
  (forall l, iunfolds ie args o t tol n f x (InsightPoint l name tl k) ms rs ns x' out ->
     exists cs, point_calls l name tl cs /\ calls_then ie args o t tol n x cs k ms rs ns x' out) /\
  (forall rows w, Forall (fun r => length r = w) rows -> iunfolds ie args o t tol n f x (InsightMatrix rows name tl k) ms rs ns x' out ->
     exists cs, matrix_rows rows w name tl cs /\ calls_then ie args o t tol n x cs k ms rs ns x' out).
Proof.
  intros ie args o t tol n f x name tl k ms rs ns x' out. repeat split.
  - intros l U. eexists. split; [apply size_ok|]. exact (calls_sum _ _ _ _ _ _ _ _ _ _ _ _ _ _ _ _ U).
  - intros index size U. exists (numbered_ints index 0 (name ++ $" Index") tl), (numbered_ints size 0 (name ++ $" Size") tl). split; [apply size_ok|]. split; [apply size_ok|].
    unfold InsightRegion, InsightSize in U. apply calls_sum in U.
    set (A := numbered_ints index 0 (name ++ $" Index") tl) in *. set (B := numbered_ints size 0 (name ++ $" Size") tl) in *.
    destruct U as [(ms1 & ms2 & rs1 & rs2 & f2 & -> & -> & E & L & F & U)|(i & c' & -> & -> & -> & L & N & E & F)].
    + apply calls_sum in U. destruct U as [(ms3 & ms4 & rs3 & rs4 & f4 & -> & -> & E4 & L4 & F4 & U)|(i & c' & -> & -> & -> & L4 & N4 & E4 & F4)].
      * left. exists (ms1 ++ ms3), ms4, (rs1 ++ rs3), rs4, f4. rewrite !app_assoc, !map_app, !app_length. repeat split; [congruence|congruence|apply Forall_app; auto|].
        replace (total (rs1 ++ rs3)) with (0 + (0 + total rs1) + (0 + total rs3))%Z; [exact U|]. unfold total. rewrite fold_right_app.
        clear. induction rs1 as [|r rs1 IH]; cbn; lia.
      * pose proof (f_equal (@length icall) E) as M1. rewrite !map_length in M1. right. exists i, c'. rewrite !app_length, !map_app. repeat split; [lia| | |apply Forall_app; auto].
        -- rewrite nth_error_app2 by lia. rewrite L. replace (length A + length rs2 - length A) with (length rs2) by lia. exact N4.
        -- rewrite E, E4. rewrite L. rewrite <- Nat.add_succ_r. rewrite firstn_app_2, map_app. reflexivity.
    + right. exists i, c'. repeat split; auto.
      * rewrite nth_error_app1; [exact N|]. apply nth_error_Some. rewrite N. discriminate.
      * rewrite E. assert (S (length rs) <= length A) by (apply nth_error_Some; rewrite N; discriminate).
        rewrite firstn_app. replace (S (length rs) - length A) with 0 by lia. cbn [firstn]. rewrite app_nil_r. reflexivity.
  - intros l U. eexists. split; [apply point_ok|]. exact (calls_sum _ _ _ _ _ _ _ _ _ _ _ _ _ _ _ _ U).
  - intros rows w F U. eexists. split; [apply matrix_ok; exact F|]. exact (calls_sum _ _ _ _ _ _ _ _ _ _ _ _ _ _ _ _ U).
Qed.
Print Assumptions C56_compared.

(** * Names *)
(** The names made by one call are all different ... *)
Lemma digits_last name name' i j : name ++ $"_" ++ print_int (Z.of_nat i) = name' ++ $"_" ++ print_int (Z.of_nat j) -> name = name' /\ i = j.
Proof.
  intros E. destruct (print_int_form (Z.of_nat i)) as (d & D1 & D2 & D3 & D4). destruct (print_int_form (Z.of_nat j)) as (d' & D1' & D2' & D3' & D4').
  assert (P : print_int (Z.of_nat i) = d) by (rewrite D4; destruct (Z.ltb_spec (Z.of_nat i) 0); [lia|reflexivity]).
  assert (P' : print_int (Z.of_nat j) = d') by (rewrite D4'; destruct (Z.ltb_spec (Z.of_nat j) 0); [lia|reflexivity]).
  assert (G : name = name' /\ d = d').
  { rewrite P, P' in E. revert E D2 D2'. clear. intros E D D'.
    assert (R : rev d ++ ("_"%char :: rev name) = rev d' ++ ("_"%char :: rev name')).
    { apply (f_equal (@rev ascii)) in E. rewrite !rev_app_distr in E. cbn in E. rewrite <- !app_assoc in E. exact E. }
    assert (F : forall a b x y, forallb is_digit a = true -> forallb is_digit b = true -> a ++ ("_"%char :: x) = b ++ ("_"%char :: y) -> a = b /\ x = y).
    { clear. induction a as [|c a IH]; intros [|c' b] x y A B E; cbn in *.
      - injection E as ->. auto.
      - injection E as <- _. discriminate.
      - injection E as -> _. discriminate.
      - apply andb_prop in A, B. injection E as -> E. destruct (IH b x y (proj2 A) (proj2 B) E) as [-> ->]. auto. }
    assert (V : forall s, forallb is_digit s = true -> forallb is_digit (rev s) = true).
    { intros s H. apply forallb_forall. intros c Hc. apply in_rev in Hc. rewrite forallb_forall in H. apply H. exact Hc. }
    destruct (F _ _ _ _ (V d D) (V d' D') R) as [A B]. split.
    - rewrite <- (rev_involutive name), B. apply rev_involutive.
    - rewrite <- (rev_involutive d), A. apply rev_involutive. }
  destruct G as [G1 G2]. split; [exact G1|]. rewrite <- G2, <- P in P'. apply print_int_inj in P'. lia.
Qed.
Theorem C56_names_distinct : forall name i j i' j',
  (at1 name i = at1 name j -> i = j) /\ (at2 name i j = at2 name i' j' -> i = i' /\ j = j') /\ at1 (name ++ $" Index") i <> at1 (name ++ $" Size") j.
Proof.
  intros name i j i' j'. repeat split.
  - intros E. apply digits_last in E. apply E.
  - rewrite <- !at1_at1 in H. apply digits_last in H. destruct H as [H _]. apply digits_last in H. apply H.
  - rewrite <- !at1_at1 in H. apply digits_last in H. apply H.
  - intros E. apply digits_last in E. destruct E as [E _]. apply app_inv_head in E. discriminate.
Qed.
Print Assumptions C56_names_distinct.
(** ... but a vector and a matrix with different names may have components of the same name. *)
Theorem C56_names_unique_refuted : exists name name' i i' j', name <> name' /\ at1 name i = at2 name' i' j'.
Proof. exists ($"m_1"), ($"m"), 0, 1, 0. split; [discriminate|reflexivity]. Qed.
Print Assumptions C56_names_unique_refuted.

(** * A size recorded before *)
(** the components that differ; sizes and indexes are stored as 32 bit integers *)
Definition different (l l' : list Z) : nat := length (List.filter (fun p => negb (wrap32 (fst p) =? wrap32 (snd p))%Z) (combine l l')).
Definition read_back (ie : ienv) (cs : list call) : list meas := map (fun c => stored (imeas ie false (BaseCall c))) cs.

Lemma int_verdict e dirs n x y t f : verdict e dirs (stored (meas_of (e_io e) false (NumericInteger y n false))) (NumericInteger x n false, t, f) = Ok (wrap32 x =? wrap32 y)%Z.
Proof.
  unfold verdict. cbn [meas_of stored found tolerant_of].
  rewrite (compare_exact (e_sc e) (sources e f) (e_io e) new_cmp _ _ (print_int (wrap32 y)) (print_int (wrap32 x)) eq_refl).
  - cbn [snd int_SetValue SetContent DeleteContentAsData named SetAttributeName new_dm dname dcls dcontent]. rewrite eqs_refl. f_equal. cbn [andb].
    destruct (eqs_spec (print_int (wrap32 y)) (print_int (wrap32 x))) as [E|E].
    + apply print_int_inj in E. rewrite E. symmetry. rewrite Z.eqb_refl. reflexivity.
    + symmetry. cbn. destruct (Z.eqb_spec (wrap32 x) (wrap32 y)) as [E'|E']; [rewrite E' in E; contradiction|reflexivity].
  - right. repeat split. discriminate.
  - right. repeat split. discriminate.
Qed.

Definition size_moments (l : list Z) (name : str) (ms : list imoment) : Prop :=
  exists cs, size_calls l name false cs /\ map mo_call ms = map BaseCall cs.
Lemma nth_error_ext {A} (a b : list A) : (forall i, nth_error a i = nth_error b i) -> a = b.
Proof.
  revert b. induction a as [|x a IH]; intros [|y b] H; [reflexivity|specialize (H 0); discriminate|specialize (H 0); discriminate|].
  pose proof (H 0) as H0. cbn in H0. injection H0 as ->. f_equal. apply IH. intros i. exact (H (S i)).
Qed.
Lemma nth_error_firstn {A} (l : list A) : forall n i, i < n -> nth_error (firstn n l) i = nth_error l i.
Proof. induction l as [|x l IH]; intros [|n] [|i] H; try lia; try reflexivity. cbn. apply IH. lia. Qed.
Lemma size_calls_unique l name t : forall cs, size_calls l name t cs -> cs = numbered_ints l 0 name t.
Proof.
  intros cs [L H]. destruct (size_ok l name t) as [L' H']. apply nth_error_ext. intros i.
  destruct (nth_error l i) as [x|] eqn:E; [rewrite (H _ _ E), (H' _ _ E); reflexivity|].
  apply nth_error_None in E. rewrite !(proj2 (nth_error_None _ _)); [reflexivity|lia|lia].
Qed.
Theorem C56_size_mismatches : forall ie dirs l l' name ms cs' rest, length l' = length l -> size_moments l name ms -> size_calls l' name false cs' ->
  imismatches ie dirs (read_back ie cs' ++ rest) ms = Z.of_nat (different l l') /\
  total (iresults ie dirs (read_back ie cs' ++ rest) ms) = Z.of_nat (length l - different l l').
Proof.
  intros ie dirs l l' name ms cs' rest HL (cs & Hc & Hm) Hc'. rewrite (size_calls_unique _ _ _ _ Hc) in Hm. rewrite (size_calls_unique _ _ _ _ Hc'). clear Hc Hc' cs cs'.
  assert (Db : forall l l', different l l' <= length l).
  { clear. intros l l'. unfold different. revert l'. induction l as [|x l IH]; intros [|y l']; cbn; try lia. specialize (IH l'). destruct (negb _); cbn; lia. }
  revert l' HL ms Hm. generalize 0%nat. induction l as [|x l IH]; intros i [|y l'] HL [|mo ms] Hm; try discriminate; [split; reflexivity|].
  cbn [numbered_ints map] in Hm. injection Hm as Hmo Hm. injection HL as HL. destruct (IH (S i) l' HL ms Hm) as [I1 I2].
  cbn [numbered_ints read_back map app imismatches iresults total fold_right]. change (tl (?a :: ?b)) with b.
  fold (read_back ie (numbered_ints l' (S i) name false)). cbn [List.tl]. rewrite I1. fold (total (iresults ie dirs (read_back ie (numbered_ints l' (S i) name false) ++ rest) ms)).
  rewrite I2. unfold ikind, isame_value, iverdict. rewrite Hmo. cbn [imeas].
  rewrite int_verdict.
  assert (K : same_kind (stored (meas_of (e_io (i_env ie)) false (NumericInteger y (name_i name i) false))) (meas_of (e_io (i_env ie)) true (NumericInteger x (name_i name i) false)) = true).
  { unfold same_kind. cbn. rewrite eqs_refl. reflexivity. }
  rewrite K. pose proof (Db l l') as D. unfold different in *. cbn [combine List.filter fst snd andb].
  destruct (wrap32 x =? wrap32 y)%Z; cbn [negb length andb]; split; lia.
Qed.
Print Assumptions C56_size_mismatches.
(** Components from -2^31 to 2^31 - 1 are told apart ... *)
Theorem C56_small_sizes : forall l l', Forall in_int l -> Forall in_int l' -> length l' = length l -> (different l l' = 0 <-> l = l').
Proof.
  assert (W : forall x, in_int x -> wrap32 x = x).
  { intros x H. unfold in_int, INT_MIN, INT_MAX in H. unfold wrap32. rewrite Z.mod_small by lia. lia. }
  intros l l' H. revert l'. induction H as [|x l Hx H IH]; intros [|y l'] H' L; try discriminate; [split; reflexivity|].
  inversion H'; subst. injection L as L. unfold different in *. cbn [combine List.filter fst snd]. rewrite !W by assumption.
  destruct (Z.eqb_spec x y) as [->|N]; cbn [negb length].
  - rewrite IH by assumption. split; [intros ->; reflexivity|intros E; injection E; auto].
  - split; [discriminate|intros E; injection E as E _; contradiction].
Qed.
Print Assumptions C56_small_sizes.
(** ... larger ones are not: sizes are [unsigned long], indexes [long]. *)
Theorem C56_all_sizes_refuted : exists l l', Forall (fun x => 0 <= x < 18446744073709551616)%Z (l ++ l') /\ length l' = length l /\ l <> l' /\ different l l' = 0.
Proof. exists [4294967296; 512]%Z, [0; 512]%Z. repeat split; [|discriminate]. repeat constructor; lia. Qed.
Print Assumptions C56_all_sizes_refuted.
(** A whole run: the size [l] measured against a baseline with a size [l'] of the same name and dimension. *)
Theorem C56_size_run : forall ie f a0 opts rest inf s' z o f1 cs' l l' name more, let e := i_env ie in let argv := a0 :: flat opts ++ rest in
  command_line e f opts rest -> input_of opts = Some inf -> expected_of opts = 0%Z -> length l' = length l -> size_calls l' name false cs' ->
  started e f (output_of e f opts) (dirs_of opts ++ [i_baselines ie]) inf = Some (o, f1, read_back ie cs' ++ more) ->
  itk_Main ie (fun _ => InsightSize l name false (fun _ => IReturn 0%Z)) argv (new_itk_test ie f) = (s', Ok z) ->
  z = Z.of_nat (different l l').
Proof.
  intros ie f a0 opts rest inf s' z o f1 cs' l l' name more e argv Hc Hi Hx HL Hc' Hst M.
  pose proof (C55_compare_status ie f _ a0 opts rest inf s' z Hc Hi M) as S. cbv zeta in S. fold e in S. rewrite Hst, Hx in S.
  destruct S as (ms & rs & ns & x & out & extra & U & R & X & ->).
  destruct (proj1 (C56_compared ie _ o default_tol no_tolerance 0 f1 0%Z name false (fun _ => IReturn 0%Z) ms rs ns x out) l U) as (cs & Hcs & C).
  pose proof (fun ms H => C56_size_mismatches ie (dirs_of opts ++ [i_baselines ie]) l l' name ms cs' more HL H Hc') as CM.
  destruct C as [(ms1 & ms2 & rs1 & rs2 & f' & -> & -> & E & L & F & U2)|(i & c & -> & -> & -> & L & N & E & F)].
  - inversion U2; subst. rewrite !app_nil_r in *. assert (LM : length ms1 = length rs1) by (apply (f_equal (@length icall)) in E; rewrite !map_length in E; congruence).
    rewrite <- LM in *. rewrite firstn_all in *. rewrite (proj2 (nth_error_None ms1 (length ms1))) in X by lia. subst extra.
    destruct (CM ms1 (ex_intro _ cs (conj Hcs E))) as [-> _]. cbn [status]. rewrite Z.add_0_r. reflexivity.
  - exfalso. destruct (nth_error ms (length rs)) as [mo|] eqn:Em; [|apply nth_error_None in Em; lia].
    destruct X as (b & i' & _ & Hb & K & V).
    assert (Hmo : mo_call mo = BaseCall c).
    { pose proof (map_nth_error mo_call _ _ Em) as H1. rewrite E in H1. rewrite <- firstn_map in H1.
      rewrite nth_error_firstn in H1 by lia. rewrite (map_nth_error BaseCall _ _ N) in H1. injection H1 as <-. reflexivity. }
    destruct (nth_error l (length rs)) as [y|] eqn:El.
    2: { apply nth_error_None in El. destruct Hcs as [Lc _]. assert (length rs < length cs) by (apply nth_error_Some; rewrite N; discriminate). lia. }
    destruct (nth_error l' (length rs)) as [y'|] eqn:El'.
    2: { apply nth_error_None in El'. assert (length rs < length l) by (apply nth_error_Some; rewrite El; discriminate). lia. }
    rewrite (proj2 Hcs _ _ El) in N. injection N as <-.
    assert (Hb' : nth_error (read_back ie cs' ++ more) (length rs) = Some (stored (imeas ie false (BaseCall (NumericInteger y' (at1 name (length rs)) false))))).
    { rewrite nth_error_app1.
      - unfold read_back. apply (map_nth_error (fun c => stored (imeas ie false (BaseCall c)))). apply (proj2 Hc' _ _ El').
      - unfold read_back. rewrite map_length. apply nth_error_Some. rewrite (proj2 Hc' _ _ El'). discriminate. }
    assert (Eb : b = stored (imeas ie false (BaseCall (NumericInteger y' (at1 name (length rs)) false)))) by congruence. subst b. unfold iverdict, reportable in V. rewrite Hmo in V. cbn [imeas] in V. rewrite int_verdict in V.
    destruct V as [[V _]|(_ & V & _)]; [discriminate V|apply V; exact I].
Qed.
Print Assumptions C56_size_run.
(** Example: recorded, read back, compared. *)
Definition ex_size_store (l : list Z) : store := fun k =>
  if eqs k ($"b.xml") then Some (FFile true true ($"x")) else
  if eqs k ($"base/b.xml") then Some (FFile true true (s_stdout (fst (itk_Main ex_itk (fun _ => InsightSize l ($"s") false (fun _ => IReturn 0%Z)) [$"prog"] (new_itk_test ex_itk (fun _ => None)))))) else None.
Example C56_example : let run l l' := outcome (itk_Main ex_itk (fun _ => InsightSize l ($"s") false (fun _ => IReturn 0%Z)) [$"prog"; $"-I"; $"b.xml"] (new_itk_test ex_itk (ex_size_store l'))) in
  run [256; 128; -3]%Z [256; 129; 7]%Z = Ok 2%Z /\ run [256; 128]%Z [4294967552; 128]%Z = Ok 0%Z.
Proof. split; vm_compute; reflexivity. Qed.

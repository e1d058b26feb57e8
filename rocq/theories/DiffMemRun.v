(** The whole difference on the heap. *)
From Verif Require Import Base Str Dec DiffModel DiffIds DiffSpec DiffFacts DiffProps DiffMemModel DiffMemFacts DiffMemBuild.
Local Open Scope Z_scope.

Lemma hnew_ok full n h : full (h_next h) = false ->
  exists h', hnew full n h = (h', Ok (h_next h)) /\ h_next h' = Datatypes.S (h_next h) /\
    h_blk h' (h_next h) = Some (n, fun _ => None) /\ forall b, b <> h_next h -> h_blk h' b = h_blk h b.
Proof.
  intros H. unfold hnew. cbv zeta. rewrite H. eexists. split; [reflexivity|]. split; [reflexivity|]. cbn [set_blk h_blk].
  rewrite Nat.eqb_refl. split; [reflexivity|]. intros b Hb. destruct (Nat.eqb_spec b (h_next h)); [contradiction|reflexivity].
Qed.
Lemma hnew_full full n h : full (h_next h) = true ->
  exists h', hnew full n h = (h', Throw ExnRuntime) /\ forall b, h_blk h' b = h_blk h b.
Proof.
  intros H. unfold hnew. cbv zeta. rewrite H. eexists. split; [reflexivity|]. intros b. reflexivity.
Qed.
Lemma hbind_throw {A B} (m : MH A) (k : A -> MH B) h h' e : m h = (h', Throw e) -> hbind m k h = (h', Throw e).
Proof. intros E. unfold hbind. rewrite E. reflexivity. Qed.
Lemma hbind_ub {A B} (m : MH A) (k : A -> MH B) h h' : m h = (h', UB) -> hbind m k h = (h', UB).
Proof. intros E. unfold hbind. rewrite E. reflexivity. Qed.
Lemma hdelete_ok p h : h_blk h p <> None ->
  exists h', hdelete p h = (h', Ok tt) /\ h_next h' = h_next h /\ h_blk h' p = None /\
    forall b, b <> p -> h_blk h' b = h_blk h b.
Proof.
  intros H. unfold hdelete. destruct (h_blk h p); [|contradiction]. eexists. split; [reflexivity|]. split; [reflexivity|].
  cbn [set_blk h_blk]. rewrite Nat.eqb_refl. split; [reflexivity|].
  intros b Hb. destruct (Nat.eqb_spec b p); [contradiction|reflexivity].
Qed.

Section Run.
Variables (full : nat -> bool) (sc : bool) (s0 s1 : str).
Notation l0 := (split nl s0).
Notation l1 := (split nl s1).

(** The record after BuildLines, the first block being [k]; [pd] is the block of diagonals. *)
Definition built (k pd : nat) : fumoffu :=
  mkfum (two s0 s1) (two (Z.of_nat (length l0)) (Z.of_nat (length l1))) (two k (k + 1)%nat) (two (k + 2)%nat (k + 3)%nat) pd.

Lemma vinv_start d j A : vinv d j (build_table sc (split nl (d_str d j))) (repeat 0 (length (split nl (d_str d j)))) A.
Proof.
  destruct (build_table_ok sc (split nl (d_str d j))) as ((_ & B) & _ & C).
  split; [apply repeat_length|]. split.
  - apply Forall_forall. intros e He. apply B, He.
  - intros i Hi Hn. exfalso. apply Hn, C, Hi.
Qed.

Lemma BuildLines_mem h : (forall i, (i < 4)%nat -> full (h_next h + i)%nat = false) ->
  match BuildLines sc s0 s1 with
  | Ok (m0, m1, v0, v1) => exists h', m_BuildLines full sc s0 s1 h = (h', Ok (built (h_next h) 0)) /\
      h_next h' = (h_next h + 4)%nat /\ indexed (built (h_next h) 0) h' /\
      holds h' (h_next h + 2)%nat v0 /\ holds h' (h_next h + 3)%nat v1 /\
      length v0 = length l0 /\ length v1 = length l1 /\
      (forall b, (b < h_next h)%nat \/ (h_next h + 4 <= b)%nat -> h_blk h' b = h_blk h b)
  | UB => exists h', m_BuildLines full sc s0 s1 h = (h', UB)
  | _ => False
  end.
Proof.
  intros HF. set (k := h_next h).
  destruct (hnew_ok full (2 * Z.of_nat (length l0)) h) as (h1 & E1 & N1 & B1 & O1);
    [rewrite <- (Nat.add_0_r (h_next h)); apply HF; lia|]. fold k in E1, N1, B1, O1.
  destruct (hnew_ok full (2 * Z.of_nat (length l1)) h1) as (h2 & E2 & N2 & B2 & O2);
    [rewrite N1; replace (Datatypes.S k) with (h_next h + 1)%nat by (fold k; lia); apply HF; lia|].
  destruct (hnew_ok full (Z.of_nat (length l0)) h2) as (h3 & E3 & N3 & B3 & O3);
    [rewrite N2, N1; replace (Datatypes.S (Datatypes.S k)) with (h_next h + 2)%nat by (fold k; lia); apply HF; lia|].
  destruct (hnew_ok full (Z.of_nat (length l1)) h3) as (h4 & E4 & N4 & B4 & O4);
    [rewrite N3, N2, N1; replace (Datatypes.S (Datatypes.S (Datatypes.S k))) with (h_next h + 3)%nat by (fold k; lia); apply HF; lia|].
  rewrite N3 in N4, E4, B4, O4. rewrite N2 in N4, E4, B4, O4, N3, E3, B3, O3.
  rewrite N1 in N4, E4, B4, O4, N3, E3, B3, O3, N2, E2, B2, O2.
  replace (Datatypes.S k) with (k + 1)%nat in * by lia.
  replace (Datatypes.S (k + 1)) with (k + 2)%nat in * by lia.
  replace (Datatypes.S (k + 2)) with (k + 3)%nat in * by lia.
  replace (Datatypes.S (k + 3)) with (k + 4)%nat in * by lia.
  assert (P0 : h_blk h4 k = Some (2 * Z.of_nat (length l0), fun _ => None)) by (rewrite O4, O3, O2 by lia; exact B1).
  assert (P1 : h_blk h4 (k + 1)%nat = Some (2 * Z.of_nat (length l1), fun _ => None)) by (rewrite O4, O3 by lia; exact B2).
  assert (P2 : h_blk h4 (k + 2)%nat = Some (Z.of_nat (length l0), fun _ => None)) by (rewrite O4 by lia; exact B3).
  destruct (index_lines_spec k s0 _ h4 P0) as (h5 & E5 & C5 & I5).
  assert (P1' : h_blk h5 (k + 1)%nat = Some (2 * Z.of_nat (length l1), fun _ => None)).
  { rewrite (chg_blk _ _ _ _ C5); [exact P1|]. intros [E|[]]. lia. }
  destruct (index_lines_spec (k + 1)%nat s1 _ h5 P1') as (h6 & E6 & C6 & I6).
  set (d := built k 0).
  assert (HI : indexed d h6).
  { intros [|]; cbn [d built d_lines d_str two]; [exact I6|]. eapply index_ok_chg; [exact C6| |exact I5]. intros [E|[]]. lia. }
  assert (Q2 : h_blk h6 (k + 2)%nat = Some (Z.of_nat (length l0), fun _ => None)).
  { rewrite (chg_blk _ _ _ _ C6), (chg_blk _ _ _ _ C5); [exact P2| |]; intros [E|[]]; lia. }
  assert (Q3 : h_blk h6 (k + 3)%nat = Some (Z.of_nat (length l1), fun _ => None)).
  { rewrite (chg_blk _ _ _ _ C6), (chg_blk _ _ _ _ C5); [exact B4| |]; intros [E|[]]; lia. }
  assert (Other : forall b, (b < k)%nat \/ (k + 4 <= b)%nat -> h_blk h6 b = h_blk h b).
  { intros b Hb. rewrite (chg_blk _ _ _ _ C6), (chg_blk _ _ _ _ C5) by (intros [E|[]]; lia).
    rewrite O4, O3, O2, O1 by lia. reflexivity. }
  assert (N6 : h_next h6 = (k + 4)%nat) by (rewrite (proj1 C6), (proj1 C5); exact N4).
  assert (T0 := hash_table_ok sc d false h6 (HI false)). assert (T1 := hash_table_ok sc d true h6 (HI true)).
  cbn [d built d_str two] in T0, T1. fold d in T0, T1.
  assert (R : ready d h6 (build_table sc l0) (build_table sc l1) (repeat 0 (length l0)) (repeat 0 (length l1))).
  { split; [exact HI|]. split.
    - eexists. split; [exact Q2|]. exact (vinv_start d false _).
    - eexists. split; [exact Q3|]. exact (vinv_start d true _). }
  pose proof (id_loop_mem d
    ltac:(intros [|] [|]; cbn [d built d_lines d_vec two]; lia)
    ltac:(cbn [d built d_vec two]; lia)
    (Datatypes.S (length l0 + length l1)) _ _ 1 _ _ h6 R) as M.
  cbn [d built d_str two] in M. fold d in M.
  assert (Run : m_BuildLines full sc s0 s1 h =
     (_ <~ m_id_loop (Datatypes.S (length l0 + length l1)) d (build_table sc l0) (build_table sc l1) 1 ;; hret d) h6).
  { unfold m_BuildLines. cbv zeta. rewrite !count_lines_split, !Nat2Z.id.
    rewrite (hbind_ok _ _ _ _ _ E1), (hbind_ok _ _ _ _ _ E2), (hbind_ok _ _ _ _ _ E3), (hbind_ok _ _ _ _ _ E4).
    rewrite (hbind_ok _ _ _ _ _ E5), (hbind_ok _ _ _ _ _ E6).
    change (mkfum (two s0 s1) _ _ _ 0%nat) with d.
    rewrite (hbind_ok _ _ _ _ _ T0), (hbind_ok _ _ _ _ _ T1). reflexivity. }
  rewrite Run. unfold BuildLines. rewrite !lines_split.
  pose proof (BuildLines_spec sc s0 s1) as Sp. unfold BuildLines in Sp. rewrite !lines_split in Sp.
  destruct (id_loop _ _ _ _ _ _ _ _) as [[v0 v1]| | | |]; cbn [bind]; cbn [loop_sim] in M; try contradiction.
  - destruct M as (h7 & E7 & C7 & I7 & H0 & H1 & L0 & L1). exists h7.
    split; [rewrite (hbind_ok _ _ _ _ _ E7); reflexivity|].
    split; [rewrite (proj1 C7); exact N6|]. split; [exact I7|]. split; [exact H0|]. split; [exact H1|].
    split; [exact L0|]. split; [exact L1|]. intros b Hb.
    rewrite (chg_blk _ _ _ _ C7); [apply Other; exact Hb|].
    cbn [d built d_vec two]. intros [E|[E|[]]]; lia.
  - destruct M as (h7 & E7 & _). exists h7. apply hbind_ub. exact E7.
  - cbn [bind] in Sp. destruct Sp as [(w0 & w1 & E & _)|[E _]]; discriminate E.
Qed.

End Run.

(** *** Printing *)
Lemma print_lines_mem d prefix j h : indexed d h -> forall num lnum,
  (lnum + num <= length (split nl (d_str d j)))%nat ->
  m_print_lines num d prefix j (Z.of_nat lnum) h =
  (h, Ok (flat_map (fun i => prefix ++ cstr (nth (lnum + i)%nat (split nl (d_str d j)) []) ++ [nl]) (seq 0 num))).
Proof.
  intros HI. induction num as [|num IH]; intros lnum Hl; cbn [m_print_lines seq flat_map]; [reflexivity|].
  rewrite (hbind_ok _ _ _ _ _ (line_at_ok d j lnum h (HI j) ltac:(lia))).
  replace (Z.of_nat lnum + 1) with (Z.of_nat (Datatypes.S lnum)) by lia.
  rewrite (hbind_ok _ _ _ _ _ (IH (Datatypes.S lnum) ltac:(lia))). unfold hret.
  rewrite Nat.add_0_r, <- !app_assoc. do 3 f_equal. f_equal. f_equal.
  rewrite <- seq_shift, flat_map_concat_map, (flat_map_concat_map _ (map _ _)), map_map. f_equal.
  apply map_ext. intros i. do 4 f_equal. lia.
Qed.
Lemma PrintLines_mem d prefix j h lnum num : indexed d h -> 0 <= lnum -> 0 <= num ->
  lnum + num <= Z.of_nat (length (split nl (d_str d j))) -> num < 18446744073709551616 ->
  m_PrintLines d prefix j lnum num h = (h, Ok (PrintLines prefix (split nl (d_str d j)) lnum num)).
Proof.
  intros HI H1 H2 H3 H4. unfold m_PrintLines, PrintLines, u64. rewrite Z.mod_small by lia.
  pose proof (print_lines_mem d prefix j h HI (Z.to_nat num) (Z.to_nat lnum) ltac:(lia)) as P.
  rewrite Z2Nat.id in P by lia. exact P.
Qed.
Lemma PrintEdit_mem d h e : indexed d h -> 0 <= line0 e -> 0 <= line1 e -> 0 <= inserted e -> 0 <= deleted e ->
  line0 e + deleted e <= Z.of_nat (length (split nl (d_str d false))) ->
  line1 e + inserted e <= Z.of_nat (length (split nl (d_str d true))) ->
  deleted e < 18446744073709551616 -> inserted e < 18446744073709551616 ->
  m_PrintEdit d e h = (h, Ok (PrintEdit (split nl (d_str d false)) (split nl (d_str d true)) e)).
Proof.
  intros HI A B C D E F G H. unfold m_PrintEdit, PrintEdit.
  pose proof (PrintLines_mem d $"< " false h (line0 e) (deleted e) HI A D E G) as P0.
  pose proof (PrintLines_mem d $"> " true h (line1 e) (inserted e) HI B C F H) as P1.
  destruct (negb (inserted e =? 0) && negb (deleted e =? 0)).
  - rewrite (hbind_ok _ _ _ _ _ P0), (hbind_ok _ _ _ _ _ P1). reflexivity.
  - destruct (negb (inserted e =? 0)).
    + rewrite (hbind_ok _ _ _ _ _ P1). reflexivity.
    + rewrite (hbind_ok _ _ _ _ _ P0). reflexivity.
Qed.
Lemma PrintEditList_mem d h : indexed d h ->
  Z.of_nat (length (split nl (d_str d false))) < 18446744073709551616 ->
  Z.of_nat (length (split nl (d_str d true))) < 18446744073709551616 ->
  forall es b x y, 0 <= x -> 0 <= y ->
  well_formed b x y (split nl (d_str d false)) (split nl (d_str d true)) es ->
  m_PrintEditList d es h = (h, Ok (PrintEditList (split nl (d_str d false)) (split nl (d_str d true)) es)).
Proof.
  intros HI S0 S1. induction es as [|e es IH]; intros b x y Hx Hy W; cbn [m_PrintEditList]; [reflexivity|].
  cbn [well_formed] in W. destruct W as (W1 & W2 & _ & W4 & W5 & W6 & W7 & W8 & W9).
  assert (X : x <= line0 e) by (clear - W1; destruct b; lia). clear W1.
  rewrite (hbind_ok _ _ _ _ _ (PrintEdit_mem d h e HI ltac:(lia) ltac:(lia) W4 W5 W7 W8 ltac:(lia) ltac:(lia))).
  rewrite (hbind_ok _ _ _ _ _ (IH true (line0 e + deleted e) (line1 e + inserted e) ltac:(lia) ltac:(lia) W9)). reflexivity.
Qed.

(** *** Everything *)
Lemma Diff_mem full sc asserts f s0 s1 h : small s0 s1 ->
  (forall i, (i < 5)%nat -> full (h_next h + i)%nat = false) ->
  (forall b, (h_next h <= b)%nat -> h_blk h b = None) ->
  match Diff sc asserts (Some f) s0 s1 with
  | Ok out => exists h', m_Diff full sc asserts (Some f) s0 s1 h = (h', Ok out) /\ forall b, h_blk h' b = h_blk h b
  | UB => exists h', m_Diff full sc asserts (Some f) s0 s1 h = (h', UB)
  | _ => False
  end.
Proof.
  intros Hs HF Hfresh. set (k := h_next h) in *.
  pose proof (BuildLines_mem full sc s0 s1 h ltac:(intros; apply HF; lia)) as B. fold k in B.
  unfold m_Diff. cbv zeta.
  destruct (diff_cases sc s0 s1 Hs) as [(w0 & w1 & es & E & _ & E1 & E2 & Al & _)|[E _]].
  - rewrite E in B. rewrite E2. destruct B as (h1 & M1 & N1 & I1 & H0 & H1 & L0 & L1 & O1).
    rewrite (hbind_ok _ _ _ _ _ M1).
    set (n := (d_nlines (built s0 s1 k 0) false + d_nlines (built s0 s1 k 0) true) * 2 + 6).
    destruct (hnew_ok full n h1) as (h2 & M2 & N2 & P2 & O2); [rewrite N1; apply HF; lia|].
    rewrite (hbind_ok _ _ _ _ _ M2). rewrite N1 in *.
    change (mkfum _ _ _ _ (k + 4)%nat) with (built s0 s1 k (k + 4)).
    set (d := built s0 s1 k (k + 4)) in *.
    assert (HH : forall p v, (p < k + 4)%nat -> holds h1 p v -> holds h2 p v).
    { intros p v Hp (A & EA & FA). exists A. rewrite O2 by lia. auto. }
    assert (Hn : n = (Z.of_nat (length w0) + Z.of_nat (length w1)) * 2 + 6).
    { unfold n. cbn [built d_nlines two]. rewrite L0, L1. reflexivity. }
    destruct (edits_mem h2 d w0 w1 asserts (Some f)) as (h3 & M3 & (N3 & O3 & D3 & P3)).
    + apply HH; [cbn [d built d_vec two]; lia|exact H0].
    + apply HH; [cbn [d built d_vec two]; lia|exact H1].
    + cbn [d built d_vec d_diag two]. lia.
    + cbn [d built d_vec d_diag two]. lia.
    + cbn [d built d_nlines two]. rewrite L0. reflexivity.
    + cbn [d built d_nlines two]. rewrite L1. reflexivity.
    + cbn [d built d_diag]. rewrite P2, Hn. reflexivity.
    + rewrite E1 in M3. rewrite (hbind_ok _ _ _ _ _ M3). cbn [d built d_diag] in O3, P3. fold d in O3, P3.
      assert (I3 : indexed d h3).
      { intros j. destruct (I1 j) as (A & EA & FA). exists A. split; [|exact FA].
        assert (Lt : (d_lines (built s0 s1 k 0) j < k + 4)%nat) by (destruct j; cbn [built d_lines two]; lia).
        change (d_lines d j) with (d_lines (built s0 s1 k 0) j).
        rewrite O3, O2 by lia. exact EA. }
      assert (Wf : well_formed false 0 0 (lines s0) (lines s1) es).
      { apply (align_wf 0 0 _ _ es Al false [] []); try reflexivity. discriminate. }
      unfold small in Hs. unfold len in Hs.
      pose proof (PrintEditList_mem d h3 I3) as Pr. cbn [d built d_str two] in Pr. fold d in Pr.
      unfold lines in *.
      specialize (Pr ltac:(lia) ltac:(lia) es false 0 0 ltac:(lia) ltac:(lia) Wf).
      rewrite (hbind_ok _ _ _ _ _ Pr). cbn [d built d_diag d_lines d_vec two].
      assert (Live : forall b, (k <= b < k + 4)%nat -> h_blk h3 b <> None).
      { intros b Hb. rewrite O3, O2 by lia.
        destruct (I1 false) as (A & EA & _), (I1 true) as (A' & EA' & _).
        destruct H0 as (A'' & EA'' & _), H1 as (A3 & EA3 & _). cbn [built d_lines two] in EA, EA'.
        assert (Cb : b = k \/ b = (k + 1)%nat \/ b = (k + 2)%nat \/ b = (k + 3)%nat) by lia.
        destruct Cb as [->|[->|[->| ->]]]; congruence. }
      destruct (hdelete_ok (k + 4)%nat h3) as (h4 & M4 & N4 & Z4 & O4); [congruence|].
      rewrite (hbind_ok _ _ _ _ _ M4).
      destruct (hdelete_ok k h4) as (h5 & M5 & N5 & Z5 & O5); [rewrite O4 by lia; apply Live; lia|].
      rewrite (hbind_ok _ _ _ _ _ M5).
      destruct (hdelete_ok (k + 1)%nat h5) as (h6 & M6 & N6 & Z6 & O6); [rewrite O5, O4 by lia; apply Live; lia|].
      rewrite (hbind_ok _ _ _ _ _ M6).
      destruct (hdelete_ok (k + 2)%nat h6) as (h7 & M7 & N7 & Z7 & O7); [rewrite O6, O5, O4 by lia; apply Live; lia|].
      rewrite (hbind_ok _ _ _ _ _ M7).
      destruct (hdelete_ok (k + 3)%nat h7) as (h8 & M8 & N8 & Z8 & O8); [rewrite O7, O6, O5, O4 by lia; apply Live; lia|].
      rewrite (hbind_ok _ _ _ _ _ M8). exists h8. split; [reflexivity|].
      intros b. destruct (Nat.lt_ge_cases b k).
      * rewrite O8, O7, O6, O5, O4, O3, O2, O1 by lia. reflexivity.
      * rewrite (Hfresh b) by lia.
        destruct (Nat.eq_dec b (k + 3)) as [->|]; [exact Z8|]. rewrite O8 by lia.
        destruct (Nat.eq_dec b (k + 2)) as [->|]; [exact Z7|]. rewrite O7 by lia.
        destruct (Nat.eq_dec b (k + 1)) as [->|]; [exact Z6|]. rewrite O6 by lia.
        destruct (Nat.eq_dec b k) as [->|]; [exact Z5|]. rewrite O5 by lia.
        destruct (Nat.eq_dec b (k + 4)) as [->|]; [exact Z4|]. rewrite O4 by lia.
        rewrite O3, O2, O1 by lia. apply Hfresh; lia.
  - rewrite E. pose proof (E asserts (Some f)) as E'. unfold Diff in E'.
    destruct (BuildLines_spec sc s0 s1) as [(v0 & v1 & EB & R)|[EB _]].
    + exfalso. destruct R as (L0 & L1 & A & HA & Q0 & Q1).
      destruct (edits_ok v0 v1 (lines s0) (lines s1)) as (es & E1 & _); auto.
      rewrite EB in E'. cbn [bind] in E'. rewrite E1 in E'. discriminate.
    + rewrite EB in B. destruct B as (h' & M). exists h'. apply hbind_ub. exact M.
Qed.

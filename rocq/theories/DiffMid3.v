(** The middle point search: where it stops, and that it stops. *)
From Verif Require Import Base Str Dec DiffModel DiffMid DiffMid2.
Local Open Scope Z_scope.
Ltac Zify.zify_post_hook ::= Z.div_mod_to_equations.

Ltac hl := first [lia | unfold hid in *; lia].

Section Mid.
Variables (xv yv : list Z) (xb xe yb ye : Z).
Hypothesis Hx : 0 <= xb < xe.
Hypothesis Hy : 0 <= yb < ye.
Notation X := (at_ xv).
Notation Y := (at_ yv).
Hypothesis nobegin : hid (X xb <> Y yb).
Hypothesis noend : hid (X (xe - 1) <> Y (ye - 1)).

Notation dmin := (xb - ye).
Notation dmax := (xe - yb).
Notation fmid := (xb - yb).
Notation bmid := (xe - ye).
Notation N := (xe - xb).
Notation M := (ye - yb).
Notation fsn := (fsn xv yv xe ye).
Notation bsn := (bsn xv yv xb yb).
Notation fok := (fok xb xe yb ye).
Notation bok := (bok xb xe yb ye).
Notation fmn := (fmn xb yb ye).
Notation fmx := (fmx xb xe yb).
Notation bmn := (bmn xb xe ye).
Notation bmx := (bmx xe yb ye).
Notation bsent := (bsent xb xe yb ye).
Notation bprocd := (bprocd xb xe yb ye).
Notation procd := (procd xb xe yb ye).

(** No detection so far, odd case. *)
Definition nd_odd (L : Z) (F : Z -> Z) : Prop :=
  1 <= L -> forall k, cong k (fmx (L - 1)) -> fmn (L - 1) <= k <= fmx (L - 1) ->
    Z.abs (k - bmid) <= L - 2 -> dmin + 1 <= k <= dmax - 1 -> F k < xe /\ F k < ye + k.
(** No detection so far, even case. *)
Definition nd_even (L : Z) (B : Z -> Z) : Prop :=
  1 <= L -> forall k, cong k (bmid + L - 1) -> bmn (L - 1) <= k <= bmx (L - 1) -> fmn L <= k <= fmx L ->
    Z.abs (k - fmid) <= L - 1 -> (cong k (fmx (L - 1)) \/ fmid - N <= k) -> xb < B k /\ yb + k < B k.

(** The backward frontier is real around its centre. *)
Lemma b_real L B : 1 <= L -> bok L B -> forall k,
  (cong k (bmid + L - 1) /\ Z.abs (k - bmid) <= L - 1 \/ cong k (bmid + L) /\ Z.abs (k - bmid) <= L - 2) ->
  dmin + 1 <= k <= dmax - 1 -> B k <= xe /\ B k <= ye + k /\ 2 * B k - k <= xe + ye - (L - 2).
Proof.
  intros HL H k Hc Hk.
  assert (B k <= xe /\ 2 * B k - k <= xe + ye - (L - 2)) as [A1 A2].
  { destruct Hc as [[C1 C2]|[C1 C2]].
    - pose proof (bd _ _ _ _ _ _ H HL k C1) as Q.
      pose proof (bmn_spec xb xe ye Hx (L - 1) ltac:(hl)) as Sn.
      pose proof (bmx_spec xe yb ye Hy (L - 1) ltac:(hl)) as Sx.
      hl.
    - apply (be _ _ _ _ _ _ H HL k C1 C2 Hk). }
  pose proof (ba _ _ _ _ _ _ H k). hl.
Qed.

Lemma odd_box L F B j x :
  0 <= L -> cong fmid (bmid + 1) -> fok L F -> bok L B -> nd_odd L F ->
  procd L j -> fsn j (fstart F j) x -> fhit true B (bmn L) (bmx L) j x ->
  (forall i, j < i <= fmx L -> cong i (fmx L) -> exists x', fsn i (fstart F i) x' /\ ~ fhit true B (bmn L) (bmx L) i x') ->
  2 <= L /\ xb <= x <= xe /\ yb <= x - j <= ye /\ ~ (x = xb /\ x - j = yb) /\ ~ (x = xe /\ x - j = ye).
Proof.
  intros HL Hodd HF HB ND [P1 P2] (S1 & S2 & S3 & S4) (_ & Hr & Hle) Hno.
  destruct (f_pre xb xe yb ye Hx Hy L F HL HF j P1 P2) as [Q1 Q2].
  pose proof (hid_intro _ (bmn_spec xb xe ye Hx L HL)) as Sn. pose proof (hid_intro _ (bmx_spec xe yb ye Hy L HL)) as Sx.
  apply hid_intro in S2. apply hid_intro in S4.
  assert (HL2 : 2 <= L).
  { destruct (Z.eq_dec L 0) as [E|E].
    { exfalso. subst L. assert (j = fmid) by (unfold fmn, fmx in P1; hl).
      assert (j = bmid) by hl. clear - H H0 Hodd. unfold cong in Hodd. hl. }
    destruct (Z.eq_dec L 1) as [E1|E1]; [|hl]. exfalso. subst L.
    assert (Hj1 : j = fmid + 1 \/ j = fmid - 1).
    { unfold fmn, fmx in P1, P2. rewrite !Z.min_l in P1 by hl. rewrite Z.min_l in P2 by hl.
      clear - P1 P2. unfold cong in P2. hl. }
    assert (Hjb : j = bmid).
    { clear - Hr Sn Sx Hodd Hj1 Hx Hy. destruct Sn as (_ & _ & _ & Sn & _), Sx as (_ & _ & _ & Sx & _).
      rewrite Sn, Sx in Hr by hl. unfold cong in Hodd. hl. }
    rewrite Hjb in Hle at 1. rewrite (b1 _ _ _ _ _ _ HB) in Hle by hl.
    assert (Hxs : x = fstart F j).
    { destruct (Z.eq_dec x (fstart F j)) as [|Hne]; [assumption|]. exfalso. apply noend.
      assert (x = xe) by hl. specialize (S3 (xe - 1)).
      replace (xe - 1 - j) with (ye - 1) in S3 by hl. apply S3. hl. }
    rewrite fstart_max in Hxs.
    pose proof (f1 _ _ _ _ _ _ HF ltac:(hl)) as HF1.
    destruct Hj1 as [Hj1|Hj1].
    - rewrite Hj1 in Hxs. replace (fmid + 1 - 1) with fmid in Hxs by hl. rewrite HF1 in Hxs.
      rewrite (f_out xb xe yb ye Hx Hy 1 F ltac:(hl) HF (fmid + 1 + 1)) in Hxs by (unfold fmx; hl). hl.
    - rewrite Hj1 in Hxs. replace (fmid - 1 + 1) with fmid in Hxs by hl. rewrite HF1 in Hxs.
      rewrite (f_out xb xe yb ye Hx Hy 1 F ltac:(hl) HF (fmid - 1 - 1)) in Hxs by (unfold fmn; hl). hl. }
  assert (Hfx : fmx L <= dmax) by (unfold fmx; hl).
  assert (Hfn : dmin <= fmn L) by (unfold fmn; hl).
  assert (Hpar : hid (L <= N -> cong j (fmid + L) /\ fmx L = fmid + L /\ fmx (L - 1) = fmid + L - 1)).
  { intros Hle'. unfold fmx in *. rewrite !Z.min_l in * by hl. repeat split; [exact P2|hl]. }
  assert (Hpar' : hid (N < L -> fmx L = dmax /\ fmx (L - 1) = dmax)).
  { intros Hlt. unfold fmx. hl. }
  assert (Hreal : forall k, xb <= F k -> fmn (L - 1) <= k <= fmx (L - 1)).
  { intros k Hk. pose proof (fb _ _ _ _ _ _ HF ltac:(hl) k). hl. }
  assert (HB' := b_real L B ltac:(hl) HB).
  assert (Hbox : fstart F j <= xe /\ fstart F j <= ye + j /\ (j = bmid -> fstart F j < xe)).
  { destruct (Z_lt_ge_dec j bmid) as [Cj|Cj].
    - (* below the centre of the backward search *)
      assert (fstart F j <= ye + j); [|hl].
      destruct (Z_le_gt_dec (fstart F j) (ye + j)) as [|Hgt]; [assumption|exfalso].
      assert (Hf : ye + j + 1 <= F (j + 1)).
      { rewrite fstart_max in Hgt. pose proof (fpl _ _ _ _ _ _ HF j ltac:(hl)). hl. }
      destruct (Z_le_gt_dec (j + 2) (dmax - 1)) as [Cd|Cd].
      + assert (Hin : j + 2 <= fmx L).
        { destruct (Z.eq_dec j (fmx L)) as [E|E].
          - pose proof (f_out xb xe yb ye Hx Hy L F HL HF (j + 1) ltac:(hl)). unfold fmx in E. hl.
          - clear - E P1 P2. unfold cong in P2. hl. }
        destruct (Hno (j + 2) ltac:(hl)) as (x' & (T1 & _) & T2).
        { clear - P2. unfold cong in *. hl. }
        apply T2. rewrite fstart_max in T1. replace (j + 2 - 1) with (j + 1) in T1 by hl.
        destruct (HB' (j + 2)) as (R1 & R2 & _); [| hl | ].
        * clear - Cj Hr Sn HL2 P2. destruct Sn as (_ & _ & Sn & _).
          assert (cong j (bmid + L - 1) \/ cong j (bmid + L)) as [C|C] by (unfold cong; hl).
          -- left. split; [unfold cong in *; hl|hl].
          -- right. split; [unfold cong in *; hl|]. unfold cong in C. hl.
        * split; [reflexivity|]. split; [|hl]. split; [hl|].
          clear - Cd Cj HL2 Sx. destruct Sx as (_ & _ & _ & Sx1 & Sx2). hl.
      + assert (M = 1 /\ j = bmid - 1) as [EM Ej] by hl.
        assert (HN2 : 2 <= N). { clear - Hodd EM Hx. unfold cong in Hodd. hl. }
        replace (j + 1) with bmid in Hf by hl.
        pose proof (Hreal bmid ltac:(hl)) as Rb.
        destruct (Z_le_gt_dec L N) as [Cn|Cn].
        * destruct (Hpar Cn) as (Pj & _ & Pm).
          destruct (ND ltac:(hl) bmid) as [? ?]; [|exact Rb|hl|hl|hl].
          rewrite Pm. clear - Pj Ej. unfold cong in *. hl.
        * destruct (Hpar' ltac:(hl)) as (Pm & Pm').
          assert (Cj' : cong j (fmx (L - 1))) by (rewrite Pm'; rewrite <- Pm; exact P2).
          assert (Rj : fmn (L - 1) <= j <= fmx (L - 1)) by (unfold fmn, fmx; hl).
          pose proof (ff _ _ _ _ _ _ HF ltac:(hl) j Cj' Rj) as [G1 _].
          replace (j + 1) with bmid in G1 by hl.
          destruct (ND ltac:(hl) j) as [? ?]; [exact Cj'|exact Rj| | |hl].
          -- clear - Ej HL2 HN2 Cn. hl.
          -- hl.
    - destruct (Z.eq_dec j bmid) as [Ej|Ej].
      + (* on the centre *)
        assert (fstart F j < xe); [|hl].
        destruct (Z_lt_ge_dec (fstart F j) xe) as [|Hge]; [assumption|exfalso].
        rewrite fstart_max in Hge. rewrite Ej in Hge.
        destruct (Z_le_gt_dec L N) as [Cn|Cn].
        * destruct (Hpar Cn) as (Pj & _ & Pm).
          assert (3 <= L). { clear - Pj Ej Hodd HL2. unfold cong in *. hl. }
          destruct (Z_le_gt_dec xe (F (bmid + 1))) as [C1|C1].
          -- destruct (Z.eq_dec M 1) as [EM|EM].
             ++ rewrite (fb _ _ _ _ _ _ HF ltac:(hl) (bmid + 1)) in C1; [hl|]. rewrite Pm. hl.
             ++ destruct (ND ltac:(hl) (bmid + 1)) as [? ?]; [|apply Hreal; hl|hl|hl|hl].
                rewrite Pm. clear - Pj Ej. unfold cong in *. hl.
          -- destruct (ND ltac:(hl) (bmid - 1)) as [? ?]; [|apply Hreal; hl|hl|hl|hl].
             rewrite Pm. clear - Pj Ej. unfold cong in *. hl.
        * destruct (Hpar' ltac:(hl)) as (Pm & Pm').
          assert (Cj' : cong bmid (fmx (L - 1))) by (rewrite Pm'; rewrite <- Pm; rewrite <- Ej; exact P2).
          assert (Rj : fmn (L - 1) <= bmid <= fmx (L - 1)).
          { split; [|hl]. destruct (Z_le_gt_dec (fmn (L - 1)) bmid) as [|Cf]; [assumption|exfalso].
            rewrite (fb _ _ _ _ _ _ HF ltac:(hl) (bmid - 1)) in Hge by hl.
            assert (Hr1 : xb <= F (bmid + 1)) by hl.
            pose proof (fe _ _ _ _ _ _ HF ltac:(hl) (bmid + 1) (cong_not_succ _ _ Cj') Hr1) as G.
            rewrite Pm' in G. unfold fmn in Cf. hl. }
          pose proof (ff _ _ _ _ _ _ HF ltac:(hl) bmid Cj' Rj) as [G1 G2].
          destruct (ND ltac:(hl) bmid) as [? ?]; [exact Cj'|exact Rj|hl|hl|hl].
      + (* above the centre *)
        assert (fstart F j <= xe); [|hl].
        destruct (Z_le_gt_dec (fstart F j) xe) as [|Hgt]; [assumption|exfalso].
        assert (Hf : xe <= F (j - 1)).
        { rewrite fstart_max in Hgt. pose proof (fpr _ _ _ _ _ _ HF j ltac:(hl)). hl. }
        pose proof (Hreal (j - 1) ltac:(hl)) as Rj1.
        destruct (Z_le_gt_dec L N) as [Cn|Cn].
        * destruct (Hpar Cn) as (Pj & _ & Pm).
          destruct (ND ltac:(hl) (j - 1)) as [? ?]; [|exact Rj1| |hl|hl].
          -- rewrite Pm. clear - Pj. unfold cong in *. hl.
          -- assert (j <= bmid + L - 1); [|hl]. destruct Sx as (_ & _ & Sx & _).
             clear - Pj Hodd Hr Sx. unfold cong in *. hl.
        * destruct (Hpar' ltac:(hl)) as (Pm & Pm').
          assert (Cj' : cong (j - 2) (fmx (L - 1))).
          { rewrite Pm'. rewrite Pm in P2. clear - P2. unfold cong in *. hl. }
          assert (Hns : fmid - N < j - 1).
          { pose proof (fe _ _ _ _ _ _ HF ltac:(hl) (j - 1)) as G. rewrite Pm' in G.
            assert (~ cong (j - 1) dmax). { rewrite Pm' in Cj'. clear - Cj'. unfold cong in *. hl. }
            specialize (G H ltac:(hl)). hl. }
          assert (Rj : fmn (L - 1) <= j - 2 <= fmx (L - 1)).
          { split; [|hl]. unfold fmn. hl. }
          pose proof (ff _ _ _ _ _ _ HF ltac:(hl) (j - 2) Cj' Rj) as [G1 _].
          replace (j - 2 + 1) with (j - 1) in G1 by hl.
          assert (HMN : N = 1 -> 2 <= M). { clear - Hodd Hy. unfold cong in Hodd. hl. }
          assert (Hdx : j = dmax -> M <= L).
          { intros ->. destruct Sx as (_ & _ & _ & Sx & _). hl. }
          assert (Hj1 : N = 1 -> j = dmax).
          { intros EN. rewrite Pm in P2. clear - P2 Hns P1 Hfx EN. unfold cong in P2. hl. }
          destruct (ND ltac:(hl) (j - 2)) as [? ?]; [exact Cj'|exact Rj| | |hl].
          -- destruct Sx as (_ & _ & Sx & _). hl.
          -- hl. }
  split; [exact HL2|].
  unfold hid in S2.
  assert (Hx1 : xb <= x <= xe) by (clear - Hbox S2 S1 Q1 Q2; lia).
  assert (Hy1 : yb <= x - j <= ye) by (clear - Hbox S2 S1 Q1 Q2; lia).
  split; [exact Hx1|]. split; [exact Hy1|]. split.
  - intros [E1 E2]. assert (Ej : j = fmid) by hl. rewrite Ej in *. rewrite fstart_max in *.
    pose proof (fd _ _ _ _ _ _ HF ltac:(hl) (fmid + 1) ltac:(hl) ltac:(hl) ltac:(hl)) as R.
    pose proof (fa _ _ _ _ _ _ HF (fmid + 1)). hl.
  - intros [E1 E2]. assert (Ej : j = bmid) by hl.
    apply noend. specialize (S3 (xe - 1)). replace (xe - 1 - j) with (ye - 1) in S3 by hl. apply S3. hl.
Qed.

Lemma even_box L F B j x :
  0 <= L -> (1 < L -> 2 < N + M) -> cong fmid bmid -> fok (L + 1) F -> bok L B -> nd_even L B ->
  bprocd L j -> bsn j (bstart (bsent L B) j) x -> bhit false F (fmn (L + 1)) (fmx (L + 1)) j x ->
  (forall i, j < i <= bmx L -> cong i (bmx L) ->
     exists x', bsn i (bstart (bsent L B) i) x' /\ ~ bhit false F (fmn (L + 1)) (fmx (L + 1)) i x') ->
  1 <= L /\ xb <= x <= xe /\ yb <= x - j <= ye /\ ~ (x = xb /\ x - j = yb) /\ ~ (x = xe /\ x - j = ye).
Proof.
  intros HL H11 Heven HF HB ND P (S1 & S2 & S3 & S4) (_ & Hr & Hle) Hno.
  destruct (b_pre xb xe yb ye Hx Hy L B HL H11 HB j P) as [Q1 Q2].
  pose proof (hid_intro _ (bmn_spec xb xe ye Hx L HL)) as Sn. pose proof (hid_intro _ (bmx_spec xe yb ye Hy L HL)) as Sx.
  apply hid_intro in S2. apply hid_intro in S4.
  assert (HL1 : 1 <= L).
  { destruct (Z.eq_dec L 0) as [E|E]; [|hl]. exfalso. subst L.
    assert (Ej : j = bmid) by (destruct P as [P _]; hl).
    assert (Ejf : j = fmid).
    { clear - Heven Hr Ej Hx Hy. unfold fmn, fmx in Hr. rewrite !Z.min_l in Hr by hl. unfold cong in Heven. hl. }
    rewrite Ejf in Hle. rewrite (f1 _ _ _ _ _ _ HF) in Hle by hl.
    assert (Hbs : bstart (bsent 0 B) j = xe).
    { rewrite bstart_min. rewrite !(b_out xb xe yb ye Hx Hy 0 B ltac:(hl) HB) by hl. hl. }
    rewrite Hbs in *.
    apply noend. specialize (S3 (xe - 1)). replace (xe - 1 - j) with (ye - 1) in S3 by hl. apply S3. hl. }
  pose proof (hid_intro _ (bmn_spec xb xe ye Hx (L - 1) ltac:(hl))) as Sn1.
  pose proof (hid_intro _ (bmx_spec xe yb ye Hy (L - 1) ltac:(hl))) as Sx1.
  destruct P as [P1 P2].
  assert (Pj : cong j (bmid + L)) by (apply (cong_trans _ (bmx L)); [exact P2|exact (proj1 (proj2 Sx))]).
  assert (Hjr : dmin <= j <= dmax) by (destruct Sn as [Sn _], Sx as [Sx _]; lia).
  apply hid_intro in H11.
  assert (Hg := fun k => bsent_ge xb xe yb ye L B k HB).
  assert (Hrange : forall k, cong k (bmid + L - 1) -> B k <= xe -> bmn (L - 1) <= k <= bmx (L - 1)).
  { intros k Hk Hb. pose proof (bb _ _ _ _ _ _ HB k) as Q.
    assert (Hin : Z.abs (k - bmid) <= L - 1 /\ dmin <= k <= dmax) by hl.
    clear - Hin Hk Sn1 Sx1. destruct Sn1 as (_ & C1 & _ & A1 & A2), Sx1 as (_ & C2 & _ & A3 & A4).
    unfold cong in *. hl. }
  assert (Hbox : xb <= bstart (bsent L B) j /\ yb + j <= bstart (bsent L B) j /\ (j = fmid -> xb < bstart (bsent L B) j)).
  { rewrite bstart_min. pose proof (Hg (j - 1)) as G1. pose proof (Hg (j + 1)) as G2.
    destruct (Z_lt_ge_dec j fmid) as [Cj|Cj].
    - cut (xb <= Z.min (bsent L B (j - 1)) (bsent L B (j + 1) - 1)); [hl|].
      destruct (Z_le_gt_dec xb (Z.min (bsent L B (j - 1)) (bsent L B (j + 1) - 1))) as [|Hgt]; [assumption|exfalso].
      destruct (bsent_ok xb xe yb ye Hx Hy L B HL HB) as (_ & _ & PL).
      pose proof (PL j Cj) as Pb.
      assert (Hb : bsent L B (j + 1) <= xb) by hl.
      assert (Hin : j + 2 <= bmx L).
      { destruct (Z_le_gt_dec (bmx L) j) as [C|C].
        - rewrite (b_out xb xe yb ye Hx Hy L B HL HB) in Hb by hl. hl.
        - clear - C P2. unfold cong in P2. hl. }
      assert (Hj0 : fmid - L <= j).
      { assert (cong j (fmid + L)) by (clear - Pj Heven; unfold cong in *; hl).
        unfold fmn in Hr. clear - H Hr. unfold cong in H. hl. }
      assert (Hd : cong j (fmx L) \/ fmid - N <= j + 2 \/ (~ cong j (fmx L) /\ j + 2 < fmid - N)).
      { unfold cong. hl. }
      assert (Hd' : (cong (j + 2) (fmx L) \/ fmid - N <= j + 2) \/ (~ cong j (fmx L) /\ j + 2 < fmid - N)).
      { destruct Hd as [Hd|[Hd|Hd]]; [left; left|left; right|right]; try assumption.
        clear - Hd. unfold cong in *. hl. }
      clear Hd. destruct Hd' as [Hd|[Hd1 Hd2]].
      + destruct (Hno (j + 2) ltac:(hl)) as (x' & (T1 & _) & T2).
        { clear - P2. unfold cong in *. hl. }
        apply T2. rewrite bstart_min in T1. replace (j + 2 - 1) with (j + 1) in T1 by hl.
        pose proof (fd _ _ _ _ _ _ HF ltac:(hl) (j + 2)) as R. replace (L + 1 - 1) with L in R by hl.
        split; [reflexivity|]. split; [unfold fmx; unfold fmn in *; hl|].
        cut (xb <= F (j + 2)); [hl|]. apply R; [unfold fmn in Hr; hl| hl | exact Hd].
      + assert (HLN : N < L).
        { destruct (Z_lt_ge_dec N L); [assumption|]. exfalso. apply Hd1. unfold fmx. rewrite Z.min_l by hl.
          clear - Pj Heven. unfold cong in *. hl. }
        assert (Hb' : B (j + 1) <= xb) by hl.
        destruct (ND HL1 (j + 1)) as [? ?]; [| | | | |hl].
        * clear - Pj. unfold cong in *. hl.
        * apply Hrange; [|hl]. clear - Pj. unfold cong in *. hl.
        * unfold fmn, fmx in *. hl.
        * hl.
        * left. unfold fmx in *. rewrite Z.min_r in Hd1 by lia. rewrite Z.min_r by lia. clear - Hd1. unfold cong in *. hl.
    - destruct (Z.eq_dec j fmid) as [Ej|Ej].
      + cut (xb < Z.min (bsent L B (j - 1)) (bsent L B (j + 1) - 1)); [hl|].
        assert (2 <= L). { clear - Pj Ej Heven HL1. unfold cong in *. hl. }
        assert (A1 : xb < B (j - 1)).
        { destruct (Z_lt_ge_dec xb (B (j - 1))) as [|C]; [assumption|exfalso].
          destruct (ND HL1 (j - 1)) as [? ?]; [| | | | |hl].
          - clear - Pj. unfold cong in *. hl.
          - apply Hrange; [|hl]. clear - Pj. unfold cong in *. hl.
          - unfold fmn, fmx in *. hl.
          - hl.
          - right. hl. }
        assert (A2 : xb + 1 < B (j + 1)).
        { destruct (Z_lt_ge_dec (xb + 1) (B (j + 1))) as [|C]; [assumption|exfalso].
          destruct (ND HL1 (j + 1)) as [? ?]; [| | | | |hl].
          - clear - Pj. unfold cong in *. hl.
          - apply Hrange; [|hl]. clear - Pj. unfold cong in *. hl.
          - unfold fmn, fmx in *. hl.
          - hl.
          - right. hl. }
        hl.
      + cut (yb + j <= Z.min (bsent L B (j - 1)) (bsent L B (j + 1) - 1)); [hl|].
        destruct (Z_le_gt_dec (yb + j) (Z.min (bsent L B (j - 1)) (bsent L B (j + 1) - 1))) as [|Hgt]; [assumption|exfalso].
        assert (Hb : B (j - 1) <= yb + j - 1).
        { pose proof (bpr _ _ _ _ _ _ HB j ltac:(hl)). hl. }
        destruct (ND HL1 (j - 1)) as [? ?]; [| | | | |hl].
        * clear - Pj. unfold cong in *. hl.
        * apply Hrange; [|hl]. clear - Pj. unfold cong in *. hl.
        * unfold fmn, fmx in *. hl.
        * assert (cong j (fmid + L)) by (clear - Pj Heven; unfold cong in *; hl).
          unfold fmx in Hr. clear - H Hr Ej Cj. unfold cong in H. hl.
        * right. hl. }
  split; [exact HL1|].
  unfold hid in S2.
  assert (Hx1 : xb <= x <= xe) by (clear - Hbox S2 S1 Q1 Q2; lia).
  assert (Hy1 : yb <= x - j <= ye) by (clear - Hbox S2 S1 Q1 Q2; lia).
  split; [exact Hx1|]. split; [exact Hy1|]. split.
  - intros [E1 E2]. assert (Ej : j = fmid) by hl.
    apply nobegin. specialize (S3 xb). replace (xb - j) with yb in S3 by hl. apply S3. hl.
  - intros [E1 E2]. pose proof (b_input xb xe yb ye Hx Hy L B HL1 H11 HB j (conj P1 P2)). hl.
Qed.
End Mid.

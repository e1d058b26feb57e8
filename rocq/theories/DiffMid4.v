(** The middle point search is total and gives a usable middle point. *)
From Verif Require Import Base Str Dec DiffModel DiffMid DiffMid2 DiffMid3.
Local Open Scope Z_scope.
Ltac Zify.zify_post_hook ::= Z.div_mod_to_equations.

Section Mid.
Variables (n : Z) (xv yv : list Z) (xb xe yb ye : Z).
Hypothesis Hx : 0 <= xb < xe.
Hypothesis Hxl : xe <= Z.of_nat (length xv).
Hypothesis Hy : 0 <= yb < ye.
Hypothesis Hyl : ye <= Z.of_nat (length yv).
Hypothesis Hn : 2 * ((xe - xb) + (ye - yb)) + 6 <= n.
Notation X := (at_ xv).
Notation Y := (at_ yv).
Hypothesis nobegin : hid (X xb <> Y yb).
Hypothesis noend : hid (X (xe - 1) <> Y (ye - 1)).

Notation dmin := (xb - ye).
Notation dmax := (xe - yb).
Notation fmid := (xb - yb).
Notation bmid := (xe - ye).
Notation fo := (- dmin + 1).
Notation bo := ((dmax - dmin + 3) - dmin + 1).
Notation N := (xe - xb).
Notation M := (ye - yb).
Notation fok := (fok xb xe yb ye).
Notation bok := (bok xb xe yb ye).
Notation fmn := (fmn xb yb ye).
Notation fmx := (fmx xb xe yb).
Notation bmn := (bmn xb xe ye).
Notation bmx := (bmx xe yb ye).
Notation bsent := (bsent xb xe yb ye).
Notation bprocd := (bprocd xb xe yb ye).
Notation procd := (procd xb xe yb ye).
Notation agf := (agf xb ye).
Notation agb := (agb xb xe yb ye).
Notation nd_odd := (nd_odd xb xe yb ye).
Notation nd_even := (nd_even xb xe yb ye).

Definition good_mid (p : partition) : Prop :=
  let '(xm, ym, len) := p in
  xb <= xm <= xe /\ yb <= ym <= ye /\ ~ (xm = xb /\ ym = yb) /\ ~ (xm = xe /\ ym = ye) /\
  (exists L, 2 <= L <= 2 * (N + M + 2) /\ len = u32 L) /\
  (~ (xm < xe /\ ym < ye /\ X xm = Y ym) \/ ~ (xb < xm /\ yb < ym /\ X (xm - 1) = Y (ym - 1))).

Lemma fmn_next L : 0 <= L -> (if dmin <? fmn L then fmn L - 1 else fmn L) = fmn (L + 1).
Proof. intros H. unfold DiffMid2.fmn. destruct (Z.ltb_spec dmin (fmid - Z.min L M)); lia. Qed.
Lemma fmx_next L : 0 <= L -> (if fmx L <? dmax then fmx L + 1 else fmx L) = fmx (L + 1).
Proof. intros H. unfold DiffMid2.fmx. destruct (Z.ltb_spec (fmid + Z.min L N) dmax); lia. Qed.
Lemma bmn_next L : 0 <= L -> (if dmin <? bmn L then bmn L - 1 else bmn L + 1) = bmn (L + 1).
Proof.
  intros H. unfold DiffMid2.bmn.
  destruct (Z.leb_spec L N), (Z.leb_spec (L + 1) N); try lia;
    match goal with |- context [?a <? ?b] => destruct (Z.ltb_spec a b) end; lia.
Qed.
Lemma bmx_next L : 0 <= L -> (if bmx L <? dmax then bmx L + 1 else bmx L - 1) = bmx (L + 1).
Proof.
  intros H. unfold DiffMid2.bmx.
  destruct (Z.leb_spec L M), (Z.leb_spec (L + 1) M); try lia;
    match goal with |- context [?a <? ?b] => destruct (Z.ltb_spec a b) end; lia.
Qed.

Lemma mloop_ok odd : odd = Z.odd (fmid - bmid) ->
  forall fuel L D F B,
  0 <= L <= N + M + 2 -> N + M + 3 - L <= Z.of_nat fuel ->
  hid (1 < L -> 2 < N + M) ->
  fok L F -> bok L B ->
  (odd = true -> nd_odd L F) -> (odd = false -> nd_even L B) ->
  agf D F (fmn L) (fmx L) -> agb D B (bmn L) (bmx L) ->
  exists p D', mloop fuel n fo bo xv yv xb xe yb ye dmin dmax odd L (fmn L) (fmx L) (bmn L) (bmx L) D = Ok (p, D')
    /\ good_mid p.
Proof.
  intros Hodd. induction fuel as [|f IH]; intros L D F B HL Hf H11 HF HB NDo NDe AF AB; [lia|].
  cbn [mloop].
  assert (Rn : dmin <= fmn L <= fmid) by (unfold DiffMid2.fmn; lia).
  assert (Rx : fmid <= fmx L <= dmax) by (unfold DiffMid2.fmx; lia).
  assert (Sn := hid_intro _ (bmn_spec xb xe ye Hx L (proj1 HL))).
  assert (Sx := hid_intro _ (bmx_spec xe yb ye Hy L (proj1 HL))).
  assert (Rbn : dmin <= bmn L <= bmid) by (exact (proj1 Sn)).
  assert (Rbx : bmid <= bmx L <= dmax) by (exact (proj1 Sx)).
  destruct (Z.leb_spec dmin (fmn L)); [|lia].
  rewrite wra_in by lia. cbn [bind].
  destruct (Z.leb_spec (fmx L) dmax); [|lia].
  rewrite wra_in by lia. cbn [bind].
  set (D1 := upd (upd D (fo + (fmn L - 1)) (xb - 1)) (fo + (fmx L + 1)) (xb - 1)).
  assert (AF1 : agf D1 F (fmn L - 1) (fmx L + 1)).
  { intros k Hk. unfold D1.
    destruct (Z.eq_dec k (fmx L + 1)) as [->|N1].
    { rewrite upd_same. f_equal. symmetry. apply (f_out xb xe yb ye Hx Hy L F); [lia|assumption|lia]. }
    rewrite upd_other by lia.
    destruct (Z.eq_dec k (fmn L - 1)) as [->|N2].
    { rewrite upd_same. f_equal. symmetry. apply (f_out xb xe yb ye Hx Hy L F); [lia|assumption|lia]. }
    rewrite upd_other by lia. apply AF. lia. }
  assert (AB1 : agb D1 B (bmn L) (bmx L)).
  { intros k Hk. unfold D1. rewrite !upd_other by lia. apply AB. exact Hk. }
  destruct (floop_ok n xv yv xb xe yb ye Hx Hxl Hy Hyl Hn odd (fmn L) (fmx L) (bmn L) (bmx L) L B
              ltac:(lia) ltac:(lia) ltac:(lia) ltac:(lia)
              (S (Z.to_nat (fmx L - fmn L + 1))) (fmx L) D1 F
              ltac:(lia) ltac:(lia) ltac:(lia) AF1 (fun _ => AB1)) as (D2 & E2 & Hres).
  { intros j Hj Hc. apply (f_pre xb xe yb ye Hx Hy L F); [lia|assumption|lia|assumption]. }
  assert (Hodd' : if odd then cong fmid (bmid + 1) else cong fmid bmid).
  { rewrite Hodd. pose proof (Zmod_odd (fmid - bmid)) as Q. unfold cong.
    destruct (Z.odd (fmid - bmid)); clear - Q; lia. }
  destruct Hres as [(F' & R1 & AF2 & R3 & R4)|(j & x & R1 & R2 & R3 & R4 & R5 & R6)].
  2:{ (* forward detection *)
      rewrite R1. cbn [bind]. do 2 eexists. split; [reflexivity|].
      assert (Ho : odd = true) by (destruct R5; assumption). rewrite Ho in *.
      destruct (odd_box xv yv xb xe yb ye Hx Hy noend L F B j x) as (B1 & B2 & B3 & B4 & B5);
        auto; try lia.
      { split; assumption. }
      unfold good_mid. split; [lia|]. split; [lia|]. split; [exact B4|]. split; [exact B5|].
      split; [exists (2 * L - 1); split; [lia|reflexivity]|].
      left. intros (T1 & T2 & T3). destruct R4 as (_ & _ & _ & S4). apply S4. repeat split; [lia|lia|exact T3]. }
  rewrite R1. cbn [bind].
  assert (HF' : fok (L + 1) F').
  { apply (fok_step xv yv xb xe yb ye Hx Hy nobegin L F F'); [lia|assumption|].
    split; [exact R3|]. intros j Hj Hc. apply R4; assumption. }
  rewrite fmn_next, fmx_next by lia.
  assert (Rn' : fmn L - 1 <= fmn (L + 1) /\ dmin <= fmn (L + 1) <= fmid) by (unfold DiffMid2.fmn; lia).
  assert (Rx' : fmx (L + 1) <= fmx L + 1 /\ fmid <= fmx (L + 1) <= dmax) by (unfold DiffMid2.fmx; lia).
  destruct (Z.leb_spec dmin (bmn L)); [|lia].
  rewrite wra_in by lia. cbn [bind].
  destruct (Z.leb_spec (bmx L) dmax); [|lia].
  rewrite wra_in by lia. cbn [bind].
  set (D3 := upd (upd D2 (bo + (bmn L - 1)) (xe + 1)) (bo + (bmx L + 1)) (xe + 1)).
  assert (AF3 : agf D3 F' (fmn (L + 1)) (fmx (L + 1))).
  { intros k Hk. unfold D3. rewrite !upd_other by lia. apply AF2. lia. }
  assert (AB3 : agb D3 (bsent L B) (bmn L - 1) (bmx L + 1)).
  { intros k Hk. unfold D3.
    destruct (bsent_cases xb xe yb ye L B k) as [[E C]|(E & C1 & C2)]; rewrite E.
    - destruct (Z.eq_dec k (bmx L + 1)) as [->|N1]; [apply upd_same|].
      rewrite upd_other by lia. destruct C as [C|C]; [lia|]. rewrite C. apply upd_same.
    - rewrite !upd_other by lia. rewrite E2 by lia. apply AB1. lia. }
  destruct (bloop_ok n xv yv xb xe yb ye Hx Hxl Hy Hyl Hn odd (bmn L) (bmx L) (fmn (L + 1)) (fmx (L + 1)) L F'
              ltac:(lia) ltac:(lia) ltac:(lia) ltac:(lia)
              (S (Z.to_nat (bmx L - bmn L + 1))) (bmx L) D3 (bsent L B)
              ltac:(lia) ltac:(lia) ltac:(lia) AB3 (fun _ => AF3)) as (D4 & E4 & _ & Hres).
  { intros j Hj Hc. apply (b_pre xb xe yb ye Hx Hy L B); [lia|exact H11|assumption|split; assumption]. }
  destruct Hres as [(B' & T1 & AB4 & T3 & T4)|(j & x & T1 & T2 & T3 & T4 & T5 & T6)].
  2:{ (* backward detection *)
      rewrite T1. cbn [bind]. do 2 eexists. split; [reflexivity|].
      assert (Ho : odd = false) by (destruct T5; assumption). rewrite Ho in *.
      destruct (even_box xv yv xb xe yb ye Hx Hy nobegin noend L F' B j x) as (B1 & B2 & B3 & B4 & B5);
        auto; try lia.
      { split; assumption. }
      unfold good_mid. split; [lia|]. split; [lia|]. split; [exact B4|]. split; [exact B5|].
      split; [exists (2 * L); split; [lia|reflexivity]|].
      right. intros (U1 & U2 & U3). destruct T4 as (_ & _ & _ & S4). apply S4.
      replace (x - j - 1) with (x - 1 - j) in U3 by lia. repeat split; [lia|lia|exact U3]. }
  rewrite T1. cbn [bind].
  destruct (Z.ltb_spec (fmn (L + 1)) dmin); [lia|].
  destruct (Z.ltb_spec dmax (fmx (L + 1))); [lia|].
  rewrite bmn_next, bmx_next by lia.
  assert (HB' : bok (L + 1) B').
  { apply (bok_step xv yv xb xe yb ye Hx Hy noend L B B'); [lia|exact H11|assumption|].
    split.
    - intros j Hj. apply T3. exact Hj.
    - intros j [Hj1 Hj2]. apply T4; assumption. }
  assert (NDo' : odd = true -> nd_odd (L + 1) F').
  { intros Ho _ k Hc Hk Ha Hd. replace (L + 1 - 1) with L in * by lia.
    replace (L + 1 - 2) with (L - 1) in Ha by lia.
    destruct (R4 k Hk Hc) as (_ & Hno).
    destruct (Z.eq_dec L 0) as [->|HL0]; [exfalso; lia|].
    destruct (b_real xb xe yb ye Hx Hy L B ltac:(lia) HB k) as (Q1 & Q2 & _); [|exact Hd|].
    { (* parity *)
      rewrite Ho in Hodd'.
      destruct (Z_le_gt_dec (Z.abs (k - bmid)) (L - 2)) as [l|l].
      - assert (cong k (bmid + L - 1) \/ cong k (bmid + L)) as [C|C] by (clear; unfold cong; lia).
        + left. split; [exact C|lia].
        + right. split; [exact C|exact l].
      - assert (l' : Z.abs (k - bmid) = L - 1) by lia. left. split; [|lia].
        clear - l'. unfold cong. lia. }
    assert (Hin : bmn L <= k <= bmx L).
    { clear - Ha Hd Sn Sx. destruct Sn as (_ & _ & _ & S1 & S2), Sx as (_ & _ & _ & S3 & S4). lia. }
    assert (F' k < B k); [|lia].
    destruct (Z_lt_ge_dec (F' k) (B k)) as [|C]; [assumption|]. exfalso. apply Hno.
    split; [exact Ho|]. split; [exact Hin|lia]. }
  assert (NDe' : odd = false -> nd_even (L + 1) B').
  { intros Ho _ k Hc Hk Hfk Ha Hr. replace (L + 1 - 1) with L in * by lia.
    assert (Hck : cong k (bmx L)).
    { apply (cong_two _ _ (bmid + L)); [|exact (proj1 (proj2 Sx))]. clear - Hc. unfold cong in *. lia. }
    destruct (T4 k Hk Hck) as (_ & Hno).
    pose proof (fd _ _ _ _ _ _ HF' ltac:(lia) k) as R. replace (L + 1 - 1) with L in R by lia.
    specialize (R ltac:(lia) Ha Hr).
    pose proof (fa _ _ _ _ _ _ HF' k) as R'.
    assert (F' k < B' k); [|lia].
    destruct (Z_lt_ge_dec (F' k) (B' k)) as [|C]; [assumption|]. exfalso. apply Hno.
    split; [exact Ho|]. split; [exact Hfk|lia]. }
  assert (H11' : hid (1 < L + 1 -> 2 < N + M)).
  { intros HL1. destruct (Z_lt_ge_dec 2 (N + M)) as [|C]; [assumption|]. exfalso.
    assert (EN : N = 1) by lia. assert (EM : M = 1) by lia.
    assert (Ho : odd = false).
    { destruct odd; [|reflexivity]. exfalso. clear - Hodd' EN EM. unfold cong in Hodd'. lia. }
    assert (EL : L = 1). { unfold hid in H11. clear - H11 HL1 HL EN EM. lia. }
    clear Sn Sx. subst L.
    assert (Sn := bmn_spec xb xe ye Hx 1 ltac:(lia)). assert (Sx := bmx_spec xe yb ye Hy 1 ltac:(lia)).
    destruct Sn as (_ & _ & _ & Sn & _), Sx as (_ & _ & _ & Sx & _).
    specialize (Sn ltac:(lia)). specialize (Sx ltac:(lia)).
    assert (Cc : cong (fmid + 1) (bmid + (1 + 1) - 1)) by (clear - EN EM; unfold cong; lia).
    assert (Ck : bmn (1 + 1 - 1) <= fmid + 1 <= bmx (1 + 1 - 1)) by (replace (1 + 1 - 1) with 1 by lia; lia).
    destruct (NDe' Ho ltac:(lia) (fmid + 1)) as [C1 C2]; [exact Cc|exact Ck| |lia|right; lia|].
    - unfold DiffMid2.fmn, DiffMid2.fmx. lia.
    - destruct (bd _ _ _ _ _ _ HB' ltac:(lia) (fmid + 1) Cc Ck). lia. }
  destruct (Z.eq_dec L (N + M + 2)) as [EL|EL].
  - (* the search cannot last that long *)
    exfalso. destruct odd.
    + assert (Efx : fmx L = dmax) by (unfold DiffMid2.fmx; lia).
      assert (Hnm : 3 <= N + M) by (clear - Hodd' Hx Hy; unfold cong in Hodd'; lia).
      assert (Pk : procd L (dmax - 2)).
      { split; [unfold DiffMid2.fmn, DiffMid2.fmx; lia|]. rewrite Efx. clear. unfold cong. lia. }
      destruct (R4 _ (proj1 Pk) (proj2 Pk)) as (S & Hno).
      destruct (f_pre xb xe yb ye Hx Hy L F ltac:(lia) HF _ (proj1 Pk) (proj2 Pk)) as [Q1 Q2].
      destruct S as (S & _).
      destruct (b_real xb xe yb ye Hx Hy L B ltac:(lia) HB (dmax - 2)) as (_ & _ & Q3); [|lia|].
      { assert (cong (dmax - 2) (bmid + L - 1) \/ cong (dmax - 2) (bmid + L)) as [C|C] by (clear; unfold cong; lia).
        - left. split; [exact C|lia].
        - right. split; [exact C|lia]. }
      apply Hno. split; [reflexivity|]. split.
      * clear - Sn Sx EL Hx Hy Hnm. destruct Sn as (_ & _ & _ & _ & S2), Sx as (_ & _ & _ & _ & S4). lia.
      * lia.
    + assert (Pk : bprocd L fmid).
      { split.
        - clear - Sn Sx EL Hx Hy. destruct Sn as (_ & _ & _ & _ & S2), Sx as (_ & _ & _ & _ & S4). lia.
        - apply (cong_two _ _ (bmid + L)); [|exact (proj1 (proj2 Sx))].
          clear - Hodd' EL. unfold cong in *. lia. }
      destruct (T4 _ (proj1 Pk) (proj2 Pk)) as ((S & _) & Hno).
      pose proof (b_input xb xe yb ye Hx Hy L B ltac:(lia) H11 HB fmid Pk) as Q.
      pose proof (fd _ _ _ _ _ _ HF' ltac:(lia) fmid ltac:(lia) ltac:(lia) ltac:(right; lia)) as R.
      apply Hno. split; [reflexivity|]. split; [lia|lia].
  - apply (IH (L + 1) D4 F' B'); auto; try lia.
    + intros k Hk. rewrite E4 by lia. apply AF3. exact Hk.
    + intros k Hk. apply AB4.
      rewrite <- bmn_next, <- bmx_next in Hk by lia.
      destruct (dmin <? bmn L), (bmx L <? dmax); lia.
Qed.

Lemma FindEditMidPoint_ok D : exists p D',
  FindEditMidPoint n xv yv xb xe yb ye D = Ok (p, D') /\ good_mid p.
Proof.
  unfold FindEditMidPoint.
  rewrite wra_in by lia. cbn [bind]. rewrite wra_in by lia. cbn [bind].
  assert (E1 : fmn 0 = fmid) by (unfold DiffMid2.fmn; lia).
  assert (E2 : fmx 0 = fmid) by (unfold DiffMid2.fmx; lia).
  assert (E3 : bmn 0 = bmid) by (unfold DiffMid2.bmn; destruct (Z.leb_spec 0 N); lia).
  assert (E4 : bmx 0 = bmid) by (unfold DiffMid2.bmx; destruct (Z.leb_spec 0 M); lia).
  pose proof (mloop_ok (Z.odd (fmid - bmid)) eq_refl (Z.to_nat (N + M + 3)) 0
    (upd (upd D (fo + fmid) xb) (bo + bmid) xe) (F0 xb yb) (B0 xe ye)) as H.
  rewrite E1, E2, E3, E4 in H.
  apply H; clear H; try lia.
  - intros ?; lia.
  - apply fok0; assumption.
  - apply bok0; assumption.
  - intros _ ?; lia.
  - intros _ ?; lia.
  - intros k Hk. assert (k = fmid) by lia. subst k. rewrite upd_other by lia. rewrite upd_same.
    unfold F0. rewrite Z.eqb_refl. reflexivity.
  - intros k Hk. assert (k = bmid) by lia. subst k. rewrite upd_same.
    unfold B0. rewrite Z.eqb_refl. reflexivity.
Qed.
End Mid.

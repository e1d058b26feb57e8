(** The middle point search: loops related to ghost functions. *)
From Verif Require Import Base Str Dec DiffModel.
Local Open Scope Z_scope.
Ltac Zify.zify_post_hook ::= Z.div_mod_to_equations.

Definition at_ (v : list Z) (i : Z) : Z := nth (Z.to_nat i) v 0.

Lemma vread_in oob v i : 0 <= i < Z.of_nat (length v) -> vread oob v i = Ok (at_ v i).
Proof.
  intros H. unfold vread, at_.
  destruct (Z.leb_spec 0 i), (Z.ltb_spec i (Z.of_nat (length v))); simpl; try lia. reflexivity.
Qed.

Lemma rda_in n A i v : 0 <= i < n -> A i = Some v -> rda n A i = Ok v.
Proof.
  intros H E. unfold rda.
  destruct (Z.leb_spec 0 i), (Z.ltb_spec i n); simpl; try lia. rewrite E; reflexivity.
Qed.
Lemma wra_in n A i v : 0 <= i < n -> wra n A i v = Ok (upd A i v).
Proof.
  intros H. unfold wra.
  destruct (Z.leb_spec 0 i), (Z.ltb_spec i n); simpl; try lia. reflexivity.
Qed.
Lemma upd_same A i v : upd A i v i = Some v.
Proof. unfold upd. rewrite Z.eqb_refl. reflexivity. Qed.
Lemma upd_other A i v j : j <> i -> upd A i v j = A j.
Proof. intros H. unfold upd. destruct (Z.eqb_spec j i); [contradiction|reflexivity]. Qed.

Definition gset (F : Z -> Z) (i v : Z) : Z -> Z := fun j => if j =? i then v else F j.
Lemma gset_same F i v : gset F i v i = v.
Proof. unfold gset. rewrite Z.eqb_refl. reflexivity. Qed.
Lemma gset_other F i v j : j <> i -> gset F i v j = F j.
Proof. intros H. unfold gset. destruct (Z.eqb_spec j i); [contradiction|reflexivity]. Qed.

Definition fstart (F : Z -> Z) (k : Z) : Z := if F (k - 1) <? F (k + 1) then F (k + 1) else F (k - 1) + 1.
Definition bstart (B : Z -> Z) (k : Z) : Z := if B (k + 1) <=? B (k - 1) then B (k + 1) - 1 else B (k - 1).

Lemma fstart_max F k : fstart F k = Z.max (F (k - 1) + 1) (F (k + 1)).
Proof. unfold fstart. destruct (Z.ltb_spec (F (k - 1)) (F (k + 1))); lia. Qed.
Lemma bstart_min B k : bstart B k = Z.min (B (k - 1)) (B (k + 1) - 1).
Proof. unfold bstart. destruct (Z.leb_spec (B (k + 1)) (B (k - 1))); lia. Qed.

(** A wrapper that keeps facts out of the sight of [lia]. *)
Definition hid (P : Prop) : Prop := P.
Lemma hid_intro (P : Prop) : P -> hid P.
Proof. exact (fun p => p). Qed.

Definition cong (a b : Z) : Prop := (a - b) mod 2 = 0.

Section Mid.
Variables (n : Z) (xv yv : list Z) (xb xe yb ye : Z).
Hypothesis Hx : 0 <= xb < xe.
Hypothesis Hxl : xe <= Z.of_nat (length xv).
Hypothesis Hy : 0 <= yb < ye.
Hypothesis Hyl : ye <= Z.of_nat (length yv).
Hypothesis Hn : 2 * ((xe - xb) + (ye - yb)) + 6 <= n.

Notation X := (at_ xv).
Notation Y := (at_ yv).
Notation dmin := (xb - ye).
Notation dmax := (xe - yb).
Notation fmid := (xb - yb).
Notation bmid := (xe - ye).
Notation fo := (- dmin + 1).
Notation bo := ((dmax - dmin + 3) - dmin + 1).

(** A forward snake on diagonal [k] from [x0] to [x]. *)
Definition fsn (k x0 x : Z) : Prop :=
  x0 <= x /\ (x0 < x -> x <= xe /\ x <= ye + k) /\
  (forall i, x0 <= i < x -> X i = Y (i - k)) /\ ~ (x < xe /\ x < ye + k /\ X x = Y (x - k)).
Definition bsn (k x0 x : Z) : Prop :=
  x <= x0 /\ (x < x0 -> xb <= x /\ yb + k <= x) /\
  (forall i, x <= i < x0 -> X i = Y (i - k)) /\ ~ (xb < x /\ yb + k < x /\ X (x - 1) = Y (x - 1 - k)).

Lemma fsnake_ok k : forall fuel x, xb <= x -> yb + k <= x -> xe - x < Z.of_nat fuel -> (0 < fuel)%nat ->
  exists x', fsnake fuel xv yv xe ye x (x - k) = Ok (x', x' - k) /\ fsn k x x'.
Proof.
  induction fuel as [|f IH]; intros x H1 H2 H3 H4; [lia|].
  cbn [fsnake].
  destruct (Z.ltb_spec x xe); cbn [andb].
  2:{ exists x. split; [reflexivity|]. unfold fsn. repeat split; intros; lia. }
  destruct (Z.ltb_spec (x - k) ye); cbn [andb].
  2:{ exists x. split; [reflexivity|]. unfold fsn. repeat split; intros; lia. }
  rewrite !vread_in by lia. cbn [bind].
  destruct (Z.eqb_spec (X x) (Y (x - k))).
  - destruct (IH (x + 1)) as (x' & E & (S1 & S2 & S3 & S4)); try lia.
    replace (x - k + 1) with (x + 1 - k) by lia. rewrite E.
    exists x'. split; [reflexivity|]. unfold fsn.
    split; [lia|]. split; [destruct (Z.eq_dec x' (x + 1)); [lia|lia]|].
    split; [|exact S4].
    intros i Hi. destruct (Z.eq_dec i x); [subst; assumption|apply S3; lia].
  - exists x. split; [reflexivity|]. unfold fsn. repeat split; intros; try lia; tauto.
Qed.

Lemma bsnake_ok k : forall fuel x, x <= xe -> x <= ye + k -> x - xb < Z.of_nat fuel -> (0 < fuel)%nat ->
  exists x', bsnake fuel xv yv xb yb x (x - k) = Ok (x', x' - k) /\ bsn k x x'.
Proof.
  induction fuel as [|f IH]; intros x H1 H2 H3 H4; [lia|].
  cbn [bsnake].
  destruct (Z.ltb_spec xb x); cbn [andb].
  2:{ exists x. split; [reflexivity|]. unfold bsn. repeat split; intros; lia. }
  destruct (Z.ltb_spec yb (x - k)); cbn [andb].
  2:{ exists x. split; [reflexivity|]. unfold bsn. repeat split; intros; lia. }
  rewrite !vread_in by lia. cbn [bind].
  replace (x - k - 1) with (x - 1 - k) by lia.
  destruct (Z.eqb_spec (X (x - 1)) (Y (x - 1 - k))).
  - destruct (IH (x - 1)) as (x' & E & (S1 & S2 & S3 & S4)); try lia.
    rewrite E.
    exists x'. split; [reflexivity|]. unfold bsn.
    split; [lia|]. split; [destruct (Z.eq_dec x' (x - 1)); lia|].
    split; [|exact S4].
    intros i Hi. destruct (Z.eq_dec i (x - 1)); [subst; assumption|apply S3; lia].
  - exists x. split; [reflexivity|]. unfold bsn. repeat split; intros; try lia; tauto.
Qed.

Definition agf (D : arr) (F : Z -> Z) (lo hi : Z) : Prop := forall k, lo <= k <= hi -> D (fo + k) = Some (F k).
Definition agb (D : arr) (B : Z -> Z) (lo hi : Z) : Prop := forall k, lo <= k <= hi -> D (bo + k) = Some (B k).

(** The detection test of the forward loop. *)
Definition fhit (odd : bool) (B : Z -> Z) (bmin bmax k x : Z) : Prop :=
  odd = true /\ bmin <= k <= bmax /\ B k <= x.
Definition bhit (odd : bool) (F : Z -> Z) (fmin fmax k x : Z) : Prop :=
  odd = false /\ fmin <= k <= fmax /\ x <= F k.

Lemma floop_ok odd fmin fmax bmin bmax len B :
  dmin <= fmin -> fmax <= dmax -> dmin - 1 <= bmin -> bmax <= dmax + 1 ->
  forall fuel k D F,
  k <= fmax -> k - fmin + 1 < Z.of_nat fuel -> (0 < fuel)%nat ->
  agf D F (fmin - 1) (fmax + 1) ->
  (odd = true -> agb D B bmin bmax) ->
  (forall j, fmin <= j <= k -> cong j k -> xb <= fstart F j /\ yb + j <= fstart F j) ->
  exists D',
    (forall j, dmin - 1 <= j -> D' (bo + j) = D (bo + j)) /\
    ((exists F',
        floop fuel n fo bo xv yv xe ye odd fmin bmin bmax len k D = Ok (D', None) /\
        agf D' F' (fmin - 1) (fmax + 1) /\
        (forall j, ~ (fmin <= j <= k /\ cong j k) -> F' j = F j) /\
        (forall j, fmin <= j <= k -> cong j k -> fsn j (fstart F j) (F' j) /\ ~ fhit odd B bmin bmax j (F' j)))
     \/
     (exists j x,
        floop fuel n fo bo xv yv xe ye odd fmin bmin bmax len k D = Ok (D', Some (x, x - j, u32 (2 * len - 1))) /\
        fmin <= j <= k /\ cong j k /\ fsn j (fstart F j) x /\ fhit odd B bmin bmax j x /\
        (forall i, j < i <= k -> cong i k -> exists x', fsn i (fstart F i) x' /\ ~ fhit odd B bmin bmax i x'))).
Proof.
  intros Hf1 Hf2 Hb1 Hb2.
  induction fuel as [|f IH]; intros k D F Hk Hfuel H0 HF HB HP; [lia|].
  cbn [floop].
  destruct (Z.ltb_spec k fmin).
  { exists D. split; [auto|]. left. exists F.
    split; [reflexivity|]. split; [exact HF|]. split; [auto|]. intros; lia. }
  rewrite (rda_in n D (fo + (k - 1)) (F (k - 1))) by (try apply HF; lia).
  rewrite (rda_in n D (fo + (k + 1)) (F (k + 1))) by (try apply HF; lia).
  cbn [bind]. change (if F (k - 1) <? F (k + 1) then F (k + 1) else F (k - 1) + 1) with (fstart F k).
  destruct (HP k) as [P1 P2]; [lia|unfold cong; lia|].
  destruct (fsnake_ok k (S (Z.to_nat (xe - fstart F k))) (fstart F k)) as (x & E & Sx); [lia|lia|lia|lia|].
  rewrite E. cbn [bind]. rewrite wra_in by lia. cbn [bind].
  set (D1 := upd D (fo + k) x).
  assert (HB1 : forall j, dmin - 1 <= j -> D1 (bo + j) = D (bo + j)).
  { intros j Hj. unfold D1. apply upd_other. lia. }
  assert (HF1 : agf D1 (gset F k x) (fmin - 1) (fmax + 1)).
  { intros j Hj. unfold D1. destruct (Z.eq_dec j k) as [->|Hne].
    - rewrite upd_same, gset_same. reflexivity.
    - rewrite upd_other, gset_other by lia. apply HF; exact Hj. }
  assert (Hfs : forall j, cong j k -> fstart (gset F k x) j = fstart F j).
  { intros j Hj. unfold fstart, cong in *. rewrite !gset_other by lia. reflexivity. }
  (* the continuation *)
  assert (Hcont : ~ fhit odd B bmin bmax k x ->
    exists D',
    (forall j, dmin - 1 <= j -> D' (bo + j) = D (bo + j)) /\
    ((exists F',
        floop f n fo bo xv yv xe ye odd fmin bmin bmax len (k - 2) D1 = Ok (D', None) /\
        agf D' F' (fmin - 1) (fmax + 1) /\
        (forall j, ~ (fmin <= j <= k /\ cong j k) -> F' j = F j) /\
        (forall j, fmin <= j <= k -> cong j k -> fsn j (fstart F j) (F' j) /\ ~ fhit odd B bmin bmax j (F' j)))
     \/
     (exists j x,
        floop f n fo bo xv yv xe ye odd fmin bmin bmax len (k - 2) D1 = Ok (D', Some (x, x - j, u32 (2 * len - 1))) /\
        fmin <= j <= k /\ cong j k /\ fsn j (fstart F j) x /\ fhit odd B bmin bmax j x /\
        (forall i, j < i <= k -> cong i k -> exists x', fsn i (fstart F i) x' /\ ~ fhit odd B bmin bmax i x')))).
  { intros Hno.
    destruct (IH (k - 2) D1 (gset F k x)) as (D' & HD' & Hres); try lia; auto.
    { intros Ho j Hj. rewrite HB1 by lia. apply HB; auto. }
    { intros j Hj Hc. rewrite Hfs by (unfold cong in *; lia). apply HP; [lia|unfold cong in *; lia]. }
    exists D'. split; [intros j Hj; rewrite HD' by lia; apply HB1; lia|].
    destruct Hres as [(F' & R1 & R2 & R3 & R4)|(j & x' & R1 & R2 & R3 & R4 & R5 & R6)].
    - left. exists F'. split; [exact R1|]. split; [exact R2|]. split.
      + intros j Hj. rewrite R3 by (unfold cong in *; lia). apply gset_other.
        intros ->. apply Hj. unfold cong; lia.
      + intros j Hj Hc. destruct (Z.eq_dec j k) as [->|Hne].
        * rewrite R3 by (unfold cong in *; lia). rewrite gset_same. auto.
        * destruct (R4 j) as [R5 R6]; [unfold cong in *; lia..|]. rewrite Hfs in R5 by exact Hc. auto.
    - right. exists j, x'. split; [exact R1|]. split; [lia|]. split; [unfold cong in *; lia|].
      rewrite Hfs in R4 by (unfold cong in *; lia). split; [exact R4|]. split; [exact R5|].
      intros i Hi Hc. destruct (Z.eq_dec i k) as [->|Hne]; [exists x; auto|].
      destruct (R6 i) as (x'' & Q1 & Q2); [unfold cong in *; lia..|].
      rewrite Hfs in Q1 by exact Hc. exists x''; auto. }
  destruct odd; cbn [andb].
  - destruct (Z.leb_spec bmin k); cbn [andb].
    2:{ apply Hcont. unfold fhit. lia. }
    destruct (Z.leb_spec k bmax); cbn [andb].
    2:{ apply Hcont. unfold fhit. lia. }
    rewrite (rda_in n D1 (bo + k) (B k)); [|lia|rewrite HB1 by lia; apply HB; auto].
    cbn [bind]. destruct (Z.leb_spec (B k) x).
    + exists D1. split; [exact HB1|]. right. exists k, x.
      split; [reflexivity|]. split; [lia|]. split; [unfold cong; lia|]. split; [exact Sx|].
      split; [unfold fhit; lia|]. intros; lia.
    + apply Hcont. unfold fhit. lia.
  - apply Hcont. unfold fhit. intros [? _]; discriminate.
Qed.

Lemma bloop_ok odd bmin bmax fmin fmax len F :
  dmin <= bmin -> bmax <= dmax -> dmin - 1 <= fmin -> fmax <= dmax + 1 ->
  forall fuel k D B,
  k <= bmax -> k - bmin + 1 < Z.of_nat fuel -> (0 < fuel)%nat ->
  agb D B (bmin - 1) (bmax + 1) ->
  (odd = false -> agf D F fmin fmax) ->
  (forall j, bmin <= j <= k -> cong j k -> bstart B j <= xe /\ bstart B j <= ye + j) ->
  exists D',
    (forall j, j <= dmax + 1 -> D' (fo + j) = D (fo + j)) /\
    (forall j, j < bmin - 1 \/ bmax + 1 < j -> D' (bo + j) = D (bo + j)) /\
    ((exists B',
        bloop fuel n fo bo xv yv xb yb odd bmin fmin fmax len k D = Ok (D', None) /\
        agb D' B' (bmin - 1) (bmax + 1) /\
        (forall j, ~ (bmin <= j <= k /\ cong j k) -> B' j = B j) /\
        (forall j, bmin <= j <= k -> cong j k -> bsn j (bstart B j) (B' j) /\ ~ bhit odd F fmin fmax j (B' j)))
     \/
     (exists j x,
        bloop fuel n fo bo xv yv xb yb odd bmin fmin fmax len k D = Ok (D', Some (x, x - j, u32 (2 * len))) /\
        bmin <= j <= k /\ cong j k /\ bsn j (bstart B j) x /\ bhit odd F fmin fmax j x /\
        (forall i, j < i <= k -> cong i k -> exists x', bsn i (bstart B i) x' /\ ~ bhit odd F fmin fmax i x'))).
Proof.
  intros Hf1 Hf2 Hb1 Hb2.
  induction fuel as [|f IH]; intros k D B Hk Hfuel H0 HF HB HP; [lia|].
  cbn [bloop].
  destruct (Z.ltb_spec k bmin).
  { exists D. split; [auto|]. split; [auto|]. left. exists B.
    split; [reflexivity|]. split; [exact HF|]. split; [auto|]. intros; lia. }
  rewrite (rda_in n D (bo + (k - 1)) (B (k - 1))) by (try apply HF; lia).
  rewrite (rda_in n D (bo + (k + 1)) (B (k + 1))) by (try apply HF; lia).
  cbn [bind]. change (if B (k + 1) <=? B (k - 1) then B (k + 1) - 1 else B (k - 1)) with (bstart B k).
  destruct (HP k) as [P1 P2]; [lia|unfold cong; lia|].
  destruct (bsnake_ok k (S (Z.to_nat (bstart B k - xb))) (bstart B k)) as (x & E & Sx); [lia|lia|lia|lia|].
  rewrite E. cbn [bind]. rewrite wra_in by lia. cbn [bind].
  set (D1 := upd D (bo + k) x).
  assert (HB1 : forall j, j <= dmax + 1 -> D1 (fo + j) = D (fo + j)).
  { intros j Hj. unfold D1. apply upd_other. lia. }
  assert (HB2 : forall j, j < bmin - 1 \/ bmax + 1 < j -> D1 (bo + j) = D (bo + j)).
  { intros j Hj. unfold D1. apply upd_other. lia. }
  assert (HF1 : agb D1 (gset B k x) (bmin - 1) (bmax + 1)).
  { intros j Hj. unfold D1. destruct (Z.eq_dec j k) as [->|Hne].
    - rewrite upd_same, gset_same. reflexivity.
    - rewrite upd_other, gset_other by lia. apply HF; exact Hj. }
  assert (Hfs : forall j, cong j k -> bstart (gset B k x) j = bstart B j).
  { intros j Hj. unfold bstart, cong in *. rewrite !gset_other by lia. reflexivity. }
  assert (Hcont : ~ bhit odd F fmin fmax k x ->
    exists D',
    (forall j, j <= dmax + 1 -> D' (fo + j) = D (fo + j)) /\
    (forall j, j < bmin - 1 \/ bmax + 1 < j -> D' (bo + j) = D (bo + j)) /\
    ((exists B',
        bloop f n fo bo xv yv xb yb odd bmin fmin fmax len (k - 2) D1 = Ok (D', None) /\
        agb D' B' (bmin - 1) (bmax + 1) /\
        (forall j, ~ (bmin <= j <= k /\ cong j k) -> B' j = B j) /\
        (forall j, bmin <= j <= k -> cong j k -> bsn j (bstart B j) (B' j) /\ ~ bhit odd F fmin fmax j (B' j)))
     \/
     (exists j x,
        bloop f n fo bo xv yv xb yb odd bmin fmin fmax len (k - 2) D1 = Ok (D', Some (x, x - j, u32 (2 * len))) /\
        bmin <= j <= k /\ cong j k /\ bsn j (bstart B j) x /\ bhit odd F fmin fmax j x /\
        (forall i, j < i <= k -> cong i k -> exists x', bsn i (bstart B i) x' /\ ~ bhit odd F fmin fmax i x')))).
  { intros Hno.
    destruct (IH (k - 2) D1 (gset B k x)) as (D' & HD' & HD'' & Hres); try lia; auto.
    { intros Ho j Hj. rewrite HB1 by lia. apply HB; auto. }
    { intros j Hj Hc. rewrite Hfs by (unfold cong in *; lia). apply HP; [lia|unfold cong in *; lia]. }
    exists D'. split; [intros j Hj; rewrite HD' by lia; apply HB1; lia|].
    split; [intros j Hj; rewrite HD'' by lia; apply HB2; lia|].
    destruct Hres as [(F' & R1 & R2 & R3 & R4)|(j & x' & R1 & R2 & R3 & R4 & R5 & R6)].
    - left. exists F'. split; [exact R1|]. split; [exact R2|]. split.
      + intros j Hj. rewrite R3 by (unfold cong in *; lia). apply gset_other.
        intros ->. apply Hj. unfold cong; lia.
      + intros j Hj Hc. destruct (Z.eq_dec j k) as [->|Hne].
        * rewrite R3 by (unfold cong in *; lia). rewrite gset_same. auto.
        * destruct (R4 j) as [R5 R6]; [unfold cong in *; lia..|]. rewrite Hfs in R5 by exact Hc. auto.
    - right. exists j, x'. split; [exact R1|]. split; [lia|]. split; [unfold cong in *; lia|].
      rewrite Hfs in R4 by (unfold cong in *; lia). split; [exact R4|]. split; [exact R5|].
      intros i Hi Hc. destruct (Z.eq_dec i k) as [->|Hne]; [exists x; auto|].
      destruct (R6 i) as (x'' & Q1 & Q2); [unfold cong in *; lia..|].
      rewrite Hfs in Q1 by exact Hc. exists x''; auto. }
  destruct odd; cbn [andb negb].
  - apply Hcont. unfold bhit. intros [? _]; discriminate.
  - destruct (Z.leb_spec fmin k); cbn [andb].
    2:{ apply Hcont. unfold bhit. lia. }
    destruct (Z.leb_spec k fmax); cbn [andb].
    2:{ apply Hcont. unfold bhit. lia. }
    rewrite (rda_in n D1 (fo + k) (F k)); [|lia|rewrite HB1 by lia; apply HB; auto].
    cbn [bind]. destruct (Z.leb_spec x (F k)).
    + exists D1. split; [exact HB1|]. split; [exact HB2|]. right. exists k, x.
      split; [reflexivity|]. split; [lia|]. split; [unfold cong; lia|]. split; [exact Sx|].
      split; [unfold bhit; lia|]. intros; lia.
    + apply Hcont. unfold bhit. lia.
Qed.
End Mid.

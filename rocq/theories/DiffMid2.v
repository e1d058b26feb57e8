(** The middle point search: invariants of the two frontiers. *)
From Verif Require Import Base Str Dec DiffModel DiffMid.
Local Open Scope Z_scope.
Ltac Zify.zify_post_hook ::= Z.div_mod_to_equations.

Lemma cong_up k a : cong (k - 1) a -> cong (k + 1) a.
Proof. unfold cong. lia. Qed.
Lemma cong_dn k a : cong (k + 1) a -> cong (k - 1) a.
Proof. unfold cong. lia. Qed.
Lemma cong_two a b c : cong a c -> cong b c -> cong a b.
Proof. unfold cong. lia. Qed.
Lemma cong_trans a b c : cong a b -> cong b c -> cong a c.
Proof. unfold cong. lia. Qed.
Lemma cong_sym a b : cong a b -> cong b a.
Proof. unfold cong. lia. Qed.
Lemma cong_refl a : cong a a.
Proof. unfold cong. lia. Qed.
Lemma cong_not_succ a b : cong a b -> ~ cong (a + 1) b.
Proof. unfold cong. lia. Qed.

Section Mid.
Variables (xv yv : list Z) (xb xe yb ye : Z).
Hypothesis Hx : 0 <= xb < xe.
Hypothesis Hy : 0 <= yb < ye.
Notation X := (at_ xv).
Notation Y := (at_ yv).
Hypothesis nobegin : hid (X xb <> Y yb).
Hypothesis noend : hid (X (xe - 1) <> Y (ye - 1)).

Notation dmin := (xb - ye).
Notation dmax := (xe - yb).
Notation fmid := (xb - yb).
Notation bmid := (xe - ye).
Notation N := (xe - xb).
Notation M := (ye - yb).
Notation fsn := (fsn xv yv xe ye).
Notation bsn := (bsn xv yv xb yb).

(** Bounds of the forward range in round [L]. *)
Definition fmn (L : Z) : Z := fmid - Z.min L M.
Definition fmx (L : Z) : Z := fmid + Z.min L N.
(** Bounds of the backward range in round [L]. *)
Definition bmn (L : Z) : Z := if L <=? N then bmid - L else dmin + (L - N) mod 2.
Definition bmx (L : Z) : Z := if L <=? M then bmid + L else dmax - (L - M) mod 2.

Lemma bmn_spec L : 0 <= L -> dmin <= bmn L <= bmid /\ cong (bmn L) (bmid + L) /\ bmid - L <= bmn L /\
  (L <= N -> bmn L = bmid - L) /\ (N < L -> bmn L <= dmin + 1).
Proof. intros H. unfold bmn, cong. destruct (Z.leb_spec L N); repeat split; lia. Qed.
Lemma bmx_spec L : 0 <= L -> bmid <= bmx L <= dmax /\ cong (bmx L) (bmid + L) /\ bmx L <= bmid + L /\
  (L <= M -> bmx L = bmid + L) /\ (M < L -> dmax - 1 <= bmx L).
Proof. intros H. unfold bmx, cong. destruct (Z.leb_spec L M); repeat split; lia. Qed.

(** Ghost state at the start of round [L]. *)
Record fok (L : Z) (F : Z -> Z) : Prop := mkfok {
  fa : forall k, F k = xb - 1 \/ (xb <= F k /\ yb + k <= F k);
  fpr : forall k, dmin < k -> xe + 1 <= F (k + 1) -> xe <= F (k - 1);
  fpl : forall k, dmin <= k -> ye + k - 1 < F (k - 1) -> ye + k + 1 <= F (k + 1);
  f0 : L = 0 -> forall k, k <> fmid -> F k = xb - 1;
  f1 : L = 0 \/ L = 1 -> F fmid = xb;
  fb : 1 <= L -> forall k, k < fmn (L - 1) \/ fmx (L - 1) < k -> F k = xb - 1;
  fd : 1 <= L -> forall k, dmin <= k <= dmax -> Z.abs (k - fmid) <= L - 1 ->
       (cong k (fmx (L - 1)) \/ fmid - N <= k) -> xb <= F k;
  fe : 1 <= L -> forall k, ~ cong k (fmx (L - 1)) -> xb <= F k -> fmid - (fmx (L - 1) - fmid) < k;
  ff : 1 <= L -> forall k, cong k (fmx (L - 1)) -> fmn (L - 1) <= k <= fmx (L - 1) ->
       F (k + 1) <= F k /\ F (k - 1) + 1 <= F k }.

Definition F0 : Z -> Z := fun k => if k =? fmid then xb else xb - 1.

Lemma fok0 : fok 0 F0.
Proof.
  split; intros; unfold F0 in *;
    repeat match goal with |- context [?a =? ?b] => destruct (Z.eqb_spec a b) end;
    repeat match goal with H : context [?a =? ?b] |- _ => destruct (Z.eqb_spec a b) end; try lia.
Qed.

(** Sentinels outside the current range. *)
Lemma f_out L F : 0 <= L -> fok L F -> forall k, k < fmn L \/ fmx L < k -> F k = xb - 1.
Proof.
  intros HL H k Hk. unfold fmn, fmx in Hk. destruct (Z.eq_dec L 0) as [E|E].
  - apply (f0 _ _ H E). lia.
  - apply (fb _ _ H); unfold fmn, fmx; lia.
Qed.

Lemma f_pre L F : 0 <= L -> fok L F -> forall j, fmn L <= j <= fmx L -> cong j (fmx L) ->
  xb <= fstart F j /\ yb + j <= fstart F j.
Proof.
  intros HL H j Hj Hc. rewrite fstart_max.
  pose proof (fa _ _ H (j - 1)) as A1. pose proof (fa _ _ H (j + 1)) as A2.
  destruct (Z_le_gt_dec j fmid) as [?|Hgt]; [lia|].
  destruct (Z.eq_dec L 0) as [E|E]; [unfold fmx in *; lia|].
  pose proof (fd _ _ H ltac:(lia) (j - 1)) as R. unfold fmx, fmn in *. lia.
Qed.

(** What the forward loop does to the ghost. *)
Definition fstep (L : Z) (F F' : Z -> Z) : Prop :=
  (forall j, ~ (fmn L <= j <= fmx L /\ cong j (fmx L)) -> F' j = F j) /\
  (forall j, fmn L <= j <= fmx L -> cong j (fmx L) -> fsn j (fstart F j) (F' j)).

Definition procd (L k : Z) : Prop := fmn L <= k <= fmx L /\ cong k (fmx L).
Lemma procd_dec L k : procd L k \/ ~ procd L k.
Proof. unfold procd, cong. lia. Qed.

Lemma fstep_proc L F F' : fstep L F F' -> forall k, procd L k ->
  F (k - 1) + 1 <= F' k /\ F (k + 1) <= F' k /\
  (F' k = F (k - 1) + 1 \/ F' k = F (k + 1) \/ (F' k <= xe /\ F' k <= ye + k)).
Proof.
  intros [_ H] k [P1 P2]. destruct (H k P1 P2) as (S1 & S2 & _). rewrite fstart_max in *. lia.
Qed.

Lemma fok_step L F F' : 0 <= L -> fok L F -> fstep L F F' -> fok (L + 1) F'.
Proof.
  intros HL H ST.
  assert (Hpre := f_pre L F HL H). assert (Hout := f_out L F HL H).
  assert (HP := fstep_proc L F F' ST). assert (HN := proj1 ST).
  assert (HN' : forall j, ~ procd L j -> F' j = F j) by (intros j Hj; apply HN; exact Hj).
  clear HN.
  assert (Hreal : forall k, procd L k -> xb <= F' k /\ yb + k <= F' k).
  { intros k Hk. destruct ST as [_ ST]. destruct (ST k (proj1 Hk) (proj2 Hk)) as (S1 & _).
    destruct (Hpre k (proj1 Hk) (proj2 Hk)). lia. }
  split.
  - (* fa *) intros k. destruct (procd_dec L k) as [Pk|Pk].
    + right. apply Hreal; exact Pk.
    + rewrite HN' by exact Pk. apply (fa _ _ H).
  - (* fpr *) intros k Hk Hbig. destruct (procd_dec L (k + 1)) as [P1|P1].
    + assert (Hk0 : xe <= F k).
      { destruct (HP _ P1) as (_ & _ & Hc). replace (k + 1 - 1) with k in Hc by lia.
        destruct Hc as [?|[Hc|?]]; [lia| |lia].
        pose proof (fpr _ _ H (k + 1)) as Q. replace (k + 1 - 1) with k in Q by lia.
        apply Q; lia. }
      destruct (procd_dec L (k - 1)) as [P2|P2].
      * destruct (HP _ P2) as (_ & Hc & _). replace (k - 1 + 1) with k in Hc by lia. lia.
      * (* k - 1 is below the range *)
        exfalso. unfold procd, cong in P1, P2.
        assert (k = fmn L \/ k + 1 = fmn L) as [E|E] by lia.
        2:{ rewrite Hout in Hk0 by lia. lia. }
        (* parity mismatch at the lower end *)
        destruct (Z.eq_dec L 0) as [E0|E0]; [unfold fmn, fmx in *; lia|].
        assert (Hs : F k = xb - 1); [|lia].
        apply (fb _ _ H); [lia|]. unfold fmn, fmx in *. lia.
    + rewrite HN' in Hbig by exact P1.
      assert (Hk1 : xe <= F (k - 1)) by (apply (fpr _ _ H); assumption).
      destruct (procd_dec L (k - 1)) as [P2|P2].
      * exfalso. rewrite Hout in Hbig; [lia|]. unfold procd, cong in *. lia.
      * rewrite HN' by exact P2. exact Hk1.
  - (* fpl *) intros k Hk Hbig. destruct (procd_dec L (k - 1)) as [P1|P1].
    + assert (Hk0 : ye + k <= F k).
      { destruct (HP _ P1) as (_ & _ & Hc). replace (k - 1 + 1) with k in Hc by lia.
        destruct Hc as [Hc|[?|?]]; [|lia|lia].
        pose proof (fpl _ _ H (k - 1)) as Q. replace (k - 1 + 1) with k in Q by lia.
        unfold procd, fmn in P1. lia. }
      destruct (procd_dec L (k + 1)) as [P2|P2].
      * destruct (HP _ P2) as (Hc & _ & _). replace (k + 1 - 1) with k in Hc by lia. lia.
      * exfalso. unfold procd, cong in P1, P2. assert (k = fmx L + 1) by lia.
        rewrite Hout in Hk0 by lia. unfold fmx in *. lia.
    + rewrite HN' in Hbig by exact P1.
      assert (Hk1 : ye + k + 1 <= F (k + 1)) by (apply (fpl _ _ H); assumption).
      destruct (procd_dec L (k + 1)) as [P2|P2].
      * exfalso. assert (F (k - 1) = xb - 1). { apply Hout. unfold procd, cong in *. lia. }
        (* k - 1 < fmn L *)
        assert (F (k - 1) < xb) by lia. unfold procd, cong in *. unfold fmn in *. lia.
      * rewrite HN' by exact P2. exact Hk1.
  - intros; lia.
  - (* f1 *) intros HL1. assert (L = 0) by lia. subst L.
    assert (P : procd 0 fmid) by (unfold procd, cong, fmn, fmx; lia).
    destruct ST as [_ ST]. destruct (ST fmid (proj1 P) (proj2 P)) as (S1 & S2 & S3 & _).
    rewrite fstart_max in *. rewrite (f0 _ _ H eq_refl (fmid - 1)), (f0 _ _ H eq_refl (fmid + 1)) in * by lia.
    destruct (Z_le_gt_dec (F' fmid) xb); [lia|].
    exfalso. apply nobegin. specialize (S3 xb). replace (xb - fmid) with yb in S3 by lia. apply S3. lia.
  - (* fb *) intros _ k Hk. replace (L + 1 - 1) with L in Hk by lia.
    rewrite HN' by (unfold procd; lia). apply Hout; lia.
  - (* fd *) intros _ k Hk Ha Hc. replace (L + 1 - 1) with L in * by lia.
    destruct (procd_dec L k) as [P|P]; [apply Hreal; exact P|].
    rewrite HN' by exact P.
    assert (Hnc : ~ cong k (fmx L)).
    { intros Hc'. apply P. split; [|exact Hc']. clear - Hk Ha HL Hx Hy. unfold fmn, fmx. lia. }
    destruct Hc as [Hc|Hc]; [contradiction|].
    apply (fd _ _ H); [| exact Hk | | right; exact Hc].
    + destruct (Z.eq_dec L 0) as [->|]; [|lia]. exfalso. apply Hnc.
      replace k with fmid by lia. unfold cong, fmx. rewrite Z.min_l by lia. f_equal. lia.
    + clear - Hk Ha HL Hx Hy Hnc Hc. destruct (Z_le_gt_dec L N) as [l|l].
      * unfold fmx in Hnc. rewrite Z.min_l in Hnc by exact l. unfold cong in Hnc. lia.
      * lia.
  - (* fe *) intros _ k Hc Hr. replace (L + 1 - 1) with L in * by lia.
    rewrite HN' in Hr by (unfold procd; tauto).
    destruct (Z.eq_dec L 0) as [E|E].
    + destruct (Z.eq_dec k fmid) as [->|Hne].
      * exfalso. apply Hc. unfold cong, fmx. lia.
      * rewrite (f0 _ _ H E k Hne) in Hr. lia.
    + destruct (Z_le_gt_dec L N).
      * pose proof (fb _ _ H ltac:(lia) k) as Q. unfold fmx, fmn, cong in *. lia.
      * pose proof (fe _ _ H ltac:(lia) k) as Q. unfold fmx, fmn, cong in *. lia.
  - (* ff *) intros _ k Hc Hk. replace (L + 1 - 1) with L in * by lia.
    assert (P : procd L k) by (split; assumption).
    destruct (HP k P) as (Q1 & Q2 & _).
    rewrite (HN' (k + 1)), (HN' (k - 1)) by (unfold procd, cong in *; lia). lia.
Qed.

(** ** Backward frontier *)
Record bok (L : Z) (B : Z -> Z) : Prop := mkbok {
  ba : forall k, B k = xe + 1 \/ (B k <= xe /\ B k <= ye + k);
  bpr : forall k, fmid < k <= dmax -> B (k + 1) < yb + k + 1 -> B (k - 1) <= yb + k - 1;
  bpl : forall k, k < fmid -> B (k - 1) < xb -> B (k + 1) <= xb;
  b0 : L = 0 -> forall k, k <> bmid -> B k = xe + 1;
  b1 : L = 0 \/ L = 1 -> B bmid = xe;
  bb : forall k, L - 1 < Z.abs (k - bmid) \/ k < dmin \/ dmax < k -> 1 <= L -> B k = xe + 1;
  bd : 1 <= L -> forall k, cong k (bmid + L - 1) -> bmn (L - 1) <= k <= bmx (L - 1) ->
       B k <= xe /\ 2 * B k - k <= xe + ye - (L - 1);
  be : 1 <= L -> forall k, cong k (bmid + L) -> Z.abs (k - bmid) <= L - 2 -> dmin + 1 <= k <= dmax - 1 ->
       B k <= xe /\ 2 * B k - k <= xe + ye - (L - 2) }.

Definition B0 : Z -> Z := fun k => if k =? bmid then xe else xe + 1.

Lemma bok0 : bok 0 B0.
Proof.
  split; intros; unfold B0 in *;
    repeat match goal with |- context [?a =? ?b] => destruct (Z.eqb_spec a b) end;
    repeat match goal with H : context [?a =? ?b] |- _ => destruct (Z.eqb_spec a b) end; try lia.
Qed.

(** The sentinel writes at the start of a backward pass. *)
Definition bsent (L : Z) (B : Z -> Z) : Z -> Z := gset (gset B (bmn L - 1) (xe + 1)) (bmx L + 1) (xe + 1).

Lemma bsent_at L B k : bsent L B k = if (k =? bmx L + 1) || (k =? bmn L - 1) then xe + 1 else B k.
Proof. unfold bsent, gset. destruct (k =? bmx L + 1), (k =? bmn L - 1); reflexivity. Qed.

Lemma bsent_cases L B k : (bsent L B k = xe + 1 /\ (k = bmx L + 1 \/ k = bmn L - 1)) \/
  (bsent L B k = B k /\ k <> bmx L + 1 /\ k <> bmn L - 1).
Proof.
  rewrite bsent_at. destruct (Z.eqb_spec k (bmx L + 1)), (Z.eqb_spec k (bmn L - 1)); cbn [orb]; lia.
Qed.

(** Sentinels outside the range (also after the sentinel writes). *)
Lemma b_out L B : 0 <= L -> bok L B -> forall k, k <= bmn L - 1 \/ bmx L + 1 <= k -> bsent L B k = xe + 1.
Proof.
  intros HL H k Hk. destruct (bsent_cases L B k) as [[E _]|(E & N1 & N2)]; [exact E|]. rewrite E.
  pose proof (bmn_spec L HL) as Sn. pose proof (bmx_spec L HL) as Sx.
  destruct (Z.eq_dec L 0) as [E0|E0].
  - apply (b0 _ _ H E0). lia.
  - apply (bb _ _ H); [|lia]. unfold cong in *. lia.
Qed.

Lemma bsent_ge L B k : bok L B -> B k <= bsent L B k.
Proof.
  intros H. pose proof (ba _ _ H k). destruct (bsent_cases L B k) as [[E _]|(E & _)]; lia.
Qed.

Lemma bsent_ok L B : 0 <= L -> bok L B ->
  (forall k, bsent L B k = xe + 1 \/ (bsent L B k <= xe /\ bsent L B k <= ye + k)) /\
  (forall k, fmid < k <= dmax -> bsent L B (k + 1) < yb + k + 1 -> bsent L B (k - 1) <= yb + k - 1) /\
  (forall k, k < fmid -> bsent L B (k - 1) < xb -> bsent L B (k + 1) <= xb).
Proof.
  intros HL H.
  pose proof (bmn_spec L HL) as Sn. pose proof (bmx_spec L HL) as Sx.
  split; [|split].
  - intros k. pose proof (ba _ _ H k). destruct (bsent_cases L B k) as [[E _]|(E & _)]; lia.
  - intros k Hk Hs. pose proof (bsent_ge L B (k + 1) H).
    assert (Hs' : B (k + 1) < yb + k + 1) by lia.
    pose proof (bpr _ _ H k Hk Hs').
    destruct (bsent_cases L B (k - 1)) as [[E Hc]|(E & _)]; [|lia].
    exfalso. destruct Hc as [Hc|Hc].
    + rewrite b_out in Hs by (auto; lia). lia.
    + (* k - 1 = bmn L - 1 *)
      destruct (Z_le_gt_dec L N).
      * assert (B (k - 1) = xe + 1); [|lia].
        destruct (Z.eq_dec L 0); [apply (b0 _ _ H); lia|apply (bb _ _ H); lia].
      * lia.
  - intros k Hk Hs. pose proof (bsent_ge L B (k - 1) H).
    assert (Hs' : B (k - 1) < xb) by lia.
    pose proof (bpl _ _ H k Hk Hs').
    destruct (bsent_cases L B (k + 1)) as [[E Hc]|(E & _)]; [|lia].
    exfalso. destruct Hc as [Hc|Hc].
    + destruct (Z_le_gt_dec L M).
      * assert (B (k + 1) = xe + 1); [|lia].
        destruct (Z.eq_dec L 0); [apply (b0 _ _ H); lia|apply (bb _ _ H); lia].
      * lia.
    + rewrite b_out in Hs by (auto; lia). lia.
Qed.

Definition bprocd (L k : Z) : Prop := bmn L <= k <= bmx L /\ cong k (bmx L).
Lemma bprocd_dec L k : bprocd L k \/ ~ bprocd L k.
Proof. unfold bprocd, cong. lia. Qed.

(** One of the two inputs of a processed diagonal is a real point of the
    previous round. *)
Lemma b_input L B : 1 <= L -> (1 < L -> 2 < N + M) -> bok L B -> forall j, bprocd L j ->
  2 * bstart (bsent L B) j - j <= xe + ye - L.
Proof.
  intros HL H11 H j [P1 P2]. rewrite bstart_min.
  pose proof (bmn_spec L ltac:(lia)) as Sn. pose proof (bmx_spec L ltac:(lia)) as Sx.
  pose proof (bmn_spec (L - 1) ltac:(lia)) as Sn1. pose proof (bmx_spec (L - 1) ltac:(lia)) as Sx1.
  assert (Hcj : cong j (bmid + L)) by (unfold cong in *; lia).
  assert (Hin : (bsent L B (j - 1) = B (j - 1) /\ bmn (L - 1) <= j - 1 <= bmx (L - 1)) \/
                (bsent L B (j + 1) = B (j + 1) /\ bmn (L - 1) <= j + 1 <= bmx (L - 1))).
  { destruct (bsent_cases L B (j - 1)) as [[_ C1]|(E1 & C1)], (bsent_cases L B (j + 1)) as [[_ C2]|(E2 & C2)].
    - exfalso. unfold cong in *. lia.
    - right. split; [exact E2|]. unfold cong in *. lia.
    - left. split; [exact E1|]. unfold cong in *. lia.
    - destruct (Z_le_gt_dec j bmid).
      + right. split; [exact E2|]. unfold cong in *. lia.
      + left. split; [exact E1|]. unfold cong in *. lia. }
  destruct Hin as [[E1 C1]|[E1 C1]]; rewrite E1.
  - destruct (bd _ _ H HL (j - 1)); [unfold cong in *; lia|lia|]. lia.
  - destruct (bd _ _ H HL (j + 1)); [unfold cong in *; lia|lia|]. lia.
Qed.

Lemma b_pre L B : 0 <= L -> (1 < L -> 2 < N + M) -> bok L B -> forall j, bprocd L j ->
  bstart (bsent L B) j <= xe /\ bstart (bsent L B) j <= ye + j.
Proof.
  intros HL H11 H j P.
  destruct (bsent_ok L B HL H) as (A & _ & _).
  pose proof (A (j - 1)) as A1. pose proof (A (j + 1)) as A2.
  destruct (Z.eq_dec L 0) as [E|E].
  - rewrite bstart_min. pose proof (bmn_spec L ltac:(lia)) as Sn. pose proof (bmx_spec L ltac:(lia)) as Sx.
    unfold bprocd in P. lia.
  - pose proof (b_input L B ltac:(lia) H11 H j P) as Q. rewrite bstart_min in *. 
    pose proof (bmn_spec L ltac:(lia)) as Sn. pose proof (bmx_spec L ltac:(lia)) as Sx.
    unfold bprocd in P. lia.
Qed.

Definition bstep (L : Z) (B B' : Z -> Z) : Prop :=
  (forall j, ~ bprocd L j -> B' j = bsent L B j) /\
  (forall j, bprocd L j -> bsn j (bstart (bsent L B) j) (B' j)).

Lemma bok_step L B B' : 0 <= L -> (1 < L -> 2 < N + M) -> bok L B -> bstep L B B' -> bok (L + 1) B'.
Proof.
  intros HL H11 H [HN' HS].
  assert (Hpre := b_pre L B HL H11 H). assert (Hout := b_out L B HL H).
  destruct (bsent_ok L B HL H) as (A & PR & PL).
  pose proof (bmn_spec L HL) as Sn. pose proof (bmx_spec L HL) as Sx.
  set (G := bsent L B) in *.
  assert (HP : forall k, bprocd L k -> B' k <= G (k - 1) /\ B' k <= G (k + 1) - 1 /\
    (B' k = G (k - 1) \/ B' k = G (k + 1) - 1 \/ (xb <= B' k /\ yb + k <= B' k)) /\ B' k <= xe /\ B' k <= ye + k).
  { intros k Pk. destruct (HS k Pk) as (S1 & S2 & _). destruct (Hpre k Pk).
    rewrite bstart_min in *. lia. }
  assert (Hparity : forall k, bprocd L (k - 1) -> k < bmx L -> bprocd L (k + 1)).
  { intros k [P1 P2] P3. split; [lia|apply cong_up; exact P2]. }
  assert (Hparity' : forall k, bprocd L (k + 1) -> bmn L < k -> bprocd L (k - 1)).
  { intros k [P1 P2] P3. split; [lia|apply cong_dn; exact P2]. }
  assert (Hmm : cong (bmn L) (bmx L)) by (apply (cong_two _ _ (bmid + L)); tauto).
  split.
  - intros k. destruct (bprocd_dec L k) as [P|P]; [right; destruct (HP k P) as (_ & _ & _ & ?); auto|].
    rewrite HN' by exact P. apply A.
  - (* bpr *) intros k Hk Hs. destruct (bprocd_dec L (k + 1)) as [P|P].
    + assert (Hk0 : G k <= yb + k).
      { destruct (HP _ P) as (_ & _ & Hc & _). replace (k + 1 - 1) with k in Hc by lia.
        destruct Hc as [?|[Hc|?]]; [lia| |lia].
        assert (k + 1 <= dmax) by (unfold bprocd in P; lia).
        pose proof (PR (k + 1) ltac:(lia)) as Q. replace (k + 1 - 1) with k in Q by lia. lia. }
      destruct (Z_le_gt_dec k (bmn L)) as [l|l].
      * exfalso. destruct (Z.eq_dec k (bmn L)) as [e|e].
        -- subst k. apply (cong_not_succ (bmn L) (bmx L)); [exact Hmm|apply P].
        -- rewrite Hout in Hk0 by lia. lia.
      * destruct (HP _ (Hparity' k P ltac:(lia))) as (_ & Hc & _). replace (k - 1 + 1) with k in Hc by lia. lia.
    + rewrite HN' in Hs by exact P. pose proof (PR k Hk Hs) as Q.
      destruct (bprocd_dec L (k - 1)) as [P2|P2]; [|rewrite HN' by exact P2; exact Q].
      exfalso. apply P. apply Hparity; [exact P2|].
      destruct (Z_lt_ge_dec k (bmx L)) as [l|l]; [exact l|]. rewrite Hout in Hs by lia. lia.
  - (* bpl *) intros k Hk Hs. destruct (bprocd_dec L (k - 1)) as [P|P].
    + assert (Hk0 : G k <= xb).
      { destruct (HP _ P) as (_ & _ & Hc & _). replace (k - 1 + 1) with k in Hc by lia.
        destruct Hc as [Hc|[?|?]]; [|lia|lia].
        pose proof (PL (k - 1) ltac:(lia)) as Q. replace (k - 1 + 1) with k in Q by lia. lia. }
      destruct (Z_lt_ge_dec k (bmx L)) as [l|l].
      * destruct (HP _ (Hparity k P l)) as (Hc & _). replace (k + 1 - 1) with k in Hc by lia. lia.
      * exfalso. destruct (Z.eq_dec k (bmx L)) as [e|e].
        -- subst k. destruct P as [_ P]. clear - P. unfold cong in P. lia.
        -- rewrite Hout in Hk0 by lia. lia.
    + rewrite HN' in Hs by exact P. pose proof (PL k Hk Hs) as Q.
      destruct (bprocd_dec L (k + 1)) as [P2|P2]; [|rewrite HN' by exact P2; exact Q].
      exfalso. apply P. apply Hparity'; [exact P2|].
      destruct (Z_lt_ge_dec (bmn L) k) as [l|l]; [exact l|]. rewrite Hout in Hs by lia. lia.
  - intros; lia.
  - (* b1 *) intros HL1. assert (L = 0) by lia. subst L.
    assert (P : bprocd 0 bmid).
    { split; [lia|]. apply (cong_two _ _ (bmid + 0)); [|tauto]. clear. unfold cong. lia. }
    destruct (HS bmid P) as (S1 & S2 & S3 & _). rewrite bstart_min in *.
    rewrite (Hout (bmid - 1)), (Hout (bmid + 1)) in * by lia.
    destruct (Z_lt_ge_dec (B' bmid) xe); [|lia].
    exfalso. apply noend. specialize (S3 (xe - 1)). replace (xe - 1 - bmid) with (ye - 1) in S3 by lia. apply S3. lia.
  - (* bb *) intros k Hk _. rewrite HN' by (unfold bprocd; lia). apply Hout. lia.
  - (* bd *) intros _ k Hc Hk. replace (L + 1 - 1) with L in * by lia.
    assert (P : bprocd L k).
    { split; [exact Hk|]. apply (cong_two _ _ (bmid + L)); [|tauto]. clear - Hc. unfold cong in *. lia. }
    split; [apply (HP k P)|].
    destruct (Z.eq_dec L 0) as [->|E].
    + destruct (HP k P) as (_ & _ & _ & Q). unfold bprocd in P. lia.
    + pose proof (b_input L B ltac:(lia) H11 H k P) as Q. destruct (HS k P) as (S1 & _). fold G in Q. lia.
  - (* be *) intros _ k Hc Ha Hk.
    assert (P : ~ bprocd L k).
    { intros [_ P]. assert (cong k (bmid + L)) by (apply (cong_trans _ (bmx L)); tauto).
      clear - H0 Hc. unfold cong in *. lia. }
    rewrite HN' by exact P.
    destruct (Z.eq_dec L 0) as [->|E]; [lia|].
    destruct (bsent_cases L B k) as [[E1 C1]|(E1 & C1)]; fold G in E1; rewrite E1.
    + exfalso. lia.
    + replace (L + 1 - 2) with (L - 1) by lia.
      apply (bd _ _ H); [lia|clear - Hc; unfold cong in *; lia|].
      pose proof (bmn_spec (L - 1) ltac:(lia)) as Sn1. pose proof (bmx_spec (L - 1) ltac:(lia)) as Sx1.
      clear - Hk Ha Sn1 Sx1 Hc. unfold cong in *. lia.
Qed.
End Mid.

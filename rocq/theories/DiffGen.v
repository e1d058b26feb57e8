(** GenerateEditList produces a correct edit list. *)
From Verif Require Import Base Str Dec DiffModel DiffMid DiffMid2 DiffMid3 DiffMid4.
Local Open Scope Z_scope.

Section Chain.
Variables (xv yv : list Z).
Notation X := (at_ xv).
Notation Y := (at_ yv).

(** An edit list leading from (x, y) to (x', y'): it starts with an edit at
    (x, y), ends with one reaching (x', y'), and between two edits there is
    a non-empty run of common lines. *)
Inductive chain : Z -> Z -> list edit -> Z -> Z -> Prop :=
| ch_one x y i d : 0 <= i -> 0 <= d -> 0 < i + d -> chain x y [mkedit x y i d] (x + d) (y + i)
| ch_cons x y i d s es x' y' : 0 <= i -> 0 <= d -> 0 < i + d -> 0 < s ->
    (forall t, 0 <= t < s -> X (x + d + t) = Y (y + i + t)) ->
    chain (x + d + s) (y + i + s) es x' y' ->
    chain x y (mkedit x y i d :: es) x' y'.

Lemma chain_ne x y l x' y' : chain x y l x' y' -> exists i d r, l = mkedit x y i d :: r /\ 0 <= i /\ 0 <= d.
Proof. destruct 1; do 3 eexists; split; eauto. Qed.

Lemma chain_back x y l x' y' : chain x y l x' y' ->
  line0 (back l) + deleted (back l) = x' /\ line1 (back l) + inserted (back l) = y'.
Proof.
  unfold back. induction 1; [simpl; lia|].
  destruct (chain_ne _ _ _ _ _ H4) as (? & ? & ? & -> & _). exact IHchain.
Qed.

Lemma chain_app x y l1 x1 y1 s l2 x2 y2 : chain x y l1 x1 y1 -> 0 < s ->
  (forall t, 0 <= t < s -> X (x1 + t) = Y (y1 + t)) -> chain (x1 + s) (y1 + s) l2 x2 y2 ->
  chain x y (l1 ++ l2) x2 y2.
Proof.
  intros H Hs Hm H2. induction H.
  - cbn [app]. apply (ch_cons x y i d s); auto.
  - cbn [app]. apply (ch_cons x y i d s0); auto.
Qed.

Lemma chain_merge x y l1 x1 y1 i2 d2 r2 x2 y2 :
  chain x y l1 x1 y1 -> chain x1 y1 (mkedit x1 y1 i2 d2 :: r2) x2 y2 ->
  chain x y (removelast l1 ++ mkedit (line0 (back l1)) (line1 (back l1)) (inserted (back l1) + i2) (deleted (back l1) + d2) :: r2) x2 y2.
Proof.
  intros H H2. induction H.
  - cbn [removelast back last app line0 line1 inserted deleted].
    inversion H2; subst.
    + replace (x + d + d2) with (x + (d + d2)) by lia. replace (y + i + i2) with (y + (i + i2)) by lia.
      apply ch_one; lia.
    + apply (ch_cons x y (i + i2) (d + d2) s); try lia.
      * intros t Ht. replace (x + (d + d2) + t) with (x + d + d2 + t) by lia.
        replace (y + (i + i2) + t) with (y + i + i2 + t) by lia. auto.
      * replace (x + (d + d2) + s) with (x + d + d2 + s) by lia.
        replace (y + (i + i2) + s) with (y + i + i2 + s) by lia. auto.
  - destruct (chain_ne _ _ _ _ _ H5) as (i' & d' & r' & E & _). subst es.
    change (removelast (mkedit x y i d :: mkedit (x + d + s) (y + i + s) i' d' :: r'))
      with (mkedit x y i d :: removelast (mkedit (x + d + s) (y + i + s) i' d' :: r')).
    change (back (mkedit x y i d :: mkedit (x + d + s) (y + i + s) i' d' :: r'))
      with (back (mkedit (x + d + s) (y + i + s) i' d' :: r')).
    rewrite <- app_comm_cons. apply (ch_cons x y i d s); auto.
Qed.

Lemma merge_chain x y l1 x1 y1 s l2 x2 y2 : chain x y l1 x1 y1 -> 0 <= s ->
  (forall t, 0 <= t < s -> X (x1 + t) = Y (y1 + t)) -> chain (x1 + s) (y1 + s) l2 x2 y2 ->
  exists l, merge_edits l1 l2 = Ok l /\ chain x y l x2 y2.
Proof.
  intros H Hs Hm H2. unfold merge_edits.
  destruct (chain_ne _ _ _ _ _ H) as (i1 & d1 & r1 & E1 & _).
  destruct (chain_ne _ _ _ _ _ H2) as (i2 & d2 & r2 & E2 & _).
  destruct (chain_back _ _ _ _ _ H) as [B1 B2].
  subst l2. destruct l1 as [|e1 l1']; [discriminate|].
  cbn zeta. rewrite B1, B2. cbn [line0 line1 inserted deleted].
  destruct (Z.eq_dec s 0) as [->|Hne].
  - rewrite !Z.add_0_r in *. rewrite !Z.eqb_refl. cbn [andb].
    eexists. split; [reflexivity|]. apply chain_merge with x1 y1; assumption.
  - destruct (Z.eqb_spec x1 (x1 + s)); [lia|]. cbn [andb].
    eexists. split; [reflexivity|]. apply chain_app with x1 y1 s; auto. lia.
Qed.
End Chain.

Section Eat.
Variables (xv yv : list Z).
Notation X := (at_ xv).
Notation Y := (at_ yv).

Lemma eat_back_ok xb yb : 0 <= xb -> 0 <= yb -> forall fuel x y,
  xb <= x <= Z.of_nat (length xv) -> yb <= y <= Z.of_nat (length yv) -> x - xb < Z.of_nat fuel ->
  exists s, 0 <= s /\ eat_back fuel xv yv xb yb x y = Ok (x - s, y - s) /\ xb <= x - s /\ yb <= y - s /\
    (forall t, 0 <= t < s -> X (x - s + t) = Y (y - s + t)) /\
    ~ (xb < x - s /\ yb < y - s /\ X (x - s - 1) = Y (y - s - 1)).
Proof.
  intros H1 H2. induction fuel as [|f IH]; intros x y Hx Hy Hf; [lia|].
  cbn [eat_back].
  destruct (Z.eqb_spec x xb); cbn [negb andb].
  { exists 0. rewrite !Z.sub_0_r. repeat split; try lia. }
  destruct (Z.eqb_spec y yb); cbn [negb andb].
  { exists 0. rewrite !Z.sub_0_r. repeat split; try lia. }
  rewrite !vread_in by lia. cbn [bind].
  destruct (Z.eqb_spec (X (x - 1)) (Y (y - 1))) as [E|E].
  - destruct (IH (x - 1) (y - 1)) as (s & S0 & S1 & S2 & S3 & S4 & S5); try lia.
    exists (s + 1). replace (x - (s + 1)) with (x - 1 - s) by lia. replace (y - (s + 1)) with (y - 1 - s) by lia.
    rewrite S1. repeat split; try lia; auto.
    intros t Ht. destruct (Z.eq_dec t s) as [->|].
    + replace (x - 1 - s + s) with (x - 1) by lia. replace (y - 1 - s + s) with (y - 1) by lia. exact E.
    + apply S4. lia.
  - exists 0. rewrite !Z.sub_0_r. repeat split; try lia; tauto.
Qed.

Lemma eat_fwd_ok xe ye : xe <= Z.of_nat (length xv) -> ye <= Z.of_nat (length yv) -> forall fuel x y,
  0 <= x <= xe -> 0 <= y <= ye -> xe - x < Z.of_nat fuel ->
  exists s, 0 <= s /\ eat_fwd fuel xv yv xe ye x y = Ok (x + s, y + s) /\ x + s <= xe /\ y + s <= ye /\
    (forall t, 0 <= t < s -> X (x + t) = Y (y + t)) /\
    ~ (x + s < xe /\ y + s < ye /\ X (x + s) = Y (y + s)).
Proof.
  intros H1 H2. induction fuel as [|f IH]; intros x y Hx Hy Hf; [lia|].
  cbn [eat_fwd].
  destruct (Z.eqb_spec x xe); cbn [negb andb].
  { exists 0. rewrite !Z.add_0_r. repeat split; try lia. }
  destruct (Z.eqb_spec y ye); cbn [negb andb].
  { exists 0. rewrite !Z.add_0_r. repeat split; try lia. }
  rewrite !vread_in by lia. cbn [bind].
  destruct (Z.eqb_spec (X x) (Y y)) as [E|E].
  - destruct (IH (x + 1) (y + 1)) as (s & S0 & S1 & S2 & S3 & S4 & S5); try lia.
    exists (s + 1). replace (x + (s + 1)) with (x + 1 + s) by lia. replace (y + (s + 1)) with (y + 1 + s) by lia.
    rewrite S1. repeat split; try lia; auto.
    intros t Ht. destruct (Z.eq_dec t 0) as [->|].
    + rewrite !Z.add_0_r. exact E.
    + replace (x + t) with (x + 1 + (t - 1)) by lia. replace (y + t) with (y + 1 + (t - 1)) by lia.
      apply S4. lia.
  - exists 0. rewrite !Z.add_0_r. repeat split; try lia; tauto.
Qed.

Lemma vread_some f v i : exists w, vread (Some f) v i = Ok w.
Proof. unfold vread. destruct (_ && _); eauto. Qed.

Definition no_begin (xb xe yb ye : Z) : Prop := xb < xe -> yb < ye -> X xb <> Y yb.
Definition no_end (xb xe yb ye : Z) : Prop := xb < xe -> yb < ye -> X (xe - 1) <> Y (ye - 1).

(** The assertions at the head of GenerateEditList hold. *)
Lemma gen_asserts (asserts : bool) (f : bool -> Z -> Z) xb xe yb ye :
  0 <= xb <= xe -> xe <= Z.of_nat (length xv) -> 0 <= yb <= ye -> ye <= Z.of_nat (length yv) ->
  0 < (xe - xb) + (ye - yb) -> no_begin xb xe yb ye -> no_end xb xe yb ye ->
  (if asserts then
     _ <-- assert_ (negb (xe - xb =? 0) || negb (ye - yb =? 0)) ;;
     a <-- vread (xo (Some f)) xv xb ;; b <-- vread (yo (Some f)) yv yb ;;
     _ <-- assert_ (negb (a =? b) || (xe - xb =? 0) || (ye - yb =? 0)) ;;
     a <-- vread (xo (Some f)) xv (xe - 1) ;; b <-- vread (yo (Some f)) yv (ye - 1) ;;
     assert_ (negb (a =? b) || (xe - xb =? 0) || (ye - yb =? 0))
   else Ok tt) = (Ok tt : res unit).
Proof.
  intros Hx Hxl Hy Hyl Hp Hb He. destruct asserts; [|reflexivity].
  assert (E1 : negb (xe - xb =? 0) || negb (ye - yb =? 0) = true).
  { destruct (Z.eqb_spec (xe - xb) 0), (Z.eqb_spec (ye - yb) 0); simpl; try reflexivity. lia. }
  rewrite E1. cbn [assert_ bind].
  destruct (Z.eqb_spec (xe - xb) 0) as [Z1|Z1].
  { change (xo (Some f)) with (Some (f false)); change (yo (Some f)) with (Some (f true));
    destruct (vread_some (f false) xv xb) as [a ->], (vread_some (f true) yv yb) as [b ->],
      (vread_some (f false) xv (xe - 1)) as [c ->], (vread_some (f true) yv (ye - 1)) as [d ->].
    cbn [bind]. rewrite !orb_true_r. reflexivity. }
  destruct (Z.eqb_spec (ye - yb) 0) as [Z2|Z2].
  { change (xo (Some f)) with (Some (f false)); change (yo (Some f)) with (Some (f true));
    destruct (vread_some (f false) xv xb) as [a ->], (vread_some (f true) yv yb) as [b ->],
      (vread_some (f false) xv (xe - 1)) as [c ->], (vread_some (f true) yv (ye - 1)) as [d ->].
    cbn [bind]. rewrite !orb_true_r. reflexivity. }
  rewrite !vread_in by lia. cbn [bind].
  specialize (Hb ltac:(lia) ltac:(lia)). specialize (He ltac:(lia) ltac:(lia)).
  destruct (Z.eqb_spec (X xb) (Y yb)); [contradiction|].
  destruct (Z.eqb_spec (X (xe - 1)) (Y (ye - 1))); [contradiction|]. reflexivity.
Qed.
End Eat.

Lemma u32_small L : 0 <= L < 4294967296 -> u32 L = L.
Proof. intros H. unfold u32. apply Z.mod_small. exact H. Qed.

Section Gen.
Variables (n : Z) (xv yv : list Z).
Notation X := (at_ xv).
Notation Y := (at_ yv).

Theorem gen_ok : forall fuel xb xe yb ye D,
  0 <= xb <= xe -> xe <= Z.of_nat (length xv) -> 0 <= yb <= ye -> ye <= Z.of_nat (length yv) ->
  0 < (xe - xb) + (ye - yb) < Z.of_nat fuel ->
  2 * ((xe - xb) + (ye - yb)) + 6 <= n -> (xe - xb) + (ye - yb) < 2147483640 ->
  no_begin xv yv xb xe yb ye -> no_end xv yv xb xe yb ye ->
  exists l D', (forall asserts f, GenerateEditList fuel asserts (Some f) n xv yv xb xe yb ye D = Ok (l, D')) /\
    chain xv yv xb yb l xe ye.
Proof.
  induction fuel as [|fu IH]; intros xb xe yb ye D Hx Hxl Hy Hyl Hf Hn Hs Hb He; [lia|].
  destruct (Z.eqb_spec (xe - xb) 0) as [Z1|Z1].
  { do 2 eexists. split.
    - intros asserts f. cbn [GenerateEditList]. rewrite (gen_asserts xv yv) by (auto; lia). cbn [bind].
      rewrite (proj2 (Z.eqb_eq (xe - xb) 0) Z1). reflexivity.
    - replace xe with (xb + 0) by lia. replace ye with (yb + (ye - yb)) at 2 by lia. apply ch_one; lia. }
  destruct (Z.eqb_spec (ye - yb) 0) as [Z2|Z2].
  { do 2 eexists. split.
    - intros asserts f. cbn [GenerateEditList]. rewrite (gen_asserts xv yv) by (auto; lia). cbn [bind].
      rewrite (proj2 (Z.eqb_neq (xe - xb) 0) Z1), (proj2 (Z.eqb_eq (ye - yb) 0) Z2). reflexivity.
    - replace xe with (xb + (xe - xb)) at 2 by lia. replace ye with (yb + 0) by lia. apply ch_one; lia. }
  destruct (FindEditMidPoint_ok n xv yv xb xe yb ye) with (D := D) as (p & D1 & Ep & Hp); auto; try lia.
  { apply Hb; lia. } { apply He; lia. }
  destruct p as [[xm ym] len].
  destruct Hp as (M1 & M2 & M3 & M4 & (L & HL & ->) & M5).
  rewrite u32_small in Ep by lia.
  assert (Hpre : forall asserts f, GenerateEditList (S fu) asserts (Some f) n xv yv xb xe yb ye D =
    (a <-- vread (xo (Some f)) xv (xm - 1) ;; b <-- vread (yo (Some f)) yv (ym - 1) ;;
     if (a =? b) && negb (xm =? xb) && negb (ym =? yb) then
       ' (l2, D) <-- GenerateEditList fu asserts (Some f) n xv yv xm xe ym ye D1 ;;
       ' (xm, ym) <-- eat_back (S (Z.to_nat (xm - xb))) xv yv xb yb xm ym ;;
       ' (l1, D) <-- GenerateEditList fu asserts (Some f) n xv yv xb xm yb ym D ;;
       l <-- merge_edits l1 l2 ;; Ok (l, D)
     else
       ' (l1, D) <-- GenerateEditList fu asserts (Some f) n xv yv xb xm yb ym D1 ;;
       ' (xm, ym) <-- eat_fwd (S (Z.to_nat (xe - xm))) xv yv xe ye xm ym ;;
       ' (l2, D) <-- GenerateEditList fu asserts (Some f) n xv yv xm xe ym ye D ;;
       l <-- merge_edits l1 l2 ;; Ok (l, D))).
  { intros asserts f. cbn [GenerateEditList]. rewrite (gen_asserts xv yv) by (auto; lia). cbn [bind].
    rewrite (proj2 (Z.eqb_neq (xe - xb) 0) Z1), (proj2 (Z.eqb_neq (ye - yb) 0) Z2).
    rewrite (proj2 (Z.ltb_lt 0 (xe - xb)) ltac:(lia)), (proj2 (Z.ltb_lt 0 (ye - yb)) ltac:(lia)). cbn [andb].
    rewrite Ep. cbn [bind]. rewrite (proj2 (Z.ltb_lt 1 L) ltac:(lia)). reflexivity. }
  (* which branch: independent of the oracle *)
  destruct (Z.eq_dec xm xb) as [Exb|Exb]; [|destruct (Z.eq_dec ym yb) as [Eyb|Eyb];
    [|destruct (Z.eq_dec (X (xm - 1)) (Y (ym - 1))) as [Em|Em]]].
  3:{ (* a snake ends at the mid point *)
      destruct M5 as [M5|M5]; [|exfalso; apply M5; repeat split; [lia|lia|exact Em]].
      destruct (IH xm xe ym ye D1) as (l2 & D2 & G2 & C2); try lia; auto.
      { intros A1 A2 A3. apply M5. auto. }
      { intros A1 A2. apply He; lia. }
      destruct (eat_back_ok xv yv xb yb ltac:(lia) ltac:(lia) (S (Z.to_nat (xm - xb))) xm ym)
        as (s & S0 & S1 & S2 & S3 & S4 & S5); try lia.
      assert (Hne : ~ (xm - s = xb /\ ym - s = yb)).
      { intros [A1 A2]. destruct (Z.eq_dec s 0) as [->|Hs0]; [apply M3; lia|].
        apply Hb; try lia. rewrite <- A1, <- A2. specialize (S4 0 ltac:(lia)). rewrite !Z.add_0_r in S4. exact S4. }
      destruct (IH xb (xm - s) yb (ym - s) D2) as (l1 & D3 & G1 & C1); try lia; auto.
      { intros A1 A2. apply Hb; lia. }
      { intros A1 A2 A3. apply S5. auto. }
      destruct (merge_chain xv yv xb yb l1 (xm - s) (ym - s) s l2 xe ye) as (l & E & C); auto.
      { replace (xm - s + s) with xm by lia. replace (ym - s + s) with ym by lia. exact C2. }
      exists l, D3. split; [|exact C].
      intros asserts f. rewrite Hpre. rewrite !vread_in by lia. cbn [bind].
      rewrite (proj2 (Z.eqb_eq _ _) Em), (proj2 (Z.eqb_neq _ _) Exb), (proj2 (Z.eqb_neq _ _) Eyb). cbn [andb negb].
      rewrite G2. cbn [bind]. rewrite S1. cbn [bind]. rewrite G1. cbn [bind]. rewrite E. reflexivity. }
  all: (destruct (IH xb xm yb ym D1) as (l1 & D2 & G1 & C1); try lia; auto;
      [intros A1 A2; apply Hb; lia
      |intros A1 A2; first [lia | exact Em]
      |];
      destruct (eat_fwd_ok xv yv xe ye ltac:(lia) ltac:(lia) (S (Z.to_nat (xe - xm))) xm ym)
        as (s & S0 & S1 & S2 & S3 & S4 & S5); try lia;
      assert (Hne : ~ (xm + s = xe /\ ym + s = ye));
      [intros [A1 A2]; destruct (Z.eq_dec s 0) as [->|Hs0]; [apply M4; lia|];
       apply He; try lia; specialize (S4 (s - 1) ltac:(lia));
       replace (xe - 1) with (xm + (s - 1)) by lia; replace (ye - 1) with (ym + (s - 1)) by lia; exact S4|];
      destruct (IH (xm + s) xe (ym + s) ye D2) as (l2 & D3 & G2 & C2); try lia; auto;
      [intros A1 A2 A3; apply S5; auto
      |intros A1 A2; apply He; lia
      |];
      destruct (merge_chain xv yv xb yb l1 xm ym s l2 xe ye) as (l & E & C); auto;
      exists l, D3; split; [|exact C];
      intros asserts f; rewrite Hpre;
      change (xo (Some f)) with (Some (f false)); change (yo (Some f)) with (Some (f true));
      destruct (vread_some (f false) xv (xm - 1)) as [a Ea], (vread_some (f true) yv (ym - 1)) as [b Eb];
      rewrite Ea, Eb; cbn [bind];
      assert (Ef : (a =? b) && negb (xm =? xb) && negb (ym =? yb) = false);
      [|rewrite Ef, G1; cbn [bind]; rewrite S1; cbn [bind]; rewrite G2; cbn [bind]; rewrite E; reflexivity]).
  - rewrite (proj2 (Z.eqb_eq _ _) Exb). cbn [negb]. rewrite andb_false_r. reflexivity.
  - rewrite (proj2 (Z.eqb_eq ym yb) Eyb). cbn [negb]. rewrite andb_false_r. reflexivity.
  - rewrite vread_in in Ea, Eb by lia. apply Ok_inj in Ea, Eb. subst a b.
    rewrite (proj2 (Z.eqb_neq _ _) Em). reflexivity.
Qed.
End Gen.

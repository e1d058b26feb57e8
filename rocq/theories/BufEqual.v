(** Comparisons in BufModel: what MeasModel says, also of an object with itself. *)
From Coq Require Import Floats.SpecFloat.
From Verif Require Import Base Str B64Model MeasModel BufModel BufFacts BufActs BufGentle.

Lemma ensure_again sc d d' : ensure_data sc d = (d', Ok tt) -> ensure_data sc d' = (d', Ok tt).
Proof.
  unfold ensure_data at 1. destruct (ddata d) as [l|] eqn:D; [intros H; injection H as <-; unfold ensure_data; rewrite D; reflexivity|]. unfold UpdateContentAsData. cbv zeta.
  destruct (eqs (denc (DeleteContentAsData d)) ($"none")) eqn:E1.
  { intros H. injection H as <-. unfold ensure_data. cbn [ddata DeleteContentAsData]. unfold UpdateContentAsData. cbv zeta. cbn [denc DeleteContentAsData] in *. rewrite E1. reflexivity. }
  destruct (eqs (denc (DeleteContentAsData d)) ($"base64")) eqn:E2.
  - destruct (IsBase64 sc default_opts (dcontent (DeleteContentAsData d))) as [[|n]|i| | |] eqn:E3; try discriminate.
    + intros H. injection H as <-. unfold ensure_data. cbn [ddata DeleteContentAsData]. unfold UpdateContentAsData. cbv zeta. cbn [denc DeleteContentAsData dcontent] in *. rewrite E1, E2, E3. reflexivity.
    + destruct (Decode sc default_opts (dcontent (DeleteContentAsData d)) (repeat None (S n))) as [mem r]. intros H. apply pair_equal_spec in H. destruct H as [<- H]. unfold ensure_data. cbn [ddata set_data]. reflexivity.
  - intros H. injection H as <-. unfold ensure_data. cbn [ddata DeleteContentAsData]. unfold UpdateContentAsData. cbv zeta. cbn [denc DeleteContentAsData] in *. rewrite E1, E2. reflexivity.
Qed.
(** the calls after the first *)
Lemma Size_gentle sc o s x : good s -> alive s o x -> (o_local x = true -> o_enc x = $"none") -> exists s' x', b_GetSize sc o s = (s', snd (GetContentAsDataSize sc (erase (b_heap s) x))) /\ gentle (eq o) [] [] s s' /\ alive s' o x' /\
  attrs x' x /\ erase (b_heap s') x' = fst (ensure_data sc (erase (b_heap s) x)).
Proof.
  intros G L C. destruct (ensure_gentle sc o s x G L C) as (s1 & x1 & E1 & H1 & L1 & A1 & V1 & _). destruct (acts_GetSize sc o s x G L) as (s2 & x2 & E2 & _). unfold lift in E2. cbn [seen fst snd] in E2.
  assert (s2 = s1) as ->.
  { unfold b_GetSize, bbind at 1 in E2. rewrite E1 in E2. destruct (snd (ensure_data sc (erase (b_heap s) x))); try (injection E2 as <-; reflexivity).
    unfold bbind in E2. rewrite (get_alive _ _ _ L1) in E2. destruct (o_data x1); [destruct (o_size x1)|]; unfold bret, bfail in E2; apply pair_equal_spec in E2; destruct E2 as [<- _]; reflexivity. }
  exists s1, x1. auto.
Qed.
Lemma Data_gentle sc o s x : good s -> alive s o x -> (o_local x = true -> o_enc x = $"none") -> exists s' x', b_GetData sc o s = (s', _ <-- snd (ensure_data sc (erase (b_heap s) x)) ;; Ok (ptr_of o x')) /\ gentle (eq o) [] [] s s' /\ alive s' o x' /\
  attrs x' x /\ erase (b_heap s') x' = fst (ensure_data sc (erase (b_heap s) x)).
Proof.
  intros G L C. destruct (ensure_gentle sc o s x G L C) as (s1 & x1 & E1 & H1 & L1 & A1 & V1 & _). exists s1, x1. split; [|auto].
  unfold b_GetData, bbind at 1. rewrite E1. destruct (snd (ensure_data sc (erase (b_heap s) x))); try reflexivity. unfold bbind. rewrite (get_alive _ _ _ L1). reflexivity.
Qed.
Lemma memeq_more n : forall a b e f, n <= length a -> n <= length b -> memeq n (a ++ e) (b ++ f) = memeq n a b.
Proof.
  induction n as [|n IH]; [reflexivity|]. intros [|x a] [|y b] e f; cbn [length]; try lia. intros Ha Hb. cbn [app memeq]. destruct x, y; try reflexivity. rewrite IH by lia. reflexivity.
Qed.
Lemma attrs_local x y : attrs x y -> (o_local y = true -> o_enc y = $"none") -> o_local x = true -> o_enc x = $"none".
Proof. intros (_ & _ & _ & E & _ & _ & _ & C) H X. rewrite E. apply H. congruence. Qed.
(** data_IsEqual, with the calls that repeat left out *)
Lemma data_IsEqual_short sc d e : data_IsEqual sc d e =
  if eqs (dname d) (dname e) && eqs (type_of (dcls d)) (type_of (dcls e)) then
    match snd (ensure_data sc d) with
    | Ok _ =>
        match snd (ensure_data sc e) with
        | Ok _ => (fst (ensure_data sc d), fst (ensure_data sc e),
            if length (data_view (fst (ensure_data sc d))) =? length (data_view (fst (ensure_data sc e))) then memeq (length (data_view (fst (ensure_data sc d)))) (data_view (fst (ensure_data sc d))) (data_view (fst (ensure_data sc e))) else Ok false)
        | Throw i => (fst (ensure_data sc d), fst (ensure_data sc e), Throw i) | UB => (fst (ensure_data sc d), fst (ensure_data sc e), UB)
        | Abort => (fst (ensure_data sc d), fst (ensure_data sc e), Abort) | Hang => (fst (ensure_data sc d), fst (ensure_data sc e), Hang)
        end
    | Throw i => (fst (ensure_data sc d), e, Throw i) | UB => (fst (ensure_data sc d), e, UB) | Abort => (fst (ensure_data sc d), e, Abort) | Hang => (fst (ensure_data sc d), e, Hang)
    end
  else (d, e, Ok false).
Proof.
  unfold data_IsEqual. destruct (eqs (dname d) (dname e) && eqs (type_of (dcls d)) (type_of (dcls e))); [|reflexivity].
  unfold GetContentAsDataSize, GetContentAsData. destruct (ensure_data sc d) as [d' r] eqn:Ed. cbn [fst snd]. destruct r as [[]|i| | |]; cbn [bind]; try reflexivity.
  destruct (ensure_data sc e) as [e' r] eqn:Ee. cbn [fst snd]. destruct r as [[]|i| | |]; cbn [bind]; try reflexivity.
  destruct (length (data_view d') =? length (data_view e')); [|reflexivity]. rewrite (ensure_again sc d d' Ed), (ensure_again sc e e' Ee), (ensure_again sc d d' Ed). cbn [bind]. reflexivity.
Qed.
Definition two (o o' : nat) : nat -> Prop := fun k => k = o \/ k = o'.
Lemma two_l o o' LB LO s s' : gentle (eq o) LB LO s s' -> gentle (two o o') LB LO s s'.
Proof. apply gentle_weak. intros k x _ <-. left. reflexivity. Qed.
Lemma two_r o o' LB LO s s' : gentle (eq o') LB LO s s' -> gentle (two o o') LB LO s s'.
Proof. apply gentle_weak. intros k x _ <-. right. reflexivity. Qed.

Lemma Equal_two sc o o' s x y : good s -> alive s o x -> alive s o' y -> o <> o' -> (o_local x = true -> o_enc x = $"none") -> (o_local y = true -> o_enc y = $"none") ->
  let out := data_IsEqual sc (erase (b_heap s) x) (erase (b_heap s) y) in
  exists s' x' y', b_Equal sc o o' s = (s', snd out) /\ gentle (two o o') [] [] s s' /\ alive s' o x' /\ alive s' o' y' /\ erase (b_heap s') x' = fst (fst out) /\ erase (b_heap s') y' = snd (fst out).
Proof.
  intros G L L' N Cx Cy. cbv zeta. rewrite data_IsEqual_short. set (d := erase (b_heap s) x). set (e := erase (b_heap s) y).
  unfold b_Equal, bbind at 1. rewrite (get_alive _ _ _ L). unfold bbind at 1. rewrite (get_alive _ _ _ L').
  change (o_name x) with (dname d). change (o_name y) with (dname e). change (o_cls x) with (dcls d). change (o_cls y) with (dcls e).
  destruct (eqs (dname d) (dname e) && eqs (type_of (dcls d)) (type_of (dcls e))).
  2:{ exists s, x, y. split; [reflexivity|]. split; [apply gentle_refl; exact G|]. auto. }
  destruct (Size_gentle sc o s x G L Cx) as (s1 & x1 & E1 & H1 & L1 & A1 & V1). fold d in E1, V1. unfold bbind at 1. rewrite E1.
  destruct (gentle_other _ _ _ _ _ o' y H1 G L' N) as [L1' V1']. fold e in V1'.
  unfold GetContentAsDataSize. destruct (ensure_data sc d) as [d' r] eqn:Ed. cbn [fst snd] in *.
  destruct r as [[]|i| | |]; cbn [bind]; try (exists s1, x1, y; split; [reflexivity|]; split; [apply two_l; exact H1|]; auto).
  destruct (Size_gentle sc o' s1 y (g_good _ _ _ _ _ H1) L1' Cy) as (s2 & y2 & E2 & H2 & L2' & A2 & V2). rewrite V1' in E2, V2. unfold bbind at 1. rewrite E2.
  destruct (gentle_other _ _ _ _ _ o x1 H2 (g_good _ _ _ _ _ H1) L1 (not_eq_sym N)) as [L2 V2']. rewrite V1 in V2'.
  pose proof (gentle_trans _ _ _ _ _ _ _ _ (two_l o o' _ _ _ _ H1) (two_r o o' _ _ _ _ H2)) as H12. cbn [app] in H12.
  unfold GetContentAsDataSize. destruct (ensure_data sc e) as [e' r] eqn:Ee. cbn [fst snd] in *.
  destruct r as [[]|i| | |]; cbn [bind]; try (exists s2, x1, y2; split; [reflexivity|]; split; [exact H12|]; auto).
  pose proof (ensure_again sc d d' Ed) as Rd. pose proof (ensure_again sc e e' Ee) as Re.
  destruct (length (data_view d') =? length (data_view e')) eqn:En; [|exists s2, x1, y2; split; [reflexivity|]; split; [exact H12|]; auto].
  apply Nat.eqb_eq in En.
  destruct (Data_gentle sc o s2 x1 (g_good _ _ _ _ _ H2) L2 (attrs_local _ _ A1 Cx)) as (s3 & x3 & E3 & H3 & L3 & A3 & V3). rewrite V2', Rd in E3, V3. cbn [fst snd bind] in E3, V3. unfold bbind at 1. rewrite E3.
  destruct (gentle_other _ _ _ _ _ o' y2 H3 (g_good _ _ _ _ _ H2) L2' N) as [L3' V3']. rewrite V2 in V3'.
  destruct (Data_gentle sc o' s3 y2 (g_good _ _ _ _ _ H3) L3' (attrs_local _ _ A2 Cy)) as (s4 & y4 & E4 & H4 & L4' & A4 & V4). rewrite V3', Re in E4, V4. cbn [fst snd bind] in E4, V4. unfold bbind at 1. rewrite E4.
  destruct (gentle_other _ _ _ _ _ o x3 H4 (g_good _ _ _ _ _ H3) L3 (not_eq_sym N)) as [L4 V4']. rewrite V3 in V4'.
  pose proof (attrs_trans _ _ _ A3 A1) as A31.
  destruct (Size_gentle sc o s4 x3 (g_good _ _ _ _ _ H4) L4 (attrs_local _ _ A31 Cx)) as (s5 & x5 & E5 & H5 & L5 & A5 & V5). unfold GetContentAsDataSize in E5. rewrite V4', Rd in E5, V5. cbn [fst snd bind] in E5, V5. unfold bbind at 1. rewrite E5.
  destruct (gentle_other _ _ _ _ _ o' y4 H5 (g_good _ _ _ _ _ H4) L4' N) as [L5' V5']. rewrite V4 in V5'.
  pose proof (look_ptr s3 o x3 (g_good _ _ _ _ _ H3) L3) as Q3. rewrite V3 in Q3. pose proof (gentle_look _ _ _ _ _ _ _ H5 (gentle_look _ _ _ _ _ _ _ H4 Q3)) as Q5.
  pose proof (look_ptr s4 o' y4 (g_good _ _ _ _ _ H4) L4') as P4. rewrite V4 in P4. pose proof (gentle_look _ _ _ _ _ _ _ H5 P4) as P5.
  unfold bbind at 1. rewrite Q5. unfold bbind at 1. rewrite P5. unfold bfail. rewrite memeq_more by lia. cbn [fst snd].
  exists s5, x5, y4. split; [reflexivity|]. split; [|auto].
  pose proof (gentle_trans _ _ _ _ _ _ _ _ H12 (two_l o o' _ _ _ _ H3)) as H13. pose proof (gentle_trans _ _ _ _ _ _ _ _ H13 (two_r o o' _ _ _ _ H4)) as H14. pose proof (gentle_trans _ _ _ _ _ _ _ _ H14 (two_l o o' _ _ _ _ H5)) as H15. exact H15.
Qed.
Lemma Equal_self sc o s x : good s -> alive s o x -> (o_local x = true -> o_enc x = $"none") ->
  let out := data_IsEqual sc (erase (b_heap s) x) (erase (b_heap s) x) in
  exists s' x', b_Equal sc o o s = (s', snd out) /\ gentle (eq o) [] [] s s' /\ alive s' o x' /\ erase (b_heap s') x' = fst (fst out).
Proof.
  intros G L Cx. cbv zeta. rewrite data_IsEqual_short. set (d := erase (b_heap s) x).
  unfold b_Equal, bbind at 1. rewrite (get_alive _ _ _ L). unfold bbind at 1. rewrite (get_alive _ _ _ L).
  change (o_name x) with (dname d). change (o_cls x) with (dcls d). rewrite !eqs_refl. cbn [andb].
  destruct (Size_gentle sc o s x G L Cx) as (s1 & x1 & E1 & H1 & L1 & A1 & V1). fold d in E1, V1. unfold bbind at 1. rewrite E1.
  unfold GetContentAsDataSize. destruct (ensure_data sc d) as [d' r] eqn:Ed. cbn [fst snd] in *.
  destruct r as [[]|i| | |]; cbn [bind]; try (exists s1, x1; split; [reflexivity|]; split; [exact H1|]; auto).
  pose proof (ensure_again sc d d' Ed) as Rd.
  destruct (Size_gentle sc o s1 x1 (g_good _ _ _ _ _ H1) L1 (attrs_local _ _ A1 Cx)) as (s2 & x2 & E2 & H2 & L2 & A2 & V2). unfold GetContentAsDataSize in E2. rewrite V1, Rd in E2, V2. cbn [fst snd bind] in E2, V2. unfold bbind at 1. rewrite E2, Nat.eqb_refl.
  pose proof (attrs_trans _ _ _ A2 A1) as A21.
  destruct (Data_gentle sc o s2 x2 (g_good _ _ _ _ _ H2) L2 (attrs_local _ _ A21 Cx)) as (s3 & x3 & E3 & H3 & L3 & A3 & V3). rewrite V2, Rd in E3, V3. cbn [fst snd bind] in E3, V3. unfold bbind at 1. rewrite E3.
  pose proof (attrs_trans _ _ _ A3 A21) as A31.
  destruct (Data_gentle sc o s3 x3 (g_good _ _ _ _ _ H3) L3 (attrs_local _ _ A31 Cx)) as (s4 & x4 & E4 & H4 & L4 & A4 & V4). rewrite V3, Rd in E4, V4. cbn [fst snd bind] in E4, V4. unfold bbind at 1. rewrite E4.
  pose proof (attrs_trans _ _ _ A4 A31) as A41.
  destruct (Size_gentle sc o s4 x4 (g_good _ _ _ _ _ H4) L4 (attrs_local _ _ A41 Cx)) as (s5 & x5 & E5 & H5 & L5 & A5 & V5). unfold GetContentAsDataSize in E5. rewrite V4, Rd in E5, V5. cbn [fst snd bind] in E5, V5. unfold bbind at 1. rewrite E5.
  pose proof (look_ptr s3 o x3 (g_good _ _ _ _ _ H3) L3) as Q3. rewrite V3 in Q3. pose proof (gentle_look _ _ _ _ _ _ _ H5 (gentle_look _ _ _ _ _ _ _ H4 Q3)) as Q5.
  pose proof (look_ptr s4 o x4 (g_good _ _ _ _ _ H4) L4) as P4. rewrite V4 in P4. pose proof (gentle_look _ _ _ _ _ _ _ H5 P4) as P5.
  unfold bbind at 1. rewrite Q5. unfold bbind at 1. rewrite P5. unfold bfail. rewrite memeq_more by lia. cbn [fst snd].
  exists s5, x5. split; [reflexivity|]. split; [|auto].
  pose proof (gentle_trans _ _ _ _ _ _ _ _ H1 H2) as H12. pose proof (gentle_trans _ _ _ _ _ _ _ _ H12 H3) as H13. pose proof (gentle_trans _ _ _ _ _ _ _ _ H13 H4) as H14. pose proof (gentle_trans _ _ _ _ _ _ _ _ H14 H5) as H15. exact H15.
Qed.

(** BuildLines on the heap: the arrays of line indices describe the lines,
    and at the end every element of the two identifier arrays is written. *)
From Verif Require Import Base Str Dec DiffModel DiffIds DiffMemModel DiffMemFacts.
Local Open Scope Z_scope.

(** Only the blocks [ps] differ. *)
Definition chg (ps : list nat) (h h' : heap) : Prop :=
  h_next h' = h_next h /\ forall b, ~ In b ps -> h_blk h' b = h_blk h b.
Lemma chg_refl ps h : chg ps h h.
Proof. split; [reflexivity|intros; reflexivity]. Qed.
Lemma chg_trans ps h1 h2 h3 : chg ps h1 h2 -> chg ps h2 h3 -> chg ps h1 h3.
Proof. intros [A B] [C D]. split; [congruence|]. intros b Hb. rewrite D, B by exact Hb. reflexivity. Qed.
Lemma chg_weak ps qs h h' : (forall b, In b ps -> In b qs) -> chg ps h h' -> chg qs h h'.
Proof. intros H [A B]. split; [exact A|]. intros b Hb. apply B. intros Hi. apply Hb, H, Hi. Qed.
Lemma chg_blk ps h h' b : chg ps h h' -> ~ In b ps -> h_blk h' b = h_blk h b.
Proof. intros [_ B] H. apply B, H. Qed.

Lemma hwrite_ok p i v h n A : h_blk h p = Some (n, A) -> 0 <= i < n ->
  exists h', hwrite p i v h = (h', Ok tt) /\ chg [p] h h' /\ h_blk h' p = Some (n, upd A i v).
Proof.
  intros E Hi. unfold hwrite. rewrite E. unfold wra.
  destruct (Z.leb_spec 0 i); [|lia]. destruct (Z.ltb_spec i n); [|lia]. cbn [andb].
  eexists. split; [reflexivity|]. split.
  - split; [reflexivity|]. intros b Hb. cbn [set_blk h_blk].
    destruct (Nat.eqb_spec b p) as [->|]; [exfalso; apply Hb; left; reflexivity|reflexivity].
  - cbn [set_blk h_blk]. rewrite Nat.eqb_refl. reflexivity.
Qed.

Lemma hbind_ok {A B} (m : MH A) (k : A -> MH B) h h' a : m h = (h', Ok a) -> hbind m k h = k a h'.
Proof. intros E. unfold hbind. rewrite E. reflexivity. Qed.

Lemma count_lines_length s : forall cur n, count_lines s n = n - 1 + Z.of_nat (length (build_lines s cur)).
Proof.
  induction s as [|c r IH]; intros cur n; cbn [count_lines build_lines length]; [lia|].
  destruct (eqc c nl); [rewrite (IH [])|rewrite (IH (c :: cur))]; cbn [length]; lia.
Qed.
Lemma count_lines_split s : count_lines s 1 = Z.of_nat (length (split nl s)).
Proof. rewrite (count_lines_length s []), lines_split. lia. Qed.

(** *** The array of line indices *)
Definition cellok (s : str) (A : arr) (k : Z) (w : str) : Prop :=
  exists a n, A (2 * k) = Some a /\ A (2 * k + 1) = Some n /\ 0 <= a <= Z.of_nat (length s) /\ 0 <= n /\
    substr s (Z.to_nat a) (Z.to_nat n) = w.
Definition index_ok (h : heap) (p : nat) (s : str) : Prop :=
  exists A, h_blk h p = Some (2 * Z.of_nat (length (split nl s)), A) /\
    forall k, (k < length (split nl s))%nat -> cellok s A (Z.of_nat k) (nth k (split nl s) []).

Lemma upd_same A i v : upd A i v i = Some v.
Proof. unfold upd. rewrite Z.eqb_refl. reflexivity. Qed.
Lemma upd_other A i v j : j <> i -> upd A i v j = A j.
Proof. intros H. unfold upd. destruct (Z.eqb_spec j i); [contradiction|reflexivity]. Qed.

Lemma substr_cur pre cur r : substr (pre ++ cur ++ r) (length pre) (length cur) = cur.
Proof. apply substr_mid. Qed.

Lemma index_lines_ok p s : forall r pre cur lnum A h, s = pre ++ cur ++ r -> 0 <= lnum ->
  h_blk h p = Some (2 * (lnum + Z.of_nat (length (build_lines r (rev cur)))), A) ->
  exists h' A', index_lines p (Z.of_nat (length s)) r (Z.of_nat (length pre + length cur)) (Z.of_nat (length pre)) lnum h = (h', Ok tt) /\
    chg [p] h h' /\ h_blk h' p = Some (2 * (lnum + Z.of_nat (length (build_lines r (rev cur)))), A') /\
    (forall z, z < 2 * lnum -> A' z = A z) /\
    (forall k, (k < length (build_lines r (rev cur)))%nat ->
       cellok s A' (lnum + Z.of_nat k) (nth k (build_lines r (rev cur)) [])).
Proof.
  induction r as [|c r IH]; intros pre cur lnum A h Es Hl Eb; cbn [index_lines build_lines] in *.
  - cbn [length] in *. rewrite rev_involutive in *.
    destruct (hwrite_ok p (2 * lnum) (Z.of_nat (length pre)) h _ A Eb ltac:(lia)) as (h1 & E1 & C1 & B1).
    destruct (hwrite_ok p (2 * lnum + 1) (Z.of_nat (length s) - Z.of_nat (length pre)) h1 _ _ B1 ltac:(lia)) as (h2 & E2 & C2 & B2).
    exists h2. eexists. split; [rewrite (hbind_ok _ _ _ _ _ E1); exact E2|].
    split; [eapply chg_trans; eassumption|]. split; [exact B2|]. split.
    + intros z Hz. rewrite !upd_other by lia. reflexivity.
    + intros k Hk. assert (k = 0)%nat as -> by lia. cbn [nth]. rewrite Z.add_0_r.
      exists (Z.of_nat (length pre)), (Z.of_nat (length s) - Z.of_nat (length pre)).
      rewrite upd_same, upd_other, upd_same by lia.
      rewrite app_nil_r in Es. subst s. rewrite app_length.
      split; [reflexivity|]. split; [reflexivity|]. split; [lia|]. split; [lia|].
      rewrite Nat2Z.id. replace (Z.to_nat _) with (length cur) by lia. apply substr_suffix; reflexivity.
  - destruct (eqc_spec c nl) as [->|Hc].
    + cbn [length] in Eb. rewrite rev_involutive in *.
      destruct (hwrite_ok p (2 * lnum) (Z.of_nat (length pre)) h _ A Eb ltac:(lia)) as (h1 & E1 & C1 & B1).
      destruct (hwrite_ok p (2 * lnum + 1) (Z.of_nat (length pre + length cur) - Z.of_nat (length pre)) h1 _ _ B1 ltac:(lia)) as (h2 & E2 & C2 & B2).
      match type of B2 with _ = Some (_, ?X) => set (A2 := X) in B2 end.
      destruct (IH (pre ++ cur ++ [nl]) [] (lnum + 1) A2 h2) as (h3 & A3 & E3 & C3 & B3 & F3 & G3).
      { rewrite Es, <- !app_assoc. reflexivity. }
      { lia. }
      { cbn [rev]. rewrite B2. f_equal. f_equal. lia. }
      exists h3, A3. split.
      { rewrite (hbind_ok _ _ _ _ _ E1), (hbind_ok _ _ _ _ _ E2). rewrite <- E3.
        rewrite !app_length. cbn [length]. f_equal; lia. }
      split; [eapply chg_trans; [exact C1|eapply chg_trans; eassumption]|].
      split; [rewrite B3; cbn [length rev]; f_equal; f_equal; lia|]. split.
      * intros z Hz. rewrite F3 by lia. unfold A2. rewrite !upd_other by lia. reflexivity.
      * intros k Hk. destruct k as [|k]; cbn [nth].
        -- rewrite Z.add_0_r.
           exists (Z.of_nat (length pre)), (Z.of_nat (length pre + length cur) - Z.of_nat (length pre)).
           rewrite !F3 by lia. unfold A2. rewrite upd_same, upd_other, upd_same by lia.
           split; [reflexivity|]. split; [reflexivity|]. subst s. rewrite !app_length.
           split; [lia|]. split; [lia|].
           rewrite Nat2Z.id. replace (Z.to_nat _) with (length cur) by lia. apply substr_mid.
        -- cbn [rev length] in G3, Hk. specialize (G3 k ltac:(lia)).
           replace (lnum + Z.of_nat (Datatypes.S k)) with (lnum + 1 + Z.of_nat k) by lia. exact G3.
    + assert (R : c :: rev cur = rev (cur ++ [c])) by (rewrite rev_app_distr; reflexivity).
      rewrite R in Eb |- *.
      destruct (IH pre (cur ++ [c]) lnum A h) as (h3 & A3 & E3 & C3 & B3 & F3 & G3);
        [rewrite Es, <- app_assoc; reflexivity|exact Hl|exact Eb|].
      exists h3, A3. split; [|auto]. rewrite <- E3. rewrite app_length. cbn [length]. f_equal; lia.
Qed.

Lemma index_lines_spec p s A h : h_blk h p = Some (2 * Z.of_nat (length (split nl s)), A) ->
  exists h', index_lines p (Z.of_nat (length s)) s 0 0 0 h = (h', Ok tt) /\ chg [p] h h' /\ index_ok h' p s.
Proof.
  intros E. destruct (index_lines_ok p s s [] [] 0 A h) as (h' & A' & E1 & C1 & B1 & _ & G1).
  - reflexivity.
  - lia.
  - cbn [rev]. rewrite lines_split. exact E.
  - exists h'. split; [exact E1|]. split; [exact C1|]. cbn [rev] in *. rewrite lines_split in *.
    exists A'. split; [rewrite B1; f_equal|]. exact G1.
Qed.

Lemma index_ok_chg ps h h' p s : chg ps h h' -> ~ In p ps -> index_ok h p s -> index_ok h' p s.
Proof. intros C N (A & E & H). exists A. rewrite (chg_blk _ _ _ _ C N). auto. Qed.

(** Reading a line back. *)
Lemma line_at_ok d j k h : index_ok h (d_lines d j) (d_str d j) -> (k < length (split nl (d_str d j)))%nat ->
  line_at d j (Z.of_nat k) h = (h, Ok (nth k (split nl (d_str d j)) [])).
Proof.
  intros (A & E & H) Hk. destruct (H k Hk) as (a & n & E1 & E2 & Ha & Hn & Es).
  unfold line_at, hbind, hread. rewrite E. unfold rda.
  destruct (Z.leb_spec 0 (2 * Z.of_nat k)); [|lia]. destruct (Z.ltb_spec (2 * Z.of_nat k) (2 * Z.of_nat (length (split nl (d_str d j))))); [|lia].
  cbn [andb]. rewrite E1, E.
  destruct (Z.leb_spec 0 (2 * Z.of_nat k + 1)); [|lia]. destruct (Z.ltb_spec (2 * Z.of_nat k + 1) (2 * Z.of_nat (length (split nl (d_str d j))))); [|lia].
  cbn [andb]. rewrite E2. destruct (Z.leb_spec a (Z.of_nat (length (d_str d j)))); [|lia].
  unfold hret. rewrite Es. reflexivity.
Qed.

(** *** The hash tables *)
Lemma combine_seq_nth (ls : list str) : forall pre, 
  combine (seq (length pre) (length ls)) ls = map (fun i => (i, nth i (pre ++ ls) [])) (seq (length pre) (length ls)).
Proof.
  induction ls as [|w ls IH]; intros pre; [reflexivity|]. cbn [length seq combine map].
  rewrite app_nth2, Nat.sub_diag by lia. cbn [nth]. f_equal.
  specialize (IH (pre ++ [w])). rewrite app_length, Nat.add_comm in IH. cbn [length plus] in IH.
  rewrite IH. apply map_ext. intros i. rewrite <- app_assoc. reflexivity.
Qed.
Lemma hash_lines_ok sc d j h : index_ok h (d_lines d j) (d_str d j) ->
  forall is t, Forall (fun i => (i < length (split nl (d_str d j)))%nat) is ->
  hash_lines sc d j is t h =
  (h, Ok (fold_left (fun t p => tinsert (hashString sc (snd p)) (fst p) t)
            (map (fun i => (i, nth i (split nl (d_str d j)) [])) is) t)).
Proof.
  intros HI. induction is as [|i is IH]; intros t HF; cbn [hash_lines map fold_left]; [reflexivity|].
  inversion HF as [|? ? H1 H2]; subst.
  rewrite (hbind_ok _ _ _ _ _ (line_at_ok d j i h HI H1)). apply IH; exact H2.
Qed.
Lemma hash_table_ok sc d j h : index_ok h (d_lines d j) (d_str d j) ->
  hash_lines sc d j (seq 0 (length (split nl (d_str d j)))) [] h = (h, Ok (build_table sc (split nl (d_str d j)))).
Proof.
  intros HI. rewrite (hash_lines_ok sc d j h HI).
  - unfold build_table. rewrite (combine_seq_nth _ []). reflexivity.
  - apply Forall_forall. intros i Hi. apply in_seq in Hi. lia.
Qed.

(** *** One scan *)
Lemma scan_split ls h w : forall t passed ids t' ids', scan ls h w passed t ids = Ok (t', ids') ->
  (forall k, In k (map snd passed) \/ In k (map snd t) -> In k (map snd t') \/ In k ids') /\
  (forall k, In k ids -> In k ids') /\
  (forall k, In k ids' -> In k ids \/ In k (map snd t)) /\
  (forall e, In e t' -> In e passed \/ In e t).
Proof.
  induction t as [|[h' i] r IH]; intros passed ids t' ids' H; cbn [scan] in H.
  - destruct passed as [|e p]; [|discriminate]. apply Ok_inj, pair_equal_spec in H. destruct H as [<- <-].
    cbn [map In]. tauto.
  - destruct (h' =? h).
    + destruct (eqs w (nth i ls [])).
      * destruct (IH _ _ _ _ H) as (A & B & C & D). cbn [map snd In] in *. repeat split.
        -- intros k [Hk|[->|Hk]]; [apply A; auto|right; apply B; left; reflexivity|apply A; auto].
        -- intros k Hk. apply B. right; exact Hk.
        -- intros k Hk. destruct (C k Hk) as [[->|]|]; auto.
        -- intros e He. destruct (D e He); auto.
      * destruct (IH _ _ _ _ H) as (A & B & C & D). rewrite map_app in A. cbn [map snd In] in *. repeat split.
        -- intros k Hk. apply A. rewrite in_app_iff. cbn [In]. tauto.
        -- exact B.
        -- intros k Hk. destruct (C k Hk); auto.
        -- intros e He. destruct (D e He) as [He'|He']; [|auto]. apply in_app_iff in He'. cbn [In] in He'. tauto.
    + apply Ok_inj, pair_equal_spec in H. destruct H as [<- <-]. rewrite map_app. repeat split; auto.
      * intros k Hk. left. rewrite in_app_iff. exact Hk.
      * intros e He. apply in_app_iff in He. exact He.
Qed.

Section Loop.
Variable d : fumoffu.
Notation ls j := (split nl (d_str d j)).
Hypothesis apart : forall j j', d_lines d j <> d_vec d j'.
Hypothesis vecs : d_vec d false <> d_vec d true.
Definition indexed (h : heap) : Prop := forall j, index_ok h (d_lines d j) (d_str d j).
Lemma indexed_chg j h h' : chg [d_vec d j] h h' -> indexed h -> indexed h'.
Proof.
  intros C H j'. eapply index_ok_chg; [exact C| |apply H]. intros [E|[]]. exact (apart j' j (eq_sym E)).
Qed.

Lemma m_scan_ok hindex second j id key : (second < length (ls hindex))%nat ->
  forall t passed ids h A, indexed h -> Forall (fun e => (snd e < length (ls j))%nat) t ->
  h_blk h (d_vec d j) = Some (Z.of_nat (length (ls j)), A) ->
  match scan (ls j) key (nth second (ls hindex) []) passed t ids with
  | Ok (t', ids') => exists h' A', m_scan d hindex second j key id passed t h = (h', Ok t') /\ chg [d_vec d j] h h' /\
      h_blk h' (d_vec d j) = Some (Z.of_nat (length (ls j)), A') /\
      forall i, (In i ids' -> ~ In i ids -> A' (Z.of_nat i) = Some id) /\
                (In i ids -> A (Z.of_nat i) = Some id -> A' (Z.of_nat i) = Some id) /\
                (~ In i ids' -> A' (Z.of_nat i) = A (Z.of_nat i))
  | UB => exists h', m_scan d hindex second j key id passed t h = (h', UB) /\ chg [d_vec d j] h h'
  | _ => False
  end.
Proof.
  intros Hs. induction t as [|[h' i] r IH]; intros passed ids h A HI HF HB; cbn [scan m_scan].
  - destruct passed as [|e p].
    + exists h, A. split; [reflexivity|]. split; [apply chg_refl|]. split; [exact HB|]. intros i. tauto.
    + exists h. split; [reflexivity|apply chg_refl].
  - inversion HF as [|? ? H1 H2]; subst. cbn [snd] in H1.
    destruct (h' =? key).
    + rewrite !(hbind_ok _ _ _ _ _ (line_at_ok d hindex second h (HI hindex) Hs)).
      rewrite !(hbind_ok _ _ _ _ _ (line_at_ok d j i h (HI j) H1)).
      destruct (eqs _ _).
      * destruct (hwrite_ok (d_vec d j) (Z.of_nat i) id h _ A HB ltac:(lia)) as (h1 & E1 & C1 & B1).
        rewrite !(hbind_ok _ _ _ _ _ E1).
        specialize (IH passed (i :: ids) h1 _ (indexed_chg _ _ _ C1 HI) H2 B1).
        destruct (scan _ _ _ _ _ _) as [[t' ids']| | | |] eqn:Es; try contradiction.
        -- destruct IH as (h2 & A2 & E2 & C2 & B2 & F2). exists h2, A2. split; [exact E2|].
           split; [eapply chg_trans; eassumption|]. split; [exact B2|]. intros k. destruct (F2 k) as (P & Q & R).
           destruct (scan_split _ _ _ _ _ _ _ _ Es) as (_ & SB & _ & _).
           repeat split.
           ++ intros Hk Hn. destruct (Nat.eq_dec k i) as [->|Hne].
              ** apply Q; [left; reflexivity|apply upd_same].
              ** apply P; [exact Hk|]. intros [->|Hx]; [apply Hne; reflexivity|apply Hn, Hx].
           ++ intros Hk HA. apply Q; [right; exact Hk|]. destruct (Nat.eq_dec k i) as [->|Hne]; [apply upd_same|].
              rewrite upd_other by lia. exact HA.
           ++ intros Hn. rewrite (R Hn). apply upd_other. intros E. apply Nat2Z.inj in E. subst k.
              apply Hn, SB. left; reflexivity.
        -- destruct IH as (h2 & E2 & C2). exists h2. split; [exact E2|eapply chg_trans; eassumption].
      * apply IH; assumption.
    + exists h, A. split; [reflexivity|]. split; [apply chg_refl|]. split; [exact HB|]. intros k. tauto.
Qed.

(** Elements of lines no longer in the table are written. *)
Definition vinv (j : bool) (t : table) (v : list Z) (A : arr) : Prop :=
  length v = length (ls j) /\ Forall (fun e => (snd e < length (ls j))%nat) t /\
  forall i, (i < length (ls j))%nat -> ~ In i (map snd t) -> A (Z.of_nat i) = Some (nth i v 0).

Lemma assign_length id is v : length (assign id is v) = length v.
Proof.
  destruct v as [|a v]; [|apply (assign_nth id 0 is (a :: v)); simpl; lia].
  unfold assign. induction is as [|i r IHr]; [reflexivity|]. cbn [fold_left]. destruct i; exact IHr.
Qed.
Lemma vinv_step j t v A A' id key w t' ids : vinv j t v A ->
  scan (ls j) key w [] t [] = Ok (t', ids) ->
  (forall i, (In i ids -> A' (Z.of_nat i) = Some id) /\ (~ In i ids -> A' (Z.of_nat i) = A (Z.of_nat i))) ->
  vinv j t' (assign id ids v) A'.
Proof.
  intros (L & B & H) Es HA. destruct (scan_split _ _ _ _ _ _ _ _ Es) as (S1 & _ & S3 & S4).
  split; [rewrite assign_length; exact L|]. split.
  - rewrite Forall_forall in *. intros e He. destruct (S4 e He) as [[]|He']. apply B, He'.
  - intros i Hi Hn. destruct (assign_nth id i ids v ltac:(lia)) as [_ ->].
    destruct (in_dec Nat.eq_dec i ids) as [Hin|Hin].
    + apply HA, Hin.
    + rewrite (proj2 (HA i) Hin). apply H; [exact Hi|]. intros Hm.
      destruct (S1 i (or_intror Hm)); contradiction.
Qed.

(** What holds before each round. *)
Definition ready (h : heap) (t0 t1 : table) (v0 v1 : list Z) : Prop :=
  indexed h /\
  (exists A0, h_blk h (d_vec d false) = Some (Z.of_nat (length (ls false)), A0) /\ vinv false t0 v0 A0) /\
  (exists A1, h_blk h (d_vec d true) = Some (Z.of_nat (length (ls true)), A1) /\ vinv true t1 v1 A1).
Notation vs := [d_vec d false; d_vec d true].

Lemma chg_vec j h h' : chg [d_vec d j] h h' -> chg vs h h'.
Proof. apply chg_weak. intros b [<-|[]]. destruct j; [right; left|left]; reflexivity. Qed.

Lemma scan_false hindex second key h id t0 t1 v0 v1 : (second < length (ls hindex))%nat -> ready h t0 t1 v0 v1 ->
  match scan (ls false) key (nth second (ls hindex) []) [] t0 [] with
  | Ok (t', ids) => exists h', m_scan d hindex second false key id [] t0 h = (h', Ok t') /\ chg vs h h' /\
      ready h' t' t1 (assign id ids v0) v1
  | UB => exists h', m_scan d hindex second false key id [] t0 h = (h', UB) /\ chg vs h h'
  | _ => False
  end.
Proof.
  intros Hs (HI & (A0 & B0 & V0) & (A1 & B1 & V1)).
  pose proof (m_scan_ok hindex second false id key Hs t0 [] [] h A0 HI (proj1 (proj2 V0)) B0) as M.
  destruct (scan _ _ _ _ _ _) as [[t' ids]| | | |] eqn:Es; try contradiction.
  - destruct M as (h' & A' & E & C & B & F). exists h'. split; [exact E|]. split; [eapply chg_vec; exact C|].
    split; [eapply indexed_chg; eassumption|]. split.
    + exists A'. split; [exact B|]. eapply vinv_step; [exact V0|exact Es|]. intros i. destruct (F i) as (P & _ & R).
      split; [intros Hi; apply P; [exact Hi|intros []]|exact R].
    + exists A1. split; [|exact V1]. rewrite (chg_blk _ _ _ _ C); [exact B1|]. intros [E'|[]]. apply vecs, E'.
  - destruct M as (h' & E & C). exists h'. split; [exact E|eapply chg_vec; exact C].
Qed.
Lemma scan_true hindex second key h id t0 t1 v0 v1 : (second < length (ls hindex))%nat -> ready h t0 t1 v0 v1 ->
  match scan (ls true) key (nth second (ls hindex) []) [] t1 [] with
  | Ok (t', ids) => exists h', m_scan d hindex second true key id [] t1 h = (h', Ok t') /\ chg vs h h' /\
      ready h' t0 t' v0 (assign id ids v1)
  | UB => exists h', m_scan d hindex second true key id [] t1 h = (h', UB) /\ chg vs h h'
  | _ => False
  end.
Proof.
  intros Hs (HI & (A0 & B0 & V0) & (A1 & B1 & V1)).
  pose proof (m_scan_ok hindex second true id key Hs t1 [] [] h A1 HI (proj1 (proj2 V1)) B1) as M.
  destruct (scan _ _ _ _ _ _) as [[t' ids]| | | |] eqn:Es; try contradiction.
  - destruct M as (h' & A' & E & C & B & F). exists h'. split; [exact E|]. split; [eapply chg_vec; exact C|].
    split; [eapply indexed_chg; eassumption|]. split.
    + exists A0. split; [|exact V0]. rewrite (chg_blk _ _ _ _ C); [exact B0|]. intros [E'|[]]. apply vecs. symmetry. exact E'.
    + exists A'. split; [exact B|]. eapply vinv_step; [exact V1|exact Es|]. intros i. destruct (F i) as (P & _ & R).
      split; [intros Hi; apply P; [exact Hi|intros []]|exact R].
  - destruct M as (h' & E & C). exists h'. split; [exact E|eapply chg_vec; exact C].
Qed.

Definition loop_sim (m : MH unit) (r : res (list Z * list Z)) (h : heap) : Prop :=
  match r with
  | Ok (v0, v1) => exists h', m h = (h', Ok tt) /\ chg vs h h' /\ indexed h' /\
      holds h' (d_vec d false) v0 /\ holds h' (d_vec d true) v1 /\
      length v0 = length (ls false) /\ length v1 = length (ls true)
  | UB => exists h', m h = (h', UB) /\ chg vs h h'
  | Hang => exists h', m h = (h', Hang) /\ chg vs h h'
  | _ => False
  end.
Lemma loop_chg m r h1 h2 (k : MH unit) : chg vs h1 h2 -> m h1 = k h2 -> loop_sim k r h2 -> loop_sim m r h1.
Proof.
  intros C E H. destruct r as [[v0 v1]| | | |]; try contradiction.
  - destruct H as (h' & E' & C' & R). exists h'. split; [congruence|]. split; [eapply chg_trans; eassumption|exact R].
  - destruct H as (h' & E' & C'). exists h'. split; [congruence|eapply chg_trans; eassumption].
  - destruct H as (h' & E' & C'). exists h'. split; [congruence|eapply chg_trans; eassumption].
Qed.

Lemma ready_second (j : bool) t h i r : Forall (fun e : Z * nat => (snd e < length (ls j))%nat) t -> t = (h, i) :: r ->
  (i < length (ls j))%nat.
Proof. intros HF ->. inversion HF; subst; assumption. Qed.

Lemma id_loop_mem : forall fuel t0 t1 id v0 v1 h, ready h t0 t1 v0 v1 ->
  loop_sim (m_id_loop fuel d t0 t1 id) (id_loop fuel (ls false) (ls true) t0 t1 id v0 v1) h.
Proof.
  induction fuel as [|f IH]; intros t0 t1 id v0 v1 h HR; cbn [m_id_loop id_loop].
  { exists h. split; [reflexivity|apply chg_refl]. }
  pose proof HR as (HI & (A0 & B0 & V0) & (A1 & B1 & V1)).
  (* one round on the second string only *)
  assert (One : forall h1 i1 r1, t1 = (h1, i1) :: r1 ->
    loop_sim (t1' <~ m_scan d true i1 true h1 id [] t1 ;; m_id_loop f d t0 t1' (id + 1))
      (' (t1', a1) <-- scan (ls true) h1 (nth i1 (ls true) []) [] t1 [] ;;
       id_loop f (ls false) (ls true) t0 t1' (id + 1) v0 (assign id a1 v1)) h).
  { intros h1 i1 r1 E. pose proof (ready_second true t1 h1 i1 r1 (proj1 (proj2 V1)) E) as Hi.
    pose proof (scan_true true i1 h1 h id t0 t1 v0 v1 Hi HR) as M.
    destruct (scan _ _ _ _ _ _) as [[t' ids]| | | |] eqn:Es; try contradiction; cbn [bind].
    - destruct M as (h' & E' & C & R). eapply loop_chg; [exact C|apply (hbind_ok _ _ _ _ _ E')|apply IH; exact R].
    - destruct M as (h' & E' & C). exists h'. split; [unfold hbind; rewrite E'; reflexivity|exact C]. }
  (* one round on both *)
  assert (Both : forall h1 i1 r1, t0 = (h1, i1) :: r1 ->
    loop_sim (t0' <~ m_scan d false i1 false h1 id [] t0 ;;
              t1' <~ m_scan d false i1 true h1 id [] t1 ;; m_id_loop f d t0' t1' (id + 1))
      (' (t0', a0) <-- scan (ls false) h1 (nth i1 (ls false) []) [] t0 [] ;;
       ' (t1', a1) <-- scan (ls true) h1 (nth i1 (ls false) []) [] t1 [] ;;
       id_loop f (ls false) (ls true) t0' t1' (id + 1) (assign id a0 v0) (assign id a1 v1)) h).
  { intros h1 i1 r1 E. pose proof (ready_second false t0 h1 i1 r1 (proj1 (proj2 V0)) E) as Hi.
    pose proof (scan_false false i1 h1 h id t0 t1 v0 v1 Hi HR) as M.
    destruct (scan (ls false) _ _ _ _ _) as [[t' ids]| | | |] eqn:Es; try contradiction; cbn [bind].
    - destruct M as (h' & E' & C & R).
      pose proof (scan_true false i1 h1 h' id t' t1 _ v1 Hi R) as M.
      eapply loop_chg; [exact C|apply (hbind_ok _ _ _ _ _ E')|].
      destruct (scan (ls true) _ _ _ _ _) as [[t'' ids']| | | |] eqn:Es'; try contradiction; cbn [bind].
      + destruct M as (h'' & E'' & C'' & R''). eapply loop_chg; [exact C''|apply (hbind_ok _ _ _ _ _ E'')|apply IH; exact R''].
      + destruct M as (h'' & E'' & C''). exists h''. split; [unfold hbind; rewrite E''; reflexivity|exact C''].
    - destruct M as (h' & E' & C). exists h'. split; [unfold hbind; rewrite E'; reflexivity|exact C]. }
  destruct t0 as [|[k0 i0] r0], t1 as [|[k1 i1] r1].
  - exists h. split; [reflexivity|]. split; [apply chg_refl|]. split; [exact HI|].
    destruct V0 as (L0 & _ & H0), V1 as (L1 & _ & H1). split; [|split; [|split; assumption]].
    + exists A0. rewrite L0. split; [exact B0|]. intros i Hi. apply H0; [exact Hi|intros []].
    + exists A1. rewrite L1. split; [exact B1|]. intros i Hi. apply H1; [exact Hi|intros []].
  - apply (One k1 i1 r1 eq_refl).
  - apply (Both k0 i0 r0 eq_refl).
  - destruct (k1 <? k0); [apply (One k1 i1 r1 eq_refl)|apply (Both k0 i0 r0 eq_refl)].
Qed.
End Loop.

(** The printed difference reads back as the edits. *)
From Verif Require Import Base Str Dec DiffModel DiffSpec DiffFacts.
Local Open Scope Z_scope.

Definition unlines (ls : list str) : str := flat_map (fun l => l ++ [nl]) ls.

Lemma unlines_app a b : unlines (a ++ b) = unlines a ++ unlines b.
Proof. apply flat_map_app. Qed.
Lemma split_unlines ls r : Forall (free nl) ls -> split nl (unlines ls ++ r) = ls ++ split nl r.
Proof.
  induction 1 as [|l ls Hl Hls IH]; [reflexivity|]. unfold unlines in *. cbn [flat_map]. rewrite <- !app_assoc.
  change ([nl] ++ flat_map (fun l => l ++ [nl]) ls ++ r) with (nl :: (flat_map (fun l => l ++ [nl]) ls ++ r)).
  rewrite split_app by exact Hl. rewrite IH. reflexivity.
Qed.

(** *** Numbers *)
Lemma digit_prefix_stop ds r : forallb is_digit ds = true ->
  match r with [] => True | c :: _ => is_digit c = false end -> digit_prefix (ds ++ r) = ds.
Proof.
  induction ds as [|c ds IH]; intros H Hr; cbn [app digit_prefix].
  - destruct r as [|c r]; [reflexivity|]. cbn [digit_prefix]. rewrite Hr. reflexivity.
  - cbn [forallb] in H. apply andb_true_iff in H. destruct H as [H1 H2]. rewrite H1. f_equal. apply IH; assumption.
Qed.
Lemma parse_num_print n r : 0 <= n -> match r with [] => True | c :: _ => is_digit c = false end ->
  parse_num (print_int n ++ r) = Some (n, r).
Proof.
  intros Hn Hr. unfold print_int, parse_num. destruct (Z.ltb_spec n 0); [lia|].
  destruct (dec_of_nonneg_spec n Hn) as (A & B & C).
  rewrite digit_prefix_stop by assumption.
  destruct (dec_of_nonneg n) as [|c ds] eqn:E; [contradiction|].
  rewrite B. rewrite skipn_app, skipn_all, Nat.sub_diag. reflexivity.
Qed.
Lemma print_int_no_nl n : 0 <= n -> free nl (print_int n).
Proof.
  intros Hn HI. unfold print_int in HI. destruct (Z.ltb_spec n 0); [lia|].
  destruct (dec_of_nonneg_spec n Hn) as (A & _ & _). rewrite forallb_forall in A. specialize (A _ HI). discriminate.
Qed.

Lemma parse_range_print a b c r : 0 <= a -> 0 <= b -> is_digit c = false -> eqc c "," = false ->
  parse_range (print_int a ++ $"," ++ print_int b ++ c :: r) = Some (a, b, c :: r) /\
  parse_range (print_int a ++ c :: r) = Some (a, a, c :: r) /\
  parse_range (print_int a ++ $"," ++ print_int b) = Some (a, b, []) /\
  parse_range (print_int a) = Some (a, a, []).
Proof.
  intros Ha Hb Hd Hc. unfold parse_range. repeat split.
  - rewrite parse_num_print by (auto; reflexivity). cbn [lit list_ascii_of_string app]. 
    change (eqc "," ",") with true. cbn iota. rewrite parse_num_print by auto. reflexivity.
  - rewrite parse_num_print by auto. rewrite Hc. reflexivity.
  - rewrite parse_num_print by (auto; reflexivity). cbn [lit list_ascii_of_string app].
    change (eqc "," ",") with true. cbn iota.
    rewrite <- (app_nil_r (print_int b)). rewrite parse_num_print by (simpl; auto). reflexivity.
  - rewrite <- (app_nil_r (print_int a)). rewrite parse_num_print by (simpl; auto). reflexivity.
Qed.

Lemma range_parse s n c r : 0 <= s -> 0 < n -> is_digit c = false -> eqc c "," = false ->
  parse_range (range_ s n ++ c :: r) = Some (s + 1, s + n, c :: r) /\
  parse_range (range_ s n) = Some (s + 1, s + n, []).
Proof.
  intros Hs Hn Hd Hc. unfold range_.
  destruct (parse_range_print (s + 1) (s + n) c r) as (P1 & P2 & P3 & P4); auto; try lia.
  destruct (Z.ltb_spec 1 n).
  - rewrite <- !app_assoc. auto.
  - replace (s + n) with (s + 1) by lia. auto.
Qed.
Lemma range_no_nl s n : 0 <= s -> 0 < n -> free nl (range_ s n).
Proof.
  intros Hs Hn. unfold range_. destruct (1 <? n); rewrite ?free_app.
  - split; [apply print_int_no_nl; lia|]. split; [|apply print_int_no_nl; lia]. intros [H|[]]; discriminate.
  - apply print_int_no_nl; lia.
Qed.

(** *** Lines *)
Lemma flat_map_seq {A B} (f : A -> list B) (d : A) l : forall k pre post, length pre = k ->
  flat_map (fun i => f (nth (k + i) (pre ++ l ++ post) d)) (seq 0 (length l)) = flat_map f l.
Proof.
  assert (G : forall n pre (l post : list A), length pre = n ->
     flat_map (fun i => f (nth i (pre ++ l ++ post) d)) (seq n (length l)) = flat_map f l).
  { intros n pre l0. revert n pre. induction l0 as [|a l0 IH]; intros n pre post Hn; [reflexivity|].
    cbn [length seq flat_map]. rewrite app_nth2 by lia. rewrite Hn, Nat.sub_diag. cbn [nth app].
    f_equal. specialize (IH (S n) (pre ++ [a]) post). rewrite <- app_assoc in IH. cbn [app] in IH.
    apply IH. rewrite app_length. simpl. lia. }
  intros k pre post Hk. rewrite <- (G k pre l post Hk).
  rewrite !flat_map_concat_map. f_equal.
  assert (Q : forall n j, map (fun i => f (nth (k + i) (pre ++ l ++ post) d)) (seq j n) =
                          map (fun i => f (nth i (pre ++ l ++ post) d)) (seq (k + j) n)).
  { induction n as [|m IHm]; intros j; [reflexivity|].
    cbn [seq map]. f_equal. rewrite IHm, Nat.add_succ_r. reflexivity. }
  rewrite Q, Nat.add_0_r. reflexivity.
Qed.

Lemma PrintLines_spec p pre c post a : Forall (free nul) c -> a = len pre ->
  PrintLines p (pre ++ c ++ post) a (len c) = unlines (map (app p) c).
Proof.
  intros Hf ->. unfold PrintLines, len. rewrite !Nat2Z.id.
  rewrite (flat_map_seq (fun l => p ++ cstr l ++ [nl]) [] c (length pre) pre post eq_refl).
  unfold unlines. induction Hf as [|l c Hl Hf IH]; [reflexivity|]. cbn [flat_map map].
  rewrite IH, cstr_free by exact Hl. rewrite <- !app_assoc. reflexivity.
Qed.

Lemma strip_app p s : strip p (p ++ s) = Some s.
Proof. induction p as [|c p IH]; [reflexivity|]. cbn [app strip]. rewrite eqc_refl. exact IH. Qed.
Lemma strip_all_map p c : strip_all p (map (app p) c) = Some c.
Proof. induction c as [|l c IH]; [reflexivity|]. cbn [map strip_all]. rewrite strip_app, IH. reflexivity. Qed.
Lemma take_app {A} (c r : list A) n : n = len c -> take n (c ++ r) = Some (c, r).
Proof.
  intros ->. unfold take, len. rewrite app_length.
  destruct (Z.leb_spec 0 (Z.of_nat (length c))); [|lia].
  destruct (Z.leb_spec (Z.of_nat (length c)) (Z.of_nat (length c + length r))); [|lia]. cbn [andb].
  rewrite Nat2Z.id, firstn_app, skipn_app, firstn_all, skipn_all, Nat.sub_diag. cbn [firstn skipn].
  rewrite app_nil_r. reflexivity.
Qed.
Lemma take_marked_app p c r n : n = len c -> take_marked p n (map (app p) c ++ r) = Some (c, r).
Proof.
  intros ->. unfold take_marked. rewrite (take_app (map (app p) c)) by (unfold len; rewrite map_length; reflexivity).
  rewrite strip_all_map. reflexivity.
Qed.
Lemma eq_lines_refl a : eq_lines a a = true.
Proof. induction a as [|x a IH]; [reflexivity|]. cbn [eq_lines]. rewrite eqs_refl, IH. reflexivity. Qed.

(** The lines printed for one edit. *)
Definition edit_lines (x y : Z) (dl il : list str) : list str :=
  if negb (len il =? 0) && negb (len dl =? 0) then
    (range_ x (len dl) ++ $"c" ++ range_ y (len il)) :: map (app $"< ") dl ++ $"----" :: map (app $"> ") il
  else if negb (len il =? 0) then (print_int x ++ $"a" ++ range_ y (len il)) :: map (app $"> ") il
  else (range_ x (len dl) ++ $"d" ++ print_int (y + 1)) :: map (app $"< ") dl.

Lemma PrintEdit_lines p q c dl il a b :
  Forall (free nul) dl -> Forall (free nul) il ->
  PrintEdit (p ++ c ++ dl ++ a) (q ++ c ++ il ++ b) (mkedit (len p + len c) (len q + len c) (len il) (len dl)) =
  unlines (edit_lines (len p + len c) (len q + len c) dl il).
Proof.
  intros Fd Fi. unfold PrintEdit, edit_lines. cbn [line0 line1 inserted deleted].
  rewrite !(app_assoc p c), !(app_assoc q c).
  rewrite !(PrintLines_spec _ (p ++ c) dl a) by (auto; rewrite len_app; reflexivity).
  rewrite !(PrintLines_spec _ (q ++ c) il b) by (auto; rewrite len_app; reflexivity).
  destruct (negb (len il =? 0) && negb (len dl =? 0)); [|destruct (negb (len il =? 0))].
  - unfold unlines. cbn [flat_map]. rewrite flat_map_app. cbn [flat_map]. rewrite <- !app_assoc. reflexivity.
  - unfold unlines. cbn [flat_map]. rewrite <- !app_assoc. reflexivity.
  - unfold unlines. cbn [flat_map]. rewrite <- !app_assoc. reflexivity.
Qed.

Lemma map_app_free p c : free nl p -> Forall (free nl) c -> Forall (free nl) (map (app p) c).
Proof. intros Hp. induction 1; constructor; auto. apply free_app; auto. Qed.

Lemma edit_lines_free x y dl il : 0 <= x -> 0 <= y -> 0 < len dl + len il ->
  Forall (free nl) dl -> Forall (free nl) il -> Forall (free nl) (edit_lines x y dl il).
Proof.
  intros Hx Hy Hp Fd Fi. unfold edit_lines. pose proof (len_nonneg dl). pose proof (len_nonneg il).
  assert (L : free nl $"< " /\ free nl $"> " /\ free nl $"----" /\ free nl $"c" /\ free nl $"a" /\ free nl $"d").
  { repeat split; apply freeb_spec; reflexivity. }
  destruct L as (L1 & L2 & L3 & L4 & L5 & L6).
  destruct (Z.eqb_spec (len il) 0), (Z.eqb_spec (len dl) 0); cbn [negb andb]; try lia;
    constructor; rewrite ?free_app; repeat split; auto using range_no_nl, print_int_no_nl, map_app_free.
  - apply range_no_nl; lia.
  - apply print_int_no_nl; lia.
  - apply range_no_nl; lia.
  - apply range_no_nl; lia.
  - apply range_no_nl; lia.
  - apply Forall_app. split; [auto using map_app_free|]. constructor; auto using map_app_free.
Qed.

(** *** Applying the printed lines *)
Lemma patch_nonend fuel p q from cmd r : cmd <> [] ->
  patch_lines (S fuel) p q from (cmd :: r) =
          match parse_cmd cmd with
          | None => None
          | Some (a, b, k, (c, d)) =>
              if eqc k "a" then
                match take (a - p) from, take_marked $"> " (d - c + 1) r with
                | Some (kept, from'), Some (new, r') =>
                    if (a =? b) && (c =? q + (a - p) + 1) then
                      match patch_lines fuel a d from' r' with
                      | Some t => Some (kept ++ new ++ t) | None => None end
                    else None
                | _, _ => None
                end
              else if eqc k "d" then
                match take (a - 1 - p) from, take_marked $"< " (b - a + 1) r with
                | Some (kept, from'), Some (old, r') =>
                    match take (b - a + 1) from' with
                    | Some (gone, from'') =>
                        if (c =? d) && (c =? q + (a - 1 - p) + 1) && eq_lines old gone then
                          match patch_lines fuel b (c - 1) from'' r' with
                          | Some t => Some (kept ++ t) | None => None end
                        else None
                    | None => None
                    end
                | _, _ => None
                end
              else if eqc k "c" then
                match take (a - 1 - p) from, take_marked $"< " (b - a + 1) r with
                | Some (kept, from'), Some (old, sep :: r') =>
                    match take (b - a + 1) from', take_marked $"> " (d - c + 1) r' with
                    | Some (gone, from''), Some (new, r'') =>
                        if (c =? q + (a - 1 - p) + 1) && eq_lines old gone && eqs sep $"----" then
                          match patch_lines fuel b d from'' r'' with
                          | Some t => Some (kept ++ new ++ t) | None => None end
                        else None
                    | _, _ => None
                    end
                | _, _ => None
                end
              else None
          end.
Proof. intros H. destruct cmd as [|k cmd]; [contradiction|]. reflexivity. Qed.

Lemma range_ne s n : 0 <= s -> range_ s n <> [].
Proof.
  intros Hs E. unfold range_ in E.
  assert (P : print_int (s + 1) <> []).
  { unfold print_int. destruct (Z.ltb_spec (s + 1) 0); [lia|]. apply dec_of_nonneg_spec. lia. }
  destruct (1 <? n); [|contradiction]. apply app_eq_nil in E. tauto.
Qed.

Lemma align_patch x y a b es : align x y a b es -> forall p q fuel,
  x = len p -> y = len q -> Forall (free nul) a -> Forall (free nul) b -> Forall (free nl) a -> Forall (free nl) b ->
  (length es < fuel)%nat ->
  patch_lines fuel x y a (split nl (PrintEditList (p ++ a) (q ++ b) es)) = Some b.
Proof.
  induction 1 as [x y c|x y c dl il a b es Hp Ha IH Hs]; intros p q fuel Ep Eq Fa Fb Na Nb Hf.
  - destruct fuel; [simpl in Hf; lia|]. reflexivity.
  - destruct fuel as [|fuel]; [simpl in Hf; lia|]. cbn [length] in Hf.
    pose proof (len_nonneg c) as Lc. pose proof (len_nonneg dl) as Ld. pose proof (len_nonneg il) as Li.
    pose proof (len_nonneg p) as Lp. pose proof (len_nonneg q) as Lq.
    rewrite !Forall_app in Fa, Fb, Na, Nb.
    destruct Fa as (Fc & Fd & Fa), Fb as (_ & Fi & Fb), Na as (Nc & Nd & Na), Nb as (_ & Ni & Nb).
    unfold PrintEditList. cbn [flat_map]. subst x y.
    rewrite PrintEdit_lines by assumption.
    rewrite split_unlines by (apply edit_lines_free; auto; lia).
    replace (p ++ c ++ dl ++ a) with ((p ++ c ++ dl) ++ a) by (rewrite <- !app_assoc; reflexivity).
    replace (q ++ c ++ il ++ b) with ((q ++ c ++ il) ++ b) by (rewrite <- !app_assoc; reflexivity).
    fold (PrintEditList ((p ++ c ++ dl) ++ a) ((q ++ c ++ il) ++ b) es).
    specialize (IH (p ++ c ++ dl) (q ++ c ++ il) fuel ltac:(rewrite !len_app; lia) ltac:(rewrite !len_app; lia)
      Fa Fb Na Nb ltac:(lia)).
    remember (split nl (PrintEditList ((p ++ c ++ dl) ++ a) ((q ++ c ++ il) ++ b) es)) as rest.
    unfold edit_lines.
    destruct (Z.eqb_spec (len il) 0) as [Zi|Zi], (Z.eqb_spec (len dl) 0) as [Zd|Zd]; cbn [negb andb]; try lia.
    + (* deletion *)
      assert (il = []) as -> by (destruct il; [reflexivity|unfold len in Zi; simpl in Zi; lia]).
      rewrite <- app_comm_cons, patch_nonend.
      2:{ intros E. apply app_eq_nil in E. destruct E as [_ E]. discriminate. }
      unfold parse_cmd.
      destruct (range_parse (len p + len c) (len dl) "d" (print_int (len q + len c + 1))) as (P1 & P2);
        [lia|lia|reflexivity|reflexivity|].
      change ($"d" ++ print_int (len q + len c + 1)) with ("d"%char :: print_int (len q + len c + 1)). rewrite P1.
      rewrite (proj2 (proj2 (proj2 (parse_range_print (len q + len c + 1) 0 "d" [] ltac:(lia) ltac:(lia) eq_refl eq_refl)))).
      change (eqc "d" "a") with false. change (eqc "d" "d") with true. cbn iota.
      rewrite (take_app c) by lia.
      rewrite (take_marked_app _ dl) by lia.
      rewrite (take_app dl) by lia.
      rewrite Z.eqb_refl, eq_lines_refl. rewrite (proj2 (Z.eqb_eq _ _)) by lia. cbn [andb].
      replace (len q + len c + 1 - 1) with (len q + len c + len (@nil str)) by (rewrite len_nil; lia).
      rewrite IH. reflexivity.
    + (* insertion *)
      assert (dl = []) as -> by (destruct dl; [reflexivity|unfold len in Zd; simpl in Zd; lia]).
      rewrite <- app_comm_cons, patch_nonend.
      2:{ intros E. apply app_eq_nil in E. destruct E as [_ E]. discriminate. }
      unfold parse_cmd.
      destruct (range_parse (len q + len c) (len il) "d" []) as (_ & P2); [lia|lia|reflexivity|reflexivity|].
      change ($"a" ++ range_ (len q + len c) (len il)) with ("a"%char :: range_ (len q + len c) (len il)).
      rewrite (proj1 (proj2 (parse_range_print (len p + len c) 0 "a" (range_ (len q + len c) (len il)) ltac:(lia) ltac:(lia) eq_refl eq_refl))).
      rewrite P2. change (eqc "a" "a") with true. cbn iota.
      rewrite (take_app c) by lia.
      rewrite (take_marked_app $"> " il) by lia.
      rewrite (proj2 (Z.eqb_eq _ _)) by lia. rewrite (proj2 (Z.eqb_eq _ _)) by lia. cbn [andb].
      rewrite len_nil, Z.add_0_r in IH. change ([] ++ a) with a.
      rewrite IH. reflexivity.
    + (* replacement *)
      rewrite <- app_comm_cons, patch_nonend.
      2:{ intros E. apply app_eq_nil in E. destruct E as [_ E]. discriminate. }
      unfold parse_cmd.
      destruct (range_parse (len p + len c) (len dl) "c" (range_ (len q + len c) (len il))) as (P1 & _);
        [lia|lia|reflexivity|reflexivity|].
      destruct (range_parse (len q + len c) (len il) "d" []) as (_ & P2); [lia|lia|reflexivity|reflexivity|].
      change ($"c" ++ range_ (len q + len c) (len il)) with ("c"%char :: range_ (len q + len c) (len il)). rewrite P1, P2.
      change (eqc "c" "a") with false. change (eqc "c" "d") with false. change (eqc "c" "c") with true. cbn iota.
      rewrite (take_app c) by lia. rewrite <- app_assoc, <- app_comm_cons.
      rewrite (take_marked_app _ dl) by lia.
      rewrite (take_app dl) by lia.
      rewrite (take_marked_app _ il) by lia.
      rewrite eq_lines_refl, eqs_refl. rewrite (proj2 (Z.eqb_eq _ _)) by lia. cbn [andb].
      rewrite IH. reflexivity.
Qed.

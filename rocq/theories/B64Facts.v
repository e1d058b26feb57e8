(** Lemmas about the base64 model. *)
From Verif Require Import Base B64Spec B64Model.
Require Import ZifyBool ZifyNat.
Ltac Zify.zify_post_hook ::= Z.div_mod_to_equations.

(** * Symbols *)
Definition quad (a b c : ascii) : str :=
  map symbol (sextets (flat_map byte_bits [a; b; c])).

Lemma rfc_cons3 a b c r : rfc4648 (a :: b :: c :: r) = quad a b c ++ rfc4648 r.
Proof.
  unfold rfc4648, quad. cbn [length].
  replace (S (S (S (length r))) mod 3) with (length r mod 3) by lia.
  rewrite app_assoc. f_equal.
  destruct a, b, c. cbn [flat_map byte_bits app sextets map]. reflexivity.
Qed.

Lemma sym_spec n : n < 64 -> sym n = Ok (nth n alphabet "?"%char).
Proof.
  intros H. unfold sym, rd.
  assert (E : forallb (fun n => match nth_error base64chars n with
                                | Some c => eqc c (nth n alphabet "?"%char) | None => false end)
                (seq 0 64) = true) by (vm_compute; reflexivity).
  rewrite forallb_forall in E. specialize (E n). rewrite in_seq in E.
  specialize (E ltac:(lia)). destruct (nth_error base64chars n); [|discriminate].
  apply eqc_true in E. subst; reflexivity.
Qed.

Definition qs (a b c : ascii) := (nth (e1 a) alphabet "?"%char, nth (e2 a b) alphabet "?"%char,
                                  nth (e3 b c) alphabet "?"%char, nth (e4 c) alphabet "?"%char).

Lemma e1_bits : forall a, (e1 a <? 64) &&
  eqc (nth (e1 a) alphabet "?"%char) (symbol (firstn 6 (byte_bits a))) = true.
Proof. apply byte_sweep. vm_compute. reflexivity. Qed.
Lemma e2_bits : forall a b, (e2 a b <? 64) &&
  eqc (nth (e2 a b) alphabet "?"%char) (symbol (skipn 6 (byte_bits a) ++ firstn 4 (byte_bits b))) = true.
Proof. apply byte_sweep2. vm_compute. reflexivity. Qed.
Lemma e3_bits : forall a b, (e3 a b <? 64) &&
  eqc (nth (e3 a b) alphabet "?"%char) (symbol (skipn 4 (byte_bits a) ++ firstn 2 (byte_bits b))) = true.
Proof. apply byte_sweep2. vm_compute. reflexivity. Qed.
Lemma e4_bits : forall a, (e4 a <? 64) &&
  eqc (nth (e4 a) alphabet "?"%char) (symbol (skipn 2 (byte_bits a))) = true.
Proof. apply byte_sweep. vm_compute. reflexivity. Qed.
Lemma e2'_bits : forall a, (e2' a <? 64) &&
  eqc (nth (e2' a) alphabet "?"%char) (symbol (skipn 6 (byte_bits a) ++ repeat false 4)) = true.
Proof. apply byte_sweep. vm_compute. reflexivity. Qed.
Lemma e3'_bits : forall a, (e3' a <? 64) &&
  eqc (nth (e3' a) alphabet "?"%char) (symbol (skipn 4 (byte_bits a) ++ repeat false 2)) = true.
Proof. apply byte_sweep. vm_compute. reflexivity. Qed.

Ltac symb E :=
  let H1 := fresh in let H2 := fresh in
  pose proof E as H1; apply andb_true_iff in H1; destruct H1 as [H1 H2];
  apply Nat.ltb_lt in H1; apply eqc_true in H2;
  rewrite (sym_spec _ H1), H2; clear H1 H2.

Lemma sym_e1 a : sym (e1 a) = Ok (symbol (firstn 6 (byte_bits a))).
Proof. symb (e1_bits a). reflexivity. Qed.
Lemma sym_e2 a b : sym (e2 a b) = Ok (symbol (skipn 6 (byte_bits a) ++ firstn 4 (byte_bits b))).
Proof. symb (e2_bits a b). reflexivity. Qed.
Lemma sym_e3 a b : sym (e3 a b) = Ok (symbol (skipn 4 (byte_bits a) ++ firstn 2 (byte_bits b))).
Proof. symb (e3_bits a b). reflexivity. Qed.
Lemma sym_e4 a : sym (e4 a) = Ok (symbol (skipn 2 (byte_bits a))).
Proof. symb (e4_bits a). reflexivity. Qed.
Lemma sym_e2' a : sym (e2' a) = Ok (symbol (skipn 6 (byte_bits a) ++ repeat false 4)).
Proof. symb (e2'_bits a). reflexivity. Qed.
Lemma sym_e3' a : sym (e3' a) = Ok (symbol (skipn 4 (byte_bits a) ++ repeat false 2)).
Proof. symb (e3'_bits a). reflexivity. Qed.

Lemma quad_eq a b c : quad a b c =
  [symbol (firstn 6 (byte_bits a)); symbol (skipn 6 (byte_bits a) ++ firstn 4 (byte_bits b));
   symbol (skipn 4 (byte_bits b) ++ firstn 2 (byte_bits c)); symbol (skipn 2 (byte_bits c))].
Proof. destruct a, b, c. reflexivity. Qed.
Lemma rfc_2 a b : rfc4648 [a; b] =
  [symbol (firstn 6 (byte_bits a)); symbol (skipn 6 (byte_bits a) ++ firstn 4 (byte_bits b));
   symbol (skipn 4 (byte_bits b) ++ repeat false 2); "="%char].
Proof. destruct a, b. reflexivity. Qed.
Lemma rfc_1 a : rfc4648 [a] =
  [symbol (firstn 6 (byte_bits a)); symbol (skipn 6 (byte_bits a) ++ repeat false 4); "="; "="]%char.
Proof. destruct a. reflexivity. Qed.
Lemma rfc_0 : rfc4648 [] = [].
Proof. reflexivity. Qed.

Lemma rfc_length d : length (rfc4648 d) = (length d + 2) / 3 * 4.
Proof.
  induction d as [|a|a b|a b c r IH] using list_ind3.
  - reflexivity.
  - rewrite rfc_1; reflexivity.
  - rewrite rfc_2; reflexivity.
  - rewrite rfc_cons3, app_length, IH, quad_eq. cbn [length]. lia.
Qed.

(** * Closed form of the encoder *)
Fixpoint enc_pure (nlf : bool) (data : str) (i : nat) : str :=
  match data with
  | a :: b :: c :: r =>
      quad a b c ++ (if nlf && ((i + 4) mod 72 =? 0) then nl :: enc_pure nlf r (i + 5)
                     else enc_pure nlf r (i + 4))
  | short => rfc4648 short
  end.

Lemma repeat_split {A} (x : A) n m : m <= n -> repeat x n = repeat x m ++ repeat x (n - m).
Proof. intros H. rewrite <- repeat_app. f_equal. lia. Qed.

Lemma wr_next (pre : str) k x : 0 < k ->
  wr (length pre) x (pre ++ repeat nul k) = Ok ((pre ++ [x]) ++ repeat nul (k - 1)).
Proof.
  intros H. destruct k; [lia|]. unfold wr. cbn [repeat].
  rewrite set_at_app, <- app_assoc. simpl. rewrite Nat.sub_0_r. reflexivity.
Qed.

Lemma wr_next' (pre : str) i k x : i = length pre -> 0 < k ->
  wr i x (pre ++ repeat nul k) = Ok ((pre ++ [x]) ++ repeat nul (k - 1)).
Proof. intros -> H; apply wr_next; exact H. Qed.

Lemma rd_mid {A} (pre : list A) x r j : j = length pre -> rd j (pre ++ x :: r) = Ok x.
Proof.
  intros ->. unfold rd. rewrite nth_error_app2, Nat.sub_diag by lia. reflexivity.
Qed.

Definition finish (input out : str) (i j nb : nat) : res str :=
  if nb =? 2 then
    a <-- rd j input ;;
    b <-- rd (j + 1) input ;;
    s1 <-- sym (e1 a) ;;
    out <-- wr i s1 out ;;
    s2 <-- sym (e2 a b) ;;
    out <-- wr (i + 1) s2 out ;;
    s3 <-- sym (e3' b) ;;
    out <-- wr (i + 2) s3 out ;;
    wr (i + 3) "="%char out
  else if nb =? 1 then
    a <-- rd j input ;;
    s1 <-- sym (e1 a) ;;
    out <-- wr i s1 out ;;
    s2 <-- sym (e2' a) ;;
    out <-- wr (i + 1) s2 out ;;
    out <-- wr (i + 2) "="%char out ;;
    wr (i + 3) "="%char out
  else Ok out.

Lemma finish_two pre a b out i j k :
  j = length pre -> i = length out -> 4 <= k ->
  finish (pre ++ [a; b]) (out ++ repeat nul k) i j 2
    = Ok (out ++ rfc4648 [a; b] ++ repeat nul (k - 4)).
Proof.
  intros Hj Hi Hk. unfold finish. cbn [Nat.eqb].
  rewrite (rd_mid pre a [b] j Hj). cbn [bind].
  rewrite (app_assoc pre [a] [b] : pre ++ [a; b] = (pre ++ [a]) ++ [b]).
  rewrite (rd_mid (pre ++ [a]) b [] (j + 1)) by (rewrite app_length; simpl; lia).
  cbn [bind]. rewrite sym_e1. cbn [bind].
  rewrite (wr_next' out) by lia. cbn [bind].
  rewrite sym_e2. cbn [bind].
  rewrite wr_next' by (rewrite ?app_length; simpl; lia). cbn [bind].
  rewrite sym_e3'. cbn [bind].
  rewrite wr_next' by (rewrite ?app_length; simpl; lia). cbn [bind].
  rewrite wr_next' by (rewrite ?app_length; simpl; lia).
  rewrite rfc_2. rewrite <- !app_assoc. cbn [app]. replace (k - 1 - 1 - 1 - 1) with (k - 4) by lia. reflexivity.
Qed.

Lemma finish_one pre a out i j k :
  j = length pre -> i = length out -> 4 <= k ->
  finish (pre ++ [a]) (out ++ repeat nul k) i j 1
    = Ok (out ++ rfc4648 [a] ++ repeat nul (k - 4)).
Proof.
  intros Hj Hi Hk. unfold finish. cbn [Nat.eqb].
  rewrite (rd_mid pre a [] j Hj). cbn [bind].
  rewrite sym_e1. cbn [bind].
  rewrite (wr_next' out) by lia. cbn [bind].
  rewrite sym_e2'. cbn [bind].
  rewrite wr_next' by (rewrite ?app_length; simpl; lia). cbn [bind].
  rewrite wr_next' by (rewrite ?app_length; simpl; lia). cbn [bind].
  rewrite wr_next' by (rewrite ?app_length; simpl; lia).
  rewrite rfc_1. rewrite <- !app_assoc. cbn [app]. replace (k - 1 - 1 - 1 - 1) with (k - 4) by lia. reflexivity.
Qed.

Lemma encode_run o data : forall fuel pre out k i j,
  length data < fuel ->
  j = length pre -> i = length out ->
  length (enc_pure (addNewLines o) data i) <= k ->
  (' (out', i', j', nb) <-- encode_loop fuel o (pre ++ data) (out ++ repeat nul k) i j (length data) ;;
   finish (pre ++ data) out' i' j' nb)
  = Ok (out ++ enc_pure (addNewLines o) data i ++ repeat nul (k - length (enc_pure (addNewLines o) data i))).
Proof.
  induction data as [|a|a b|a b c r IH] using list_ind3; intros fuel pre out k i j Hf Hj Hi Hk.
  - destruct fuel; [simpl in Hf; lia|]. cbn [encode_loop length Nat.leb bind finish Nat.eqb enc_pure rfc4648].
    unfold finish. cbn [Nat.eqb]. change (rfc4648 []) with (@nil ascii). cbn [app length]. rewrite Nat.sub_0_r. reflexivity.
  - destruct fuel; [simpl in Hf; lia|]. cbn [encode_loop length Nat.leb bind enc_pure] in *.
    rewrite finish_one; [|assumption|assumption|rewrite rfc_1 in Hk; simpl in Hk; lia].
    rewrite (rfc_length [a]); reflexivity.
  - destruct fuel; [simpl in Hf; lia|]. cbn [encode_loop length Nat.leb bind enc_pure] in *.
    rewrite finish_two; [|assumption|assumption|rewrite rfc_2 in Hk; simpl in Hk; lia].
    rewrite (rfc_length [a; b]); reflexivity.
  - destruct fuel; [simpl in Hf; lia|].
    cbn [encode_loop].
    replace (3 <=? length (a :: b :: c :: r)) with true by (symmetry; apply Nat.leb_le; simpl; lia).
    cbn [enc_pure] in Hk |- *.
    assert (Hq : length (quad a b c) = 4) by (rewrite quad_eq; reflexivity).
    rewrite !app_length, Hq in Hk.
    rewrite (rd_mid pre a (b :: c :: r) j Hj). cbn [bind].
    replace (rd (j + 1) (pre ++ a :: b :: c :: r)) with (@Ok ascii b).
    2:{ symmetry. replace (pre ++ a :: b :: c :: r) with ((pre ++ [a]) ++ b :: c :: r) by (rewrite <- app_assoc; reflexivity).
        apply rd_mid. rewrite app_length; simpl; lia. }
    cbn [bind].
    replace (rd (j + 2) (pre ++ a :: b :: c :: r)) with (@Ok ascii c).
    2:{ symmetry. replace (pre ++ a :: b :: c :: r) with ((pre ++ [a; b]) ++ c :: r) by (rewrite <- app_assoc; reflexivity).
        apply rd_mid. rewrite app_length; simpl; lia. }
    cbn [bind].
    rewrite sym_e1. cbn [bind].
    rewrite (wr_next' out) by lia. cbn [bind].
    rewrite sym_e2. cbn [bind].
    rewrite wr_next' by (rewrite ?app_length; simpl; lia). cbn [bind].
    rewrite sym_e3. cbn [bind].
    rewrite wr_next' by (rewrite ?app_length; simpl; lia). cbn [bind].
    rewrite sym_e4. cbn [bind].
    rewrite wr_next' by (rewrite ?app_length; simpl; lia). cbn [bind].
    replace ((((out ++ [symbol (firstn 6 (byte_bits a))]) ++
        [symbol (skipn 6 (byte_bits a) ++ firstn 4 (byte_bits b))]) ++
        [symbol (skipn 4 (byte_bits b) ++ firstn 2 (byte_bits c))]) ++
        [symbol (skipn 2 (byte_bits c))]) with (out ++ quad a b c)
      by (rewrite quad_eq, <- !app_assoc; reflexivity).
    replace (pre ++ a :: b :: c :: r) with ((pre ++ [a; b; c]) ++ r) by (rewrite <- app_assoc; reflexivity).
    replace (length (a :: b :: c :: r) - 3) with (length r) by (simpl; lia).
    destruct (addNewLines o && ((i + 4) mod 72 =? 0)) eqn:Enl.
    + rewrite wr_next' by (rewrite ?app_length, ?Hq; simpl in *; lia). cbn [bind].
      rewrite (IH fuel (pre ++ [a; b; c]) ((out ++ quad a b c) ++ [nl]) (k - 1 - 1 - 1 - 1 - 1) (i + 4 + 1) (j + 3)).
      * f_equal. rewrite <- !app_assoc. do 2 f_equal. cbn [app].
        replace (i + 4 + 1) with (i + 5) by lia. rewrite app_length, Hq. cbn [length]. do 3 f_equal. lia.
      * simpl in Hf; lia.
      * rewrite app_length; simpl; lia.
      * rewrite !app_length, Hq; simpl; lia.
      * replace (i + 4 + 1) with (i + 5) by lia. simpl in Hk. lia.
    + rewrite (IH fuel (pre ++ [a; b; c]) (out ++ quad a b c) (k - 1 - 1 - 1 - 1) (i + 4) (j + 3)).
      * f_equal. rewrite <- !app_assoc. do 2 f_equal.
        rewrite app_length, Hq. do 2 f_equal. lia.
      * simpl in Hf; lia.
      * rewrite app_length; simpl; lia.
      * rewrite !app_length, Hq; simpl; lia.
      * lia.
Qed.

Lemma enc_pure_plain nlf d : forall i, nlf = false \/ i mod 4 = 1 -> enc_pure nlf d i = rfc4648 d.
Proof.
  induction d as [|a|a b|a b c r IH] using list_ind3; intros i Hi; try reflexivity.
  cbn [enc_pure]. rewrite rfc_cons3. f_equal.
  replace (nlf && ((i + 4) mod 72 =? 0)) with false.
  - apply IH. destruct Hi; [left; assumption|right; lia].
  - symmetry. destruct Hi as [->| Hi]; [reflexivity|].
    apply andb_false_iff. right. apply Nat.eqb_neq.
    replace 72 with (4 * 18) by lia. rewrite Nat.mod_mul_r by lia. lia.
Qed.

(** the text broken once, after column [72] *)
Definition broken_at (col n54 : nat) (d : str) (T : str) : str :=
  if n54 <=? length d then firstn col T ++ nl :: skipn col T else T.

Lemma enc_pure_nl d : forall q, q < 18 ->
  enc_pure true d (4 * q) = broken_at (72 - 4 * q) (54 - 3 * q) d (rfc4648 d).
Proof.
  induction d as [|a|a b|a b c r IH] using list_ind3; intros q Hq.
  - unfold broken_at. replace (54 - 3 * q <=? _) with false; [reflexivity|].
    symmetry; apply Nat.leb_gt; cbn [length]; lia.
  - unfold broken_at. replace (54 - 3 * q <=? _) with false; [reflexivity|].
    symmetry; apply Nat.leb_gt; cbn [length]; lia.
  - unfold broken_at. replace (54 - 3 * q <=? _) with false; [reflexivity|].
    symmetry; apply Nat.leb_gt; cbn [length]; lia.
  - cbn [enc_pure]. rewrite rfc_cons3. cbn [andb].
    assert (Hl : length (quad a b c) = 4) by (rewrite quad_eq; reflexivity).
    destruct (Nat.eq_dec q 17) as [->|Hne].
    + replace ((4 * 17 + 4) mod 72 =? 0) with true by reflexivity.
      unfold broken_at. replace (54 - 3 * 17) with 3 by lia. replace (72 - 4 * 17) with 4 by lia.
      replace (3 <=? length (a :: b :: c :: r)) with true by reflexivity.
      rewrite firstn_app, skipn_app, Hl. rewrite (firstn_all2 (quad a b c)) by lia.
      rewrite (skipn_all2 (quad a b c)) by lia. cbn [Nat.sub firstn skipn app]. rewrite app_nil_r.
      do 2 f_equal. apply enc_pure_plain. right. reflexivity.
    + replace ((4 * q + 4) mod 72 =? 0) with false by (symmetry; apply Nat.eqb_neq; lia).
      replace (4 * q + 4) with (4 * S q) by lia. rewrite IH by lia.
      unfold broken_at. cbn [length].
      destruct (54 - 3 * S q <=? length r) eqn:E1; destruct (54 - 3 * q <=? S (S (S (length r)))) eqn:E2; try lia; [|reflexivity].
      rewrite firstn_app, skipn_app, Hl.
      rewrite (firstn_all2 (quad a b c)) by lia. rewrite (skipn_all2 (quad a b c)) by lia.
      replace (72 - 4 * q - 4) with (72 - 4 * S q) by lia. rewrite <- app_assoc. reflexivity.
Qed.

Lemma enc_pure_nl0 d : enc_pure true d 0 = broken_at 72 54 d (rfc4648 d).
Proof. exact (enc_pure_nl d 0 ltac:(lia)). Qed.

Lemma broken_length d : length (broken_at 72 54 d (rfc4648 d)) =
  length (rfc4648 d) + (if 54 <=? length d then 1 else 0).
Proof.
  unfold broken_at. destruct (54 <=? length d); [|lia].
  rewrite app_length. cbn [length]. rewrite <- (firstn_skipn 72 (rfc4648 d)) at 3.
  rewrite app_length. lia.
Qed.

Lemma encode_closed o d :
  Encode o d =
  Ok (if addNewLines o then
        let T := rfc4648 d in
        let W := if 54 <=? length d then firstn 72 T ++ nl :: skipn 72 T else T in
        W ++ repeat nul (length T + length T / 72 - length W)
      else rfc4648 d).
Proof.
  unfold Encode. fold (finish d).
  set (n := if addNewLines o then _ else _).
  assert (Hlen : length (enc_pure (addNewLines o) d 0) <= n).
  { subst n. destruct (addNewLines o).
    - rewrite enc_pure_nl0, broken_length, rfc_length. destruct (54 <=? length d) eqn:E; lia.
    - rewrite enc_pure_plain by auto. rewrite rfc_length. lia. }
  pose proof (encode_run o d (S (length d)) [] [] n 0 0 ltac:(lia) eq_refl eq_refl Hlen) as H.
  cbn [app] in H.
  match goal with |- ?L = _ => change L with (' (out', i', j', nb) <-- encode_loop (S (length d)) o d (repeat nul n) 0 0 (length d);; finish d out' i' j' nb) end.
  rewrite H. f_equal. subst n. destruct (addNewLines o).
  - rewrite enc_pure_nl0. unfold broken_at. rewrite rfc_length. reflexivity.
  - rewrite enc_pure_plain by auto. rewrite rfc_length, Nat.sub_diag. cbn [repeat]. apply app_nil_r.
Qed.

(** Generated file names. *)
From Verif Require Import Base Str Dec PathModel PathFacts ItkModel.
Local Open Scope Z_scope.

(** * Hexadecimal numbers *)
Definition hex_char (c : ascii) : bool := (48 <=? Z.of_nat (code c)) && (Z.of_nat (code c) <=? 57) || (97 <=? Z.of_nat (code c)) && (Z.of_nat (code c) <=? 102).
Definition hex_char_value (c : ascii) : Z := if Z.of_nat (code c) <=? 57 then Z.of_nat (code c) - 48 else Z.of_nat (code c) - 87.
Definition hex_value (s : str) : Z := fold_left (fun v c => 16 * v + hex_char_value c) s 0.
(** [s] is [n] written in hexadecimal with lower case letters and without leading zeros *)
Definition is_hex (n : Z) (s : str) : Prop :=
  s <> [] /\ forallb hex_char s = true /\ hex_value s = n /\ (forall t, s = "0"%char :: t -> t = []).

Lemma hex_digit_ok d : 0 <= d < 16 -> hex_char (hex_digit d) = true /\ hex_char_value (hex_digit d) = d /\ (hex_digit d = "0"%char -> d = 0).
Proof.
  intros H. assert (C : d = 0 \/ d = 1 \/ d = 2 \/ d = 3 \/ d = 4 \/ d = 5 \/ d = 6 \/ d = 7 \/ d = 8 \/ d = 9 \/ d = 10 \/ d = 11 \/ d = 12 \/ d = 13 \/ d = 14 \/ d = 15) by lia.
  repeat (destruct C as [C|C]; [subst d; vm_compute; repeat split; intros; congruence|]). subst d; vm_compute; repeat split; intros; congruence.
Qed.
Lemma hex_value_app a b : hex_value (a ++ b) = hex_value a * 16 ^ Z.of_nat (length b) + hex_value b.
Proof.
  unfold hex_value. rewrite fold_left_app. generalize (fold_left (fun v c => 16 * v + hex_char_value c) a 0) as v. induction b as [|c b IH]; intros v; cbn [fold_left length].
  - change (16 ^ Z.of_nat 0) with 1. lia.
  - rewrite IH. rewrite (IH (16 * 0 + hex_char_value c)). rewrite Nat2Z.inj_succ, Z.pow_succ_r by lia. ring.
Qed.
Lemma hex_digits_ok fuel : forall n acc, 0 <= n < 16 ^ Z.of_nat fuel -> (0 < fuel)%nat -> exists d, hex_digits fuel n acc = d ++ acc /\ is_hex n d.
Proof.
  induction fuel as [|fuel IH]; intros n acc Hn Hf; [lia|]. cbn [hex_digits]. destruct (Z.ltb_spec n 16) as [L|L].
  - exists [hex_digit n]. split; [reflexivity|]. destruct (hex_digit_ok n) as (A & B & C); [lia|]. split; [discriminate|].
    split; [cbn; rewrite A; reflexivity|]. split; [unfold hex_value; cbn [fold_left]; lia|]. intros t E. injection E as _ <-. reflexivity.
  - rewrite Nat2Z.inj_succ, Z.pow_succ_r in Hn by lia.
    assert (Hq : 0 <= n / 16 < 16 ^ Z.of_nat fuel) by (split; [apply Z.div_pos; lia|apply Z.div_lt_upper_bound; lia]).
    assert (Hf' : (0 < fuel)%nat). { destruct fuel; [|lia]. change (16 ^ Z.of_nat 0) with 1 in Hn. lia. }
    destruct (IH (n / 16) (hex_digit (n mod 16) :: acc) Hq Hf') as (d & E & (D1 & D2 & D3 & D4)).
    exists (d ++ [hex_digit (n mod 16)]). rewrite <- app_assoc. split; [exact E|].
    destruct (hex_digit_ok (n mod 16)) as (A & B & _); [apply Z.mod_pos_bound; lia|].
    split; [destruct d; discriminate|]. split; [rewrite forallb_app, D2; cbn; rewrite A; reflexivity|]. split.
    + rewrite hex_value_app, D3. unfold hex_value. cbn [fold_left length]. change (16 ^ Z.of_nat 1) with 16. rewrite B.
      pose proof (Z.div_mod n 16 ltac:(lia)). lia.
    + intros t E'. destruct d as [|c d]; [contradiction|]. injection E' as Ec Et. subst c. specialize (D4 d eq_refl). subst d.
      exfalso. assert (1 <= n / 16) by (apply Z.div_le_lower_bound; lia). assert (Z0 : hex_value ["0"%char] = 0) by reflexivity. lia.
Qed.
Lemma print_hex_ok n : 0 <= n -> is_hex n (print_hex n).
Proof.
  intros H. unfold print_hex. destruct (hex_digits_ok (S (Z.to_nat (Z.log2 n))) n []) as (d & -> & D); [|lia|rewrite app_nil_r; exact D].
  split; [exact H|]. destruct (Z.eq_dec n 0) as [->|N]; [reflexivity|]. destruct (Z.log2_spec n) as [_ L]; [lia|].
  eapply Z.lt_le_trans; [exact L|]. rewrite Nat2Z.inj_succ, Z2Nat.id by apply Z.log2_nonneg. change 16 with (2 ^ 4). rewrite <- Z.pow_mul_r by (pose proof (Z.log2_nonneg n); lia).
  apply Z.pow_le_mono_r; [lia|]. pose proof (Z.log2_nonneg n). lia.
Qed.
Lemma is_hex_inj n m s : is_hex n s -> is_hex m s -> n = m.
Proof. intros (_ & _ & A & _) (_ & _ & B & _). congruence. Qed.
Lemma is_hex_free n s c : is_hex n s -> hex_char c = false -> free c s.
Proof. intros (_ & A & _) H I. rewrite forallb_forall in A. specialize (A c I). congruence. Qed.

(** * The hash: for each character rotate left by 7 bits, then exclusive or *)
Definition rotl7 (h : Z) : Z := (h * 128) mod 65536 + h / 512.
(** a character as a 16-bit number; plain [char] may be signed *)
Definition char16 (signed : bool) (c : ascii) : Z := if signed && (128 <=? Z.of_nat (code c)) then Z.of_nat (code c) + 65280 else Z.of_nat (code c).
Definition hash16 (signed : bool) (text : str) : Z := fold_left (fun h c => Z.lxor (rotl7 h) (char16 signed c)) text 64371.

Lemma mod_lxor a b n : 0 <= n -> (Z.lxor a b) mod 2 ^ n = Z.lxor (a mod 2 ^ n) (b mod 2 ^ n).
Proof.
  intros H. apply Z.bits_inj'. intros k Hk. rewrite Z.lxor_spec. destruct (Z.ltb_spec k n) as [L|L].
  - rewrite !Z.mod_pow2_bits_low by lia. apply Z.lxor_spec.
  - rewrite !Z.mod_pow2_bits_high by lia. reflexivity.
Qed.
Lemma code_bound c : (code c < 256)%nat.
Proof. apply nat_ascii_bounded. Qed.
Lemma char_value_16 sc c : (char_value sc c) mod 65536 = char16 sc c.
Proof.
  pose proof (code_bound c). unfold char_value, char16.
  assert (E : (128 <=? code c)%nat = (128 <=? Z.of_nat (code c))) by (destruct (Nat.leb_spec 128 (code c)), (Z.leb_spec 128 (Z.of_nat (code c))); lia).
  rewrite E. destruct (sc && (128 <=? Z.of_nat (code c))).
  - replace (Z.of_nat (code c) - 256) with (Z.of_nat (code c) + 65280 + (-1) * 65536) by lia. rewrite Z.mod_add by lia. apply Z.mod_small. lia.
  - apply Z.mod_small. lia.
Qed.
Lemma hash_step_16 sc h c : 0 <= h < 65536 -> hash_step sc h c = Z.lxor (rotl7 h) (char16 sc c).
Proof.
  intros H. unfold hash_step. change 65536 with (2 ^ 16). rewrite mod_lxor by lia. change (2 ^ 16) with 65536. rewrite char_value_16. f_equal.
  unfold rotl7. rewrite Z.shiftl_mul_pow2, Z.shiftr_div_pow2 by lia. change (2 ^ 7) with 128. change (2 ^ 9) with 512.
  assert (B : 0 <= h / 512 < 128) by (split; [apply Z.div_pos; lia|apply Z.div_lt_upper_bound; lia]).
  assert (L : Z.lor (h * 128) (h / 512) = h * 128 + h / 512).
  { symmetry. rewrite <- Z.lxor_lor.
    - apply Z.add_nocarry_lxor. apply Z.bits_inj'. intros k Hk. rewrite Z.land_spec, Z.bits_0. change 128 with (2 ^ 7). destruct (Z.ltb_spec k 7) as [L|L].
      + rewrite Z.mul_pow2_bits_low by lia. reflexivity.
      + rewrite <- (Z.mod_small (h / 512) (2 ^ 7)) by (change (2 ^ 7) with 128; lia). rewrite Z.mod_pow2_bits_high by lia. apply andb_false_r.
    - apply Z.bits_inj'. intros k Hk. rewrite Z.land_spec, Z.bits_0. change 128 with (2 ^ 7). destruct (Z.ltb_spec k 7) as [L|L].
      + rewrite Z.mul_pow2_bits_low by lia. reflexivity.
      + rewrite <- (Z.mod_small (h / 512) (2 ^ 7)) by (change (2 ^ 7) with 128; lia). rewrite Z.mod_pow2_bits_high by lia. apply andb_false_r. }
  rewrite L. rewrite Z.add_mod by lia. rewrite (Z.mod_small (h / 512)) by lia.
  apply Z.mod_small. pose proof (Z.mod_pos_bound (h * 128) 65536 eq_refl) as M. split; [lia|].
  assert (E : (h * 128) mod 65536 = 128 * (h mod 512)).
  { rewrite Z.mul_comm. change 65536 with (128 * 512). apply Z.mul_mod_distr_l; lia. }
  pose proof (Z.mod_pos_bound h 512 eq_refl). lia.
Qed.
Lemma hash_range sc l : forall h, 0 <= h < 65536 -> 0 <= fold_left (hash_step sc) l h < 65536.
Proof. induction l as [|c l IH]; intros h H; cbn [fold_left]; [exact H|]. apply IH. unfold hash_step. apply Z.mod_pos_bound. lia. Qed.
Lemma hash_of_16 sc args : hash_of sc args = hash16 sc (concat args) /\ 0 <= hash_of sc args < 65536.
Proof.
  unfold hash_of, hash16. split; [|apply hash_range; lia]. assert (B : 0 <= 64371 < 65536) by lia. revert B. generalize 64371.
  induction (concat args) as [|c l IH]; intros h H; [reflexivity|]. cbn [fold_left]. rewrite <- (hash_step_16 sc h c H). apply IH. unfold hash_step. apply Z.mod_pos_bound. lia.
Qed.

(** * Names *)
(** the [k]-th name (counting from 1) of a run with program name [a0] and arguments [args] *)
Definition kth_name (signed : bool) (a0 : str) (args : list str) (k : Z) (ext name : str) : Prop :=
  exists h d, is_hex (hash16 signed (concat (a0 :: args))) h /\ is_hex k d /\ name = a0 ++ $"_" ++ h ++ $"_" ++ d ++ $"." ++ ext.
Lemma generate_ok sc a0 args n ext root : 0 <= n < 4294967295 ->
  exists name, kth_name sc a0 args (n + 1) ext name /\
    GenerateFileName sc (a0 :: args) n ext root = match root with [] => Ok name | _ => Append root name end.
Proof.
  intros H. destruct (hash_of_16 sc (a0 :: args)) as [E B].
  exists (a0 ++ $"_" ++ print_hex (hash_of sc (a0 :: args)) ++ $"_" ++ print_hex ((n + 1) mod 4294967296) ++ $"." ++ ext).
  split; [|unfold GenerateFileName; destruct root; reflexivity].
  exists (print_hex (hash_of sc (a0 :: args))), (print_hex ((n + 1) mod 4294967296)). rewrite Z.mod_small by lia. rewrite <- E.
  repeat split; apply print_hex_ok; lia.
Qed.
Lemma app_free_inj c a b a' b' : free c a -> free c a' -> a ++ c :: b = a' ++ c :: b' -> a = a' /\ b = b'.
Proof.
  revert a'. induction a as [|x a IH]; intros [|x' a'] F F' H; cbn in H.
  - injection H as <-. auto.
  - injection H as -> _. exfalso. apply F'. left. reflexivity.
  - injection H as <- _. exfalso. apply F. left. reflexivity.
  - injection H as <- H. apply free_cons in F. apply free_cons in F'. destruct (IH a') as [-> ->]; tauto || auto.
Qed.
Lemma hex_value_one c : hex_value [c] = hex_char_value c.
Proof. unfold hex_value. cbn [fold_left]. lia. Qed.
Lemma is_hex_unique n a b : is_hex n a -> is_hex n b -> a = b.
Proof.
  assert (BD : forall s, forallb hex_char s = true -> 0 <= hex_value s < 16 ^ Z.of_nat (length s)).
  { assert (CV : forall c, hex_char c = true -> 0 <= hex_char_value c < 16).
    { intros c. unfold hex_char, hex_char_value. intros H. apply orb_true_iff in H. destruct H as [H|H]; apply andb_true_iff in H; destruct H as [H1 H2]; apply Z.leb_le in H1; apply Z.leb_le in H2;
      destruct (Z.leb_spec (Z.of_nat (code c)) 57); lia. }
    intros s. induction s as [|c s IH] using rev_ind; intros H; [cbn; lia|]. rewrite forallb_app in H. apply andb_true_iff in H. destruct H as [H1 H2].
    cbn in H2. rewrite andb_true_r in H2. specialize (IH H1). specialize (CV c H2). rewrite hex_value_app, app_length. cbn [length].
    change (16 ^ Z.of_nat 1) with 16. rewrite hex_value_one. rewrite Nat.add_1_r, Nat2Z.inj_succ, Z.pow_succ_r by lia. lia. }
  assert (CI : forall c c', hex_char c = true -> hex_char c' = true -> hex_char_value c = hex_char_value c' -> c = c').
  { intros c c'. unfold hex_char, hex_char_value. intros H H' E.
    assert (code c = code c').
    { apply orb_true_iff in H. apply orb_true_iff in H'. rewrite !andb_true_iff, !Z.leb_le in *.
      destruct (Z.leb_spec (Z.of_nat (code c)) 57), (Z.leb_spec (Z.of_nat (code c')) 57); lia. }
    rewrite <- (ascii_nat_embedding c), <- (ascii_nat_embedding c'). unfold code in *. congruence. }
  assert (LEN : forall a b, forallb hex_char a = true -> forallb hex_char b = true -> length a = length b -> hex_value a = hex_value b -> a = b).
  { clear a b. intros a. induction a as [|c a IH] using rev_ind; intros b Ha Hb L V.
    - destruct b; [reflexivity|discriminate].
    - destruct b as [|c' b _] using rev_ind; [rewrite app_length in L; cbn in L; lia|].
      rewrite !app_length in L. cbn in L. rewrite forallb_app in Ha, Hb. apply andb_true_iff in Ha. apply andb_true_iff in Hb.
      destruct Ha as [Ha1 Ha2]. destruct Hb as [Hb1 Hb2]. cbn in Ha2, Hb2. rewrite andb_true_r in Ha2, Hb2.
      rewrite !hex_value_app in V. cbn [length] in V. change (16 ^ Z.of_nat 1) with 16 in V. rewrite !hex_value_one in V.
      assert (B1 := BD [c]). assert (B2 := BD [c']). rewrite hex_value_one in B1, B2. cbn [length forallb] in B1, B2. rewrite andb_true_r in B1, B2. specialize (B1 Ha2). specialize (B2 Hb2). change (16 ^ Z.of_nat 1) with 16 in B1, B2.
      assert (hex_char_value c = hex_char_value c' /\ hex_value a = hex_value b) as [E1 E2] by lia.
      rewrite (CI c c' Ha2 Hb2 E1). rewrite (IH b Ha1 Hb1); [reflexivity|lia|exact E2]. }
  assert (LOW : forall s, s <> [] -> forallb hex_char s = true -> (forall t, s = "0"%char :: t -> t = []) -> (1 < length s)%nat -> 16 ^ (Z.of_nat (length s) - 1) <= hex_value s).
  { intros [|c s] Hs H1 H2 H3; [contradiction|]. cbn [forallb] in H1. apply andb_true_iff in H1. destruct H1 as [Hc Hs'].
    change (c :: s) with ([c] ++ s). rewrite hex_value_app. cbn [app length]. rewrite Nat2Z.inj_succ. replace (Z.succ (Z.of_nat (length s)) - 1) with (Z.of_nat (length s)) by lia.
    assert (1 <= hex_value [c]).
    { rewrite hex_value_one. assert (hex_char_value c <> 0).
      { intros E. assert (c = "0"%char) by (apply CI; [exact Hc|reflexivity|rewrite E; reflexivity]). subst c. specialize (H2 s eq_refl). subst s. cbn in H3. lia. }
      assert (B1 := BD [c]). rewrite hex_value_one in B1. cbn [forallb] in B1. rewrite andb_true_r in B1. specialize (B1 Hc). lia. }
    specialize (BD s Hs'). nia. }
  intros (A1 & A2 & A3 & A4) (B1 & B2 & B3 & B4). apply LEN; try assumption; [|congruence].
  destruct (Nat.lt_trichotomy (length a) (length b)) as [L|[L|L]]; [|exact L|].
  - exfalso. assert (LB := LOW b B1 B2 B4). assert (BA := BD a A2). destruct a as [|x a]; [contradiction|]. cbn [length] in *.
    specialize (LB ltac:(lia)). assert (16 ^ Z.of_nat (S (length a)) <= 16 ^ (Z.of_nat (length b) - 1)) by (apply Z.pow_le_mono_r; lia). lia.
  - exfalso. assert (LA := LOW a A1 A2 A4). assert (BB := BD b B2). destruct b as [|x b]; [contradiction|]. cbn [length] in *.
    specialize (LA ltac:(lia)). assert (16 ^ Z.of_nat (S (length b)) <= 16 ^ (Z.of_nat (length a) - 1)) by (apply Z.pow_le_mono_r; lia). lia.
Qed.
Lemma kth_inj sc a0 args k k' ext ext' name : kth_name sc a0 args k ext name -> kth_name sc a0 args k' ext' name -> k = k' /\ ext = ext'.
Proof.
  intros (h & d & H & D & E) (h' & d' & H' & D' & E'). assert (h = h') by exact (is_hex_unique _ _ _ H H'). subst h'.
  rewrite E in E'. apply app_inv_head in E'. apply app_inv_head in E'. apply app_inv_head in E'. apply app_inv_head in E'.
  change ($"." ++ ext) with ("."%char :: ext) in E'. change ($"." ++ ext') with ("."%char :: ext') in E'.
  apply app_free_inj in E'; [|eapply is_hex_free; [exact D|reflexivity]|eapply is_hex_free; [exact D'|reflexivity]].
  destruct E' as [-> ->]. split; [eapply is_hex_inj; eassumption|reflexivity].
Qed.
(** the last path component *)
Lemma kth_tail sc a0 args k ext name : free slash ext -> kth_name sc a0 args k ext name ->
  exists h d, is_hex (hash16 sc (concat (a0 :: args))) h /\ is_hex k d /\ Tail name = Tail a0 ++ $"_" ++ h ++ $"_" ++ d ++ $"." ++ ext.
Proof.
  intros F (h & d & H & D & ->). exists h, d. split; [exact H|]. split; [exact D|].
  assert (R : free slash ($"_" ++ h ++ $"_" ++ d ++ $"." ++ ext)).
  { repeat (apply free_app; split); try (eapply is_hex_free; [eassumption|reflexivity]); try exact F; (intros [X|X]; [discriminate|exact X]). }
  destruct (last_split slash a0) as [X|(p & q & -> & X)].
  - rewrite (tail_free a0 X). apply tail_free. apply free_app. split; assumption.
  - rewrite <- app_assoc. cbn [app]. rewrite tail_app_sep. rewrite (tail_free (q ++ _)) by (apply free_app; split; assumption).
    rewrite tail_split by exact X. reflexivity.
Qed.
Lemma append_inj p f g r : Append p f = Ok r -> Append p g = Ok r -> is_absolute f = is_absolute g -> f = g.
Proof.
  destruct (is_absolute f) eqn:Ef; intros H1 H2 E.
  - rewrite append_abs in H1, H2 by (symmetry in E; assumption). congruence.
  - destruct p as [|c t]; [rewrite append_nil in H1, H2; congruence|]. rewrite append_rel in H1, H2 by (congruence || exact Ef).
    rewrite <- H1 in H2. injection H2 as H2. apply app_inv_head in H2. injection H2 as ->. reflexivity.
Qed.

(** * The hash is injective in its state and in the character *)
Lemma step_bits sc h c j : 0 <= h < 65536 -> 0 <= j < 16 ->
  Z.testbit (hash_step sc h c) j = xorb (if j <? 7 then Z.testbit h (j + 9) else Z.testbit h (j - 7)) (Z.testbit (char_value sc c) j).
Proof.
  intros Hh Hj. unfold hash_step. change 65536 with (2 ^ 16). rewrite Z.mod_pow2_bits_low by lia.
  rewrite Z.lxor_spec, Z.lor_spec, Z.shiftr_spec by lia. f_equal.
  assert (B : forall i, 16 <= i -> Z.testbit h i = false).
  { intros i Hi. rewrite Z.testbit_false by lia. rewrite Z.div_small; [reflexivity|]. split; [lia|]. apply Z.lt_le_trans with (2 ^ 16); [change (2 ^ 16) with 65536; lia|]. apply Z.pow_le_mono_r; lia. }
  destruct (Z.ltb_spec j 7).
  - rewrite Z.shiftl_spec_low by lia. reflexivity.
  - rewrite Z.shiftl_spec by lia. rewrite (B (j + 9)) by lia. apply orb_false_r.
Qed.
Lemma step_range sc h c : 0 <= hash_step sc h c < 65536.
Proof. unfold hash_step. apply Z.mod_pos_bound. lia. Qed.
Lemma step_inj sc h h' c : 0 <= h < 65536 -> 0 <= h' < 65536 -> hash_step sc h c = hash_step sc h' c -> h = h'.
Proof.
  intros H H' E. apply Z.bits_inj'. intros i Hi.
  destruct (Z.ltb_spec i 16) as [L|L].
  - destruct (Z.ltb_spec i 9) as [L9|L9].
    + assert (X := f_equal (fun z => Z.testbit z (i + 7)) E). cbv beta in X. rewrite !step_bits in X by lia.
      destruct (Z.ltb_spec (i + 7) 7); [lia|]. replace (i + 7 - 7) with i in X by lia.
      destruct (Z.testbit (char_value sc c) (i + 7)), (Z.testbit h i), (Z.testbit h' i); cbn in X; congruence.
    + assert (X := f_equal (fun z => Z.testbit z (i - 9)) E). cbv beta in X. rewrite !step_bits in X by lia.
      destruct (Z.ltb_spec (i - 9) 7); [|lia]. replace (i - 9 + 9) with i in X by lia.
      destruct (Z.testbit (char_value sc c) (i - 9)), (Z.testbit h i), (Z.testbit h' i); cbn in X; congruence.
  - assert (B : forall x, 0 <= x < 65536 -> Z.testbit x i = false).
    { intros x Hx. rewrite Z.testbit_false by lia. rewrite Z.div_small; [reflexivity|]. split; [lia|]. apply Z.lt_le_trans with (2 ^ 16); [change (2 ^ 16) with 65536; lia|]. apply Z.pow_le_mono_r; lia. }
    rewrite !B by assumption. reflexivity.
Qed.
Lemma step_char sc h c c' : 0 <= h < 65536 -> hash_step sc h c = hash_step sc h c' -> c = c'.
Proof.
  intros H E. assert (V : char_value sc c mod 65536 = char_value sc c' mod 65536).
  { change 65536 with (2 ^ 16). apply Z.bits_inj'. intros i Hi. destruct (Z.ltb_spec i 16) as [L|L].
    - rewrite !Z.mod_pow2_bits_low by lia. assert (X := f_equal (fun z => Z.testbit z i) E). cbv beta in X. rewrite !step_bits in X by lia.
      destruct (if i <? 7 then Z.testbit h (i + 9) else Z.testbit h (i - 7)), (Z.testbit (char_value sc c) i), (Z.testbit (char_value sc c') i); cbn in X; congruence.
    - rewrite !Z.mod_pow2_bits_high by lia. reflexivity. }
  assert (R : forall x, -128 <= char_value sc x < 256).
  { intros x. unfold char_value. pose proof (nat_ascii_bounded x) as A. unfold code. destruct (sc && (128 <=? nat_of_ascii x)%nat) eqn:Q; [|lia].
    apply andb_true_iff in Q. destruct Q as [_ Q]. apply Nat.leb_le in Q. lia. }
  assert (Ez : char_value sc c = char_value sc c').
  { pose proof (R c). pose proof (R c'). rewrite (Z.div_mod (char_value sc c) 65536), (Z.div_mod (char_value sc c') 65536) by lia. rewrite V.
    destruct (Z.ltb_spec (char_value sc c) 0), (Z.ltb_spec (char_value sc c') 0).
    - do 2 f_equal. rewrite <- (Z.div_unique (char_value sc c) 65536 (-1) (char_value sc c + 65536)), <- (Z.div_unique (char_value sc c') 65536 (-1) (char_value sc c' + 65536)) by lia. reflexivity.
    - exfalso. rewrite (Z.mod_small (char_value sc c')), <- (Z.mod_unique (char_value sc c) 65536 (-1) (char_value sc c + 65536)) in V by lia. lia.
    - exfalso. rewrite (Z.mod_small (char_value sc c)), <- (Z.mod_unique (char_value sc c') 65536 (-1) (char_value sc c' + 65536)) in V by lia. lia.
    - do 2 f_equal. rewrite !Z.div_small by lia. reflexivity. }
  assert (N : code c = code c').
  { revert Ez. unfold char_value. pose proof (nat_ascii_bounded c) as A. pose proof (nat_ascii_bounded c') as A'. unfold code in *.
    destruct sc; cbn [andb]; [|lia]. destruct (Nat.leb_spec 128 (nat_of_ascii c)), (Nat.leb_spec 128 (nat_of_ascii c')); lia. }
  unfold code in N. rewrite <- (ascii_nat_embedding c), <- (ascii_nat_embedding c'), N. reflexivity.
Qed.
Lemma fold_range sc s : forall h, 0 <= h < 65536 -> 0 <= fold_left (hash_step sc) s h < 65536.
Proof. induction s as [|c s IH]; intros h H; [exact H|]. apply IH, step_range. Qed.
Lemma fold_inj sc s : forall h h', 0 <= h < 65536 -> 0 <= h' < 65536 -> fold_left (hash_step sc) s h = fold_left (hash_step sc) s h' -> h = h'.
Proof.
  induction s as [|c s IH]; intros h h' H H' E; [exact E|]. cbn [fold_left] in E. apply IH in E; try apply step_range. eapply step_inj; eassumption.
Qed.

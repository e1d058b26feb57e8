(** The decimal text of floating point numbers: digits and their layout. *)
From Coq Require Import Floats.SpecFloat.
From Verif Require Import Base Str Dec MeasModel NumModel NumSpec.
Local Open Scope Z_scope.

(** * Digits *)
Lemma digits_value_bound s : forallb is_digit s = true -> 0 <= digits_value 0 s < 10 ^ Z.of_nat (length s).
Proof.
  induction s as [|c s IH]; intros H; [cbn; lia|]. cbn [forallb] in H. apply andb_true_iff in H as [H1 H2]. specialize (IH H2).
  cbn [digits_value length]. rewrite digits_value_shift. rewrite Nat2Z.inj_succ, Z.pow_succ_r by lia.
  assert (0 <= digit_val c <= 9).
  { unfold is_digit in H1. apply andb_true_iff in H1 as [A B]. apply Nat.leb_le in A, B. unfold digit_val. lia. }
  nia.
Qed.
Lemma dec_digits_low fuel : forall n, 0 < n -> n < 2 ^ Z.of_nat fuel -> 10 ^ (Z.of_nat (length (dec_digits fuel n [])) - 1) <= n.
Proof.
  induction fuel as [|f IH]; intros n H0 H1; [cbn in H1; lia|].
  cbn [dec_digits]. destruct (Z.ltb_spec n 10) as [L|L]; [cbn; lia|].
  rewrite dec_digits_app, app_length. cbn [length].
  assert (Hd : 0 < n / 10 < 2 ^ Z.of_nat f).
  { rewrite Nat2Z.inj_succ, Z.pow_succ_r in H1 by lia. split; [apply Z.div_str_pos; lia|]. apply Z.div_lt_upper_bound; lia. }
  specialize (IH (n / 10) (proj1 Hd) (proj2 Hd)).
  destruct (dec_digits_spec f (n / 10)) as (_ & _ & C); [lia|lia|].
  destruct (dec_digits f (n / 10) []) as [|c l] eqn:E.
  { destruct f as [|f]; [cbn in Hd; lia|]. elim C; [lia|reflexivity]. }
  cbn [length] in *. replace (Z.of_nat (S (length l) + 1) - 1) with (Z.succ (Z.of_nat (S (length l)) - 1)) by lia.
  rewrite Z.pow_succ_r by lia. pose proof (Z.mul_div_le n 10). lia.
Qed.
Lemma ndigits_spec n : 0 < n -> 1 <= ndigits n /\ 10 ^ (ndigits n - 1) <= n < 10 ^ ndigits n.
Proof.
  intros H. destruct (dec_of_nonneg_spec n) as (A & B & C); [lia|]. unfold ndigits.
  assert (L : 1 <= Z.of_nat (length (dec_of_nonneg n))) by (destruct (dec_of_nonneg n); [contradiction|cbn [length]; lia]).
  split; [exact L|]. split.
  - unfold dec_of_nonneg. apply dec_digits_low; [exact H|]. rewrite Nat2Z.inj_succ, Z2Nat.id by apply Z.log2_nonneg. apply Z.log2_spec, H.
  - pose proof (digits_value_bound _ A) as D. rewrite B in D. apply D.
Qed.
Lemma ndigits_unique n k : 0 < n -> 0 <= k -> 10 ^ k <= n < 10 ^ (k + 1) -> ndigits n = k + 1.
Proof.
  intros H K [A B]. destruct (ndigits_spec n H) as (L & C & D).
  destruct (Z.lt_trichotomy (ndigits n) (k + 1)) as [E|[E|E]]; [exfalso| exact E|exfalso].
  - assert (10 ^ ndigits n <= 10 ^ k) by (apply Z.pow_le_mono_r; lia). lia.
  - assert (10 ^ (k + 1) <= 10 ^ (ndigits n - 1)) by (apply Z.pow_le_mono_r; lia). lia.
Qed.
Lemma strip_spec fuel : forall D, 0 < D -> exists z, 0 <= z <= Z.of_nat fuel /\ 0 < strip fuel D /\ D = strip fuel D * 10 ^ z.
Proof.
  induction fuel as [|f IH]; intros D H; cbn [strip].
  - exists 0. rewrite Z.pow_0_r. lia.
  - destruct (Z.eqb_spec (D mod 10) 0) as [E|E].
    + destruct (IH (D / 10)) as (z & Z1 & Z2 & Z3); [apply Z.div_str_pos; pose proof (Z.div_mod D 10); lia|].
      exists (z + 1). split; [lia|]. split; [exact Z2|]. rewrite Z.pow_add_r, Z.pow_1_r by lia. pose proof (Z.div_mod D 10). nia.
    + exists 0. rewrite Z.pow_0_r. lia.
Qed.
Lemma strip_digits P D : 1 <= P -> 10 ^ (P - 1) <= D < 10 ^ P ->
  exists z, 0 <= z < P /\ 0 < strip (Z.to_nat P) D /\ D = strip (Z.to_nat P) D * 10 ^ z /\ ndigits (strip (Z.to_nat P) D) = P - z.
Proof.
  intros HP HD. assert (0 < 10 ^ (P - 1)) by (apply Z.pow_pos_nonneg; lia).
  destruct (strip_spec (Z.to_nat P) D) as (z & Z1 & Z2 & Z3); [lia|]. set (E := strip (Z.to_nat P) D) in *.
  assert (0 < 10 ^ z) by (apply Z.pow_pos_nonneg; lia).
  assert (Hz : z < P).
  { destruct (Z.lt_ge_cases z P); [assumption|]. assert (10 ^ P <= 10 ^ z) by (apply Z.pow_le_mono_r; lia). nia. }
  exists z. split; [lia|]. split; [exact Z2|]. split; [exact Z3|].
  replace (P - z) with (P - 1 - z + 1) by lia. apply ndigits_unique; [exact Z2|lia|].
  assert (10 ^ (P - 1) = 10 ^ (P - 1 - z) * 10 ^ z) by (rewrite <- Z.pow_add_r by lia; f_equal; lia).
  assert (10 ^ P = 10 ^ (P - 1 - z + 1) * 10 ^ z) by (rewrite <- Z.pow_add_r by lia; f_equal; lia).
  nia.
Qed.

(** * Reading a layout *)
Lemma zeros_digits k : forallb is_digit (zeros k) = true.
Proof. unfold zeros. induction (Z.to_nat k) as [|n IH]; [reflexivity|]. cbn [repeat forallb]. rewrite IH. reflexivity. Qed.
Lemma zeros_length k : 0 <= k -> Z.of_nat (length (zeros k)) = k.
Proof. intros H. unfold zeros. rewrite repeat_length. lia. Qed.
Lemma zeros_value k acc : 0 <= k -> digits_value acc (zeros k) = acc * 10 ^ k.
Proof.
  intros H. rewrite digits_value_shift, zeros_length by exact H. enough (digits_value 0 (zeros k) = 0) by lia.
  unfold zeros. clear. induction (Z.to_nat k) as [|n IH]; [reflexivity|]. cbn [repeat digits_value]. change (10 * 0 + digit_val "0") with 0. exact IH.
Qed.
Lemma skipn_prefix (a r : str) : skipn (length a) (a ++ r) = r.
Proof. induction a; [reflexivity|]. cbn [length app skipn]. assumption. Qed.
Lemma digit_facts c : is_digit c = true -> is_wspace c = false /\ eqc c "-" = false /\ eqc c "+" = false.
Proof.
  intros H. pose proof (digit_not_space c) as G. rewrite H in G. cbn [negb orb] in G.
  apply andb_true_iff in G as [G1 G2]. apply andb_true_iff in G1 as [G0 G1]. apply negb_true_iff in G0, G1, G2. auto.
Qed.
Lemma digit_prefix_digits ds : forallb is_digit ds = true -> digit_prefix ds = ds.
Proof. intros H. rewrite <- (app_nil_r ds) at 1. apply digit_prefix_all; [exact H|exact I]. Qed.
Lemma sign_digits ds : forallb is_digit ds = true -> sign_of ds = (false, ds).
Proof.
  intros H. destruct ds as [|c r]; [reflexivity|]. cbn [forallb] in H. apply andb_true_iff in H as [Hc _].
  cbn [sign_of]. destruct (digit_facts c Hc) as (_ & -> & ->). reflexivity.
Qed.
Lemma sign_text sg ds : (sg = $"+" \/ sg = $"-" \/ sg = []) -> forallb is_digit ds = true -> sign_of (sg ++ ds) = (eqs sg ($"-"), ds).
Proof. intros [->|[->| ->]] H; [reflexivity|reflexivity|]. cbn [app]. rewrite (sign_digits ds H). reflexivity. Qed.
Lemma exponent_exponent X : exponent_part (exponent X) X.
Proof.
  set (ds := (if Z.abs X <? 10 then $"0" else []) ++ dec_of_nonneg (Z.abs X)).
  assert (E : exponent X = "e"%char :: (if X <? 0 then $"-" else $"+") ++ ds) by (unfold exponent, ds; destruct (X <? 0); reflexivity).
  destruct (dec_of_nonneg_spec (Z.abs X)) as (A & B & C); [lia|].
  assert (Dd : forallb is_digit ds = true) by (unfold ds; rewrite forallb_app, A; destruct (Z.abs X <? 10); reflexivity).
  assert (Dv : digits_value 0 ds = Z.abs X) by (unfold ds; rewrite digits_value_app; destruct (Z.abs X <? 10); exact B).
  assert (Dn : ds <> []) by (unfold ds; intros N; apply app_eq_nil in N; destruct N; contradiction).
  rewrite E. clearbody ds.
  replace X with (if eqs (if X <? 0 then $"-" else $"+") ($"-") then - digits_value 0 ds else digits_value 0 ds) at 2.
  - constructor; [auto|destruct (X <? 0); auto|exact Dd|exact Dn].
  - rewrite Dv. destruct (Z.ltb_spec X 0); [change (eqs ($"-") ($"-")) with true|change (eqs ($"+") ($"-")) with false]; cbn iota; lia.
Qed.
Lemma scan_text t s D k : writes t s D k -> scan t = Some (s, D, k).
Proof.
  intros [neg i fr f ex X Hi Ni Hf He].
  assert (S : sign_of ((if neg then $"-" else []) ++ i ++ fr ++ ex) = (neg, i ++ fr ++ ex)).
  { destruct neg; [reflexivity|]. destruct i as [|c i]; [contradiction|]. cbn [app sign_of]. cbn [forallb] in Hi. apply andb_true_iff in Hi as [Hc _].
    destruct (digit_facts c Hc) as (_ & -> & ->). reflexivity. }
  assert (He' : match ex with [] => True | c :: _ => is_digit c = false /\ eqc c "." = false end).
  { destruct He as [|c sg ds Hc]; [exact I|]. destruct Hc as [->| ->]; split; reflexivity. }
  assert (Hfe : match fr ++ ex with [] => True | c :: _ => is_digit c = false end).
  { destruct Hf; [destruct ex; [exact I|apply He']|reflexivity]. }
  unfold scan. rewrite S. rewrite (digit_prefix_all i (fr ++ ex) Hi Hfe), skipn_prefix.
  set (parse2 := match fr ++ ex with | c :: r' => if eqc c "." then _ else _ | [] => _ end).
  assert (P2 : parse2 = (f, ex)).
  { unfold parse2. destruct Hf as [|f Hf].
    - cbn [app]. destruct ex as [|c r]; [reflexivity|]. destruct He' as [_ ->]. reflexivity.
    - cbn [app]. rewrite eqc_refl. rewrite digit_prefix_all; [|exact Hf|destruct ex; [exact I|apply He']]. rewrite skipn_prefix. reflexivity. }
  rewrite P2. destruct (i ++ f) as [|d l] eqn:E; [apply app_eq_nil in E; destruct E; contradiction|].
  destruct He as [|c sg ds Hc Hs Hd Nd]; [reflexivity|].
  replace (eqc c "e" || eqc c "E") with true by (destruct Hc as [->| ->]; reflexivity).
  rewrite (sign_text sg ds Hs Hd), (digit_prefix_digits ds Hd). destruct ds as [|c' l']; [contradiction|]. reflexivity.
Qed.
Lemma firstn_digits n l : forallb is_digit l = true -> forallb is_digit (firstn n l) = true /\ forallb is_digit (skipn n l) = true.
Proof. intros H. rewrite <- (firstn_skipn n l), forallb_app in H. apply andb_true_iff in H. exact H. Qed.
(** the parts of a layout; its value is [D * 10^(X-P+1)], up to a power of ten moved between digits and exponent *)
Lemma layout_parts P D X : 1 <= P -> 10 ^ (P - 1) <= D < 10 ^ P ->
  exists i fr f ex Y E z j, layout P D X = i ++ fr ++ ex /\ forallb is_digit i = true /\ i <> [] /\ fraction_part fr f /\ exponent_part ex Y /\
    0 <= z /\ 0 <= j /\ 0 < E /\ D = E * 10 ^ z /\ digits_value 0 (i ++ f) = E * 10 ^ j /\ Y - Z.of_nat (length f) + j = X - P + 1 + z.
Proof.
  intros HP HD. destruct (strip_digits P D HP HD) as (z & Hz & Z2 & Z3 & Z4).
  unfold layout. set (E := strip (Z.to_nat P) D) in *. clearbody E.
  destruct (dec_of_nonneg_spec E) as (A & B & C); [lia|]. unfold ndigits in Z4.
  set (ds := dec_of_nonneg E) in *. clearbody ds.
  destruct ((X <? -4) || (P <=? X)).
  - destruct ds as [|d r]; [contradiction|].
    cbn [forallb] in A. apply andb_true_iff in A as [A1 A2].
    destruct r as [|c r].
    + exists [d], [], [], (exponent X), X, E, z, 0. cbn [length] in Z4.
      split; [reflexivity|]. split; [cbn [forallb]; rewrite A1; reflexivity|]. split; [discriminate|]. split; [constructor|]. split; [apply exponent_exponent|].
      split; [lia|]. split; [lia|]. split; [exact Z2|]. split; [exact Z3|]. split; [cbn [app]; rewrite B; lia|cbn [length]; lia].
    + exists [d], ("."%char :: c :: r), (c :: r), (exponent X), X, E, z, 0.
      split; [reflexivity|]. split; [cbn [forallb]; rewrite A1; reflexivity|]. split; [discriminate|]. split; [constructor; exact A2|]. split; [apply exponent_exponent|].
      split; [lia|]. split; [lia|]. split; [exact Z2|]. split; [exact Z3|]. split; [cbn [app]; rewrite B; lia|cbn [length] in *; lia].
  - destruct (Z.leb_spec 0 X) as [HX|HX].
    + destruct (Z.leb_spec (Z.of_nat (length ds)) (X + 1)) as [L|L].
      * exists (ds ++ zeros (X + 1 - Z.of_nat (length ds))), [], [], [], 0, E, z, (X + 1 - Z.of_nat (length ds)).
        split; [cbn [app]; rewrite app_nil_r; reflexivity|]. split; [rewrite forallb_app, A; apply zeros_digits|].
        split; [intros N; apply app_eq_nil in N; destruct N; contradiction|]. split; [constructor|]. split; [constructor|].
        split; [lia|]. split; [lia|]. split; [exact Z2|]. split; [exact Z3|].
        split; [rewrite app_nil_r, digits_value_app, B, zeros_value by lia; reflexivity|cbn [length]; lia].
      * set (n := Z.to_nat (X + 1)). destruct (firstn_digits n ds A) as [A1 A2].
        exists (firstn n ds), ("."%char :: skipn n ds), (skipn n ds), [], 0, E, z, 0.
        split; [rewrite app_nil_r; reflexivity|]. split; [exact A1|].
        split. { intros N. apply (f_equal (@length ascii)) in N. rewrite firstn_length in N. cbn [length] in N. unfold n in N. lia. }
        split; [constructor; exact A2|]. split; [constructor|].
        split; [lia|]. split; [lia|]. split; [exact Z2|]. split; [exact Z3|].
        split; [rewrite firstn_skipn, B; lia|]. rewrite skipn_length. unfold n. lia.
    + exists ($"0"), ("."%char :: zeros (- X - 1) ++ ds), (zeros (- X - 1) ++ ds), [], 0, E, z, 0.
      split; [rewrite app_nil_r; reflexivity|]. split; [reflexivity|]. split; [discriminate|].
      split; [constructor; rewrite forallb_app, A, zeros_digits; reflexivity|]. split; [constructor|].
      split; [lia|]. split; [lia|]. split; [exact Z2|]. split; [exact Z3|]. split.
      * rewrite !digits_value_app. change (digits_value 0 ($"0")) with 0. rewrite zeros_value by lia. rewrite Z.mul_0_l, B. lia.
      * rewrite app_length, Nat2Z.inj_add, zeros_length by lia. lia.
Qed.
(** a printed number starts with a visible character *)
Lemma skip_visible (s : bool) c r : is_wspace c = false -> skip_ws ((if s then $"-" else []) ++ c :: r) = (if s then $"-" else []) ++ c :: r.
Proof. intros H. destruct s; [reflexivity|]. cbn [app skip_ws]. rewrite H. reflexivity. Qed.

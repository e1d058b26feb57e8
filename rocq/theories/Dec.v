(** Decimal text of integers: what [ostream << int] writes and what [istream >> int] reads
    in the "C" locale with default flags.  These are C++ library functions, modelled after
    the standard ([num_put], [num_get], [strtoll]); the code base only calls them. *)
From Verif Require Import Base.

Definition digit (d : Z) : ascii := chr (48 + Z.to_nat d).
Definition is_digit (c : ascii) : bool := (48 <=? code c) && (code c <=? 57).
Definition digit_val (c : ascii) : Z := Z.of_nat (code c) - 48.

(** digits of a non-negative number, most significant first *)
Fixpoint dec_digits (fuel : nat) (n : Z) (acc : str) : str :=
  match fuel with
  | 0 => acc
  | S f => if (n <? 10)%Z then digit n :: acc
           else dec_digits f (n / 10)%Z (digit (n mod 10)%Z :: acc)
  end.
Definition dec_of_nonneg (n : Z) : str := dec_digits (S (Z.to_nat (Z.log2 n))) n [].

(** [os << n] *)
Definition print_int (n : Z) : str :=
  if (n <? 0)%Z then "-"%char :: dec_of_nonneg (- n) else dec_of_nonneg n.

(** value of a digit string *)
Fixpoint digits_value (acc : Z) (s : str) : Z :=
  match s with [] => acc | c :: s' => digits_value (10 * acc + digit_val c)%Z s' end.

(** longest digit prefix *)
Fixpoint digit_prefix (s : str) : str :=
  match s with [] => [] | c :: s' => if is_digit c then c :: digit_prefix s' else [] end.

(** [isspace] in the "C" locale *)
Definition is_wspace (c : ascii) : bool := (code c =? 32) || ((9 <=? code c) && (code c <=? 13)).
Fixpoint skip_ws (s : str) : str :=
  match s with [] => [] | c :: s' => if is_wspace c then skip_ws s' else s end.

Definition clamp (lo hi v : Z) : Z := if (v <? lo)%Z then lo else if (hi <? v)%Z then hi else v.

(** [T v; is >> v; return v] for an integer type with range [lo..hi]: white space is skipped, then an
    optional sign and the longest run of digits are read.  No digits: 0.  Out of range: the bound.
    Nothing left after white space: the stream fails before touching [v], so an indeterminate value
    is returned ([UB]). *)
Definition read_int (lo hi : Z) (s : str) : res Z :=
  match skip_ws s with
  | [] => UB
  | c :: r =>
      let '(neg, r') := if eqc c "-" then (true, r) else if eqc c "+" then (false, r) else (false, c :: r) in
      match digit_prefix r' with
      | [] => Ok 0%Z
      | ds => let v := digits_value 0 ds in
              Ok (clamp lo hi (if neg then - v else v)%Z)
      end
  end.

Definition INT_MIN : Z := (-2147483648)%Z.
Definition INT_MAX : Z := 2147483647%Z.
Definition LONG_MIN : Z := (-9223372036854775808)%Z.
Definition LONG_MAX : Z := 9223372036854775807%Z.
Definition in_int (z : Z) : Prop := (INT_MIN <= z <= INT_MAX)%Z.

(** * Facts *)
Lemma code_chr n : n < 256 -> code (chr n) = n.
Proof. intros H. unfold code, chr. apply nat_ascii_embedding. exact H. Qed.

Lemma digit_code d : (0 <= d < 10)%Z -> code (digit d) = 48 + Z.to_nat d.
Proof. intros H. unfold digit. apply code_chr. lia. Qed.
Lemma digit_is_digit d : (0 <= d < 10)%Z -> is_digit (digit d) = true.
Proof. intros H. unfold is_digit. rewrite digit_code by exact H. apply andb_true_iff; split; apply Nat.leb_le; lia. Qed.
Lemma digit_val_digit d : (0 <= d < 10)%Z -> digit_val (digit d) = d.
Proof. intros H. unfold digit_val. rewrite digit_code by exact H. lia. Qed.

Lemma digits_value_shift s : forall acc, digits_value acc s = (acc * 10 ^ Z.of_nat (length s) + digits_value 0 s)%Z.
Proof.
  induction s as [|c s IH]; intros acc.
  - cbn [digits_value length]. rewrite Z.pow_0_r. lia.
  - cbn [digits_value]. rewrite IH. rewrite (IH (10 * 0 + digit_val c)%Z).
    cbn [length]. rewrite Nat2Z.inj_succ, Z.pow_succ_r by lia. nia.
Qed.
Lemma digits_value_app a b acc : digits_value acc (a ++ b) = digits_value (digits_value acc a) b.
Proof. revert acc. induction a as [|c a IH]; intros acc; [reflexivity|]. cbn [app digits_value]. apply IH. Qed.

Lemma dec_digits_app fuel : forall n acc, dec_digits fuel n acc = dec_digits fuel n [] ++ acc.
Proof.
  induction fuel as [|f IH]; intros n acc; [reflexivity|]. cbn [dec_digits].
  destruct (n <? 10)%Z; [reflexivity|]. rewrite IH. rewrite (IH _ [_]). rewrite <- app_assoc. reflexivity.
Qed.
Lemma dec_digits_spec fuel : forall n, (0 <= n)%Z -> (n < 2 ^ Z.of_nat fuel)%Z ->
  forallb is_digit (dec_digits fuel n []) = true /\ digits_value 0 (dec_digits fuel n []) = n /\
  (0 < fuel -> dec_digits fuel n [] <> []).
Proof.
  induction fuel as [|f IH]; intros n H0 H1.
  - cbn in H1. assert (n = 0%Z) by lia. subst. repeat split; cbn; lia.
  - cbn [dec_digits]. destruct (Z.ltb_spec n 10) as [Hl|Hl].
    + cbn [forallb digits_value]. rewrite digit_is_digit, digit_val_digit by lia. repeat split; try lia. discriminate.
    + rewrite dec_digits_app.
      assert (Hd : (0 <= n / 10 < 2 ^ Z.of_nat f)%Z).
      { rewrite Nat2Z.inj_succ, Z.pow_succ_r in H1 by lia. split; [apply Z.div_pos; lia|].
        apply Z.div_lt_upper_bound; lia. }
      destruct (IH (n / 10)%Z) as (A & B & C); [lia|lia|].
      pose proof (Z.mod_pos_bound n 10).
      rewrite forallb_app, A. cbn [forallb]. rewrite digit_is_digit by lia.
      rewrite digits_value_app, B. cbn [digits_value]. rewrite digit_val_digit by lia.
      split; [reflexivity|]. split; [pose proof (Z.div_mod n 10); lia|].
      intros _ E. apply app_eq_nil in E. destruct E. discriminate.
Qed.
Lemma dec_of_nonneg_spec n : (0 <= n)%Z ->
  forallb is_digit (dec_of_nonneg n) = true /\ digits_value 0 (dec_of_nonneg n) = n /\ dec_of_nonneg n <> [].
Proof.
  intros H. unfold dec_of_nonneg.
  destruct (dec_digits_spec (S (Z.to_nat (Z.log2 n))) n H) as (A & B & C).
  - rewrite Nat2Z.inj_succ, Z2Nat.id by apply Z.log2_nonneg.
    destruct (Z.eq_dec n 0) as [->|Hn]; [reflexivity|]. apply Z.log2_spec. lia.
  - repeat split; auto. apply C. lia.
Qed.

Lemma digit_not_space : forall c, (negb (is_digit c) || negb (is_wspace c) && negb (eqc c "-") && negb (eqc c "+")) = true.
Proof. apply byte_sweep. vm_compute. reflexivity. Qed.
Lemma digit_prefix_all ds r : forallb is_digit ds = true ->
  (match r with [] => True | c :: _ => is_digit c = false end) -> digit_prefix (ds ++ r) = ds.
Proof.
  induction ds as [|c ds IH]; intros H Hr.
  - destruct r as [|c r]; [reflexivity|]. cbn [app digit_prefix]. rewrite Hr. reflexivity.
  - cbn [forallb] in H. apply andb_true_iff in H. destruct H as [H1 H2]. cbn [app digit_prefix]. rewrite H1, IH; auto.
Qed.

(** Reading back a printed integer, whatever non-digit text follows. *)
Lemma read_print lo hi n r : (lo <= n <= hi)%Z -> (match r with [] => True | c :: _ => is_digit c = false end) ->
  read_int lo hi (print_int n ++ r) = Ok n.
Proof.
  intros H Hr. unfold print_int, read_int. destruct (Z.ltb_spec n 0) as [Hn|Hn].
  - destruct (dec_of_nonneg_spec (- n)) as (A & B & C); [lia|].
    cbn [app skip_ws is_wspace]. change (is_wspace "-") with false. cbv iota.
    rewrite eqc_refl. rewrite digit_prefix_all by assumption.
    destruct (dec_of_nonneg (- n)) as [|d ds] eqn:E; [contradiction|]. rewrite B. unfold clamp.
    destruct (Z.ltb_spec (- - n) lo); [lia|]. destruct (Z.ltb_spec hi (- - n)); [lia|]. f_equal. lia.
  - destruct (dec_of_nonneg_spec n) as (A & B & C); [lia|].
    destruct (dec_of_nonneg n) as [|d ds] eqn:E; [contradiction|].
    cbn [forallb] in A. apply andb_true_iff in A. destruct A as [A1 A2].
    pose proof (digit_not_space d) as Hd. rewrite A1 in Hd. cbn [negb orb] in Hd.
    apply andb_true_iff in Hd. destruct Hd as [Hd Hp]. apply andb_true_iff in Hd. destruct Hd as [Hs Hm].
    apply negb_true_iff in Hs, Hm, Hp.
    cbn [app skip_ws]. rewrite Hs, Hm, Hp.
    change (d :: ds ++ r) with ((d :: ds) ++ r). rewrite digit_prefix_all; [|cbn [forallb]; rewrite A1; exact A2|exact Hr].
    rewrite B. unfold clamp.
    destruct (Z.ltb_spec n lo); [lia|]. destruct (Z.ltb_spec hi n); [lia|]. reflexivity.
Qed.

Lemma print_int_inj a b : print_int a = print_int b -> a = b.
Proof.
  intros H.
  set (m := Z.max (Z.abs a) (Z.abs b)).
  pose proof (read_print (- m) m a [] ltac:(lia) I) as Ha.
  pose proof (read_print (- m) m b [] ltac:(lia) I) as Hb.
  rewrite H, Hb in Ha. congruence.
Qed.

(** what the text looks like, without reference to the printing algorithm *)
Lemma print_int_form n : exists ds, ds <> [] /\ forallb is_digit ds = true /\ digits_value 0 ds = Z.abs n /\
  print_int n = (if (n <? 0)%Z then "-"%char :: ds else ds).
Proof.
  unfold print_int. destruct (Z.ltb_spec n 0).
  - destruct (dec_of_nonneg_spec (- n)) as (A & B & C); [lia|]. exists (dec_of_nonneg (- n)). repeat split; auto. lia.
  - destruct (dec_of_nonneg_spec n) as (A & B & C); [lia|]. exists (dec_of_nonneg n). repeat split; auto. lia.
Qed.

(** no superfluous leading zero *)
Lemma dec_digits_nolead fuel : forall n, (0 < n)%Z -> (n < 2 ^ Z.of_nat fuel)%Z ->
  forall ds, dec_digits fuel n [] <> "0"%char :: ds.
Proof.
  induction fuel as [|f IH]; intros n H0 H1 ds; [cbn in H1; lia|].
  cbn [dec_digits]. destruct (Z.ltb_spec n 10) as [Hl|Hl].
  - intros E. injection E as E _. pose proof (digit_val_digit n ltac:(lia)) as Hv. rewrite E in Hv. change (digit_val "0") with 0%Z in Hv. lia.
  - rewrite dec_digits_app.
    assert (Hd : (0 < n / 10 < 2 ^ Z.of_nat f)%Z).
    { rewrite Nat2Z.inj_succ, Z.pow_succ_r in H1 by lia. split; [apply Z.div_str_pos; lia|].
      apply Z.div_lt_upper_bound; lia. }
    destruct (dec_digits f (n / 10) []) as [|c r] eqn:E.
    + destruct (dec_digits_spec f (n/10)%Z) as (_ & B & _); [lia|lia|]. rewrite E in B. cbn in B. lia.
    + cbn [app]. intros E2. injection E2 as -> _. apply (IH (n/10)%Z ltac:(lia) ltac:(lia) r E).
Qed.
Lemma dec_nolead n ds : (0 <= n)%Z -> dec_of_nonneg n = "0"%char :: ds -> n = 0%Z /\ ds = [].
Proof.
  intros H E. destruct (Z.eq_dec n 0) as [->|Hn].
  - split; [reflexivity|]. cbn in E. congruence.
  - exfalso. unfold dec_of_nonneg in E. revert E. apply dec_digits_nolead; [lia|].
    rewrite Nat2Z.inj_succ, Z2Nat.id by apply Z.log2_nonneg. apply Z.log2_spec. lia.
Qed.

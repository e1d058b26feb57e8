(** C69: a baseline recorded by one version of a test, compared by another one, with tolerances. *)
From Coq Require Import Reals Psatz Floats.SpecFloat.
From Flocq Require Import Core.
From Verif Require Import Base Str Dec PathModel MeasModel MeasFacts MeasFacts2 FloatFacts TolFacts MeasProps XmlText XmlModel ReadModel ReadFacts ReadBack ReadProps RegModel ArgFacts ArgProps RegSpec RegFacts RegStart RegMain RegProps RegProps2 RegRound RegProps3 NumModel NumSpec NumFacts NumReal NumProps NumRun NumProps2 ChangeProps VersionSpec.
Local Open Scope Z_scope.

(** * The tolerance *)
Lemma zero_real t : double_number t -> (SFeqb t SFzero = true <-> rv t = 0%R).
Proof.
  intros [V F]. destruct t as [s|s| |s m e]; try discriminate F.
  - split; intros _; [unfold rv; cbn; reflexivity|destruct s; reflexivity].
  - split; [destruct s; discriminate|]. intros H. exfalso. revert H. unfold rv. 
    destruct s; cbn; intros H; apply Rmult_integral in H as [H|H]; try (apply eq_IZR in H; discriminate H); apply (Rgt_not_eq _ _ (bpow_gt_0 radix2 e)), H.
Qed.
Lemma used_spec b t : double_number t -> (tolerance_used b t -> b = true /\ SFeqb t SFzero = false) /\ (~ tolerance_used b t -> b = false \/ SFeqb t SFzero = true).
Proof.
  intros N. pose proof (zero_real t N) as Z. split.
  - intros [-> H]. split; [reflexivity|]. destruct (SFeqb t SFzero); [|reflexivity]. exfalso. apply H, Z. reflexivity.
  - intros H. destruct b; [right|left; reflexivity]. destruct (SFeqb t SFzero) eqn:E; [reflexivity|]. exfalso. apply H. split; [reflexivity|].
    intros R. apply Z in R. congruence.
Qed.
Lemma used_dec b t : tolerance_used b t \/ ~ tolerance_used b t.
Proof.
  unfold tolerance_used. destruct b; [|right; intros [H _]; discriminate]. destruct (Req_EM_T (rv t) 0) as [E|E]; [right; intros [_ H]; contradiction|left; auto].
Qed.

(** * The verdict on one measurement *)
Section OneVerdict.
Variables (e : env) (dirs : list str) (f : store).
Hypothesis Hio : e_io e = std_io.
Notation verd c c' t := (verdict e dirs (stored (meas_of std_io false c)) (c', t, f)).
Lemma cmp_off b t : double_number t -> ~ tolerance_used b t -> SFeqb (GetTolerance (if b then SetTolerance new_cmp t else new_cmp)) SFzero = true.
Proof.
  intros N H. destruct (proj2 (used_spec b t N) H) as [->|E]; [reflexivity|]. destruct b; [|reflexivity]. rewrite tolerance_zero by exact E. reflexivity.
Qed.
Lemma string_verdict s s' n t : verd (TextString s n) (TextString s' n) t = Ok (eqs s s').
Proof. unfold verdict. cbn [meas_of stored found tolerant_of]. apply exact_dm. reflexivity. Qed.
Lemma plain_verdict s s' n t : verd (TextPlain s n) (TextPlain s' n) t = Ok (eqs s s').
Proof. unfold verdict. cbn [meas_of stored found tolerant_of]. apply exact_dm. reflexivity. Qed.
Lemma eqs_print_int i j : eqs (print_int i) (print_int j) = (i =? j).
Proof.
  destruct (eqs_spec (print_int i) (print_int j)) as [E|E].
  - apply print_int_inj in E. subst j. symmetry. apply Z.eqb_refl.
  - symmetry. apply Z.eqb_neq. congruence.
Qed.
Lemma int_off i j n a b t : double_number t -> ~ tolerance_used b t -> verd (NumericInteger i n a) (NumericInteger j n b) t = Ok (wrap32 i =? wrap32 j).
Proof.
  intros N H. unfold verdict. cbn [meas_of stored found tolerant_of]. unfold int_SetValue. rewrite exact_dm by (apply cmp_off; assumption).
  f_equal. apply eqs_print_int.
Qed.
Lemma wrap_in_int z : in_int (wrap32 z).
Proof. unfold in_int, wrap32, INT_MIN, INT_MAX. pose proof (Z.mod_pos_bound (z + 2147483648) 4294967296 eq_refl). lia. Qed.
Lemma int_on i j n a b t : double_number t -> tolerance_used b t -> verd (NumericInteger i n a) (NumericInteger j n b) t = tol_int (wrap32 i) (wrap32 j) t.
Proof.
  intros N H. destruct (proj1 (used_spec b t N) H) as [-> T]. unfold verdict. cbn [meas_of stored found tolerant_of].
  rewrite compare_tolerant; [|rewrite tolerance_set_get by exact T; exact T|reflexivity|reflexivity]. rewrite tolerance_set_get by exact T.
  cbn [snd]. unfold IsEqualTolerant. cbn [int_SetValue SetContent DeleteContentAsData named SetAttributeName new_dm dcls cls_eqb].
  assert (G : forall d v, in_int v -> dcontent d = print_int v -> int_GetValue d = Ok v).
  { intros d v Hv Hd. destruct (C21_integer_value_kept d v Hv) as [G _]. unfold int_GetValue in *. rewrite Hd. exact G. }
  match goal with |- bind (int_GetValue ?d) (fun _ => bind (int_GetValue ?d') _) = _ => rewrite (G d (wrap32 i) (wrap_in_int i) eq_refl), (G d' (wrap32 j) (wrap_in_int j) eq_refl) end. reflexivity.
Qed.
Lemma bool_verdict v v' n a b t : verd (NumericBoolean v n a) (NumericBoolean v' n b) t = Ok (Bool.eqb v v').
Proof.
  unfold verdict. cbn [meas_of stored found tolerant_of].
  destruct (SFeqb (GetTolerance (if b then SetTolerance new_cmp t else new_cmp)) SFzero) eqn:T.
  - unfold bool_SetValue. rewrite exact_dm by exact T. f_equal. destruct v, v'; reflexivity.
  - rewrite compare_tolerant; [|exact T|reflexivity|reflexivity]. cbn [snd]. destruct v, v'; vm_compute; reflexivity.
Qed.
Lemma size_comm x y : size x y = size y x. Proof. apply Rmax_comm. Qed.
Lemma abs_IZR z : Rabs (IZR z) = IZR (Z.abs z). Proof. symmetry. apply abs_IZR. Qed.
Lemma dist_IZR a b : Rabs (IZR a - IZR b) = IZR (Z.abs (a - b)). Proof. rewrite <- minus_IZR. apply abs_IZR. Qed.

Lemma agrees_verdict c c' t : double_number t -> usual_call c -> usual_call c' -> agrees c (c', t) -> alike c c' /\ verd c c' t = Ok true.
Proof.
  intros N U U' A. inversion A; subst; (split; [constructor|]).
  - rewrite string_verdict, eqs_refl. reflexivity.
  - rewrite plain_verdict, eqs_refl. reflexivity.
  - rewrite bool_verdict. destruct v; reflexivity.
  - rewrite int_off by assumption. match goal with H : wrap32 _ = wrap32 _ |- _ => rewrite H end. rewrite Z.eqb_refl. reflexivity.
  - rewrite int_on by assumption. unfold l, r in *. apply C22_integer_within_tolerance; [apply N|apply N| |].
    + unfold int_ok. pose proof (wrap_in_int i). pose proof (wrap_in_int j). unfold in_int, INT_MIN, INT_MAX in *. lia.
    + rewrite <- dist_IZR, <- !abs_IZR. unfold size in *. destruct (Rle_dec (Rabs (IZR (wrap32 i))) (Rabs (IZR (wrap32 j)))) as [L|L].
      * right. rewrite Rmax_right in * by exact L. assumption.
      * left. rewrite Rmax_left in * by lra. assumption.
  - destruct (C61_exact e dirs f n x x t b Hio (proj2 (used_spec b t N) ltac:(assumption))) as (E & _). unfold double_verdict in E. rewrite Hio in E. exact E.
  - destruct (proj1 (used_spec b t N) ltac:(assumption)) as [-> Z0].
    match goal with Hx : double_number x, Hy : double_number y |- _ => destruct (C61_double_tolerance e dirs f n x y t Hio Hx Hy N Z0 ltac:(assumption)) as (E1 & _ & E2) end.
    unfold double_verdict in E1, E2. rewrite Hio in E1, E2.
    match goal with H : _ \/ _ |- _ => destruct H as [H|H]; [apply E1, H|apply E2, H] end.
  - destruct (C61_exact e dirs f n x x t b Hio (proj2 (used_spec b t N) ltac:(assumption))) as (_ & E & _). unfold float_verdict in E. rewrite Hio in E. exact E.
  - destruct (proj1 (used_spec b t N) ltac:(assumption)) as [-> Z0].
    match goal with Hx : float_number x, Hy : float_number y |- _ => destruct (C61_float_tolerance e dirs f n x y t Hio Hx Hy N Z0 ltac:(assumption)) as (E1 & _ & E2) end.
    unfold float_verdict in E1, E2. rewrite Hio in E1, E2.
    match goal with H : _ \/ _ |- _ => destruct H as [H|H]; [apply E1, H|apply E2, H] end.
Qed.
Lemma disagrees_verdict c c' t : double_number t -> usual_call c -> usual_call c' -> disagrees c (c', t) -> alike c c' -> verd c c' t <> Ok true.
Proof.
  intros N U U' D K. inversion D; subst.
  - contradiction.
  - rewrite string_verdict. destruct (eqs_spec s s') as [E|E]; [contradiction|discriminate].
  - rewrite plain_verdict. destruct (eqs_spec s s') as [E|E]; [contradiction|discriminate].
  - rewrite bool_verdict. destruct v, v'; try contradiction; discriminate.
  - rewrite int_off by assumption. destruct (Z.eqb_spec (wrap32 i) (wrap32 j)); [contradiction|discriminate].
  - rewrite int_on by assumption. unfold l, r in *. clear l r. set (l := wrap32 i) in *. set (r := wrap32 j) in *.
    destruct (proj1 (used_spec b t N) ltac:(assumption)) as [-> Z0].
    assert (Hl : in_int l) by apply wrap_in_int. assert (Hr : in_int r) by apply wrap_in_int.
    assert (Hr' : r <> INT_MIN) by (apply U'; reflexivity).
    assert (Q : int_ok l r \/ (l - r < INT_MIN \/ INT_MAX < l - r \/ l - r = INT_MIN \/ l = INT_MIN)) by (unfold int_ok, in_int in *; lia).
    destruct Q as [Q|Q]; [|rewrite (proj2 (C22_integer_undefined l r t Hl Hr) Q); discriminate].
    destruct (C22_integer_tolerance l r t (proj1 N) (proj2 N) Hl Hr Q) as (bb & -> & E). intros [= ->].
    apply proj1 in E. specialize (E eq_refl). rewrite dist_IZR in *. unfold size in *. rewrite !abs_IZR in *.
    set (T := Rabs (rv t)) in *. assert (T0 : (0 <= T)%R) by apply Rabs_pos.
    assert (P : forall z, (IZR (Z.abs (l - r)) <= rnd64 (T * IZR (Z.abs z)))%R -> (IZR (Z.abs z) <= Rmax (IZR (Z.abs l)) (IZR (Z.abs r)))%R -> False).
    { intros z Hz Hm. pose proof (near_prod T (IZR z) _ _ _ T0 (rnd_near53 (T * Rabs (IZR z)))) as W. rewrite abs_IZR in W. apply Rabs_le_inv in W.
      assert (S : (T * IZR (Z.abs z) <= T * Rmax (IZR (Z.abs l)) (IZR (Z.abs r)))%R) by (apply Rmult_le_compat_l; assumption).
      pose proof (bpow_ge_0 radix2 (-53)) as B.
      assert (S2 : (bpow radix2 (-53) * (T * IZR (Z.abs z)) <= bpow radix2 (-53) * (T * Rmax (IZR (Z.abs l)) (IZR (Z.abs r))))%R) by (apply Rmult_le_compat_l; assumption).
      lra. }
    destruct E as [E|E]; [apply (P l E), Rmax_l|apply (P r E), Rmax_r].
  - match goal with Hx : double_number x, Hy : double_number y, Hd : (_ < _)%R |- _ =>
      destruct (C61_exact e dirs f n x y t b Hio (proj2 (used_spec b t N) ltac:(assumption))) as (_ & _ & E & _); specialize (E Hx Hy Hd) end.
    unfold double_verdict in E. rewrite Hio in E. change (stored (meas_of std_io false (NumericDouble x n b))) with (stored (meas_of std_io false (NumericDouble x n a))) in E. rewrite E. discriminate.
  - destruct (proj1 (used_spec b t N) ltac:(assumption)) as [-> Z0].
    match goal with Hx : double_number x, Hy : double_number y, HM : (_ <= _ <= _)%R |- _ => destruct (C61_double_tolerance e dirs f n x y t Hio Hx Hy N Z0 (proj2 HM)) as (_ & E & _); specialize (E ltac:(assumption) (proj1 HM)) end.
    unfold double_verdict in E. rewrite Hio in E. change (stored (meas_of std_io false (NumericDouble x n true))) with (stored (meas_of std_io false (NumericDouble x n a))) in E. rewrite E. discriminate.
  - match goal with Hx : float_number x, Hy : float_number y, Hd : (_ < _)%R |- _ =>
      destruct (C61_exact e dirs f n x y t b Hio (proj2 (used_spec b t N) ltac:(assumption))) as (_ & _ & _ & E); specialize (E Hx Hy Hd) end.
    unfold float_verdict in E. rewrite Hio in E. change (stored (meas_of std_io false (NumericFloat x n b))) with (stored (meas_of std_io false (NumericFloat x n a))) in E. rewrite E. discriminate.
  - destruct (proj1 (used_spec b t N) ltac:(assumption)) as [-> Z0].
    match goal with Hx : float_number x, Hy : float_number y, HM : (_ <= _ <= _)%R |- _ => destruct (C61_float_tolerance e dirs f n x y t Hio Hx Hy N Z0 (proj2 HM)) as (_ & E & _); specialize (E ltac:(assumption) (proj1 HM)) end.
    unfold float_verdict in E. rewrite Hio in E. change (stored (meas_of std_io false (NumericFloat x n true))) with (stored (meas_of std_io false (NumericFloat x n a))) in E. rewrite E. discriminate.
Qed.
(** comparing values in memory raises no exception *)
Lemma tol_int_no_throw l r t i : tol_int l r t <> Throw i.
Proof. unfold tol_int, int_abs. repeat (match goal with |- context [if ?b then _ else _] => destruct b end; cbn [bind]); discriminate. Qed.
Lemma no_throw c c' t i : double_number t -> usual_call c -> usual_call c' -> alike c c' -> verd c c' t <> Throw i.
Proof.
  intros N U U' K. inversion K; subst.
  - rewrite string_verdict. discriminate.
  - rewrite plain_verdict. discriminate.
  - destruct (used_dec b t) as [H|H]; [rewrite int_on by assumption; apply tol_int_no_throw|rewrite int_off by assumption; discriminate].
  - cbn [usual_call] in U, U'. destruct (used_dec b t) as [H|H].
    + destruct (proj1 (used_spec b t N) H) as [-> Z0]. destruct (read_std32 x (proj2 U)) as (y & R & _), (read_std32 x' (proj2 U')) as (y' & R' & _).
      pose proof (float_tolerant e dirs f n Hio x x' t y y' Z0 R R') as E. unfold float_verdict in E. rewrite Hio in E.
      change (stored (meas_of std_io false (NumericFloat x n true))) with (stored (meas_of std_io false (NumericFloat x n a))) in E. rewrite E. discriminate.
    + pose proof (float_exact e dirs f n Hio x x' t b (proj2 (used_spec b t N) H)) as E. unfold float_verdict in E. rewrite Hio in E.
      change (stored (meas_of std_io false (NumericFloat x n b))) with (stored (meas_of std_io false (NumericFloat x n a))) in E. rewrite E. discriminate.
  - cbn [usual_call] in U, U'. destruct (used_dec b t) as [H|H].
    + destruct (proj1 (used_spec b t N) H) as [-> Z0]. destruct (read_std64 x (proj2 U)) as (y & R & _), (read_std64 x' (proj2 U')) as (y' & R' & _).
      pose proof (double_tolerant e dirs f n Hio x x' t y y' Z0 R R') as E. unfold double_verdict in E. rewrite Hio in E.
      change (stored (meas_of std_io false (NumericDouble x n true))) with (stored (meas_of std_io false (NumericDouble x n a))) in E. rewrite E. discriminate.
    + pose proof (double_exact e dirs f n Hio x x' t b (proj2 (used_spec b t N) H)) as E. unfold double_verdict in E. rewrite Hio in E.
      change (stored (meas_of std_io false (NumericDouble x n b))) with (stored (meas_of std_io false (NumericDouble x n a))) in E. rewrite E. discriminate.
  - rewrite bool_verdict. discriminate.
Qed.
(** the kind is the function and the name *)
Lemma kind_alike c c' t : usual_call c -> usual_call c' -> (kind_of_moment e (stored (meas_of std_io false c)) (c', t, f) = true <-> alike c c').
Proof.
  intros U U'. unfold kind_of_moment, same_kind. cbn [fst]. rewrite Hio, andb_true_iff, !eqs_true.
  destruct c; cbn [usual_call] in U; try contradiction; destruct c'; cbn [usual_call] in U'; try contradiction;
    cbn [meas_of stored mname mtype int_SetValue float_SetValue double_SetValue bool_SetValue SetContent DeleteContentAsData named SetAttributeName new_dm dname dcls];
    (split; [intros [E1 E2]; try (vm_compute in E2; discriminate E2); subst; constructor|intros K; inversion K; subst; split; reflexivity]).
Qed.
End OneVerdict.

(** * Counting *)
Definition bad (e : env) (dirs : list str) (bs : list meas) (ms : list moment) (i : nat) : bool :=
  match nth_error ms i with
  | Some mo => match nth_error bs i with Some b => negb (kind_of_moment e b mo && same_value e dirs b mo) | None => true end
  | None => false
  end.
Lemma filter_map {A B} (g : A -> B) p l : length (List.filter p (map g l)) = length (List.filter (fun x => p (g x)) l).
Proof. induction l as [|x l IH]; [reflexivity|]. cbn [map List.filter]. destruct (p (g x)); cbn [length]; rewrite IH; reflexivity. Qed.
Lemma mismatches_bad e dirs ms : forall bs, mismatches e dirs bs ms = Z.of_nat (length (List.filter (bad e dirs bs ms) (seq 0 (length ms)))).
Proof.
  induction ms as [|mo ms IH]; intros bs; [reflexivity|]. cbn [mismatches length seq List.filter]. rewrite IH, <- seq_shift.
  assert (E : length (List.filter (bad e dirs (tl bs) ms) (seq 0 (length ms))) = length (List.filter (bad e dirs bs (mo :: ms)) (map S (seq 0 (length ms))))).
  { rewrite filter_map. f_equal. apply filter_ext. intros i. unfold bad. cbn [nth_error]. destruct bs as [|b bs]; [|reflexivity]. destruct i; reflexivity. }
  rewrite E. unfold bad at 2. cbn [nth_error]. destruct bs as [|b bs]; cbn [nth_error]; [cbn [length]; lia|].
  destruct (kind_of_moment e b mo && same_value e dirs b mo); cbn [negb length]; lia.
Qed.
Lemma usual_steady p : usual_test p -> steady p /\ Forall usual_call (recorded p).
Proof.
  induction p as [z|i|c k IH|t' k IH|z k IH|path b k IH]; intros H; cbn [usual_test steady recorded] in *; try (split; [exact I|constructor]); try (apply IH; apply H).
  destruct H as (H1 & H2 & H3). destruct (IH 0 H3) as [A B]. split; [auto|constructor; assumption].
Qed.
Lemma steady_timed e o t f x p ms rs x' out : unfolds e o t f x p ms rs x' out -> usual_test p -> Forall (fun r => r = 0 \/ r = 1) rs -> length rs = length ms ->
  timed t p = map fst ms.
Proof.
  induction 1; intros S R L; cbn [usual_test timed map fst length] in *; try (apply IHunfolds; try assumption; apply S); try reflexivity; [|discriminate L].
  destruct S as (_ & S1 & S2). inversion R as [|? ? Hr Rr]; subst.
  assert (Ek : k r = k 0) by (destruct Hr as [-> | ->]; auto). rewrite Ek in *. rewrite IHunfolds by (assumption || lia). reflexivity.
Qed.
Lemma unfolds_tolerances e o t f x p ms rs x' out : unfolds e o t f x p ms rs x' out -> usual_test p -> Forall (fun r => r = 0 \/ r = 1) rs -> double_number t ->
  Forall (fun mo : moment => double_number (snd (fst mo)) /\ usual_call (fst (fst mo))) ms.
Proof.
  induction 1; intros S R T; cbn [usual_test] in *; try (constructor; fail); try (apply IHunfolds; try assumption; apply S).
  - destruct S as (S0 & S1 & S2). inversion R as [|? ? Hr Rr]; subst. assert (Ek : k r = k 0) by (destruct Hr as [-> | ->]; auto). rewrite Ek in *.
    constructor; [split; [exact T|exact S0]|apply IHunfolds; assumption].
  - constructor; [split; [exact T|apply S]|constructor].
Qed.

(** The new version makes the recorded measurements up to changes; with [v] the value it returns, the run returns the number of measurements that
    are not accepted, if [v] is the expected value.  That number is at least that of the measurements certainly rejected (those beyond the
    last recorded one included), and at most that of the measurements not certainly accepted. *)
Theorem C69_versions : forall e f old a0 rest opts o f1 s1 z e' f' new a0' rest' opts' inf o' f2 v s2 z2,
  (* the recording run *)
  command_line e f opts rest -> input_of opts = None -> opened e f (output_of e f opts) = Some (o, f1) ->
  leaves_alone e o (old (a0 :: rest)) -> (exists k, ends (old (a0 :: rest)) = Ok k) ->
  comment_safe (e_host e) -> comment_safe (e_time e) -> e_io e = std_io ->
  Forall usual_call (recorded (old (a0 :: rest))) ->
  Main e old (a0 :: flat opts ++ rest) (new_test f) = (s1, Ok z) ->
  (* the comparing run *)
  command_line e' f' opts' rest' -> input_of opts' = Some inf ->
  opened e' f' (output_of e' f' opts') = Some (o', f2) ->
  contents e' f2 (baseline_path e' f2 (dirs_of opts') inf) = Some (written o s1) -> e_io e' = std_io ->
  usual_test (new (a0' :: rest')) -> ends (new (a0' :: rest')) = Ok v ->
  Main e' new (a0' :: flat opts' ++ rest') (new_test f') = (s2, Ok z2) ->
  let before := recorded (old (a0 :: rest)) in
  let now := timed default_tol (new (a0' :: rest')) in
  exists n : nat, z2 = (if v =? expects (expected_of opts') (new (a0' :: rest')) then Z.of_nat n else v) /\
  (forall L, NoDup L -> Forall (fun i => exists mo, nth_error now i = Some mo /\ match nth_error before i with Some c => disagrees c mo | None => True end) L ->
     (length L <= n)%nat) /\
  (forall L, (forall i mo, nth_error now i = Some mo -> In i L \/ exists c, nth_error before i = Some c /\ agrees c mo) -> (n <= length L)%nat).
Proof.
  intros e f old a0 rest opts o f1 s1 z e' f' new a0' rest' opts' inf o' f2 v s2 z2 Hc Hi Ho Hl [k He] Hh Ht Hio Hex Hm Hc' Hi' Ho' Hb Hio' Hu Hv Hm2 before now.
  assert (Hs : Forall storable (map (meas_of (e_io e) false) (recorded (old (a0 :: rest))))).
  { rewrite Hio, Forall_map. eapply Forall_impl; [|exact Hex]. intros c Hcx.
    pose proof (usual_storable (Call c (fun _ => Return 0)) (conj Hcx (conj eq_refl I))) as S. inversion S; assumption. }
  destruct (C44_recorded_document e f old a0 opts rest o f1 Hc Hi Ho Hl) as (s1' & z' & ps & M & P & W).
  assert (E1 : (s1', Ok z') = (s1, Ok z)) by congruence. apply (f_equal fst) in E1. cbn [fst] in E1. subst s1'.
  rewrite He in W. rewrite (lines_prints _ _ P) in W. rewrite W in Hb.
  pose proof (C37_compare_status e' f' new a0' opts' rest' inf s2 z2 Hc' Hi' Hm2) as C.
  unfold started in C. rewrite Ho', Hb, (read_recorded (e_asserts e') (e_ext e') e _ Hh Ht Hs), Hio in C.
  set (base := map stored (map (meas_of std_io false) (recorded (old (a0 :: rest))))) in *.
  destruct C as (ms & rs & x & out & U & R & S & Z).
  assert (B01 : Forall (fun r => r = 0%Z \/ r = 1%Z) rs) by (rewrite R; apply results_bit).
  pose proof (proj1 (usual_steady _ Hu)) as Hst.
  destruct (steady_unfolds _ _ _ _ _ _ _ _ _ _ U Hst B01) as (more & Er & Ef).
  assert (Dt : double_number default_tol) by (split; vm_compute; reflexivity).
  pose proof (unfolds_tolerances _ _ _ _ _ _ _ _ _ _ U Hu B01 Dt) as Fm.
  assert (Nb : forall i, nth_error base i = option_map (fun c => stored (meas_of std_io false c)) (nth_error before i)).
  { intros i. unfold base, before. rewrite map_map. apply nth_error_map. }
  assert (Uc : forall i c, nth_error before i = Some c -> usual_call c).
  { intros i c H. apply nth_error_In in H. rewrite Forall_forall in Hex. apply Hex, H. }
  assert (L : length rs = length ms).
  { assert (length rs <= length ms)%nat by (clear -U; induction U; cbn [length]; lia).
    destruct (Nat.eq_dec (length rs) (length ms)) as [E|N]; [exact E|]. exfalso.
    destruct (nth_error ms (length rs)) as [mo|] eqn:Nm; [|apply nth_error_None in Nm; lia].
    destruct (S mo eq_refl) as (b & i & _ & Nbb & Kb & V). rewrite Nb in Nbb. destruct (nth_error before (length rs)) as [c|] eqn:Nc; [|discriminate Nbb]. cbn [option_map] in Nbb.
    injection Nbb as <-. apply nth_error_In in Nm. rewrite Forall_forall in Fm. destruct (Fm mo Nm) as [F1 F2]. destruct mo as [[c' t] g]. cbn [fst snd] in F1, F2.
    pose proof (Uc _ _ Nc) as Hcc. apply (proj1 (kind_alike e' g Hio' c c' t Hcc F2)) in Kb. exact (no_throw e' _ g Hio' c c' t i F1 Hcc F2 Kb V). }
  pose proof (steady_timed _ _ _ _ _ _ _ _ _ _ U Hu B01 L) as Et.
  destruct (Ef L) as (-> & -> & ->). rewrite L, firstn_all in Z. rewrite Hv in Z. cbn [status] in Z. rewrite mismatches_bad in Z.
  exists (length (List.filter (bad e' (dirs_of opts') base ms) (seq 0 (length ms)))). split; [exact Z|].
  assert (Nn : forall i, nth_error now i = option_map fst (nth_error ms i)) by (intros i; unfold now; rewrite Et; apply nth_error_map).
  split; intros Q HQ.
  - intros HL. apply NoDup_incl_length; [exact HQ|]. intros i Hin. rewrite Forall_forall in HL. destruct (HL i Hin) as (mo & Nmo & D).
    rewrite Nn in Nmo. destruct (nth_error ms i) as [[[c' t] g]|] eqn:Ei; [|discriminate Nmo]. cbn [option_map fst] in Nmo. injection Nmo as <-.
    apply filter_In. split; [apply in_seq; apply nth_error_Some_lt in Ei || (assert (nth_error ms i <> None) as X by congruence; apply nth_error_Some in X); lia|].
    unfold bad. rewrite Ei, Nb. destruct (nth_error before i) as [c|] eqn:Ec; cbn [option_map]; [|reflexivity].
    apply nth_error_In in Ei. rewrite Forall_forall in Fm. destruct (Fm _ Ei) as [F1 F2]. cbn [fst snd] in F1, F2. pose proof (Uc _ _ Ec) as Hcc.
    destruct (kind_of_moment e' (stored (meas_of std_io false c)) (c', t, g)) eqn:Kd; [|reflexivity]. cbn [andb].
    apply (proj1 (kind_alike e' g Hio' c c' t Hcc F2)) in Kd. pose proof (disagrees_verdict e' (dirs_of opts') g Hio' c c' t F1 Hcc F2 D Kd) as V.
    unfold same_value. destruct (verdict e' (dirs_of opts') (stored (meas_of std_io false c)) (c', t, g)) as [[|]| | | |]; try reflexivity. contradiction V; reflexivity.
  - apply NoDup_incl_length; [apply NoDup_filter, seq_NoDup|]. intros i Hin. apply filter_In in Hin as [Hin Bd].
    unfold bad in Bd. destruct (nth_error ms i) as [[[c' t] g]|] eqn:Ei; [|discriminate Bd].
    destruct (HQ i (c', t)) as [A|(c & Ec & A)]; [rewrite Nn, Ei; reflexivity|exact A|]. exfalso.
    rewrite Nb, Ec in Bd. cbn [option_map] in Bd. apply nth_error_In in Ei. rewrite Forall_forall in Fm. destruct (Fm _ Ei) as [F1 F2]. cbn [fst snd] in F1, F2. pose proof (Uc _ _ Ec) as Hcc.
    destruct (agrees_verdict e' (dirs_of opts') g Hio' c c' t F1 Hcc F2 A) as [Kd V].
    rewrite (proj2 (kind_alike e' g Hio' c c' t Hcc F2) Kd) in Bd. unfold same_value in Bd. rewrite V in Bd. discriminate Bd.
Qed.
Print Assumptions C69_versions.
(** If the new version returns the expected value: all measurements accepted gives 0, one rejected gives another value. *)
Theorem C69_passes : forall e f old a0 rest opts o f1 s1 z e' f' new a0' rest' opts' inf o' f2 v s2 z2,
  command_line e f opts rest -> input_of opts = None -> opened e f (output_of e f opts) = Some (o, f1) ->
  leaves_alone e o (old (a0 :: rest)) -> (exists k, ends (old (a0 :: rest)) = Ok k) ->
  comment_safe (e_host e) -> comment_safe (e_time e) -> e_io e = std_io ->
  Forall usual_call (recorded (old (a0 :: rest))) ->
  Main e old (a0 :: flat opts ++ rest) (new_test f) = (s1, Ok z) ->
  command_line e' f' opts' rest' -> input_of opts' = Some inf ->
  opened e' f' (output_of e' f' opts') = Some (o', f2) ->
  contents e' f2 (baseline_path e' f2 (dirs_of opts') inf) = Some (written o s1) -> e_io e' = std_io ->
  usual_test (new (a0' :: rest')) -> ends (new (a0' :: rest')) = Ok v ->
  Main e' new (a0' :: flat opts' ++ rest') (new_test f') = (s2, Ok z2) ->
  v = expects (expected_of opts') (new (a0' :: rest')) ->
  let before := recorded (old (a0 :: rest)) in
  let now := timed default_tol (new (a0' :: rest')) in
  ((forall i mo, nth_error now i = Some mo -> exists c, nth_error before i = Some c /\ agrees c mo) -> z2 = 0) /\
  (forall i mo, nth_error now i = Some mo -> (forall c, nth_error before i = Some c -> disagrees c mo) -> 1 <= z2).
Proof.
  intros e f old a0 rest opts o f1 s1 z e' f' new a0' rest' opts' inf o' f2 v s2 z2 H1 H2 H3 H4 H5 H6 H7 H8 H9 H10 H11 H12 H13 H14 H15 H16 H17 H18 H19 before now.
  destruct (C69_versions e f old a0 rest opts o f1 s1 z e' f' new a0' rest' opts' inf o' f2 v s2 z2 H1 H2 H3 H4 H5 H6 H7 H8 H9 H10 H11 H12 H13 H14 H15 H16 H17 H18) as (n & Z & A & B).
  rewrite <- H19, Z.eqb_refl in Z. subst z2. split.
  - intros H. specialize (B [] (fun i mo N => or_intror (H i mo N))). cbn [length] in B. lia.
  - intros i mo N H. specialize (A [i]). cbn [length] in A.
    assert (1 <= n)%nat; [|lia]. apply A; [repeat constructor; intros []|]. constructor; [|constructor]. exists mo. split; [exact N|].
    fold before. destruct (nth_error before i) as [c|]; [apply H; reflexivity|exact I].
Qed.
Print Assumptions C69_passes.
(** The tolerance of a new object is [2^-17] (64 times FLT_EPSILON), and remains until the test sets another. *)
Theorem C69_default_tolerance : forall f, rv (s_tol (new_test f)) = bpow radix2 (-17) /\ s_tol (new_test f) = default_tol.
Proof.
  intros f. split; [|reflexivity]. cbn [new_test s_tol]. change default_tol with (S754_finite false 4503599627370496 (-69)). rewrite rv_dbl.
  rewrite (pow2_num (-69) 69 590295810358705651712), (pow2_num (-17) 17 131072) by (lia || reflexivity). lra.
Qed.
Print Assumptions C69_default_tolerance.

(** The first value changed within the default tolerance, the second beyond it, the third exactly compared, one more measurement. *)
Definition v_old : list str -> prog := fun _ =>
  Call (NumericDouble thousand ($"a") true) (fun _ => Call (NumericDouble thousand ($"b") true) (fun _ => Call (NumericInteger 5 ($"c") false) (fun _ => Return 0))).
Definition v_new : list str -> prog := fun _ =>
  Call (NumericDouble thousand_1 ($"a") true) (fun _ => Call (NumericDouble thousand_2 ($"b") true) (fun _ => Call (NumericInteger 5 ($"c") false) (fun _ =>
  SetRelativeTolerance (dbl 1 (-3)) (Call (TextString [] ($"d")) (fun _ => Return 0))))).
Local Notation c69_recorded := (fst (Main std_env v_old [$"prog"; $"-O"; $"b.xml"] (new_test (fun _ => None)))).
Example C69_case :
  (command_line std_env (fun _ => None) [($"-O", $"b.xml")] [] /\ input_of [($"-O", $"b.xml")] = None /\
   (exists f1, opened std_env (fun _ => None) (output_of std_env (fun _ => None) [($"-O", $"b.xml")]) = Some (Some ($"b.xml"), f1)) /\
   leaves_alone std_env (Some ($"b.xml")) (v_old [$"prog"]) /\ comment_safe (e_host std_env) /\ comment_safe (e_time std_env) /\
   Forall usual_call (recorded (v_old [$"prog"]))) /\
  (command_line std_env (s_files c69_recorded) [($"-I", $"b.xml")] [] /\ input_of [($"-I", $"b.xml")] = Some ($"b.xml") /\
   opened std_env (s_files c69_recorded) (output_of std_env (s_files c69_recorded) [($"-I", $"b.xml")]) = Some (None, s_files c69_recorded) /\
   contents std_env (s_files c69_recorded) (baseline_path std_env (s_files c69_recorded) [] ($"b.xml")) = Some (written (Some ($"b.xml")) c69_recorded) /\
   usual_test (v_new [$"prog"]) /\
   snd (Main std_env v_new [$"prog"; $"-I"; $"b.xml"] (new_test (s_files c69_recorded))) = Ok 2%Z).
Proof.
  split; [split; [|split; [|split; [|split; [|split; [|split]]]]]|split; [|split; [|split; [|split; [|split]]]]].
  - split; [|exact I]. constructor; [|constructor]. split; [cbn; auto|]. split; intros E; discriminate E.
  - reflexivity.
  - eexists. vm_compute. reflexivity.
  - cbn [v_old leaves_alone]. intros _ _ _. exact I.
  - split; [reflexivity|]. intros a b E. apply (f_equal (fun l => existsb (fun c => eqc c "-") l)) in E. rewrite !existsb_app in E. cbn in E. rewrite orb_true_r in E. discriminate.
  - split; [reflexivity|]. intros a b E. apply (f_equal (fun l => existsb (fun c => eqc c "-") l)) in E. rewrite !existsb_app in E. cbn in E. rewrite orb_true_r in E. discriminate.
  - repeat constructor; discriminate.
  - split; [|exact I]. constructor; [|constructor]. split; [cbn; auto|]. split; intros E; [vm_compute; auto|discriminate E].
  - reflexivity.
  - vm_compute. reflexivity.
  - vm_compute. reflexivity.
  - cbn [v_new usual_test]. repeat split; discriminate.
  - vm_compute. reflexivity.
Qed.
Example C69_agreements :
  timed default_tol (v_new []) = [(NumericDouble thousand_1 ($"a") true, default_tol); (NumericDouble thousand_2 ($"b") true, default_tol);
    (NumericInteger 5 ($"c") false, default_tol); (TextString [] ($"d"), dbl 1 (-3))] /\
  agrees (NumericDouble thousand ($"a") true) (NumericDouble thousand_1 ($"a") true, default_tol) /\
  disagrees (NumericDouble thousand ($"b") true) (NumericDouble thousand_2 ($"b") true, default_tol) /\
  agrees (NumericInteger 5 ($"c") false) (NumericInteger 5 ($"c") false, default_tol).
Proof.
  assert (X : forall m, (1 <= m)%positive -> rv (S754_finite false m (-43)) = (IZR (Zpos m) / 8796093022208)%R).
  { intros m _. rewrite rv_dbl, (pow2_num (-43) 43 8796093022208) by (lia || reflexivity). reflexivity. }
  assert (E0 : rv thousand = 1000%R) by (change thousand with (S754_finite false 8796093022208000 (-43)); rewrite X by lia; lra).
  assert (E1 : rv thousand_1 = (8796101828542333 / 8796093022208)%R) by (change thousand_1 with (S754_finite false 8796101828542333 (-43)); rewrite X by lia; lra).
  assert (E2 : rv thousand_2 = (8796972636635955 / 8796093022208)%R) by (change thousand_2 with (S754_finite false 8796972636635955 (-43)); rewrite X by lia; lra).
  assert (T : rv default_tol = (/ 131072)%R) by (destruct (C69_default_tolerance (fun _ => None)) as [T _]; cbn [new_test s_tol] in T; rewrite T, (pow2_num (-17) 17 131072) by (lia || reflexivity); reflexivity).
  assert (W : (bpow radix2 (-1075) <= / 1000000)%R).
  { apply Rle_trans with (bpow radix2 (-20)); [apply bpow_le; lia|]. rewrite (pow2_num (-20) 20 1048576) by (lia || reflexivity). lra. }
  assert (B : (10000 <= bpow radix2 1022)%R) by (apply Rle_trans with (bpow radix2 14); [cbn; lra|apply bpow_le; lia]).
  assert (B' : (bpow radix2 (-51) <= 1)%R) by (change 1%R with (bpow radix2 0); apply bpow_le; lia).
  assert (Us : tolerance_used true default_tol) by (split; [reflexivity|rewrite T; lra]).
  split; [reflexivity|]. split; [|split].
  - apply agree_double_near; [exact Us|repeat split; vm_compute; reflexivity|repeat split; vm_compute; reflexivity| |].
    + rewrite E0, E1. unfold size. rewrite !Rabs_pos_eq, Rmax_right by lra. lra.
    + left. rewrite E0, E1, T. unfold size, slack64. rewrite (pow10_num (-14) 14 100000000000000) by (lia || reflexivity).
      rewrite (Rabs_pos_eq (/ 131072)), (Rabs_pos_eq 1000), (Rabs_pos_eq (_ / _)) by lra. rewrite Rmax_right by lra. rewrite <- Rabs_Ropp, Rabs_pos_eq by lra. lra.
  - apply dis_double_far; [exact Us|repeat split; vm_compute; reflexivity|repeat split; vm_compute; reflexivity| |].
    + rewrite E0, E2. unfold size. rewrite !Rabs_pos_eq, Rmax_right by lra. lra.
    + rewrite E0, E2, T. unfold size, slack64. rewrite (pow10_num (-14) 14 100000000000000) by (lia || reflexivity).
      rewrite (Rabs_pos_eq (/ 131072)), (Rabs_pos_eq 1000), (Rabs_pos_eq (_ / _)) by lra. rewrite Rmax_right by lra. rewrite <- Rabs_Ropp, Rabs_pos_eq by lra. lra.
  - apply agree_int; [|reflexivity]. intros [H _]. discriminate.
Qed.

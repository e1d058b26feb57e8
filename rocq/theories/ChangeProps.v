(** C64: recording with one version of a test and comparing with another one. *)
From Coq Require Import Floats.SpecFloat.
From Verif Require Import Base Str Dec PathModel PathFacts MeasModel MeasFacts MeasFacts2 MeasProps XmlText XmlModel ReadModel ReadFacts ReadBack ReadProps RegModel ArgFacts ArgProps RegSpec RegFacts RegStart RegMain RegProps RegProps2 RegRound.

(** name, type and text of the measurement a call makes *)
Definition what (io : numio) (c : call) : str * str * str := triple (meas_of io false c).
(** the test does not react to the values the measurements return (0 or 1) *)
Fixpoint steady (p : prog) : Prop :=
  match p with
  | Return _ | Raise _ => True
  | Call c k => k 1%Z = k 0%Z /\ steady (k 0%Z)
  | SetRelativeTolerance _ k | SetExpectedReturn _ k | WriteFile _ _ k => steady k
  end.

Lemma results_bit e dirs bs ms : Forall (fun r => r = 0%Z \/ r = 1%Z) (results e dirs bs ms).
Proof.
  revert bs. induction ms as [|mo ms IH]; intros bs; cbn [results]; constructor; [|apply IH].
  destruct bs as [|b bs]; [auto|]. destruct (kind_of_moment e b mo); [|auto]. destruct (same_value e dirs b mo); cbn; auto.
Qed.
Lemma steady_unfolds e o t f x p ms rs x' out : unfolds e o t f x p ms rs x' out -> steady p -> Forall (fun r => r = 0%Z \/ r = 1%Z) rs ->
  exists more, recorded p = map (fun mo : moment => fst (fst mo)) ms ++ more /\
    (length rs = length ms -> more = [] /\ out = ends p /\ x' = expects x p).
Proof.
  induction 1; intros S R; cbn [steady recorded ends expects] in *; try (apply IHunfolds; assumption).
  - exists []. auto.
  - exists []. auto.
  - destruct S as [S1 S2]. inversion R as [|? ? Hr Rr]; subst.
    assert (Ek : k r = k 0%Z) by (destruct Hr as [-> | ->]; auto). rewrite Ek in *.
    destruct (IHunfolds S2 Rr) as (more & A & B). exists more. split; [cbn [map fst app]; rewrite A; reflexivity|].
    cbn [length]. intros L. apply B. lia.
  - exists (recorded (k 0%Z)). split; [reflexivity|]. cbn [length]. discriminate.
Qed.
Lemma exact_no_throw e dirs d c t f i : exact_call c -> ddata d = None -> denc d <> $"base64" -> verdict e dirs (MD d) (c, t, f) <> Throw i.
Proof.
  intros Hc A B.
  assert (M : exists m, meas_of (e_io e) true c = MD m /\ ddata m = None /\ denc m <> $"base64").
  { destruct c; cbn [meas_of] in *; try contradiction; eexists; (split; [reflexivity|]); (split; [reflexivity|discriminate]). }
  destruct M as (m & M & Mc & Me). unfold verdict. assert (T : tolerant_of c = false) by (destruct c; cbn in Hc |- *; auto; contradiction).
  rewrite T, M. cbn [found].
  rewrite (compare_exact (e_sc e) (sources e f) (e_io e) new_cmp d m (dcontent d) (dcontent m) eq_refl (or_intror (conj A (conj B eq_refl))) (or_intror (conj Mc (conj Me eq_refl)))).
  cbn [snd]. discriminate.
Qed.
Lemma exact_stored io c : exact_call c -> exists d, stored (meas_of io false c) = MD d /\ ddata d = None /\ denc d <> $"base64" /\ meas_of io true c = meas_of io false c.
Proof. intros H. destruct c; cbn [exact_call meas_of stored] in *; try contradiction; eexists; (split; [reflexivity|]); (split; [reflexivity|]); (split; [discriminate|reflexivity]). Qed.
Lemma what_stored io c : triple (stored (meas_of io false c)) = what io c.
Proof. unfold what. destruct (meas_of io false c) as [d|g]; reflexivity. Qed.

(** A baseline recorded by one test, compared by another one, each making its measurements in memory and comparing exactly: the value
    returned is the number of positions at which name, type or text of the measurement is not what was recorded there. *)
Theorem C64_changes_counted : forall e f old a0 rest opts o f1 s1 z e' f' new a0' rest' opts' inf o' f2 v s2 z2,
  (* the recording run *)
  command_line e f opts rest -> input_of opts = None -> opened e f (output_of e f opts) = Some (o, f1) ->
  leaves_alone e o (old (a0 :: rest)) -> (exists k, ends (old (a0 :: rest)) = Ok k) ->
  Forall storable (map (meas_of (e_io e) false) (recorded (old (a0 :: rest)))) -> comment_safe (e_host e) -> comment_safe (e_time e) ->
  Forall exact_call (recorded (old (a0 :: rest))) ->
  Main e old (a0 :: flat opts ++ rest) (new_test f) = (s1, Ok z) ->
  (* the comparing run *)
  command_line e' f' opts' rest' -> input_of opts' = Some inf ->
  opened e' f' (output_of e' f' opts') = Some (o', f2) ->
  contents e' f2 (baseline_path e' f2 (dirs_of opts') inf) = Some (written o s1) ->
  steady (new (a0' :: rest')) -> Forall exact_call (recorded (new (a0' :: rest'))) -> ends (new (a0' :: rest')) = Ok v ->
  Main e' new (a0' :: flat opts' ++ rest') (new_test f') = (s2, Ok z2) ->
  let before := map (what (e_io e)) (recorded (old (a0 :: rest))) in
  let now := map (what (e_io e')) (recorded (new (a0' :: rest'))) in
  z2 = if (v =? expects (expected_of opts') (new (a0' :: rest')))%Z then Z.of_nat (differing eq3 before now) else v.
Proof.
  intros e f old a0 rest opts o f1 s1 z e' f' new a0' rest' opts' inf o' f2 v s2 z2 Hc Hi Ho Hl [k He] Hs Hh Ht Hex Hm Hc' Hi' Ho' Hb Hst Hnx Hv Hm2 before now.
  destruct (C44_recorded_document e f old a0 opts rest o f1 Hc Hi Ho Hl) as (s1' & z' & ps & M & P & W).
  assert (E1 : (s1', Ok z') = (s1, Ok z)) by congruence. apply (f_equal fst) in E1. cbn [fst] in E1. subst s1'.
  rewrite He in W. rewrite (lines_prints _ _ P) in W. rewrite W in Hb.
  pose proof (C37_compare_status e' f' new a0' opts' rest' inf s2 z2 Hc' Hi' Hm2) as C.
  unfold started in C. rewrite Ho', Hb, (read_recorded (e_asserts e') (e_ext e') e _ Hh Ht Hs) in C.
  set (base := map stored (map (meas_of (e_io e) false) (recorded (old (a0 :: rest))))) in *.
  destruct C as (ms & rs & x & out & U & R & S & Z).
  assert (B01 : Forall (fun r => r = 0%Z \/ r = 1%Z) rs) by (rewrite R; apply results_bit).
  destruct (steady_unfolds _ _ _ _ _ _ _ _ _ _ U Hst B01) as (more & Er & Ef).
  assert (Fm : Forall (fun mo : moment => exact_call (fst (fst mo))) ms).
  { rewrite Er in Hnx. apply Forall_app in Hnx as [Hnx _]. rewrite Forall_map in Hnx. exact Hnx. }
  assert (Fb : Forall (fun b => plain_baseline b /\ is_data b = true) base).
  { unfold base. rewrite map_map, Forall_map. eapply Forall_impl; [|exact Hex]. intros c Hcx.
    destruct (exact_stored (e_io e) c Hcx) as (d & -> & D1 & D2 & _). split; [split; assumption|reflexivity]. }
  assert (L : length rs = length ms).
  { assert (length rs <= length ms) by (clear -U; induction U; cbn [length]; lia).
    destruct (Nat.eq_dec (length rs) (length ms)) as [E|N]; [exact E|]. exfalso.
    destruct (nth_error ms (length rs)) as [mo|] eqn:Nm; [|apply nth_error_None in Nm; lia].
    destruct (S mo eq_refl) as (b & i & _ & Nb & _ & V). apply nth_error_In in Nm, Nb.
    rewrite Forall_forall in Fm, Fb. specialize (Fm mo Nm). destruct (Fb b Nb) as [Pb Db]. destruct b as [d|g]; [|discriminate]. destruct Pb as [D1 D2].
    destruct mo as [[c t] g]. cbn [fst] in Fm. exact (exact_no_throw e' _ d c t g i Fm D1 D2 V). }
  destruct (Ef L) as (-> & -> & ->). rewrite app_nil_r in Er. rewrite L, firstn_all in Z. rewrite Hv in Z. cbn [status] in Z.
  rewrite (C38_mismatches_of_exact_measurements e' (dirs_of opts') base ms Fm Fb) in Z. rewrite Z.
  assert (Eb : map triple base = before) by (unfold base, before; rewrite !map_map; apply map_ext; intros c; apply what_stored).
  assert (En : map (fun mo => triple (meas_of (e_io e') true (fst (fst mo)))) ms = now).
  { unfold now. rewrite Er, map_map. clear -Fm. induction Fm as [|mo ms Hmo _ IH]; [reflexivity|]. cbn [map]. rewrite IH. f_equal. unfold what.
    destruct (exact_stored (e_io e') _ Hmo) as (_ & _ & _ & _ & ->). reflexivity. }
  rewrite Eb, En. reflexivity.
Qed.
Print Assumptions C64_changes_counted.
Lemma differing_zero {A} (eq : A -> A -> bool) : (forall a b, eq a b = true <-> a = b) -> forall ys xs, differing eq xs ys = 0 <-> exists more, xs = ys ++ more.
Proof.
  intros H. induction ys as [|y ys IH]; intros xs.
  - split; [intros _; exists xs; reflexivity|reflexivity].
  - rewrite differing_cons. destruct xs as [|x xs].
    + split; [discriminate|]. intros [more E]. discriminate E.
    + cbn [tl]. destruct (eq x y) eqn:E.
      * apply H in E. subst y. cbn [Nat.add]. rewrite IH. split; intros [more M]; exists more; [rewrite M; reflexivity|injection M as M; exact M].
      * split; [discriminate|]. intros [more M]. injection M as -> _. rewrite (proj2 (H y y) eq_refl) in E. discriminate.
Qed.
(** If the new version returns the expected value, the comparison succeeds iff its measurements are the recorded ones, or the first of them. *)
Theorem C64_passes_iff : forall e f old a0 rest opts o f1 s1 z e' f' new a0' rest' opts' inf o' f2 v s2 z2,
  command_line e f opts rest -> input_of opts = None -> opened e f (output_of e f opts) = Some (o, f1) ->
  leaves_alone e o (old (a0 :: rest)) -> (exists k, ends (old (a0 :: rest)) = Ok k) ->
  Forall storable (map (meas_of (e_io e) false) (recorded (old (a0 :: rest)))) -> comment_safe (e_host e) -> comment_safe (e_time e) ->
  Forall exact_call (recorded (old (a0 :: rest))) ->
  Main e old (a0 :: flat opts ++ rest) (new_test f) = (s1, Ok z) ->
  command_line e' f' opts' rest' -> input_of opts' = Some inf ->
  opened e' f' (output_of e' f' opts') = Some (o', f2) ->
  contents e' f2 (baseline_path e' f2 (dirs_of opts') inf) = Some (written o s1) ->
  steady (new (a0' :: rest')) -> Forall exact_call (recorded (new (a0' :: rest'))) -> ends (new (a0' :: rest')) = Ok v ->
  Main e' new (a0' :: flat opts' ++ rest') (new_test f') = (s2, Ok z2) ->
  v = expects (expected_of opts') (new (a0' :: rest')) ->
  (z2 = 0%Z <-> exists more, map (what (e_io e)) (recorded (old (a0 :: rest))) = map (what (e_io e')) (recorded (new (a0' :: rest'))) ++ more).
Proof.
  intros e f old a0 rest opts o f1 s1 z e' f' new a0' rest' opts' inf o' f2 v s2 z2 H1 H2 H3 H4 H5 H6 H7 H8 H9 H10 H11 H12 H13 H14 H15 H16 H17 H18 H19.
  pose proof (C64_changes_counted e f old a0 rest opts o f1 s1 z e' f' new a0' rest' opts' inf o' f2 v s2 z2 H1 H2 H3 H4 H5 H6 H7 H8 H9 H10 H11 H12 H13 H14 H15 H16 H17 H18) as C.
  cbv zeta in C. rewrite <- H19, Z.eqb_refl in C. rewrite C, <- (differing_zero eq3 eq3_true). lia.
Qed.
Print Assumptions C64_passes_iff.
(** what the measurements of a program are: equal iff the calls have the same name, kind and value *)
Theorem C64_what_texts : forall io t n t' n',
  (what io (TextString t n) = what io (TextString t' n') <-> t = t' /\ n = n') /\
  (what io (TextPlain t n) = what io (TextPlain t' n') <-> t = t' /\ n = n') /\
  what io (TextString t n) <> what io (TextPlain t' n').
Proof.
  intros io t n t' n'. unfold what, triple. cbn [meas_of mname mtype mcontent SetContent named SetAttributeName new_dm dname dcls dcontent type_of].
  split; [split; [intros E; injection E; auto|intros [-> ->]; reflexivity]|]. split; [split; [intros E; injection E; auto|intros [-> ->]; reflexivity]|].
  intros E. apply (f_equal (fun x => snd (fst x))) in E. discriminate E.
Qed.
Theorem C64_what_numbers : forall io i n tol i' n' tol' b m b' m',
  (what io (NumericInteger i n tol) = what io (NumericInteger i' n' tol') <-> n = n' /\ wrap32 i = wrap32 i') /\
  (what io (NumericBoolean b m tol) = what io (NumericBoolean b' m' tol') <-> m = m' /\ b = b').
Proof.
  intros io i n tol i' n' tol' b m b' m'. unfold what, triple.
  cbn [meas_of mname mtype mcontent SetContent named SetAttributeName new_dm dname dcls dcontent type_of int_SetValue bool_SetValue].
  split; split.
  - intros E. assert (E1 : n = n') by (injection E; auto). assert (E2 : print_int (wrap32 i) = print_int (wrap32 i')) by (apply (f_equal snd) in E; exact E).
    split; [exact E1|apply print_int_inj, E2].
  - intros [-> ->]. reflexivity.
  - intros E. split; [injection E; auto|]. apply (f_equal snd) in E. cbn [snd] in E. destruct b, b'; vm_compute in E; congruence.
  - intros [-> ->]. reflexivity.
Qed.

(** a changed text, a changed kind and a new measurement are counted, the unchanged one is not *)
Definition old_version : list str -> prog := fun _ => 
  Call (TextString ($"a") ($"one")) (fun _ => Call (NumericInteger 5 ($"two") false) (fun _ => Call (TextPlain ($"c") ($"three")) (fun _ => Return 0))).
Definition new_version : list str -> prog := fun _ =>
  Call (TextString ($"a") ($"one")) (fun _ => Call (NumericInteger 6 ($"two") false) (fun _ => Call (TextString ($"c") ($"three")) (fun _ => Call (TextString [] ($"four")) (fun _ => Return 0)))).
Local Notation c64_recorded := (fst (Main ex_env old_version [$"prog"; $"-O"; $"b.xml"] (new_test (fun _ => None)))).
Example C64_case : 
  (command_line ex_env (fun _ => None) [($"-O", $"b.xml")] [] /\ input_of [($"-O", $"b.xml")] = None /\
   (exists f1, opened ex_env (fun _ => None) (output_of ex_env (fun _ => None) [($"-O", $"b.xml")]) = Some (Some ($"b.xml"), f1)) /\
   leaves_alone ex_env (Some ($"b.xml")) (old_version [$"prog"]) /\
   Forall storable (map (meas_of (e_io ex_env) false) (recorded (old_version [$"prog"]))) /\ comment_safe (e_host ex_env) /\ comment_safe (e_time ex_env) /\
   Forall exact_call (recorded (old_version [$"prog"]))) /\
  (command_line ex_env (s_files c64_recorded) [($"-I", $"b.xml")] [] /\ input_of [($"-I", $"b.xml")] = Some ($"b.xml") /\
   opened ex_env (s_files c64_recorded) (output_of ex_env (s_files c64_recorded) [($"-I", $"b.xml")]) = Some (None, s_files c64_recorded) /\
   contents ex_env (s_files c64_recorded) (baseline_path ex_env (s_files c64_recorded) [] ($"b.xml")) = Some (written (Some ($"b.xml")) c64_recorded) /\
   steady (new_version [$"prog"]) /\ Forall exact_call (recorded (new_version [$"prog"])) /\
   snd (Main ex_env new_version [$"prog"; $"-I"; $"b.xml"] (new_test (s_files c64_recorded))) = Ok 3%Z /\
   differing eq3 (map (what (e_io ex_env)) (recorded (old_version [$"prog"]))) (map (what (e_io ex_env)) (recorded (new_version [$"prog"]))) = 3).
Proof.
  split; [split; [|split; [|split; [|split; [|split; [|split; [|split]]]]]]|split; [|split; [|split; [|split; [|split; [|split; [|split]]]]]]].
  - split; [|exact I]. constructor; [|constructor]. split; [cbn; auto|]. split; intros E; discriminate E.
  - reflexivity.
  - eexists. vm_compute. reflexivity.
  - cbn [old_version leaves_alone]. intros _ _ _. exact I.
  - repeat constructor.
  - split; [reflexivity|]. intros a b E. apply (f_equal (fun l => existsb (fun c => eqc c "-") l)) in E. rewrite !existsb_app in E. cbn in E. rewrite orb_true_r in E. discriminate.
  - split; [reflexivity|]. intros a b E. apply (f_equal (fun l => existsb (fun c => eqc c "-") l)) in E. rewrite !existsb_app in E. cbn in E. rewrite orb_true_r in E. discriminate.
  - repeat constructor.
  - split; [|exact I]. constructor; [|constructor]. split; [cbn; auto|]. split; intros E; [vm_compute; auto|discriminate E].
  - reflexivity.
  - vm_compute. reflexivity.
  - vm_compute. reflexivity.
  - cbn [new_version steady]. auto.
  - repeat constructor.
  - vm_compute. reflexivity.
  - vm_compute. reflexivity.
Qed.

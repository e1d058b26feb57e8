(** C68: calling [Main] several times on one test object. *)
From Coq Require Import Floats.SpecFloat.
From Verif Require Import Base Str Dec PathModel MeasModel XmlModel ReadModel RegModel ArgFacts ArgProps RegSpec RegFacts RegStart RegMain RegProps.
Local Open Scope Z_scope.

(** * Specification *)
(** a new object constructed with the names, search directories, tolerance and expected value that [s] has now *)
Definition with_settings_of (s : rst) : rst :=
  Rst (s_files s) [] [] (s_in s) (s_out s) (s_path s) None None (s_tol s) 0 (s_expected s).
(** what [Main] returns, [ret] being what the test returned (-1 if there was an exception) *)
Definition returned (e : env) (s : rst) (ret : Z) : res Z :=
  if ret =? s_expected s then cm <-- compare_mode e s ;; Ok (if (cm : bool) then s_unmatched s else 0) else Ok ret.
(** [s] is the state of an object on which calls of [Main] that did not end in undefined behaviour, an abort or an endless loop have been made, without empty
    arguments; between the calls files may change.  [counts]: the failures each of the calls, the last one first, would have counted on a new object with the settings at
    that time. *)
Inductive used : rst -> list Z -> Prop :=
| used_new f inf outf dirs t x : used (Rst f [] [] inf outf dirs None None t 0 x) []
| used_run e test argv s counts s' z f : used s counts -> ~ In [] argv -> Main e test argv s = (s', Ok z) ->
    used (set_files s' f) (s_unmatched (fst (Main e test argv (with_settings_of s))) :: counts).
Definition sum (l : list Z) : Z := fold_right Z.add 0 l.

(** * Commuting with changes of the object *)
Section Commute.
Variable g : rst -> rst.
Definition commutes {A} (m : M A) : Prop := forall s, m (g s) = (g (fst (m s)), snd (m s)).
Lemma com_bind {A B} (m : M A) (k : A -> M B) : commutes m -> (forall a, commutes (k a)) -> commutes (mbind m k).
Proof.
  intros Hm Hk s. unfold mbind. rewrite (Hm s). destruct (m s) as [s1 [a| | | |]]; cbn [fst snd]; try reflexivity. apply Hk.
Qed.
Lemma com_lift {A} (r : res A) : commutes (mlift r).
Proof. intros s. reflexivity. Qed.
Lemma com_ret {A} (a : A) : commutes (mret a).
Proof. intros s. reflexivity. Qed.
Lemma com_modify h : (forall s, h (g s) = g (h s)) -> commutes (modify h).
Proof. intros H s. unfold modify. rewrite H. reflexivity. Qed.
Lemma com_gets {A} (h : rst -> A) : (forall s, h (g s) = h s) -> commutes (gets h).
Proof. intros H s. unfold gets. rewrite H. reflexivity. Qed.
Lemma com_read {A} (h : rst -> res A) : (forall s, h (g s) = h s) -> commutes (fun s => (s, h s)).
Proof. intros H s. cbn. rewrite H. reflexivity. Qed.
Lemma com_ext {A} (m m' : M A) : (forall s, m s = m' s) -> commutes m' -> commutes m.
Proof. intros H C s. rewrite !H. apply C. Qed.

Hypothesis g_files : forall s, s_files (g s) = s_files s.
Hypothesis g_in : forall s v, set_in (g s) v = g (set_in s v).
Hypothesis g_out : forall s v, set_out (g s) v = g (set_out s v).
Hypothesis g_exp : forall s v, set_expected (g s) v = g (set_expected s v).
Hypothesis g_path : forall s v, set_path (g s) (v :: s_path (g s)) = g (set_path s (v :: s_path s)).
Lemma com_parse e fuel : forall argc argv inf outf, commutes (parse_loop e fuel argc argv inf outf).
Proof.
  induction fuel as [|fuel IH]; intros argc argv inf outf; [intros s; reflexivity|].
  eapply com_ext; [intros s; cbn [parse_loop]; reflexivity|]. destruct (Nat.leb argc 1); [intros s; reflexivity|].
  apply com_bind; [apply com_lift|]. intros a.
  destruct (eqs a ($"-O")); [|destruct (eqs a ($"-I")); [|destruct (eqs a ($"-R")); [|destruct (eqs a ($"-P"))]]]; try apply com_ret; destruct (Nat.ltb 2 argc); try apply IH;
    (apply com_bind; [apply com_lift|]; intros v).
  - apply com_bind; [apply com_gets; intros s; rewrite g_files; reflexivity|]. intros ok. apply com_bind; [apply com_lift|]; intros l. apply IH.
  - apply com_bind; [apply com_gets; intros s; rewrite g_files; reflexivity|]. intros [|]; [|apply com_lift]. apply com_bind; [apply com_lift|]; intros l. apply IH.
  - apply com_bind; [apply com_modify; intros s; apply g_exp|]. intros _. apply com_bind; [apply com_lift|]; intros l. apply IH.
  - apply com_bind; [apply com_gets; intros s; rewrite g_files; reflexivity|]. intros [|]; [|apply com_lift]. apply com_bind; [apply com_lift|]; intros l.
    apply com_bind; [apply com_modify; intros s; apply g_path|]. intros _. apply IH.
Qed.
Lemma com_arguments e fuel argv : commutes (ParseAndRemoveArguments e fuel argv).
Proof.
  unfold ParseAndRemoveArguments. apply com_bind; [apply com_parse|]. intros [[[argc l] inf] outf].
  apply com_bind; [apply com_modify; intros s; destruct inf; [apply g_in|reflexivity]|]. intros _.
  apply com_bind; [apply com_modify; intros s; destruct outf; [apply g_out|reflexivity]|]. intros _. apply com_ret.
Qed.
End Commute.

(** * A larger count and earlier output *)
Definition later (n : Z) (p : str) (s : rst) : rst := set_unmatched (set_stdout s (p ++ s_stdout s)) (s_unmatched s + n).
Section Later.
Variables (n : Z) (p : str).
Notation com := (commutes (later n p)).
Lemma later_put text : com (put text).
Proof.
  apply com_modify. intros s. unfold put_text. change (s_os (later n p s)) with (s_os s). destruct (s_os s) as [k|].
  - change (s_files (later n p s)) with (s_files s). destruct (s_files s k) as [[r w b|]|]; reflexivity.
  - unfold later, set_unmatched, set_stdout. cbn. rewrite app_assoc. reflexivity.
Qed.
Lemma later_put_meas m : com (put_meas m).
Proof. unfold put_meas. apply com_bind; [apply com_lift|]. intros t. apply later_put. Qed.
Lemma later_one : com (modify (fun s => set_unmatched s (s_unmatched s + 1))).
Proof. apply com_modify. intros s. unfold later, set_unmatched, set_stdout. cbn [s_files s_stdout s_input s_in s_out s_path s_os s_is s_tol s_unmatched s_expected]. f_equal. lia. Qed.
Lemma later_mode e : com (GetCompareMode e).
Proof. intros s. reflexivity. Qed.
Lemma later_compare e m t : com (CompareMeasurement e m t).
Proof.
  assert (U : com (_ <- UnmatchedMeasurement m ;; mret 1)).
  { apply com_bind; [|intros _; apply com_ret]. unfold UnmatchedMeasurement. apply com_bind; [apply later_one|]. intros _. apply later_put_meas. }
  unfold CompareMeasurement. apply com_bind; [intros s; reflexivity|]. intros [|b bs]; [exact U|].
  apply com_bind; [intros s; reflexivity|]. intros _. destruct (_ && _); [|exact U].
  apply com_bind; [intros s; reflexivity|]. intros b'. apply com_bind; [intros s; reflexivity|]. intros [[b2 m2] v].
  apply com_bind; [apply com_lift|]. intros [|]; [apply com_ret|]. apply com_bind; [|intros _; apply com_ret].
  unfold DifferenceMeasurement. apply com_bind; [apply later_one|]. intros _. apply com_bind; [apply com_lift|]. intros text. apply later_put.
Qed.
Lemma later_measure e c : com (Measure e c).
Proof.
  unfold Measure. apply com_bind; [apply later_mode|]. intros [|]; [apply later_compare|]. apply com_bind; [apply later_put_meas|]. intros _. apply com_ret.
Qed.
Lemma later_run e q : com (run e q).
Proof.
  induction q as [z|x|c k IH|t k IH|z k IH|path b k IH]; cbn [run]; try apply com_ret; try apply com_lift.
  - apply com_bind; [apply later_measure|]. intros r. apply IH.
  - apply com_bind; [intros s; reflexivity|]. intros _. apply IH.
  - apply com_bind; [intros s; reflexivity|]. intros _. apply IH.
  - apply com_bind; [intros s; reflexivity|]. intros _. apply IH.
Qed.
Lemma later_begin e : com (BeginMeasurement e).
Proof.
  unfold BeginMeasurement. apply com_bind; [|intros _; apply com_bind; [|intros _; apply com_bind; [apply later_mode|]]].
  - intros s. unfold open_output. change (s_out (later n p s)) with (s_out s). destruct (s_out s) as [|c o]; [reflexivity|]. destruct (slot e (c :: o)) as [k|]; [|reflexivity].
    change (s_files (later n p s)) with (s_files s). destruct (s_files s k) as [[r [|] b|]|]; try reflexivity. destruct (e_cancreate e _); reflexivity.
  - intros s. unfold open_input, search. change (s_in (later n p s)) with (s_in s). change (s_files (later n p s)) with (s_files s). change (s_path (later n p s)) with (s_path s).
    destruct (s_in s) as [|c i]; [reflexivity|]. destruct (SearchPathList _ _ _) as [q| | | |]; try reflexivity. cbv zeta. destruct (can_open e _ _); reflexivity.
  - intros [|]; [|apply later_put]. intros s. unfold read_input. change (s_is (later n p s)) with (s_is s). change (s_files (later n p s)) with (s_files s).
    destruct (s_is s) as [k|]; [|reflexivity]. destruct (s_files s k) as [[r w b|]|]; try reflexivity. destruct (ReadXMLInput _ _ b); reflexivity.
Qed.
Lemma later_body e test argv : com (main_body e test argv).
Proof.
  unfold main_body. apply com_bind; [apply com_arguments; reflexivity|]. intros [argc l]. apply com_bind; [apply later_begin|]. intros _. apply later_run.
Qed.
Lemma later_end e : com (EndMeasurement e).
Proof.
  unfold EndMeasurement. apply com_bind; [apply later_mode|]. intros cm. apply com_bind; [destruct cm; [intros s; reflexivity|apply later_put]|]. intros _ s. reflexivity.
Qed.
End Later.

(** * Streams and measurements left over by an exception *)
Definition clean (s : rst) : rst := set_input (set_is (set_os s None) None) [].
Definition tidy (s : rst) : Prop := (s_out s = [] -> s_os s = None) /\ (s_in s = [] -> s_is s = None /\ s_input s = []).
Definition not_ok {A} (r : res A) : Prop := match r with Ok _ => False | _ => True end.
Definition alike {A} (X Y : rst * res A) : Prop := X = Y \/ snd X = snd Y /\ not_ok (snd X) /\ clean (fst X) = clean (fst Y).
Lemma tidy_clean s : tidy s -> s_out s = [] -> s_in s = [] -> s = clean s.
Proof. intros [A B] Ho Hi. destruct (B Hi) as [B1 B2]. specialize (A Ho). destruct s. cbn in *. subst. reflexivity. Qed.
Definition begin_rest (e : env) : M unit := _ <- open_input e ;; cm <- GetCompareMode e ;; if (cm : bool) then read_input e else put (header e).
Lemma begin_alike e s : tidy s -> alike (BeginMeasurement e s) (BeginMeasurement e (clean s)).
Proof.
  intros T.
  (* after the output is open *)
  assert (I : forall s, (s_in s = [] -> s_is s = None /\ s_input s = []) -> alike (begin_rest e s) (begin_rest e (set_input (set_is s None) []))).
  { clear s T. intros s B. unfold begin_rest. unfold mbind at 1. unfold mbind at 2. unfold open_input, search.
    change (s_in (set_input (set_is s None) [])) with (s_in s). change (s_files (set_input (set_is s None) [])) with (s_files s). change (s_path (set_input (set_is s None) [])) with (s_path s).
    destruct (s_in s) as [|c i] eqn:Ei.
    - destruct (B eq_refl) as [B1 B2]. left. replace (set_input (set_is s None) []) with s; [reflexivity|]. destruct s. cbn in *. subst. reflexivity.
    - destruct (SearchPathList _ _ _) as [q| | | |]; try (right; split; [reflexivity|]; split; [exact Logic.I|reflexivity]).
      cbv zeta. set (q' := match q with [] => c :: i | _ => q end). destruct (can_open e (s_files s) q') eqn:Rd; [|right; split; [reflexivity|]; split; [exact Logic.I|reflexivity]].
      assert (Sl : exists k, slot e q' = Some k) by (unfold can_open, node_at in Rd; destruct (slot e q') as [k|]; [exists k; reflexivity|discriminate]). destruct Sl as [k Sl]. rewrite Sl.
      cbv iota. unfold mbind, GetCompareMode, compare_mode. cbn [set_input set_is s_is s_in].
      unfold read_input. cbn [set_input set_is s_is s_files]. destruct (s_files s k) as [[r w b|]|]; try (right; split; [reflexivity|]; split; [exact Logic.I|reflexivity]).
      destruct (ReadXMLInput _ _ b); [left; reflexivity|..]; (right; split; [reflexivity|]; split; [exact Logic.I|reflexivity]). }
  change (BeginMeasurement e) with (mbind (open_output e) (fun _ => begin_rest e)). unfold mbind. destruct T as [A B]. unfold open_output.
  change (s_out (clean s)) with (s_out s). change (s_files (clean s)) with (s_files s).
  destruct (s_out s) as [|c o] eqn:Eo.
  - specialize (I s B). replace (clean s) with (set_input (set_is s None) []); [exact I|]. specialize (A eq_refl). destruct s. cbn in *. subst. reflexivity.
  - destruct (slot e (c :: o)) as [k|]; [|right; split; [reflexivity|]; split; [exact Logic.I|reflexivity]].
    destruct (s_files s k) as [[r [|] b|]|]; try (right; split; [reflexivity|]; split; [exact Logic.I|reflexivity]).
    + exact (I (set_os (set_files s (upd (s_files s) k (Some (FFile r true [])))) (Some k)) B).
    + destruct (e_cancreate e (cstr (c :: o))); [|right; split; [reflexivity|]; split; [exact Logic.I|reflexivity]].
      exact (I (set_os (set_files s (upd (s_files s) k (Some (FFile true true [])))) (Some k)) B).
Qed.

(** what parsing the arguments keeps *)
Lemma set_at_Forall {A} (P : A -> Prop) x : P x -> forall l i l', Forall P l -> set_at i x l = Some l' -> Forall P l'.
Proof.
  intros Px l. induction l as [|y l IH]; intros i l' F; destruct i; cbn [set_at]; try discriminate.
  - intros E. injection E as <-. inversion F; subst. constructor; assumption.
  - destruct (set_at i x l) as [l1|] eqn:E; [|discriminate]. cbn [option_map]. intros E'. injection E' as <-. inversion F; subst. constructor; [assumption|]. eapply IH; eassumption.
Qed.
Lemma rd_Forall {A} (P : A -> Prop) l i x : Forall P l -> rd i l = Ok x -> P x.
Proof. intros F. unfold rd. destruct (nth_error l i) eqn:E; [|discriminate]. intros H. injection H as ->. rewrite Forall_forall in F. apply F. eapply nth_error_In, E. Qed.
Lemma wr_Forall {A} (P : A -> Prop) l i x l' : P x -> Forall P l -> wr i x l = Ok l' -> Forall P l'.
Proof. intros Px F. unfold wr. destruct (set_at i x l) eqn:E; [|discriminate]. intros H. injection H as <-. eapply set_at_Forall; eassumption. Qed.
Lemma swap_loop_Forall (P : str -> Prop) n : forall j l l', Forall P l -> swap_loop n j l = Ok l' -> Forall P l'.
Proof.
  induction n as [|n IH]; intros j l l' F; cbn [swap_loop].
  - intros H. injection H as <-. exact F.
  - unfold swap. destruct (rd (j + 2) l) as [x| | | |] eqn:E1; cbn [bind]; try discriminate. destruct (rd j l) as [y| | | |] eqn:E2; cbn [bind]; try discriminate.
    destruct (wr (j + 2) y l) as [l1| | | |] eqn:E3; cbn [bind]; try discriminate. destruct (wr j x l1) as [l2| | | |] eqn:E4; cbn [bind]; try discriminate.
    apply IH. eapply wr_Forall; [eapply rd_Forall; [exact F|exact E1]| |exact E4]. eapply wr_Forall; [eapply rd_Forall; [exact F|exact E2]|exact F|exact E3].
Qed.
Definition given (v : option str) : Prop := match v with Some [] => False | _ => True end.
(** the fields parsing does not touch *)
Definition apart (s s' : rst) : Prop := s_in s' = s_in s /\ s_out s' = s_out s /\ s_os s' = s_os s /\ s_is s' = s_is s /\ s_input s' = s_input s.
Lemma apart_refl s : apart s s. Proof. repeat split. Qed.
Lemma apart_trans a b c : apart a b -> apart b c -> apart a c.
Proof. intros (A1 & A2 & A3 & A4 & A5) (B1 & B2 & B3 & B4 & B5). repeat split; congruence. Qed.
Definition parsed (s : rst) (X : rst * res (nat * list str * option str * option str)) : Prop :=
  apart s (fst X) /\ match snd X with Ok (_, _, inf, outf) => given inf /\ given outf | _ => True end.
Lemma parsed_lift {A} (r : res A) k s : (forall a, r = Ok a -> parsed s (k a s)) -> parsed s (mbind (mlift r) k s).
Proof. intros H. unfold mbind, mlift. destruct r as [a| | | |]; try (split; [apply apart_refl|exact Logic.I]). apply H. reflexivity. Qed.
Lemma parse_parsed e fuel : forall argc argv inf outf s, Forall (fun a => a <> []) argv -> given inf -> given outf -> parsed s (parse_loop e fuel argc argv inf outf s).
Proof.
  induction fuel as [|fuel IH]; intros argc argv inf outf s F Gi Go; [split; [apply apart_refl|exact Logic.I]|].
  cbn [parse_loop]. destruct (Nat.leb argc 1); [split; [apply apart_refl|split; assumption]|].
  apply parsed_lift. intros a _.
  assert (L : forall l, swap_loop (argc - 3) 1 argv = Ok l -> Forall (fun a => a <> []) l) by (intros l; apply swap_loop_Forall, F).
  destruct (eqs a ($"-O")); [|destruct (eqs a ($"-I")); [|destruct (eqs a ($"-R")); [|destruct (eqs a ($"-P"))]]];
    try (split; [apply apart_refl|split; assumption]); (destruct (Nat.ltb 2 argc); [|apply IH; assumption]); apply parsed_lift; intros v Ev; pose proof (rd_Forall _ _ _ _ F Ev) as Nv; cbv beta in Nv.
  - unfold mbind at 1, gets at 1. cbv beta iota. apply parsed_lift. intros l El. apply IH; [exact (L l El)|exact Gi|]. destruct (negb _); [|exact Logic.I]. destruct v; [contradiction|exact Logic.I].
  - unfold mbind at 1, gets at 1. cbv beta iota. destruct (_ && _); [|split; [apply apart_refl|exact Logic.I]]. apply parsed_lift. intros l El. apply IH; [exact (L l El)| |exact Go].
    destruct v; [contradiction|exact Logic.I].
  - unfold mbind at 1, modify at 1. cbv beta iota. set (s1 := set_expected s _). assert (P : parsed s1 ((argv' <- mlift (swap_loop (argc - 3) 1 argv);; parse_loop e fuel (argc - 2) argv' inf outf) s1)).
    { apply parsed_lift. intros l El. apply IH; [exact (L l El)|exact Gi|exact Go]. }
    destruct P as [P Q]. split; [|exact Q]. eapply apart_trans; [|exact P]. repeat split.
  - unfold mbind at 1, gets at 1. cbv beta iota. destruct (_ && _); [|split; [apply apart_refl|exact Logic.I]]. apply parsed_lift. intros l El.
    unfold mbind at 1, modify at 1. cbv beta iota. destruct (IH (argc - 2)%nat l inf outf (set_path s (v :: s_path s)) (L l El) Gi Go) as [P Q]. split; [|exact Q]. eapply apart_trans; [|exact P]. repeat split.
Qed.
Lemma tidy_apart s s' : apart s s' -> tidy s -> tidy s'.
Proof. intros (A1 & A2 & A3 & A4 & A5) [B C]. split; [rewrite A2, A3; exact B|rewrite A1, A4, A5; exact C]. Qed.
Lemma arguments_tidy e fuel argv s : ~ In [] argv -> tidy s -> tidy (fst (ParseAndRemoveArguments e fuel argv s)).
Proof.
  intros N T. assert (F : Forall (fun a => a <> []) argv) by (apply Forall_forall; intros a Ha ->; exact (N Ha)).
  destruct (parse_parsed e fuel (length argv) argv None None s F Logic.I Logic.I) as [P Q]. unfold ParseAndRemoveArguments. unfold mbind at 1.
  destruct (parse_loop e fuel (length argv) argv None None s) as [s1 [[[[argc l] inf] outf]| | | |]]; cbn [fst snd] in *; try (eapply tidy_apart; eassumption).
  destruct Q as [Qi Qo]. pose proof (tidy_apart _ _ P T) as [A B]. unfold mbind, modify, mret. cbn [fst].
  assert (C : s_in s1 = [] -> s_is s1 = None /\ s_input s1 = []) by exact B.
  destruct inf as [[|ci i]|]; [contradiction| |]; (destruct outf as [[|co o]|]; [contradiction| |]); split; cbn [s_out s_os s_in s_is s_input set_in set_out]; try discriminate; assumption.
Qed.

(** measuring keeps the names and streams, and consumes the baseline *)
Definition io_kept (s s' : rst) : Prop := s_in s' = s_in s /\ s_out s' = s_out s /\ s_os s' = s_os s /\ s_is s' = s_is s /\ (s_input s = [] -> s_input s' = []).
Lemma io_refl s : io_kept s s. Proof. repeat split; auto. Qed.
Lemma io_trans a b c : io_kept a b -> io_kept b c -> io_kept a c.
Proof. intros (A1 & A2 & A3 & A4 & A5) (B1 & B2 & B3 & B4 & B5). repeat split; try congruence. auto. Qed.
Definition iok {A} (m : M A) : Prop := forall s, io_kept s (fst (m s)).
Lemma iok_bind {A B} (m : M A) (k : A -> M B) : iok m -> (forall a, iok (k a)) -> iok (mbind m k).
Proof. intros Hm Hk s. unfold mbind. specialize (Hm s). destruct (m s) as [s1 [a| | | |]]; cbn [fst] in *; try exact Hm. eapply io_trans; [exact Hm|apply Hk]. Qed.
Lemma iok_here {A} (m : M A) : (forall s, fst (m s) = s) -> iok m.
Proof. intros H s. rewrite H. apply io_refl. Qed.
Lemma iok_put text : iok (put text).
Proof. intros s. unfold put, modify, put_text. cbn [fst]. destruct (s_os s) as [k|] eqn:E; [|repeat split; auto]. destruct (s_files s k) as [[r w b|]|]; repeat split; auto. Qed.
Lemma iok_put_meas m : iok (put_meas m).
Proof. apply iok_bind; [apply iok_here; reflexivity|]. intros t. apply iok_put. Qed.
Lemma iok_one : iok (modify (fun s => set_unmatched s (s_unmatched s + 1))).
Proof. intros s. repeat split; auto. Qed.
Lemma iok_compare e m t : iok (CompareMeasurement e m t).
Proof.
  assert (U : iok (_ <- UnmatchedMeasurement m ;; mret 1)).
  { apply iok_bind; [|intros _; apply iok_here; reflexivity]. apply iok_bind; [apply iok_one|]. intros _. apply iok_put_meas. }
  intros s. unfold CompareMeasurement. unfold mbind at 1, gets at 1. cbv iota. destruct (s_input s) as [|b bs] eqn:E; [apply U|].
  assert (K : forall m' : M Z, iok m' -> io_kept s (fst ((_ <- modify (fun s => set_input s bs) ;; m') s))).
  { intros m' Hm. unfold mbind, modify. cbv iota. eapply io_trans; [|apply Hm]. repeat split. rewrite E. discriminate. }
  apply K. destruct (_ && _); [|exact U].
  apply iok_bind; [apply iok_here; reflexivity|]. intros b'. apply iok_bind; [apply iok_here; reflexivity|]. intros [[b2 m2] v].
  apply iok_bind; [apply iok_here; reflexivity|]. intros [|]; [apply iok_here; reflexivity|]. apply iok_bind; [|intros _; apply iok_here; reflexivity].
  apply iok_bind; [apply iok_one|]. intros _. apply iok_bind; [apply iok_here; reflexivity|]. intros text. apply iok_put.
Qed.
Lemma iok_run e q : iok (run e q).
Proof.
  induction q as [z|x|c k IH|t k IH|z k IH|path b k IH]; cbn [run]; try (apply iok_here; reflexivity).
  - apply iok_bind; [|exact IH]. unfold Measure. apply iok_bind; [apply iok_here; reflexivity|]. intros [|]; [apply iok_compare|].
    apply iok_bind; [apply iok_put_meas|]. intros _. apply iok_here; reflexivity.
  - apply iok_bind; [intros s; repeat split; auto|]. intros _. exact IH.
  - apply iok_bind; [intros s; repeat split; auto|]. intros _. exact IH.
  - apply iok_bind; [intros s; repeat split; auto|]. intros _. exact IH.
Qed.
Lemma tidy_io s s' : io_kept s s' -> tidy s -> tidy s'.
Proof. intros (A1 & A2 & A3 & A4 & A5) [B C]. split; [rewrite A2, A3; exact B|rewrite A1, A4]. intros H. destruct (C H). auto. Qed.
Lemma begin_tidy e s : tidy s -> tidy (fst (BeginMeasurement e s)).
Proof.
  intros T. unfold BeginMeasurement.
  assert (O : tidy (fst (open_output e s))).
  { unfold open_output. destruct T as [A B]. destruct (s_out s) as [|c o] eqn:E; [split; [intros _; apply A; reflexivity|exact B]|]. destruct (slot e (c :: o)); [|split; [cbn; rewrite E; discriminate|exact B]].
    destruct (s_files s _) as [[r [|] b|]|]; [| | |destruct (e_cancreate e _)]; (split; [cbn; try rewrite E; discriminate|exact B]). }
  unfold mbind at 1. destruct (open_output e s) as [s1 r1]. cbn [fst] in O. destruct r1 as [[]| | | |]; try exact O.
  assert (I : tidy (fst (open_input e s1))).
  { unfold open_input. destruct O as [A B]. destruct (s_in s1) as [|c i] eqn:E; [split; [exact A|intros _; apply B; reflexivity]|].
    destruct (search e s1 (c :: i)); try (split; [exact A|cbn [fst]; rewrite E; discriminate]). cbv zeta. destruct (can_open e _ _); (split; [exact A|cbn; rewrite E; discriminate]). }
  unfold mbind at 1. destruct (open_input e s1) as [s2 r2]. cbn [fst] in I. destruct r2 as [[]| | | |]; try exact I.
  unfold mbind at 1, GetCompareMode. destruct (compare_mode e s2) as [[|]| | | |]; try exact I.
  - unfold read_input. destruct (s_is s2) as [k|] eqn:E; [|exact I]. destruct (s_files s2 k) as [[r w b|]|]; try exact I. destruct (ReadXMLInput _ _ b); try exact I.
    destruct I as [A B]. split; [exact A|]. cbn. intros H. destruct (B H) as [X _]. congruence.
  - eapply tidy_io; [apply iok_put|exact I].
Qed.
Lemma body_tidy e test argv s : ~ In [] argv -> tidy s -> tidy (fst (main_body e test argv s)).
Proof.
  intros N T. unfold main_body. unfold mbind at 1. pose proof (arguments_tidy e (S (length argv)) argv s N T) as T1.
  destruct (ParseAndRemoveArguments e (S (length argv)) argv s) as [s1 [[argc l]| | | |]]; cbn [fst] in T1; try exact T1.
  unfold mbind at 1. pose proof (begin_tidy e s1 T1) as T2. destruct (BeginMeasurement e s1) as [s2 [[]| | | |]]; cbn [fst] in T2; try exact T2.
  eapply tidy_io; [apply iok_run|exact T2].
Qed.
Lemma body_alike e test argv s : ~ In [] argv -> tidy s -> alike (main_body e test argv s) (main_body e test argv (clean s)).
Proof.
  intros N T. unfold main_body. unfold mbind at 1. unfold mbind at 2.
  rewrite (com_arguments clean ltac:(reflexivity) ltac:(reflexivity) ltac:(reflexivity) ltac:(reflexivity) ltac:(reflexivity) e (S (length argv)) argv s).
  pose proof (arguments_tidy e (S (length argv)) argv s N T) as T1.
  destruct (ParseAndRemoveArguments e (S (length argv)) argv s) as [s1 [[argc l]| | | |]]; cbn [fst snd] in *; try (right; split; [reflexivity|]; split; [exact Logic.I|reflexivity]).
  unfold mbind at 1. unfold mbind at 1. destruct (begin_alike e s1 T1) as [E|(E1 & E2 & E3)].
  - rewrite E. left. reflexivity.
  - destruct (BeginMeasurement e s1) as [s2 r2]. destruct (BeginMeasurement e (clean s1)) as [s3 r3]. cbn [fst snd] in *. subst r3.
    destruct r2 as [[]| | | |]; [contradiction|..]; (right; split; [reflexivity|]; split; [exact Logic.I|exact E3]).
Qed.

(** * The whole call *)
Definition bump (k : Z) (s : rst) : rst := set_unmatched s (s_unmatched s + k).
Lemma Main_cases e test argv s : Main e test argv s =
  match main_body e test argv (bump 1 s) with
  | (s1, Ok ret) => match EndMeasurement e s1 with
                    | (s2, Ok _) => (bump (-1) s2, returned e (bump (-1) s2) ret)
                    | (s2, Throw _) => (s2, returned e s2 ret)
                    | (s2, UB) => (s2, UB) | (s2, Abort) => (s2, Abort) | (s2, Hang) => (s2, Hang)
                    end
  | (s1, Throw _) => (s1, returned e s1 (-1))
  | (s1, UB) => (s1, UB) | (s1, Abort) => (s1, Abort) | (s1, Hang) => (s1, Hang)
  end.
Proof.
  assert (F : forall ret s, (if negb (ret =? s_expected s) then (s, Ok ret) else (s, cm <-- compare_mode e s ;; Ok (if (cm : bool) then s_unmatched s else 0))) = (s, returned e s ret)).
  { intros ret s0. unfold returned. destruct (ret =? s_expected s0); reflexivity. }
  unfold Main. cbv zeta. change (set_unmatched s (s_unmatched s + 1)) with (bump 1 s). destruct (main_body e test argv (bump 1 s)) as [s1 [ret| | | |]]; try reflexivity; [|apply F].
  destruct (EndMeasurement e s1) as [s2 [[]| | | |]]; try reflexivity; apply F.
Qed.
Lemma end_tidy e s : tidy s -> tidy (fst (EndMeasurement e s)).
Proof.
  intros T. unfold EndMeasurement. unfold mbind at 1, GetCompareMode. destruct (compare_mode e s) as [cm| | | |]; try exact T. unfold mbind, modify at 2. cbv beta.
  destruct cm; cbn [modify].
  - split; [reflexivity|]. intros _. split; reflexivity.
  - pose proof (tidy_io _ _ (iok_put footer s) T) as [A B]. unfold put, modify in *. cbv iota. cbn [fst] in *. split; [reflexivity|]. intros H. split; [reflexivity|]. apply B. exact H.
Qed.
Lemma main_tidy e test argv s : ~ In [] argv -> tidy s -> tidy (fst (Main e test argv s)).
Proof.
  intros N T. rewrite Main_cases. pose proof (body_tidy e test argv (bump 1 s) N T) as B. destruct (main_body e test argv (bump 1 s)) as [s1 [ret| | | |]]; try exact B.
  cbn [fst] in B. pose proof (end_tidy e s1 B) as E. destruct (EndMeasurement e s1) as [s2 [[]| | | |]]; exact E.
Qed.
(** what the user sees of an object *)
Definition settings (s : rst) := (s_in s, s_out s, s_path s, s_tol s, s_expected s).
(** the relation between two runs *)
Definition follows (e : env) (n : Z) (p : str) (alone next : rst * res Z) : Prop :=
  s_files (fst next) = s_files (fst alone) /\ s_stdout (fst next) = p ++ s_stdout (fst alone) /\ settings (fst next) = settings (fst alone) /\
  s_unmatched (fst next) = s_unmatched (fst alone) + n.
Lemma follows_later e n p s r r' : follows e n p (s, r) (later n p s, r').
Proof. repeat split. Qed.
Lemma follows_clean e n p s s' r r' : clean s' = clean (later n p s) -> follows e n p (s, r) (s', r').
Proof. intros E. destruct s, s'. unfold clean, later in E. cbn in E. injection E as -> -> -> -> -> -> -> ->. repeat split. Qed.
Lemma follows_main e test argv s : ~ In [] argv -> tidy s ->
  let n := s_unmatched s in let p := s_stdout s in
  let alone := Main e test argv (with_settings_of s) in let next := Main e test argv s in
  follows e n p alone next /\
  (snd next = snd alone /\ not_ok (snd alone) \/
   exists ret, snd alone = returned e (fst alone) ret /\
     (snd next = returned e (later n p (fst alone)) ret \/ ret = -1 /\ snd next = returned e (fst next) ret)).
Proof.
  intros N T n p alone next.
  assert (E0 : clean (bump 1 s) = later n p (bump 1 (with_settings_of s))).
  { unfold clean, later, bump, with_settings_of, n, p, set_input, set_is, set_os, set_unmatched, set_stdout. cbn [s_files s_stdout s_input s_in s_out s_path s_os s_is s_tol s_unmatched s_expected]. rewrite app_nil_r. f_equal. lia. }
  pose proof (body_alike e test argv (bump 1 s) N T) as A. rewrite E0, (later_body n p e test argv) in A.
  unfold alone, next. rewrite !Main_cases. clear alone next.
  destruct (main_body e test argv (bump 1 (with_settings_of s))) as [s1 r1]. cbn [fst snd] in A.
  destruct A as [A|(A1 & A2 & A3)].
  - rewrite A. destruct r1 as [ret| | | |].
    + rewrite (later_end n p e s1). destruct (EndMeasurement e s1) as [s2 [[]| | | |]]; cbn [fst snd].
      * assert (B : bump (-1) (later n p s2) = later n p (bump (-1) s2)) by (unfold bump, later, set_unmatched, set_stdout; cbn [s_files s_stdout s_input s_in s_out s_path s_os s_is s_tol s_unmatched s_expected]; f_equal; lia).
        rewrite B. split; [apply follows_later|]. right. exists ret. split; [reflexivity|]. left. reflexivity.
      * split; [apply follows_later|]. right. exists ret. split; [reflexivity|]. left. reflexivity.
      * split; [apply follows_later|]. left. split; [reflexivity|exact Logic.I].
      * split; [apply follows_later|]. left. split; [reflexivity|exact Logic.I].
      * split; [apply follows_later|]. left. split; [reflexivity|exact Logic.I].
    + split; [apply follows_later|]. right. exists (-1). split; [reflexivity|]. left. reflexivity.
    + split; [apply follows_later|]. left. split; [reflexivity|exact Logic.I].
    + split; [apply follows_later|]. left. split; [reflexivity|exact Logic.I].
    + split; [apply follows_later|]. left. split; [reflexivity|exact Logic.I].
  - destruct (main_body e test argv (bump 1 s)) as [s2 r2]. cbn [fst snd] in *. subst r2. destruct r1 as [ret| | | |]; [contradiction|..].
    + split; [apply follows_clean; exact A3|]. right. exists (-1). split; [reflexivity|]. right. split; reflexivity.
    + split; [apply follows_clean; exact A3|]. left. split; [reflexivity|exact Logic.I].
    + split; [apply follows_clean; exact A3|]. left. split; [reflexivity|exact Logic.I].
    + split; [apply follows_clean; exact A3|]. left. split; [reflexivity|exact Logic.I].
Qed.
Lemma used_facts s counts : used s counts -> tidy s /\ s_unmatched s = sum counts.
Proof.
  induction 1 as [f inf outf dirs t x|e test argv s counts s' z f U [T S] N E].
  - split; [split; cbn; auto|reflexivity].
  - destruct (follows_main e test argv s N T) as [(_ & _ & _ & C) _]. pose proof (main_tidy e test argv s N T) as T'. rewrite E in C, T'. cbn [fst] in *. split; [exact T'|].
    cbn [sum fold_right]. cbn [set_files s_unmatched]. rewrite C, S. reflexivity.
Qed.

(** A further call of [Main] does with the files, the output and the settings what it would do on a new object with the present settings; the failures counted are those of this
    call and of all earlier ones together, and unless -1 is expected the value returned is what this call alone would return with that count. *)
Theorem C68_next_run : forall s counts e test argv, used s counts -> ~ In [] argv ->
  let alone := Main e test argv (with_settings_of s) in let next := Main e test argv s in
  s_files (fst next) = s_files (fst alone) /\ s_stdout (fst next) = s_stdout s ++ s_stdout (fst alone) /\ settings (fst next) = settings (fst alone) /\
  s_unmatched (fst next) = s_unmatched (fst alone) + sum counts /\
  (s_expected (fst alone) <> -1 ->
   snd next = snd alone /\ not_ok (snd alone) \/
   exists ret, snd alone = (if ret =? s_expected (fst alone) then cm <-- compare_mode e (fst alone) ;; Ok (if (cm : bool) then s_unmatched (fst alone) else 0) else Ok ret) /\
               snd next = (if ret =? s_expected (fst alone) then cm <-- compare_mode e (fst alone) ;; Ok (if (cm : bool) then s_unmatched (fst alone) + sum counts else 0) else Ok ret)).
Proof.
  intros s counts e test argv U N alone next. destruct (used_facts s counts U) as [T S]. destruct (follows_main e test argv s N T) as [(A & B & C & D) R]. fold alone next in A, B, C, D, R. rewrite S in *.
  split; [exact A|]. split; [exact B|]. split; [exact C|]. split; [exact D|]. intros H. destruct R as [R|(ret & R1 & R2)]; [left; exact R|]. right. exists ret. split; [exact R1|].
  destruct R2 as [R2|[-> R2]]; rewrite R2; [reflexivity|].
  unfold returned. assert (X : s_expected (fst next) = s_expected (fst alone)) by (injection C; auto). rewrite X.
  destruct (Z.eqb_spec (-1) (s_expected (fst alone))); [congruence|reflexivity].
Qed.
Print Assumptions C68_next_run.

(** the number of failures never decreases *)
Definition mono {A} (m : M A) : Prop := forall s, s_unmatched s <= s_unmatched (fst (m s)).
Lemma mono_bind {A B} (m : M A) (k : A -> M B) : mono m -> (forall a, mono (k a)) -> mono (mbind m k).
Proof. intros Hm Hk s. unfold mbind. specialize (Hm s). destruct (m s) as [s1 [a| | | |]]; cbn [fst] in *; try exact Hm. specialize (Hk a s1). lia. Qed.
Lemma mono_same {A} (m : M A) : (forall s, s_unmatched (fst (m s)) = s_unmatched s) -> mono m.
Proof. intros H s. rewrite H. lia. Qed.
Lemma mono_put text : mono (put text).
Proof. apply mono_same. intros s. unfold put, modify, put_text. cbn [fst]. destruct (s_os s) as [k|]; [|reflexivity]. destruct (s_files s k) as [[r w b|]|]; reflexivity. Qed.
Lemma mono_one : mono (modify (fun s => set_unmatched s (s_unmatched s + 1))).
Proof. intros s. cbn. lia. Qed.
Lemma mono_put_meas m : mono (put_meas m).
Proof. apply mono_bind; [apply mono_same; reflexivity|]. intros t. apply mono_put. Qed.
Lemma mono_compare e m t : mono (CompareMeasurement e m t).
Proof.
  assert (U : mono (_ <- UnmatchedMeasurement m ;; mret 1)).
  { apply mono_bind; [|intros _; apply mono_same; reflexivity]. apply mono_bind; [apply mono_one|]. intros _. apply mono_put_meas. }
  unfold CompareMeasurement. apply mono_bind; [apply mono_same; reflexivity|]. intros [|b bs]; [exact U|]. apply mono_bind; [apply mono_same; reflexivity|]. intros _.
  destruct (_ && _); [|exact U]. apply mono_bind; [apply mono_same; reflexivity|]. intros b'. apply mono_bind; [apply mono_same; reflexivity|]. intros [[b2 m2] v].
  apply mono_bind; [apply mono_same; reflexivity|]. intros [|]; [apply mono_same; reflexivity|]. apply mono_bind; [|intros _; apply mono_same; reflexivity].
  apply mono_bind; [apply mono_one|]. intros _. apply mono_bind; [apply mono_same; reflexivity|]. intros text. apply mono_put.
Qed.
Lemma mono_run e q : mono (run e q).
Proof.
  induction q as [z|x|c k IH|t k IH|z k IH|path b k IH]; cbn [run]; try (apply mono_same; reflexivity).
  - apply mono_bind; [|exact IH]. unfold Measure. apply mono_bind; [apply mono_same; reflexivity|]. intros [|]; [apply mono_compare|].
    apply mono_bind; [apply mono_put_meas|]. intros _. apply mono_same; reflexivity.
  - apply mono_bind; [apply mono_same; reflexivity|]. intros _. exact IH.
  - apply mono_bind; [apply mono_same; reflexivity|]. intros _. exact IH.
  - apply mono_bind; [apply mono_same; reflexivity|]. intros _. exact IH.
Qed.
Lemma mono_parse e fuel : forall argc argv inf outf, mono (parse_loop e fuel argc argv inf outf).
Proof.
  induction fuel as [|fuel IH]; intros argc argv inf outf s; [cbn; lia|]. cbn [parse_loop]. destruct (Nat.leb argc 1); [cbn; lia|]. revert s.
  match goal with |- forall s, s_unmatched s <= s_unmatched (fst (?m s)) => change (mono m) end.
  apply mono_bind; [apply mono_same; reflexivity|]. intros a.
  destruct (eqs a ($"-O")); [|destruct (eqs a ($"-I")); [|destruct (eqs a ($"-R")); [|destruct (eqs a ($"-P"))]]]; try (apply mono_same; reflexivity); destruct (Nat.ltb 2 argc); try apply IH;
    (apply mono_bind; [apply mono_same; reflexivity|]; intros v).
  - apply mono_bind; [apply mono_same; reflexivity|]. intros ok. apply mono_bind; [apply mono_same; reflexivity|]; intros l. apply IH.
  - apply mono_bind; [apply mono_same; reflexivity|]. intros [|]; [|apply mono_same; reflexivity]. apply mono_bind; [apply mono_same; reflexivity|]; intros l. apply IH.
  - apply mono_bind; [apply mono_same; reflexivity|]. intros _. apply mono_bind; [apply mono_same; reflexivity|]; intros l. apply IH.
  - apply mono_bind; [apply mono_same; reflexivity|]. intros [|]; [|apply mono_same; reflexivity]. apply mono_bind; [apply mono_same; reflexivity|]; intros l.
    apply mono_bind; [apply mono_same; reflexivity|]. intros _. apply IH.
Qed.
Lemma mono_body e test argv : mono (main_body e test argv).
Proof.
  unfold main_body. apply mono_bind; [|intros [argc l]; apply mono_bind; [|intros _; apply mono_run]].
  - unfold ParseAndRemoveArguments. apply mono_bind; [apply mono_parse|]. intros [[[argc l] inf] outf].
    apply mono_bind; [apply mono_same; intros s; destruct inf; reflexivity|]. intros _. apply mono_bind; [apply mono_same; intros s; destruct outf; reflexivity|]. intros _. apply mono_same; reflexivity.
  - unfold BeginMeasurement. apply mono_bind; [|intros _; apply mono_bind; [|intros _; apply mono_bind; [apply mono_same; reflexivity|]]].
    + apply mono_same. intros s. unfold open_output. destruct (s_out s) as [|c o]; [reflexivity|]. destruct (slot e (c :: o)) as [k|]; [|reflexivity].
      destruct (s_files s k) as [[r [|] b|]|]; try reflexivity. destruct (e_cancreate e _); reflexivity.
    + apply mono_same. intros s. unfold open_input. destruct (s_in s) as [|c i]; [reflexivity|]. destruct (search e s (c :: i)) as [q| | | |]; try reflexivity. cbv zeta. destruct (can_open e _ _); reflexivity.
    + intros [|]; [|apply mono_put]. apply mono_same. intros s. unfold read_input. destruct (s_is s) as [k|]; [|reflexivity]. destruct (s_files s k) as [[r w b|]|]; try reflexivity.
      destruct (ReadXMLInput _ _ b); reflexivity.
Qed.
Lemma mono_end e : mono (EndMeasurement e).
Proof.
  unfold EndMeasurement. apply mono_bind; [apply mono_same; reflexivity|]. intros cm. apply mono_bind; [destruct cm; [apply mono_same; reflexivity|apply mono_put]|]. intros _. apply mono_same; reflexivity.
Qed.
Lemma main_count e test argv s : s_unmatched s <= s_unmatched (fst (Main e test argv s)).
Proof.
  rewrite Main_cases. pose proof (mono_body e test argv (bump 1 s)) as B. cbn [bump set_unmatched s_unmatched] in B.
  destruct (main_body e test argv (bump 1 s)) as [s1 [ret| | | |]]; cbn [fst] in *; try lia.
  pose proof (mono_end e s1) as E. destruct (EndMeasurement e s1) as [s2 [[]| | | |]]; cbn [fst bump set_unmatched s_unmatched] in *; lia.
Qed.
Lemma counts_nonneg s counts : used s counts -> Forall (fun c => 0 <= c) counts.
Proof.
  induction 1 as [|e test argv s counts s' z f U IH N E]; constructor; [|exact IH]. pose proof (main_count e test argv (with_settings_of s)) as C. exact C.
Qed.

Lemma sum_zero l : Forall (fun c => 0 <= c) l -> (sum l = 0 <-> Forall (fun c => c = 0) l).
Proof.
  intros P. assert (S : forall l, Forall (fun c => 0 <= c) l -> 0 <= sum l) by (intros l0; induction 1 as [|c l1 H _ IH]; cbn [sum fold_right]; [lia|unfold sum in IH; lia]).
  induction P as [|c l Hc P IH]; [split; [constructor|reflexivity]|]. specialize (S l P). change (sum (c :: l)) with (c + sum l). split.
  - intros H. constructor; [lia|]. apply IH. lia.
  - intros H. inversion H as [|? ? H1 H2]; subst. apply IH in H2. lia.
Qed.

(** A run that would pass alone against its baseline returns the number of failures of the earlier calls, so it passes iff none of them failed. *)
Theorem C68_passing_run : forall s counts e test argv, used s counts -> ~ In [] argv ->
  let alone := Main e test argv (with_settings_of s) in
  snd alone = Ok 0 -> s_expected (fst alone) = 0 -> compare_mode e (fst alone) = Ok true ->
  snd (Main e test argv s) = Ok (sum counts) /\ (sum counts = 0 <-> Forall (fun c => c = 0) counts).
Proof.
  intros s counts e test argv U N alone A X C. destruct (C68_next_run s counts e test argv U N) as (_ & _ & _ & _ & R). fold alone in R. rewrite X, C in R.
  specialize (R ltac:(lia)). destruct R as [[_ R]|(ret & R1 & R2)]; [rewrite A in R; contradiction|]. rewrite A in R1. split; [|apply sum_zero, (counts_nonneg s counts U)].
  - rewrite R2. destruct (Z.eqb_spec ret 0) as [Hr|Hr]; cbn [bind] in *; [injection R1 as R1; rewrite <- R1; reflexivity|congruence].
Qed.
Print Assumptions C68_passing_run.

(** * Cases *)
Definition measures (text : str) (args : list str) : prog := Call (TextString text ($"name")) (fun _ => Return 0).
Definition raises (args : list str) : prog := Raise ExnRuntime.
Definition recorded_a : store := s_files (fst (Main ex_env (measures ($"a")) [$"prog"; $"-O"; $"b.xml"] (new_test (fun _ => None)))).
Definition compare_args : list str := [$"prog"; $"-I"; $"b.xml"].
(** "the value returned tells whether this run agrees with its baseline": not after a failed run of the same object *)
Theorem C68_only_this_run_counts_refuted : exists e f test test' argv s1 z, Main e test argv (new_test f) = (s1, Ok z) /\ z = 1 /\
  snd (Main e test' argv (with_settings_of s1)) = Ok 0 /\ snd (Main e test' argv s1) = Ok 1.
Proof.
  exists ex_env, recorded_a, (measures ($"b")), (measures ($"a")), compare_args, (fst (Main ex_env (measures ($"b")) compare_args (new_test recorded_a))), 1.
  split; [|split; [reflexivity|split; vm_compute; reflexivity]].
  assert (H : snd (Main ex_env (measures ($"b")) compare_args (new_test recorded_a)) = Ok 1) by (vm_compute; reflexivity).
  destruct (Main ex_env (measures ($"b")) compare_args (new_test recorded_a)) as [s1 r]. cbn [fst snd] in *. rewrite H. reflexivity.
Qed.
Print Assumptions C68_only_this_run_counts_refuted.
(** "each run records what was asked for": the name of the output file is kept, a second run without [-O] replaces the document of the first one *)
Theorem C68_first_output_kept_refuted : exists e test test' s1 s2, Main e test [$"prog"; $"-O"; $"b.xml"] (new_test (fun _ => None)) = (s1, Ok 0) /\
  Main e test' [$"prog"] s1 = (s2, Ok 0) /\ s_files s2 ($"b.xml") <> s_files s1 ($"b.xml") /\
  s_files s2 ($"b.xml") = s_files (fst (Main e test' [$"prog"; $"-O"; $"b.xml"] (new_test (fun _ => None)))) ($"b.xml") /\ s_stdout s2 = [].
Proof.
  exists ex_env, (measures ($"a")), (measures ($"b")). eexists. eexists. split; [vm_compute; reflexivity|]. split; [vm_compute; reflexivity|]. split; [vm_compute; discriminate|]. split; vm_compute; reflexivity.
Qed.
Print Assumptions C68_first_output_kept_refuted.
(** an object used for a run that throws and for a run that fails: the third run would pass alone, and returns 2 *)
Lemma pair_fst {A B} (x : A * B) z : snd x = z -> x = (fst x, z).
Proof. destruct x. cbn. intros ->. reflexivity. Qed.
Example C68_case : exists s, used s [1; 1] /\ ~ In [] compare_args /\ snd (Main ex_env (measures ($"a")) compare_args (with_settings_of s)) = Ok 0 /\
  s_expected (fst (Main ex_env (measures ($"a")) compare_args (with_settings_of s))) = 0 /\
  compare_mode ex_env (fst (Main ex_env (measures ($"a")) compare_args (with_settings_of s))) = Ok true /\ snd (Main ex_env (measures ($"a")) compare_args s) = Ok 2.
Proof.
  assert (N : ~ In [] compare_args) by (intros [H|[H|[H|[]]]]; discriminate).
  pose (s0 := new_test recorded_a).
  pose (s1 := fst (Main ex_env raises compare_args s0)). pose (s2 := set_files s1 (s_files s1)).
  pose (s3 := fst (Main ex_env (measures ($"b")) compare_args s2)). pose (s4 := set_files s3 (s_files s3)).
  exists s4. split; [|split; [exact N|split; [vm_compute; reflexivity|split; [vm_compute; reflexivity|split; vm_compute; reflexivity]]]].
  assert (U0 : used s0 []) by apply used_new.
  assert (U1 : used s2 [1]).
  { assert (C : 1 = s_unmatched (fst (Main ex_env raises compare_args (with_settings_of s0)))) by (vm_compute; reflexivity). rewrite C.
    apply (used_run ex_env raises compare_args s0 [] s1 (-1) (s_files s1) U0 N). apply (pair_fst (Main ex_env raises compare_args s0) (Ok (-1))). vm_compute. reflexivity. }
  assert (C : 1 = s_unmatched (fst (Main ex_env (measures ($"b")) compare_args (with_settings_of s2)))) by (vm_compute; reflexivity).
  rewrite C at 1. apply (used_run ex_env (measures ($"b")) compare_args s2 [1] s3 2 (s_files s3) U1 N). apply (pair_fst (Main ex_env (measures ($"b")) compare_args s2) (Ok 2)). vm_compute. reflexivity.
Qed.

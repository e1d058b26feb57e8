(** The process model, run alone, is the driver of RegModel; processes that do not change what others access. *)
From Coq Require Import Floats.SpecFloat.
From Verif Require Import Base Str Dec PathModel PathFacts MeasModel DiffModel VisitModel XmlModel ReadModel RegModel RegStart LimitProps ImgModel ItkModel ProcModel.

Definition adequate {A} (pm : P A) (m : M A) : Prop := forall s f,
  alone (pm s) f = (s_files (fst (m (set_files s f))), (set_files (fst (m (set_files s f))) (s_files s), snd (m (set_files s f)))).
Lemma alone_then {A B} (p : proc A) (k : A -> proc B) : forall f, alone (pthen p k) f = alone (k (snd (alone p f))) (fst (alone p f)).
Proof. induction p as [a|q c next IH]; intros f; [reflexivity|]. cbn [pthen alone]. apply IH. Qed.
Lemma touches_then {A B} (p : proc A) (k : A -> proc B) : forall f, touches (pthen p k) f = touches p f ++ touches (k (snd (alone p f))) (fst (alone p f)).
Proof. induction p as [a|q c next IH]; intros f; [reflexivity|]. cbn [pthen touches alone app]. f_equal. apply IH. Qed.
Lemma files_back s f : set_files (set_files s f) (s_files s) = s.
Proof. destruct s; reflexivity. Qed.
Lemma files_files s f g : set_files (set_files s f) g = set_files s g.
Proof. reflexivity. Qed.
Lemma adequate_bind {A B} (pm : P A) (m : M A) (pk : A -> P B) (k : A -> M B) :
  adequate pm m -> (forall a, adequate (pk a) (k a)) -> adequate (pbind pm pk) (mbind m k).
Proof.
  intros Hm Hk s f. unfold pbind, mbind. rewrite alone_then, (Hm s f). cbn [fst snd]. destruct (m (set_files s f)) as [s' [a| | | |]]; cbn [fst snd]; try reflexivity.
  rewrite (Hk a). rewrite files_back. cbn [s_files set_files]. reflexivity.
Qed.
Lemma adequate_ret {A} (a : A) : adequate (pret a) (mret a).
Proof. intros [] f. reflexivity. Qed.
Lemma adequate_lift {A} (r : res A) : adequate (plift r) (mlift r).
Proof. intros [] f. reflexivity. Qed.
Definition fileless {A} (m : M A) : Prop := forall s f, m (set_files s f) = (set_files (fst (m s)) f, snd (m s)) /\ s_files (fst (m s)) = s_files s.
Lemma adequate_pure {A} (m : M A) : fileless m -> adequate (pure m) m.
Proof.
  intros H s f. unfold pure. destruct (H s f) as [-> E]. destruct (m s) as [s' r]. cbn [fst snd alone] in *. rewrite files_files, <- E. destruct s'; reflexivity.
Qed.
Lemma fileless_gets {A} (h : rst -> A) : (forall s f, h (set_files s f) = h s) -> fileless (gets h).
Proof. intros H s f. unfold gets. cbn [fst snd]. rewrite H. split; reflexivity. Qed.
Lemma fileless_modify (h : rst -> rst) : (forall s f, h (set_files s f) = set_files (h s) f) -> (forall s, s_files (h s) = s_files s) -> fileless (modify h).
Proof. intros H H' s f. unfold modify. cbn [fst snd]. rewrite H. split; [reflexivity|apply H']. Qed.
Lemma adequate_ext {A} (pm : P A) (m m' : M A) : (forall s, m s = m' s) -> adequate pm m -> adequate pm m'.
Proof. intros E H s f. rewrite <- E. apply H. Qed.
(** asking about the files *)
Definition asks {A} (h : rst -> res A) : M A := fun s => (s, h s).
Lemma adequate_asks {A} (pm : P A) (h : rst -> res A) : (forall s f, alone (pm s) f = (f, (s, h (set_files s f)))) -> adequate pm (asks h).
Proof. intros H s f. rewrite H. unfold asks. cbn [fst snd]. rewrite files_back. reflexivity. Qed.
Lemma look_alone e path s f : alone (look e path s) f = (f, (s, Ok (node_at e f path))).
Proof. unfold look, node_at. destruct (slot e path) as [k|]; reflexivity. Qed.
Lemma is_file_alone e path s f : alone (p_is_file e path s) f = (f, (s, Ok (is_file e f path))).
Proof. unfold p_is_file, pbind. rewrite alone_then, look_alone. reflexivity. Qed.
Lemma is_directory_alone e path s f : alone (p_is_directory e path s) f = (f, (s, Ok (is_directory e f path))).
Proof. unfold p_is_directory, pbind. rewrite alone_then, look_alone. reflexivity. Qed.
Lemma is_readable_alone e path s f : alone (p_is_readable e path s) f = (f, (s, Ok (is_readable e f path))).
Proof. unfold p_is_readable, pbind. rewrite alone_then, look_alone. reflexivity. Qed.
Lemma is_writable_alone e path s f : alone (p_is_writable e path s) f = (f, (s, Ok (is_writable e f path))).
Proof. unfold p_is_writable, pbind. rewrite alone_then, look_alone. reflexivity. Qed.
Lemma can_open_alone e path s f : alone (p_can_open e path s) f = (f, (s, Ok (can_open e f path))).
Proof. unfold p_can_open, pbind. rewrite alone_then, look_alone. reflexivity. Qed.
Lemma source_alone e path s f : alone (p_source e path s) f = (f, (s, Ok (sources e f path))).
Proof. unfold p_source, pbind. rewrite alone_then, look_alone. reflexivity. Qed.
Lemma search_loop_alone e name : forall l full s f, alone (p_search_loop e l name full s) f = (f, (s, PathModel.search_loop (is_file e f) l name full)).
Proof.
  induction l as [|d l IH]; intros full s f; [reflexivity|]. cbn [p_search_loop PathModel.search_loop]. unfold pbind at 1. rewrite alone_then. cbn [plift alone fst snd].
  destruct (Append d name) as [q| | | |]; try reflexivity. cbn [bind]. unfold pbind. rewrite alone_then, is_file_alone. cbn [fst snd].
  destruct (is_file e f q); [reflexivity|apply IH].
Qed.
Lemma search_alone e name s f : alone (p_search e name s) f = (f, (s, search e (set_files s f) name)).
Proof. unfold p_search, pbind. rewrite alone_then. cbn [pure gets alone fst snd]. apply search_loop_alone. Qed.

Lemma adequate_put text : adequate (p_put text) (put text).
Proof.
  intros s f. unfold p_put, put, modify, put_text. change (s_os (set_files s f)) with (s_os s). change (s_stdout (set_files s f)) with (s_stdout s). change (s_files (set_files s f)) with f.
  destruct (s_os s) as [k|] eqn:O; [|destruct s; reflexivity].
  cbn [alone]. unfold accessed. destruct (f k) as [[r w b|r w x]|]; cbn [fst snd]; rewrite ?files_files; destruct s; reflexivity.
Qed.
Lemma adequate_put_meas m : adequate (p_put_meas m) (put_meas m).
Proof. apply adequate_bind; [apply adequate_lift|]. intros t. apply adequate_put. Qed.
Lemma adequate_mode e : adequate (p_compare_mode e) (GetCompareMode e).
Proof.
  apply adequate_asks. intros s f. unfold p_compare_mode, compare_mode. change (s_is (set_files s f)) with (s_is s). change (s_in (set_files s f)) with (s_in s). change (s_files (set_files s f)) with f.
  destruct (s_is s); [reflexivity|]. destruct (s_in s) as [|c nm]; [reflexivity|]. unfold pbind at 1. rewrite alone_then, search_alone. cbn [fst snd].
  destruct (search e (set_files s f) (c :: nm)) as [q| | | |]; try reflexivity. cbn [bind]. unfold pbind. rewrite alone_then, is_file_alone. cbn [fst snd].
  destruct (is_file e f _); [apply is_readable_alone|reflexivity].
Qed.
Lemma adequate_open_output e : adequate (p_open_output e) (open_output e).
Proof.
  intros s f. unfold p_open_output, open_output. change (s_out (set_files s f)) with (s_out s). change (s_files (set_files s f)) with f.
  destruct (s_out s) as [|c nm]; [cbn [alone fst snd]; rewrite files_back; reflexivity|].
  destruct (slot e (c :: nm)) as [k|]; [|destruct s; reflexivity].
  cbn [alone]. unfold accessed. destruct (f k) as [[r [|] b|r w x]|]; try destruct (e_cancreate e _); cbn [fst snd alone]; rewrite ?files_files; destruct s; reflexivity.
Qed.
Lemma adequate_open_input e : adequate (p_open_input e) (open_input e).
Proof.
  intros s f. unfold p_open_input, open_input. change (s_in (set_files s f)) with (s_in s). change (s_files (set_files s f)) with f.
  destruct (s_in s) as [|c nm]; [cbn [alone fst snd]; rewrite files_back; reflexivity|].
  unfold pbind at 1. rewrite alone_then, search_alone. cbn [fst snd]. destruct (search e (set_files s f) (c :: nm)) as [q| | | |]; try (cbn [alone fst snd]; rewrite files_back; reflexivity).
  cbv zeta. unfold pbind at 1. rewrite alone_then, can_open_alone. cbn [fst snd]. destruct (can_open e f _); cbn; destruct s; reflexivity.
Qed.
Lemma adequate_read_input e : adequate (p_read_input e) (read_input e).
Proof.
  intros s f. unfold p_read_input, read_input. change (s_is (set_files s f)) with (s_is s). change (s_files (set_files s f)) with f.
  destruct (s_is s) as [k|]; [|cbn [alone fst snd]; rewrite files_back; reflexivity]. cbn [alone]. unfold accessed.
  destruct (f k) as [[r w b|r w x]|]; try destruct (ReadXMLInput _ _ _); cbn [alone fst snd]; destruct s; reflexivity.
Qed.
Ltac field_only := apply adequate_pure; (apply fileless_modify || apply fileless_gets); try (intros [] ?; reflexivity); intros []; reflexivity.
Lemma adequate_Begin e : adequate (p_Begin e) (BeginMeasurement e).
Proof.
  apply adequate_bind; [apply adequate_open_output|]. intros _. apply adequate_bind; [apply adequate_open_input|]. intros _. apply adequate_bind; [apply adequate_mode|].
  intros [|]; [apply adequate_read_input|apply adequate_put].
Qed.
Lemma adequate_End e : adequate (p_End e) (EndMeasurement e).
Proof.
  apply adequate_bind; [apply adequate_mode|]. intros cm. apply adequate_bind; [destruct cm; [field_only|apply adequate_put]|]. intros _. field_only.
Qed.
Lemma adequate_Unmatched m : adequate (p_Unmatched m) (UnmatchedMeasurement m).
Proof. apply adequate_bind; [field_only|]. intros _. apply adequate_put_meas. Qed.
Lemma adequate_Difference e m b : adequate (p_Difference e m b) (DifferenceMeasurement e m b).
Proof. apply adequate_bind; [field_only|]. intros _. apply adequate_bind; [apply adequate_lift|]. intros t. apply adequate_put. Qed.
Lemma adequate_locate e b m : adequate (p_locate e b m) (asks (fun s => locate e s b m)).
Proof.
  apply adequate_asks. intros s f. unfold p_locate, locate. destruct b as [d|g]; [reflexivity|]. destruct m as [d|g']; [reflexivity|].
  unfold pbind. rewrite alone_then, search_alone. cbn [fst snd]. destruct (search e (set_files s f) (Tail (ffile g))) as [q| | | |]; reflexivity.
Qed.
Lemma load_alone e m s f : alone (p_load e m s) f = (f, (s, Ok (match m with MF g => sources e f (cstr (ffile g)) | MD _ => Missing end))).
Proof. destruct m as [d|g]; [reflexivity|apply source_alone]. Qed.
Lemma adequate_Compare e m t : adequate (p_Compare e m t) (CompareMeasurement e m t).
Proof.
  unfold p_Compare, CompareMeasurement. apply adequate_bind; [field_only|]. intros [|b rest].
  { apply adequate_bind; [apply adequate_Unmatched|]. intros _. apply adequate_ret. }
  apply adequate_bind; [field_only|]. intros _. destruct (eqs (mname b) (mname m) && eqs (mtype b) (mtype m)).
  2:{ apply adequate_bind; [apply adequate_Unmatched|]. intros _. apply adequate_ret. }
  apply adequate_bind; [apply adequate_locate|]. intros b'.
  set (K := fun out : meas * meas * res bool => let '(baseline, m, v) := out in same <- mlift v ;; if (same : bool) then mret 1%Z else _ <- DifferenceMeasurement e m baseline ;; mret 0%Z).
  set (PK := fun out : meas * meas * res bool => let '(baseline, m, v) := out in same <+ plift v ;; if (same : bool) then pret 1%Z else _ <+ p_Difference e m baseline ;; pret 0%Z).
  assert (HK : forall out, adequate (PK out) (K out)).
  { intros [[b2 m2] v]. apply adequate_bind; [apply adequate_lift|]. intros [|]; [apply adequate_ret|]. apply adequate_bind; [apply adequate_Difference|]. intros _. apply adequate_ret. }
  change (adequate (sb <+ p_load e b' ;; st <+ p_load e m ;; out <+ pure (gets (fun s => Compare (e_sc e) (of_two b' m sb st) (e_io e) (visitor s t) b' m)) ;; PK out)
                   (out <- gets (fun s => Compare (e_sc e) (sources e (s_files s)) (e_io e) (visitor s t) b' m) ;; K out)).
  assert (H : adequate (fun s => pthen (p_load e b' s) (fun x => let '(s1, r) := x in match r with Ok sb => (st <+ p_load e m ;; pure (gets (fun s => Compare (e_sc e) (of_two b' m sb st) (e_io e) (visitor s t) b' m))) s1
       | Throw e => Done (s1, Throw e) | UB => Done (s1, UB) | Abort => Done (s1, Abort) | Hang => Done (s1, Hang) end))
     (asks (fun s => Ok (Compare (e_sc e) (sources e (s_files s)) (e_io e) (visitor s t) b' m)))).
  { apply adequate_asks. intros s f. rewrite alone_then, load_alone. cbn [fst snd]. unfold pbind. rewrite alone_then, load_alone. cbn [fst snd pure gets alone].
    f_equal. f_equal. f_equal. change (visitor (set_files s f) t) with (visitor s t). change (s_files (set_files s f)) with f. apply Compare_ext. intros g Hg.
    unfold of_two. destruct Hg as [->| ->].
    - rewrite eqs_refl. reflexivity.
    - rewrite eqs_refl. destruct b' as [d|h]; [reflexivity|]. destruct (eqs_spec (cstr (ffile g)) (cstr (ffile h))) as [E|E]; [rewrite E|]; reflexivity. }
  intros s f. pose proof (adequate_bind _ _ _ _ H HK s f) as E. unfold mbind, asks in E. unfold mbind, gets. rewrite <- E. clear E.
  unfold pbind. rewrite !alone_then, load_alone. cbn [fst snd]. rewrite !alone_then, load_alone. reflexivity.
Qed.
Lemma adequate_Measure e c : adequate (p_Measure e c) (Measure e c).
Proof.
  apply adequate_bind; [apply adequate_mode|]. intros [|]; [apply adequate_Compare|]. apply adequate_bind; [apply adequate_put_meas|]. intros _. apply adequate_ret.
Qed.
Lemma adequate_write e path b : adequate (p_write_file e path b) (modify (fun s => set_files s (write_file e (s_files s) path b))).
Proof.
  intros s f. unfold p_write_file, modify, write_file. change (s_files (set_files s f)) with f. destruct (slot e path) as [k|]; [|destruct s; reflexivity].
  cbn [alone]. unfold accessed. destruct (f k) as [[r [|] b0|r w x]|]; try destruct (e_cancreate e _); cbn [fst snd]; rewrite !files_files; destruct s; reflexivity.
Qed.
Lemma adequate_run e p : adequate (p_run e p) (run e p).
Proof.
  induction p as [z|x|c k IH|t k IH|z k IH|path b k IH]; cbn [p_run run].
  - apply adequate_ret.
  - apply adequate_lift.
  - apply adequate_bind; [apply adequate_Measure|exact IH].
  - apply adequate_bind; [field_only|intros _; exact IH].
  - apply adequate_bind; [field_only|intros _; exact IH].
  - apply adequate_bind; [apply adequate_write|intros _; exact IH].
Qed.
Lemma adequate_two {A} (pa : P bool) (e : env) (h1 h2 : store -> bool) (pb : P bool) (c : bool -> bool -> bool) (pk : bool -> P A) (k : bool -> M A) :
  (forall s f, alone (pa s) f = (f, (s, Ok (h1 f)))) -> (forall s f, alone (pb s) f = (f, (s, Ok (h2 f)))) -> forall d,
  (forall b, c false b = d) -> (forall b, c true b = b) -> (forall b, adequate (pk b) (k b)) ->
  adequate (there <+ pa ;; ok <+ (if (there : bool) then pb else pret d) ;; pk ok) (ok <- gets (fun s => c (h1 (s_files s)) (h2 (s_files s))) ;; k ok).
Proof.
  intros Ha Hb d Hf Ht Hk s f. unfold pbind at 1. rewrite alone_then, Ha. cbn [fst snd]. unfold pbind. rewrite alone_then.
  assert (E : alone ((if h1 f then pb else pret d) s) f = (f, (s, Ok (c (h1 f) (h2 f))))) by (destruct (h1 f); [rewrite Ht; apply Hb|rewrite Hf; reflexivity]).
  rewrite E. cbn [fst snd]. unfold mbind, gets. change (s_files (set_files s f)) with f. apply Hk.
Qed.
Lemma adequate_parse_loop e : forall fuel argc argv inf outf, adequate (p_parse_loop e fuel argc argv inf outf) (parse_loop e fuel argc argv inf outf).
Proof.
  induction fuel as [|fuel IH]; intros argc argv inf outf s f; cbn [p_parse_loop parse_loop]; [cbn [alone fst snd]; rewrite files_back; reflexivity|].
  destruct (argc <=? 1); [cbn [alone fst snd]; rewrite files_back; reflexivity|]. revert s f.
  match goal with |- forall s f, alone (?pm s) f = (s_files (fst (?m (set_files s f))), _) => change (adequate pm m) end.
  apply adequate_bind; [apply adequate_lift|]. intros a. cbv zeta.
  destruct (eqs a ($"-O")).
  { destruct (2 <? argc); [|apply IH]. apply adequate_bind; [apply adequate_lift|]. intros v.
    apply (adequate_two (p_is_file e v) e (fun f => is_file e f v) (fun f => is_writable e f v) (p_is_writable e v) (fun a b => negb (a && negb b))
      (fun ok => argv' <+ plift (swap_loop (argc - 3) 1 argv) ;; p_parse_loop e fuel (argc - 2) argv' inf (if ok then Some v else None))
      (fun ok => argv' <- mlift (swap_loop (argc - 3) 1 argv) ;; parse_loop e fuel (argc - 2) argv' inf (if ok then Some v else None)) (is_file_alone e v) (is_writable_alone e v) true).
    - reflexivity.
    - intros b. cbn [andb]. apply negb_involutive.
    - intros ok. apply adequate_bind; [apply adequate_lift|]. intros argv'. apply IH. }
  destruct (eqs a ($"-I")).
  { destruct (2 <? argc); [|apply IH]. apply adequate_bind; [apply adequate_lift|]. intros v.
    apply (adequate_two (p_is_file e v) e (fun f => is_file e f v) (fun f => is_readable e f v) (p_is_readable e v) andb
      (fun ok => if ok then argv' <+ plift (swap_loop (argc - 3) 1 argv) ;; p_parse_loop e fuel (argc - 2) argv' (Some v) outf else plift (Throw ExnRuntime))
      (fun ok => if ok then argv' <- mlift (swap_loop (argc - 3) 1 argv) ;; parse_loop e fuel (argc - 2) argv' (Some v) outf else mlift (Throw ExnRuntime)) (is_file_alone e v) (is_readable_alone e v) false); try reflexivity.
    intros [|]; [|apply adequate_lift]. apply adequate_bind; [apply adequate_lift|]. intros argv'. apply IH. }
  destruct (eqs a ($"-R")).
  { destruct (2 <? argc); [|apply IH]. apply adequate_bind; [apply adequate_lift|]. intros v. apply adequate_bind; [field_only|]. intros _.
    apply adequate_bind; [apply adequate_lift|]. intros argv'. apply IH. }
  destruct (eqs a ($"-P")); [|apply adequate_ret].
  destruct (2 <? argc); [|apply IH]. apply adequate_bind; [apply adequate_lift|]. intros v.
  apply (adequate_two (p_is_directory e v) e (fun f => is_directory e f v) (fun f => is_readable e f v) (p_is_readable e v) andb
      (fun ok => if ok then argv' <+ plift (swap_loop (argc - 3) 1 argv) ;; _ <+ pure (modify (fun s => set_path s (v :: s_path s))) ;; p_parse_loop e fuel (argc - 2) argv' inf outf else plift (Throw ExnRuntime))
      (fun ok => if ok then argv' <- mlift (swap_loop (argc - 3) 1 argv) ;; _ <- modify (fun s => set_path s (v :: s_path s)) ;; parse_loop e fuel (argc - 2) argv' inf outf else mlift (Throw ExnRuntime)) (is_directory_alone e v) (is_readable_alone e v) false); try reflexivity.
  intros [|]; [|apply adequate_lift]. apply adequate_bind; [apply adequate_lift|]. intros argv'. apply adequate_bind; [field_only|]. intros _. apply IH.
Qed.
Lemma adequate_Parse e fuel argv : adequate (p_Parse e fuel argv) (ParseAndRemoveArguments e fuel argv).
Proof.
  apply adequate_bind; [apply adequate_parse_loop|]. intros [[[argc argv'] inf] outf].
  apply adequate_bind; [destruct inf; field_only|]. intros _. apply adequate_bind; [destruct outf; field_only|]. intros _. apply adequate_ret.
Qed.
Lemma adequate_body e pbody body argv : (forall args, adequate (pbody args) (body args)) -> adequate (p_main_body e pbody argv) (main_body_with e body argv).
Proof.
  intros H. apply adequate_bind; [apply adequate_Parse|]. intros [argc argv']. apply adequate_bind; [apply adequate_Begin|]. intros _. apply H.
Qed.
Definition finished (e : env) (ret : Z) : M Z := fun s =>
  if negb (ret =? s_expected s)%Z then (s, Ok ret) else (s, cm <-- compare_mode e s ;; Ok (if (cm : bool) then s_unmatched s else 0%Z)).
Lemma adequate_finish e ret : adequate (p_finish e ret) (finished e ret).
Proof.
  intros s f. unfold p_finish, finished. change (s_expected (set_files s f)) with (s_expected s). destruct (negb _); [cbn [alone fst snd]; rewrite files_back; reflexivity|].
  unfold pbind. rewrite alone_then, (adequate_mode e s f). unfold GetCompareMode. cbn [fst snd]. destruct (compare_mode e (set_files s f)) as [cm| | | |]; cbn [bind alone fst snd pure gets]; rewrite files_back; reflexivity.
Qed.
Theorem process_with_alone e pbody body argv : (forall args, adequate (pbody args) (body args)) -> adequate (process_with e pbody argv) (Main_with e body argv).
Proof.
  intros Hb s f. unfold process_with, Main_with. rewrite alone_then, (adequate_body e pbody body argv Hb _ f).
  change (set_files (set_unmatched s (s_unmatched s + 1)) f) with (set_unmatched (set_files s f) (s_unmatched (set_files s f) + 1)).
  change (s_files (set_unmatched s (s_unmatched s + 1))) with (s_files s).
  destruct (main_body_with e body argv (set_unmatched (set_files s f) (s_unmatched (set_files s f) + 1))) as [s1 r]. cbn [fst snd].
  destruct r as [ret| | | |]; try reflexivity.
  - rewrite alone_then, (adequate_End e _ (s_files s1)). rewrite files_files. cbn [fst snd].
    rewrite (eq_refl : s_files (set_files s1 (s_files s)) = s_files s).
    assert (E : set_files s1 (s_files s1) = s1) by (destruct s1; reflexivity). rewrite E. destruct (EndMeasurement e s1) as [s2 r2]. cbn [fst snd].
    destruct r2 as [u| | | |]; try reflexivity.
    + match goal with |- alone (p_finish e ret ?x) ?y = _ => rewrite (adequate_finish e ret x y) end. cbv zeta.
      change (set_files (set_unmatched (set_files s2 (s_files s)) (s_unmatched (set_files s2 (s_files s)) - 1)) (s_files s2)) with (set_files (set_unmatched s2 (s_unmatched s2 - 1)) (s_files s2)).
      assert (E2 : set_files (set_unmatched s2 (s_unmatched s2 - 1)) (s_files s2) = set_unmatched s2 (s_unmatched s2 - 1)) by (destruct s2; reflexivity). rewrite E2. reflexivity.
    + match goal with |- alone (p_finish e ret ?x) ?y = _ => rewrite (adequate_finish e ret x y) end. rewrite files_files.
      assert (E2 : set_files s2 (s_files s2) = s2) by (destruct s2; reflexivity). rewrite E2. reflexivity.
  - rewrite (adequate_finish e (-1) _ (s_files s1)), files_files. assert (E2 : set_files s1 (s_files s1) = s1) by (destruct s1; reflexivity). rewrite E2. reflexivity.
Qed.
Theorem process_alone e test argv : adequate (process e test argv) (Main e test argv).
Proof. apply (process_with_alone e (fun args => p_run e (test args)) (fun args => run e (test args)) argv). intros args. apply adequate_run. Qed.

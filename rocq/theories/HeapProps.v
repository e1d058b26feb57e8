(** C76: the objects a run allocates. *)
From Coq Require Import Floats.SpecFloat Permutation.
From Verif Require Import Base Str Dec PathModel MeasModel DiffModel VisitModel XmlModel ReadModel RegModel RegStart ArgProps ReuseProps HeapModel HeapFacts HeapXml HeapRun.

(** * Specification *)
(** a program in which nothing has gone wrong; objects are numbered in the order of their allocation *)
Definition in_order (hp : heap) : Prop := wrong hp = false /\ forall p, next hp <= p -> live hp p = None.
(** other settings and files; the object itself stays as it is *)
Definition change (h : hst) (f : store) (inf outf : str) (dirs : list str) (t : spec_float) (x : Z) : hst :=
  let s := h_s h in Hst (Rst f (s_stdout s) (s_input s) inf outf dirs (s_os s) (s_is s) t (s_unmatched s) x) (h_heap h) (h_ptrs h) (h_os h) (h_is h).
(** [h] is the state of a test object constructed in a program with the objects [hp], after calls of [Main] that returned or threw, in environments that satisfy [P]; between the calls files and settings may change.
    [caught]: for each call, the last one first, whether [Main] caught an exception. *)
Inductive history (P : env -> Prop) (hp : heap) : hst -> list bool -> Prop :=
| history_new f inf outf dirs t x : history P hp (Hst (Rst f [] [] inf outf dirs None None t 0 x) hp [] None None) []
| history_run e test argv h caught h' r c f inf outf dirs t x : history P hp h caught -> P e -> h_Main e test argv h = (h', r, c) -> (exists z, r = Ok z) \/ (exists ex, r = Throw ex) ->
    history P hp (change h' f inf outf dirs t x) (c :: caught).
(** the parser reports the documents this model does not describe as XML documents: no element with two attributes of one name, every element closed *)
Definition xml (e : env) : Prop := forall x, well_reported (e_ext e x).
Definition any (e : env) : Prop := True.
Definition kind_eqb (a b : kind) : bool := match a, b with KStream, KStream | KMeasurement, KMeasurement | KVisitor, KVisitor | KParser, KParser => true | _, _ => false end.
Definition number (k : kind) (l : list (nat * kind)) : nat := length (List.filter (fun x => kind_eqb (snd x) k) l).
(** the objects alive in [hp'] are those alive in [hp] and those of [l] *)
Definition alive_more (hp hp' : heap) (l : list (nat * kind)) : Prop :=
  NoDup (map fst l) /\ (forall p k, In (p, k) l -> live hp p = None) /\ forall p k, live hp' p = Some k <-> live hp p = Some k \/ In (p, k) l.

(** * Proofs *)
Lemma change_state b F L h f inf outf dirs t x : state b F L h -> state b F L (change h f inf outf dirs t x).
Proof. intros S. apply (state_inert b F L h); auto. Qed.
Lemma state_new b f inf outf dirs t x hp : in_order hp -> state b [] (live hp) (Hst (Rst f [] [] inf outf dirs None None t 0 x) hp [] None None).
Proof.
  intros [A B]. constructor; cbn; try tauto. constructor; cbn; try assumption; try tauto. constructor.
Qed.
Lemma history_any P hp : in_order hp -> forall h caught, history P hp h caught -> exists L, state false [] L h.
Proof.
  intros O h caught H. induction H as [f inf outf dirs t x|e test argv h caught h' r c f inf outf dirs t x H (L & S) He E Hr]; [exists (live hp); apply state_new, O|].
  assert (Y : exists L', state false [] L' h').
  { pose proof (ht_Main true false [] L e test argv h ltac:(discriminate) S ltac:(discriminate)) as Hm. rewrite E in Hm. assert (Z : failed true false [] L h' \/ quiet false [] L h') by (destruct Hr as [[z ->]|[ex ->]]; destruct c; auto).
    destruct Z as [(X & _ & S')|(X & _ & S' & _)]; exact (state_lose X [] L h' S'). }
  destruct Y as [L' S']. exists L'. apply change_state, S'.
Qed.
Lemma history_quiet hp : in_order hp -> forall h caught, history xml hp h caught -> (forall c, In c caught -> c = false) -> state true [] (live hp) h /\ idle h.
Proof.
  intros O h caught H. induction H as [f inf outf dirs t x|e test argv h caught h' r c f inf outf dirs t x H IH He E Hr]; intros Hc; [split; [apply state_new, O|repeat split]|].
  destruct IH as [S I]; [intros c' I; apply Hc; right; exact I|]. pose proof (ht_Main false true [] (live hp) e test argv h (fun _ => He) S (fun _ => I)) as Hm. rewrite E in Hm. rewrite (Hc c (or_introl eq_refl)) in Hm.
  assert (Q : quiet true [] (live hp) h') by (destruct Hr as [[z ->]|[ex ->]]; exact Hm). destruct Q as (X & HX & S' & Ho & Hi & Hp). rewrite (HX eq_refl) in S'. cbn [app] in S'. split; [apply change_state, S'|]. repeat split; auto.
Qed.

(** * Theorems *)
(** The model with pointers is the driver of RegModel: whatever the object and its pointers are, the same files, the same output, the same value. *)
Theorem C76_same_driver : forall e test argv h, let '(h', r, _) := h_Main e test argv h in Main e test argv (h_s h) = (h_s h', r).
Proof. intros e test argv h. rewrite adeq_Main. destruct (h_Main e test argv h) as [[h' r] c]. reflexivity. Qed.
Print Assumptions C76_same_driver.

(** No object is used after it was deleted or deleted twice, however often an object is used, whatever failed before, and when it is destroyed. *)
Theorem C76_no_misuse : forall hp h caught e test argv, in_order hp -> history any hp h caught ->
  let '(h', r, _) := h_Main e test argv h in wrong (h_heap h') = false /\ wrong (destroy h) = false /\ wrong (destroy h') = false.
Proof.
  intros hp h caught e test argv O H. destruct (history_any any hp O h caught H) as [L S]. pose proof (ht_Main true false [] L e test argv h ltac:(discriminate) S ltac:(discriminate)) as Hm.
  destruct (h_Main e test argv h) as [[h' r] c]. assert (Z : failed true false [] L h' \/ quiet false [] L h') by (destruct r; destruct c; auto).
  assert (Y : exists X, state false X L h') by (destruct Z as [(X & _ & S')|(X & _ & S' & _)]; rewrite app_nil_r in S'; eauto). destruct Y as [X S'].
  split; [exact (ho_right _ _ _ (st_holds _ _ _ _ S'))|]. split; [exact (ho_right _ _ _ (destroy_spec _ _ _ _ S))|exact (ho_right _ _ _ (destroy_spec _ _ _ _ S'))].
Qed.
Print Assumptions C76_no_misuse.

(** After runs in which nothing was thrown, exactly the objects from before the construction are alive. *)
Theorem C76_nothing_left : forall hp h caught, in_order hp -> history xml hp h caught -> (forall c, In c caught -> c = false) ->
  (forall p, live (h_heap h) p = live hp p) /\ (forall p, live (destroy h) p = live hp p) /\ h_ptrs h = [] /\ h_os h = None /\ h_is h = None.
Proof.
  intros hp h caught O H Hc. destruct (history_quiet hp O h caught H Hc) as [S (I1 & I2 & I3)].
  split; [|split; [|auto]].
  - intros p. pose proof (st_holds _ _ _ _ S) as Ho. unfold owned in Ho. rewrite I1, I2, I3 in Ho. apply (ho_lost _ _ _ Ho). intros [].
  - intros p. pose proof (destroy_spec _ _ _ _ S) as Ho. rewrite I2, I3 in Ho. apply (ho_lost _ _ _ Ho). intros [].
Qed.
Print Assumptions C76_nothing_left.

(** A run that catches an exception, the first on its object, leaves behind, even when the object is destroyed: the streams that had been opened (at most two), and either the parser of the baseline with measurements it had created, or at
    most the measurement compared and the visitor comparing it.  Nothing else. *)
Theorem C76_exception_leaves : forall hp h caught e test argv h' r, in_order hp -> history xml hp h caught -> (forall c, In c caught -> c = false) -> xml e ->
  h_Main e test argv h = (h', r, true) -> (exists z, r = Ok z) \/ (exists ex, r = Throw ex) ->
  exists l, alive_more hp (destroy h') l /\ number KStream l <= 2 /\ (forall p, In (p, KStream) l <-> h_os h' = Some p \/ h_is h' = Some p) /\
    (h_os h' = None <-> s_os (h_s h') = None) /\ (h_is h' = None <-> s_is (h_s h') = None) /\
    (number KParser l = 1 /\ number KVisitor l = 0 \/ number KParser l = 0 /\ number KVisitor l <= 1 /\ number KMeasurement l <= 1).
Proof.
  intros hp h caught e test argv h' r O H Hc He E Hr. destruct (history_quiet hp O h caught H Hc) as [S I].
  pose proof (ht_Main false true [] (live hp) e test argv h (fun _ => He) S (fun _ => I)) as Hm. rewrite E in Hm. assert (Q : failed false true [] (live hp) h') by (destruct Hr as [[z ->]|[ex ->]]; exact Hm).
  destruct Q as (X & HX & S'). specialize (HX eq_refl). rewrite app_nil_r in S'. pose proof (destroy_spec _ _ _ _ S') as Ho. set (l := ss (opt (h_os h')) ++ ss (opt (h_is h')) ++ X) in *. exists l.
  assert (Nk : forall k a b, number k (a ++ b) = number k a + number k b) by (intros k a b; unfold number; rewrite filter_app, app_length; reflexivity).
  assert (Ns : forall k a, number k (ss a) = if kind_eqb KStream k then length a else 0) by (intros k a; unfold number, ss; induction a as [|x a IH]; [destruct k; reflexivity|]; cbn [map List.filter snd]; destruct k; cbn [kind_eqb] in *; cbn [length]; lia).
  assert (Nm : forall k a, number k (ms a) = if kind_eqb KMeasurement k then length a else 0) by (intros k a; unfold number, ms; induction a as [|x a IH]; [destruct k; reflexivity|]; cbn [map List.filter snd]; destruct k; cbn [kind_eqb] in *; cbn [length]; lia).
  assert (Nv : forall k a, number k (vs a) = if kind_eqb KVisitor k then length a else 0) by (intros k a; unfold number, vs; induction a as [|x a IH]; [destruct k; reflexivity|]; cbn [map List.filter snd]; destruct k; cbn [kind_eqb] in *; cbn [length]; lia).
  assert (No : forall p : option nat, length (opt p) <= 1) by (intros [p|]; cbn; lia). pose proof (No (h_os h')) as No1. pose proof (No (h_is h')) as No2. destruct Ho as [A B C D En G].
  split; [split; [exact A|split]|].
  - intros p k I'. apply D. apply in_map_iff. exists (p, k). auto.
  - intros p k. destruct (in_dec Nat.eq_dec p (map fst l)) as [Ip|Np].
    + pose proof (D p Ip) as Dp. apply in_map_iff in Ip. destruct Ip as ([q k'] & Eq & Ip). cbn in Eq. subst q. rewrite (B p k' Ip), Dp. split; [intros Ek; injection Ek as <-; auto|]. intros [Ek|Ik]; [discriminate Ek|]. rewrite <- (B p k' Ip), (B p k Ik). reflexivity.
    + rewrite (C p Np). split; [auto|]. intros [Ek|Ik]; [exact Ek|]. elim Np. apply in_map_iff. exists (p, k). auto.
  - assert (Hs : forall p, In (p, KStream) l <-> h_os h' = Some p \/ h_is h' = Some p).
    { assert (Hx : forall p, ~ In (p, KStream) X).
      { intros p Ix. destruct HX as [(q & Y & ->)|(Bl & V & _ & _ & ->)]; [destruct Ix as [Ix|Ix]; [discriminate Ix|]; apply in_map_iff in Ix; destruct Ix as (y & Ey & _); discriminate Ey|].
        apply in_app_or in Ix. destruct Ix as [Ix|Ix]; apply in_map_iff in Ix; destruct Ix as (y & Ey & _); discriminate Ey. }
      assert (Hq : forall o p, In (p, KStream) (ss (opt o)) <-> o = Some p) by (intros [o|] p; cbn; split; intros Z; [destruct Z as [Z|[]]; congruence|left; congruence|contradiction|discriminate]).
      intros p. unfold l. rewrite !in_app_iff, !Hq. specialize (Hx p). tauto. }
    assert (Hn : number KStream l <= 2 /\ (number KParser l = 1 /\ number KVisitor l = 0 \/ number KParser l = 0 /\ number KVisitor l <= 1 /\ number KMeasurement l <= 1)).
    { unfold l. rewrite !Nk, !Ns. cbn [kind_eqb]. destruct HX as [(q & Y & ->)|(Bl & V & HB & HV & ->)]; [|unfold in_difference in HV].
      + change ((q, KParser) :: ms Y) with ([(q, KParser)] ++ ms Y). rewrite !Nk, !Nm. cbn. split; [lia|left; lia].
      + rewrite !Nk, !Nm, !Nv. cbn [kind_eqb]. split; [lia|right; lia]. }
    destruct Hn as [Hn1 Hn2]. exact (conj Hn1 (conj Hs (conj (st_os _ _ _ _ S') (conj (st_is _ _ _ _ S') Hn2)))).
Qed.
Print Assumptions C76_exception_leaves.

(** * Reuse after failures *)
Definition out_name : str := $"out.xml".
Definition out_there (f : store) : Prop := exists r b, f out_name = Some (FFile r true b).
Lemma failing_body f so inp dirs o t u x hp ps os is r b : f out_name = Some (FFile r true b) ->
  h_main_body ex_env raises [$"prog"] (Hst (Rst f so inp [] out_name dirs o None t u x) hp ps os is) =
  (Hst (Rst (upd (upd f out_name (Some (FFile r true []))) out_name (Some (FFile r true (header ex_env)))) so inp [] out_name dirs (Some out_name) None t u x) (fst (alloc KStream hp)) ps (Some (next hp)) is, Throw ExnRuntime).
Proof.
  intros E. set (h0 := Hst _ hp ps os is). pose (h1 := Hst (Rst (upd f out_name (Some (FFile r true []))) so inp [] out_name dirs (Some out_name) None t u x) (fst (alloc KStream hp)) ps (Some (next hp)) is).
  assert (P0 : plain (ParseAndRemoveArguments ex_env (S (length [$"prog"])) [$"prog"]) h0 = (h0, Ok (1, [$"prog"]))) by reflexivity.
  assert (P1 : h_open_output ex_env h0 = (h1, Ok tt)).
  { assert (Eo : open_output ex_env (h_s h0) = (h_s h1, Ok tt)).
    { unfold open_output, h0, h1. cbn [h_s s_out s_files]. assert (Ss : slot ex_env out_name = Some out_name) by reflexivity. unfold out_name in *. destruct ($"out.xml") as [|c n]; [discriminate Ss|]. rewrite Ss, E. reflexivity. }
    rewrite open_output_cases. change (match s_out (h_s h0) with [] => (h0, Ok tt) | _ :: _ => new_output ex_env h0 end) with (new_output ex_env h0). unfold new_output, hbind, hnew, set_h_os, on_throw, plain. cbn [alloc]. cbn [h_s].
    rewrite Eo. reflexivity. }
  assert (P2 : h_open_input ex_env h1 = (h1, Ok tt)) by reflexivity.
  assert (P3 : plain (GetCompareMode ex_env) h1 = (h1, Ok false)) by reflexivity.
  assert (P4 : h_put (header ex_env) h1 = (Hst (put_text (header ex_env) (h_s h1)) (h_heap h1) (h_ptrs h1) (h_os h1) (h_is h1), Ok tt)).
  { unfold h_put, hbind, get_h, on_heap, plain, put, modify, h1. cbn [h_s h_heap h_ptrs h_os h_is access_opt alloc fst]. unfold access. cbn [live]. unfold put_at. rewrite Nat.eqb_refl. reflexivity. }
  unfold h_main_body, hbind at 1. rewrite P0. unfold h_Begin, hbind. rewrite P1, P2, P3, P4. unfold h1, put_text. cbn [h_s h_heap h_ptrs h_os h_is s_os s_files]. unfold upd at 1. rewrite eqs_refl. reflexivity.
Qed.
Lemma failing_run h : s_in (h_s h) = [] -> s_is (h_s h) = None -> s_out (h_s h) = out_name -> s_expected (h_s h) = 0%Z -> out_there (s_files (h_s h)) ->
  let '(h', r, c) := h_Main ex_env raises [$"prog"] h in
  r = Ok (-1)%Z /\ c = true /\ s_in (h_s h') = [] /\ s_is (h_s h') = None /\ s_out (h_s h') = out_name /\ s_expected (h_s h') = 0%Z /\ out_there (s_files (h_s h')) /\
  live (h_heap h') = put_at (live (h_heap h)) (next (h_heap h)) (Some KStream) /\ next (h_heap h') = S (next (h_heap h)) /\ h_os h' = Some (next (h_heap h)) /\ h_ptrs h' = h_ptrs h.
Proof.
  intros E1 E2 E3 E4 (r & b & E5). destruct h as [[f so inp inf outf dirs o i t u x] hp ps os is]. cbn [h_s h_heap s_in s_is s_out s_expected s_files] in *. subst inf i outf x.
  unfold h_Main. cbv zeta. match goal with |- context [h_main_body ex_env raises _ ?h1] => change h1 with (Hst (Rst f so inp [] out_name dirs o None t (u + 1)%Z 0%Z) hp ps os is) end.
  rewrite (failing_body f so inp dirs o t (u + 1)%Z 0%Z hp ps os is r b E5). cbn [h_s s_expected Z.eqb negb fst snd s_in s_is s_out s_files h_heap alloc live next h_os h_ptrs]. repeat split.
  exists r, (header ex_env). unfold upd at 1. rewrite eqs_refl. reflexivity.
Qed.
(** "a destroyed object leaves nothing behind, or at least not more and more": an object used for n runs that throw leaves n streams, and none of their files is closed *)
Theorem C76_reuse_refuted : forall hp, in_order hp -> forall n, exists h caught l, history any hp h caught /\ length caught = n /\ length l = n /\ NoDup l /\ forall p, In p l -> live (destroy h) p = Some KStream.
Proof.
  intros hp O n. pose (f0 := fun k => if eqs k out_name then Some (FFile true true []) else None).
  assert (X : exists h caught l, history any hp h caught /\ length caught = n /\ length l = n /\ NoDup l /\ (forall p, In p l -> live (h_heap h) p = Some KStream /\ p < next (h_heap h)) /\
    s_in (h_s h) = [] /\ s_is (h_s h) = None /\ s_out (h_s h) = out_name /\ s_expected (h_s h) = 0%Z /\ out_there (s_files (h_s h)) /\ h_ptrs h = []).
  { induction n as [|n (h & caught & l & H & L1 & L2 & N & Al & E1 & E2 & E3 & E4 & E5 & E6)].
    - exists (Hst (Rst f0 [] [] [] out_name [] None None default_tol 0 0) hp [] None None), [], []. split; [apply history_new|]. repeat split; try constructor; try contradiction. exists true, []. reflexivity.
    - pose proof (failing_run h E1 E2 E3 E4 E5) as R. destruct (h_Main ex_env raises [$"prog"] h) as [[h' r] c] eqn:Em. destruct R as (-> & -> & A1 & A2 & A3 & A4 & A5 & A6 & A7 & A8 & A9).
      exists (change h' (s_files (h_s h')) [] out_name [] default_tol 0%Z), (true :: caught), (next (h_heap h) :: l). split; [eapply history_run; [exact H|exact I|exact Em|left; eauto]|].
      split; [cbn; congruence|]. split; [cbn; congruence|]. split; [constructor; [|exact N]; intros Hi; destruct (Al _ Hi); lia|]. split.
      { cbn [change h_heap]. intros p [<-|Hi]; rewrite A6, A7; unfold put_at; [rewrite Nat.eqb_refl; split; [reflexivity|lia]|]. destruct (Al p Hi) as [B1 B2]. destruct (Nat.eqb_spec p (next (h_heap h))); [lia|]. split; [exact B1|lia]. }
      cbn [change h_s h_ptrs s_in s_is s_out s_expected s_files]. repeat split; try assumption. congruence. }
  destruct X as (h & caught & l & H & L1 & L2 & N & Al & E1 & E2 & E3 & E4 & E5 & E6). exists h, caught, l. repeat split; try assumption. intros p Hi. unfold destroy, h_free, hbind, get_h. rewrite E6. cbn [delete_all hret]. destruct h as [s hp' ps os is]. exact (proj1 (Al p Hi)).
Qed.
Print Assumptions C76_reuse_refuted.

(** * Cases *)
Local Notation q := [dquote].
Definition file_element (f : str) : str := $"<DartMeasurementFile name=" ++ q ++ $"x" ++ q ++ $" type=" ++ q ++ $"text/plain" ++ q ++ $">" ++ f ++ $"</DartMeasurementFile>".
(** a baseline with these bytes, a directory and a text file *)
Definition c76_files (base : str) : store := fun k =>
  if eqs k ($"b.xml") then Some (FFile true true base) else if eqs k ($"dir") then Some (FDir true true true) else if eqs k ($"t") then Some (FFile true true ($"text")) else None.
Definition measures_file (f : str) (args : list str) : prog := Call (FileTextPlain f ($"x")) (fun _ => Return 0%Z).
Definition both_args : list str := [$"prog"; $"-I"; $"b.xml"; $"-O"; $"out.xml"].
Definition document (t : str) : str := $"<output>" ++ t ++ $"</output>".
(** what remains when the object is destroyed *)
Definition remains (base f : str) : list (option kind) * res Z * bool :=
  let '(h, r, c) := h_Main ex_env (measures_file f) both_args (new_object (c76_files base) no_heap) in (map (live (destroy h)) (seq 0 (next (h_heap h))), r, c).
(** agreement, a difference: nothing *)
Example C76_case_quiet : remains (document (file_element ($"t"))) ($"t") = ([None; None; None; None; None], Ok 0%Z, false) /\
  remains (document (file_element ($"missing"))) ($"t") = ([None; None; None; None; None; None], Ok 1%Z, false).
Proof. split; vm_compute; reflexivity. Qed.
(** the file to be compared is a directory: both streams, the measurement, the visitor *)
Example C76_case_compare : remains (document (file_element ($"t"))) ($"dir") = ([Some KStream; Some KStream; None; Some KMeasurement; Some KVisitor], Ok (-1)%Z, true).
Proof. vm_compute. reflexivity. Qed.
(** a baseline that breaks off: both streams, the parser, and the measurements it has *)
Example C76_case_baseline : remains ($"<output>" ++ file_element ($"t") ++ file_element ($"t") ++ $"<") ($"t") = ([Some KStream; Some KStream; Some KParser; Some KMeasurement; Some KMeasurement], Ok (-1)%Z, true).
Proof. vm_compute. reflexivity. Qed.
Lemma xml_ex : xml ex_env.
Proof. intros x E. discriminate E. Qed.
Lemma in_order_empty : in_order no_heap.
Proof. split; [reflexivity|]. reflexivity. Qed.
(** the hypotheses of the theorems: recording and then comparing with one object *)
Example C76_case_history : exists h, history xml no_heap h [false; false] /\ s_files (h_s h) ($"b.xml") <> None.
Proof.
  pose (r1 := h_Main ex_env (measures ($"a")) [$"prog"; $"-O"; $"b.xml"] (new_object (fun _ => None) no_heap)). pose (h1 := fst (fst r1)).
  pose (h2 := change h1 (s_files (h_s h1)) [] [] [] default_tol 0%Z). pose (r2 := h_Main ex_env (measures ($"b")) compare_args h2). pose (h3 := fst (fst r2)).
  assert (E1 : snd (fst r1) = Ok 0%Z /\ snd r1 = false) by (split; vm_compute; reflexivity). assert (E2 : snd (fst r2) = Ok 1%Z /\ snd r2 = false) by (split; vm_compute; reflexivity).
  assert (T : forall x : hst * res Z * bool, x = (fst (fst x), snd (fst x), snd x)) by (intros [[? ?] ?]; reflexivity).
  exists (change h3 (s_files (h_s h3)) [] [] [] default_tol 0%Z). split.
  - eapply history_run with (e := ex_env) (test := measures ($"b")) (argv := compare_args) (h := h2) (r := Ok 1%Z).
    + eapply history_run with (e := ex_env) (test := measures ($"a")) (argv := [$"prog"; $"-O"; $"b.xml"]) (h := new_object (fun _ => None) no_heap) (r := Ok 0%Z); [exact (history_new xml no_heap (fun _ => None) [] [] [] default_tol 0%Z)|exact xml_ex| |left; eauto].
      destruct E1 as [E1 E1']. change (h_Main ex_env _ _ _) with r1. rewrite (T r1), E1, E1'. reflexivity.
    + exact xml_ex.
    + destruct E2 as [E2 E2']. change (h_Main ex_env _ _ _) with r2. rewrite (T r2), E2, E2'. reflexivity.
    + left. eauto.
  - vm_compute. discriminate.
Qed.

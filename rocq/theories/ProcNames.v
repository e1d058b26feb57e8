(** Which files a run accesses, in terms of its command line, its test and the baseline. *)
From Coq Require Import Floats.SpecFloat Permutation.
From Verif Require Import Base Str Dec PathModel PathFacts MeasModel DiffModel VisitModel XmlModel ReadModel ReadFacts RegModel RegStart ArgFacts LimitProps ProcModel ProcFacts.

(** the test may write, or measure, the file at [path] *)
Fixpoint may_write (p : prog) (path : str) : Prop :=
  match p with
  | Return _ | Raise _ => False
  | Call _ k => exists r, may_write (k r) path
  | SetRelativeTolerance _ k | SetExpectedReturn _ k => may_write k path
  | WriteFile q _ k => path = q \/ may_write k path
  end.
Fixpoint may_measure (p : prog) (path : str) : Prop :=
  match p with
  | Return _ | Raise _ => False
  | Call c k => file_of c = Some path \/ exists r, may_measure (k r) path
  | SetRelativeTolerance _ k | SetExpectedReturn _ k | WriteFile _ _ k => may_measure k path
  end.
(** the option [o] with the parameter [v] is on the command line *)
Definition gives (cmd : list str) (o v : str) : Prop := exists l r, cmd = l ++ o :: v :: r.
(** what the test may get of it *)
Definition rest_of (cmd rest : list str) : Prop := exists l, cmd = l ++ rest.

Section Names.
(** [dirs]: directories searched first without being named; [mw], [mm]: what the test may write or measure, from its arguments *)
Variables (e : env) (dirs : list str) (mw mm : list str -> str -> Prop) (a0 : str) (cmd : list str) (f0 : store).
(** a directory in which files are searched *)
Definition searched (d : str) : Prop := gives cmd ($"-P") d \/ In d dirs.
(** the object [k] may be the baseline *)
Definition baseline_at (k : str) : Prop := exists v, gives cmd ($"-I") v /\
  (slot e v = Some k \/ exists d p, searched d /\ Append d v = Ok p /\ slot e p = Some k).
(** the baseline records the file [g] *)
Definition records (g : mf) : Prop := exists k r w b l, baseline_at k /\ f0 k = Some (FFile r w b) /\ ReadXMLInput (e_asserts e) (e_ext e) b = Ok l /\ In (MF g) l.
Definition writes (k : str) : Prop :=
  (exists v, gives cmd ($"-O") v /\ slot e v = Some k) \/ exists rest path, rest_of cmd rest /\ mw (a0 :: rest) path /\ slot e path = Some k.
Definition reads (k : str) : Prop :=
  (exists o v, In o [$"-O"; $"-I"; $"-P"] /\ gives cmd o v /\ slot e v = Some k) \/ baseline_at k \/
  (exists v rest path, gives cmd ($"-I") v /\ rest_of cmd rest /\ mm (a0 :: rest) path /\ slot e path = Some k) \/
  exists g, records g /\ (slot e (ffile g) = Some k \/ exists d p, searched d /\ Append d (Tail (ffile g)) = Ok p /\ slot e p = Some k).

Definition K (x : str * bool) : Prop := (reads (fst x) \/ writes (fst x)) /\ (snd x = true -> writes (fst x)).
Definition tri {A} (Pre : rst -> store -> Prop) (pm : P A) (Q : A -> rst -> store -> Prop) (X : rst -> store -> Prop) : Prop := forall s f, Pre s f ->
  Forall K (touches (pm s) f) /\ match alone (pm s) f with (f', (s', Ok a)) => Q a s' f' | (f', (s', _)) => X s' f' end.
Implicit Types Pre X : rst -> store -> Prop.
Lemma tri_bind {A B} Pre (pm : P A) Q X (pk : A -> P B) R : tri Pre pm Q X -> (forall a, tri (Q a) (pk a) R X) -> tri Pre (pbind pm pk) R X.
Proof.
  intros Hm Hk s f H. destruct (Hm s f H) as [T E]. unfold pbind. rewrite touches_then, alone_then. destruct (alone (pm s) f) as [f' [s' r]]. cbn [fst snd].
  destruct r as [a| | | |]; try (cbn [touches alone]; rewrite app_nil_r; split; assumption). destruct (Hk a s' f' E) as [T' E']. split; [apply Forall_app; split; assumption|exact E'].
Qed.
Lemma tri_ret {A} Pre (a : A) (Q : A -> rst -> store -> Prop) X : (forall s f, Pre s f -> Q a s f) -> tri Pre (pret a) Q X.
Proof. intros H s f HP. split; [constructor|apply H; exact HP]. Qed.
Lemma tri_lift {A} Pre (r : res A) (Q : A -> rst -> store -> Prop) X : (forall s f, Pre s f -> match r with Ok a => Q a s f | _ => X s f end) -> tri Pre (plift r) Q X.
Proof. intros H s f HP. split; [constructor|]. cbn [plift alone]. specialize (H s f HP). destruct r; exact H. Qed.
Lemma tri_pure {A} Pre (m : M A) (Q : A -> rst -> store -> Prop) X : (forall s f, Pre s f -> match m s with (s', Ok a) => Q a s' f | (s', _) => X s' f end) -> tri Pre (pure m) Q X.
Proof. intros H s f HP. unfold pure. specialize (H s f HP). destruct (m s) as [s' r]. split; [constructor|]. cbn [alone]. destruct r; exact H. Qed.
Lemma tri_pre {A} (Pre Pre' : rst -> store -> Prop) (pm : P A) Q X : (forall s f, Pre s f -> Pre' s f) -> tri Pre' pm Q X -> tri Pre pm Q X.
Proof. intros H T s f HP. apply T, H, HP. Qed.
Lemma tri_post {A} Pre (pm : P A) (Q Q' : A -> rst -> store -> Prop) (X X' : rst -> store -> Prop) : tri Pre pm Q X -> (forall a s f, Q a s f -> Q' a s f) -> (forall s f, X s f -> X' s f) -> tri Pre pm Q' X'.
Proof. intros T HQ HX s f HP. destruct (T s f HP) as [T1 E]. split; [exact T1|]. destruct (alone (pm s) f) as [f' [s' [a| | | |]]]; auto. Qed.
Lemma tri_case {A} Pre (pm : P A) Q X (C : Prop) : C \/ ~ C -> (C -> tri Pre pm Q X) -> (~ C -> tri Pre pm Q X) -> tri Pre pm Q X.
Proof. tauto. Qed.
(** looking at one object *)
Lemma tri_look Pre path X : (forall s f k, Pre s f -> slot e path = Some k -> reads k) -> tri Pre (look e path) (fun _ => Pre) X.
Proof.
  intros H s f HP. unfold look. destruct (slot e path) as [k|] eqn:Ek; cbn [touches alone]; [|split; [constructor|exact HP]].
  split; [|unfold accessed; exact HP]. constructor; [|constructor]. split; cbn [fst snd]; [left; exact (H s f k HP eq_refl)|discriminate].
Qed.
Lemma tri_is_file Pre path X : (forall s f k, Pre s f -> slot e path = Some k -> reads k) -> tri Pre (p_is_file e path) (fun _ => Pre) X.
Proof. intros H. eapply tri_bind; [apply tri_look, H|]. intros o. apply tri_ret. auto. Qed.
Lemma tri_is_directory Pre path X : (forall s f k, Pre s f -> slot e path = Some k -> reads k) -> tri Pre (p_is_directory e path) (fun _ => Pre) X.
Proof. intros H. eapply tri_bind; [apply tri_look, H|]. intros o. apply tri_ret. auto. Qed.
Lemma tri_is_readable Pre path X : (forall s f k, Pre s f -> slot e path = Some k -> reads k) -> tri Pre (p_is_readable e path) (fun _ => Pre) X.
Proof. intros H. eapply tri_bind; [apply tri_look, H|]. intros o. apply tri_ret. auto. Qed.
Lemma tri_is_writable Pre path X : (forall s f k, Pre s f -> slot e path = Some k -> reads k) -> tri Pre (p_is_writable e path) (fun _ => Pre) X.
Proof. intros H. eapply tri_bind; [apply tri_look, H|]. intros o. apply tri_ret. auto. Qed.
Lemma tri_can_open Pre path X : (forall s f k, Pre s f -> slot e path = Some k -> reads k) -> tri Pre (p_can_open e path) (fun _ => Pre) X.
Proof. intros H. eapply tri_bind; [apply tri_look, H|]. intros o. apply tri_ret. auto. Qed.
Lemma tri_source Pre path X : (forall s f k, Pre s f -> slot e path = Some k -> reads k) -> tri Pre (p_source e path) (fun _ => Pre) X.
Proof. intros H. eapply tri_bind; [apply tri_look, H|]. intros o. apply tri_ret. auto. Qed.
(** searching: every directory is looked at; what is found is one of them *)
Definition candidate (l : list str) (name p : str) : Prop := exists d, In d l /\ Append d name = Ok p.
Lemma tri_search_loop Pre (X : rst -> store -> Prop) name : (forall s f, Pre s f -> X s f) -> forall l full (Good : str -> Prop), Good full ->
  (forall d p, In d l -> Append d name = Ok p -> Good p /\ forall k, slot e p = Some k -> reads k) ->
  tri Pre (p_search_loop e l name full) (fun p s f => Pre s f /\ Good p) X.
Proof.
  intros HX. induction l as [|d l IH]; intros full Good G H; cbn [p_search_loop]; [apply tri_ret; auto|].
  apply tri_bind with (Q := fun p s f => Pre s f /\ Append d name = Ok p).
  - apply tri_lift. intros s f HP. destruct (Append d name); auto.
  - intros p. apply tri_case with (C := Append d name = Ok p); [destruct (Append d name) as [q| | | |]; [destruct (eqs_spec q p) as [->|N]; [left; reflexivity|right; congruence]|right; discriminate..]| |intros N s f [_ E]; elim (N E)].
    intros Ea. destruct (H d p (or_introl eq_refl) Ea) as [Gp Rp]. apply tri_bind with (Q := fun _ => Pre).
    + eapply tri_pre; [|apply tri_is_file with (Pre := Pre); intros s f k _; apply Rp]. tauto.
    + intros [|]; [apply tri_ret; auto|]. apply IH; [exact Gp|]. intros d' p' I. apply H. right. exact I.
Qed.
(** what is known of the object during a run *)
Record J (s : rst) : Prop := {
  j_path : Forall searched (s_path s);
  j_in : s_in s <> [] -> gives cmd ($"-I") (s_in s);
  j_out : s_out s <> [] -> gives cmd ($"-O") (s_out s);
  j_os : forall k, s_os s = Some k -> writes k;
  j_is : forall k, s_is s = Some k -> baseline_at k;
  j_input : forall g, In (MF g) (s_input s) -> records g }.
Definition Jf (s : rst) (_ : store) : Prop := J s.
(** a computation that keeps what is known *)
Definition keeps {A} (pm : P A) : Prop := tri Jf pm (fun _ => Jf) Jf.
Lemma keeps_bind {A B} (pm : P A) (pk : A -> P B) : keeps pm -> (forall a, keeps (pk a)) -> keeps (pbind pm pk).
Proof. intros H Hk. eapply tri_bind; [exact H|exact Hk]. Qed.
Lemma keeps_ret {A} (a : A) : keeps (pret a).
Proof. apply tri_ret. auto. Qed.
Lemma keeps_lift {A} (r : res A) : keeps (plift r).
Proof. apply tri_lift. intros s f H. destruct r; exact H. Qed.
Lemma keeps_modify (h : rst -> rst) : (forall s, J s -> J (h s)) -> keeps (pure (modify h)).
Proof. intros H. apply tri_pure. intros s f HJ. apply H. exact HJ. Qed.
Lemma keeps_gets {A} (h : rst -> A) : keeps (pure (gets h)).
Proof. apply tri_pure. intros s f HJ. exact HJ. Qed.
Lemma keeps_put text : keeps (p_put text).
Proof.
  intros s f H. unfold p_put. destruct (s_os s) as [k|] eqn:Eo; cbn [touches alone]; [|split; [constructor|destruct H; constructor; assumption]].
  pose proof (j_os s H k Eo) as W. split; [|exact H]. constructor; [|constructor]. split; cbn [fst snd]; tauto.
Qed.
Lemma keeps_put_meas m : keeps (p_put_meas m).
Proof. apply keeps_bind; [apply keeps_lift|]. intros t. apply keeps_put. Qed.
Lemma baseline_reads k : baseline_at k -> reads k.
Proof. intros H. right. left. exact H. Qed.
Lemma slot_baseline k v : gives cmd ($"-I") v -> slot e v = Some k -> baseline_at k.
Proof. intros G E. exists v. auto. Qed.
Definition named_baseline (q : str) : Prop := forall k, slot e q = Some k -> baseline_at k.
(** searching for the baseline *)
Lemma tri_search_base name : tri (fun s _ => J s /\ s_in s = name /\ name <> []) (p_search e name) (fun p s _ => J s /\ s_in s = name /\ name <> [] /\ (p = [] \/ named_baseline p)) Jf.
Proof.
  intros s f (H & En & N). unfold p_search, pbind. cbn [pure gets pthen].
  pose proof (tri_search_loop (fun s' _ => J s' /\ s_in s' = name /\ name <> []) Jf name) as T. specialize (T (fun s' f' H' => proj1 H')).
  specialize (T (s_path s) [] (fun p => p = [] \/ named_baseline p) (or_introl eq_refl)).
  assert (B : forall d p, In d (s_path s) -> Append d name = Ok p -> named_baseline p).
  { intros d p Hd Ha k Ek. exists name. split; [rewrite <- En; apply (j_in s H); rewrite En; exact N|]. right. exists d, p. split; [exact (proj1 (Forall_forall _ _) (j_path s H) d Hd)|auto]. }
  specialize (T (fun d p Hd Ha => conj (or_intror (B d p Hd Ha)) (fun k Ek => baseline_reads k (B d p Hd Ha k Ek)))).
  destruct (T s f (conj H (conj En N))) as [T1 T2]. split; [exact T1|]. destruct (alone (p_search_loop e (s_path s) name [] s) f) as [f' [s' [p| | | |]]]; try exact T2. tauto.
Qed.
Lemma named_choice s name p : J s -> s_in s = name -> name <> [] -> p = [] \/ named_baseline p -> named_baseline (match p with [] => name | _ => p end).
Proof. intros H E N [->|B]; [|destruct p; [|exact B]]; intros k Ek; (apply (slot_baseline k name); [rewrite <- E; apply (j_in s H); rewrite E; exact N|exact Ek]). Qed.
(** the mode; a comparison only with a baseline *)
Definition has_baseline : Prop := exists v, gives cmd ($"-I") v.
Lemma tri_mode : tri Jf (p_compare_mode e) (fun cm s _ => J s /\ (cm = true -> has_baseline)) Jf.
Proof.
  intros s f H. unfold p_compare_mode. destruct (s_is s) as [k|] eqn:Ei; [cbn [touches alone]; split; [constructor|]; split; [exact H|]; intros _; destruct (j_is s H k Ei) as (v & G & _); exists v; exact G|].
  destruct (s_in s) as [|c name] eqn:En; [cbn [touches alone]; split; [constructor|]; split; [exact H|discriminate]|].
  assert (N : c :: name <> []) by discriminate. set (nm := c :: name) in *. clearbody nm.
  assert (HB : has_baseline) by (exists nm; rewrite <- En; apply (j_in s H); rewrite En; exact N).
  revert s f H Ei En. cut (tri (fun s _ => J s /\ s_in s = nm /\ nm <> []) (p <+ p_search e nm ;; let q := match p with [] => nm | _ => p end in a <+ p_is_file e q ;; if (a : bool) then p_is_readable e q else pret false) (fun cm s _ => J s /\ (cm = true -> has_baseline)) Jf).
  { intros T s f H Ei En. exact (T s f (conj H (conj En N))). }
  eapply tri_bind; [apply tri_search_base|]. intros p. cbv zeta. set (q := match p with [] => nm | _ => p end).
  assert (R : forall s (f : store) k, (J s /\ s_in s = nm /\ nm <> [] /\ (p = [] \/ named_baseline p)) -> slot e q = Some k -> reads k).
  { intros s f k (H1 & H2 & H3 & H4) Ek. apply baseline_reads. exact (named_choice s nm p H1 H2 H3 H4 k Ek). }
  eapply tri_bind; [apply tri_is_file; exact R|]. intros [|].
  - eapply tri_post; [apply tri_is_readable; exact R| |]; [intros a s f (H1 & _); auto|intros s f H1; exact H1].
  - apply tri_ret. intros s f (H1 & _). auto.
Qed.
Lemma keeps_mode : keeps (p_compare_mode e).
Proof. eapply tri_post; [apply tri_mode| |auto]. intros a s f H. exact (proj1 H). Qed.
(** up to reading the baseline a file is as at the start, or emptied *)
Definition fresh (f : store) : Prop := forall k, f k = f0 k \/ exists r w, f k = Some (FFile r w []).
Definition Jfresh (s : rst) (f : store) : Prop := J s /\ fresh f.
Lemma tri_frame {A} (R : store -> Prop) Pre (pm : P A) Q X : tri Pre pm Q X -> (forall s f, fst (alone (pm s) f) = f) -> tri (fun s f => Pre s f /\ R f) pm (fun a s f => Q a s f /\ R f) X.
Proof.
  intros T F s f [HP HR]. destruct (T s f HP) as [T1 T2]. split; [exact T1|]. specialize (F s f). destruct (alone (pm s) f) as [f' [s' [a| | | |]]]; try exact T2. cbn [fst] in F. subst f'. auto.
Qed.
Lemma upd_fresh f k r : fresh f -> fresh (upd f k (Some (FFile r true []))).
Proof. intros H k'. unfold upd. destruct (eqs k' k); [right; eauto|apply H]. Qed.
Lemma J_os s v : J s -> (forall k, v = Some k -> writes k) -> J (set_os s v).
Proof. intros H E. destruct H. constructor; assumption. Qed.
Lemma tri_open_output : tri Jfresh (p_open_output e) (fun _ => Jfresh) Jf.
Proof.
  intros s f [H F]. unfold p_open_output. destruct (s_out s) as [|c out] eqn:En; [split; [constructor|split; assumption]|].
  assert (G : gives cmd ($"-O") (c :: out)) by (rewrite <- En; apply (j_out s H); rewrite En; discriminate). set (nm := c :: out) in *. clearbody nm.
  destruct (slot e nm) as [k|] eqn:Ek; cbn [touches alone]; [|split; [constructor|apply J_os; [exact H|discriminate]]].
  assert (W : writes k) by (left; exists nm; auto). assert (Hs : J (set_os s (Some k))) by (apply J_os; [exact H|intros k' Ek'; injection Ek' as <-; exact W]). assert (Hn : J (set_os s None)) by (apply J_os; [exact H|discriminate]).
  assert (KK : forall b, K (k, b)) by (intros b; split; cbn [fst snd]; tauto). unfold accessed.
  destruct (f k) as [[r w b|r w x]|]; [destruct w| |]; cbn [touches alone]; try (split; [constructor; [apply KK|constructor]|]); try exact Hn; try (split; [exact Hs|apply upd_fresh, F]).
  destruct (e_cancreate e (cstr nm)); cbn [touches alone]; split; try exact Hn; try (constructor; [apply KK|constructor]). split; [exact Hs|apply upd_fresh, F].
Qed.
Lemma J_is s v : J s -> (forall k, v = Some k -> baseline_at k) -> J (set_is s v).
Proof. intros H E. destruct H. constructor; assumption. Qed.
Lemma tri_open_input : tri Jf (p_open_input e) (fun _ => Jf) Jf.
Proof.
  intros s f H. unfold p_open_input. destruct (s_in s) as [|c name] eqn:En; [split; [constructor|exact H]|]. assert (N : c :: name <> []) by discriminate. set (nm := c :: name) in *. clearbody nm.
  revert s f H En. match goal with |- forall s f, Jf s f -> _ -> Forall K (touches (?t s) f) /\ _ => cut (tri (fun s _ => J s /\ s_in s = nm /\ nm <> []) t (fun _ => Jf) Jf) end.
  { intros T s f H En. exact (T s f (conj H (conj En N))). }
  eapply tri_bind; [apply tri_search_base|]. intros p. cbv zeta. set (q := match p with [] => nm | _ => p end).
  apply tri_bind with (Q := fun _ s _ => J s /\ s_in s = nm /\ nm <> [] /\ (p = [] \/ named_baseline p)).
  - apply tri_can_open. intros s f k (H1 & H2 & H3 & H4) Ek. apply baseline_reads. exact (named_choice s nm p H1 H2 H3 H4 k Ek).
  - intros [|].
    + apply tri_pure. intros s f (H1 & H2 & H3 & H4). apply J_is; [exact H1|]. exact (named_choice s nm p H1 H2 H3 H4).
    + apply tri_bind with (Q := fun _ => Jf); [apply tri_pure; intros s f (H1 & _); apply J_is; [exact H1|discriminate]|]. intros _. apply tri_lift. auto.
Qed.
Lemma open_input_files s f : fst (alone (p_open_input e s) f) = f.
Proof.
  unfold p_open_input. destruct (s_in s) as [|c l]; [reflexivity|]. unfold pbind. rewrite alone_then, search_alone. cbn [fst snd].
  destruct (search e (set_files s f) (c :: l)) as [p| | | |]; try reflexivity. cbv zeta. rewrite alone_then, can_open_alone. cbn [fst snd]. destruct (can_open e f _); reflexivity.
Qed.
Lemma mode_files s f : fst (alone (p_compare_mode e s) f) = f.
Proof. rewrite (adequate_mode e s f). reflexivity. Qed.
Lemma read_nothing : ReadXMLInput (e_asserts e) (e_ext e) [] = Throw ExnRuntime.
Proof. rewrite ReadFacts.read_spec; destruct (e_asserts e); reflexivity. Qed.
Lemma tri_read_input : tri Jfresh (p_read_input e) (fun _ => Jf) Jf.
Proof.
  intros s f [H F]. unfold p_read_input. destruct (s_is s) as [k|] eqn:Ei; cbn [touches alone accessed]; [|split; [constructor|exact H]].
  pose proof (j_is s H k Ei) as B. assert (KK : K (k, false)) by (split; cbn [fst snd]; [left; apply baseline_reads, B|discriminate]).
  destruct (F k) as [E|(r & w & E)]; rewrite E.
  - destruct (f0 k) as [[r w b|r w x]|] eqn:E0; cbn [touches alone]; try (split; [constructor; [exact KK|constructor]|exact H]).
    destruct (ReadXMLInput (e_asserts e) (e_ext e) b) as [l| | | |] eqn:El; cbn [touches alone]; (split; [constructor; [exact KK|constructor]|]); try exact H.
    destruct H. constructor; try assumption. cbn. intros g Hg. exists k, r, w, b, l. auto.
  - rewrite read_nothing. cbn [touches alone]. split; [constructor; [exact KK|constructor]|exact H].
Qed.
Lemma tri_Begin : tri Jfresh (p_Begin e) (fun _ => Jf) Jf.
Proof.
  eapply tri_bind; [apply tri_open_output|]. intros u0.
  eapply tri_bind with (Q := fun _ => Jfresh); [apply (tri_frame fresh Jf (p_open_input e) (fun _ => Jf) Jf tri_open_input open_input_files)|]. intros u1.
  eapply tri_bind with (Q := fun _ => Jfresh); [apply (tri_frame fresh Jf (p_compare_mode e) (fun _ => Jf) Jf keeps_mode mode_files)|]. intros [|]; [apply tri_read_input|].
  eapply tri_pre; [|apply keeps_put]. intros s f H. exact (proj1 H).
Qed.
Lemma keeps_End : keeps (p_End e).
Proof.
  apply keeps_bind; [apply keeps_mode|]. intros cm. apply keeps_bind; [destruct cm; [apply keeps_modify; intros s H; destruct H; constructor; try assumption; intros g []|apply keeps_put]|].
  intros _. apply keeps_modify. intros s H. destruct H; constructor; try assumption; discriminate.
Qed.
Lemma keeps_Unmatched m : keeps (p_Unmatched m).
Proof. apply keeps_bind; [apply keeps_modify; intros s H; destruct H; constructor; assumption|]. intros _. apply keeps_put_meas. Qed.
Lemma keeps_Difference m b : keeps (p_Difference e m b).
Proof. apply keeps_bind; [apply keeps_modify; intros s H; destruct H; constructor; assumption|]. intros _. apply keeps_bind; [apply keeps_lift|]. intros t. apply keeps_put. Qed.
(** files of measurements that may be read *)
Definition loadable (m : meas) : Prop := match m with MF g => forall k, slot e (ffile g) = Some k -> reads k | MD _ => True end.
Lemma slot_cstr q : slot e (cstr q) = slot e q.
Proof. unfold slot. rewrite (cstr_free (cstr q) (cstr_is_free q)). reflexivity. Qed.
Lemma keeps_load m : loadable m -> keeps (p_load e m).
Proof. intros L. destruct m as [d|g]; [apply keeps_ret|]. apply tri_source. intros s f k _ Ek. rewrite slot_cstr in Ek. exact (L k Ek). Qed.
Lemma recorded_loadable g : records g -> loadable (MF g).
Proof. intros R k Ek. right. right. right. exists g. auto. Qed.
Lemma tri_locate b m : (forall g, b = MF g -> records g) -> tri Jf (p_locate e b m) (fun b' s _ => J s /\ loadable b') Jf.
Proof.
  intros Hb. assert (Lb : loadable b) by (destruct b as [d|g]; [exact I|apply recorded_loadable, Hb; reflexivity]).
  destruct b as [d|g]; [apply tri_ret; intros s f H; split; [exact H|exact I]|]. destruct m as [d|g']; [apply tri_ret; intros s f H; split; [exact H|exact Lb]|]. cbn [p_locate].
  intros s f H. unfold p_search.
  apply tri_bind with (pm := l <+ pure (gets s_path) ;; p_search_loop e l (Tail (ffile g)) []) (Pre := Jf)
    (Q := fun p s _ => J s /\ (p = [] \/ forall k, slot e p = Some k -> reads k)) (X := Jf); [| |exact H].
  - apply tri_bind with (Q := fun l s _ => J s /\ Forall searched l); [apply tri_pure; intros s1 f1 H1; split; [exact H1|exact (j_path s1 H1)]|].
    intros l s1 f1 [H1 Fl].
    assert (R : forall d p, In d l -> Append d (Tail (ffile g)) = Ok p -> forall k, slot e p = Some k -> reads k).
    { intros d p Hd Ha k Ek. right. right. right. exists g. split; [apply Hb; reflexivity|]. right. exists d, p. split; [exact (proj1 (Forall_forall _ _) Fl d Hd)|auto]. }
    destruct (tri_search_loop Jf Jf (Tail (ffile g)) (fun _ _ H => H) l [] (fun p => p = [] \/ forall k, slot e p = Some k -> reads k) (or_introl eq_refl)
      (fun d p Hd Ha => conj (or_intror (R d p Hd Ha)) (R d p Hd Ha)) s1 f1 H1) as [T1 T2]. split; [exact T1|exact T2].
  - intros p. apply tri_ret. intros s1 f1 [H1 [->|R]]; (split; [exact H1|]); [exact Lb|]. destruct p; [exact Lb|]. exact R.
Qed.
Lemma keeps_Compare m t : loadable m -> keeps (p_Compare e m t).
Proof.
  intros Lm. apply tri_bind with (Q := fun inp s _ => J s /\ s_input s = inp); [apply tri_pure; intros s f H; split; [exact H|reflexivity]|].
  intros [|b rest]; [eapply tri_pre; [|apply keeps_bind; [apply keeps_Unmatched|intros _; apply keeps_ret]]; intros s f H; exact (proj1 H)|].
  apply tri_bind with (Q := fun _ s _ => J s /\ forall g, b = MF g -> records g).
  - apply tri_pure. intros s f [H Ei]. split.
    + destruct H. constructor; try assumption. cbn. intros g Hg. apply j_input0. rewrite Ei. right. exact Hg.
    + intros g ->. apply (j_input s H). rewrite Ei. left. reflexivity.
  - intros _. destruct (eqs (mname b) (mname m) && eqs (mtype b) (mtype m)).
    + intros s f [H Hb]. revert s f H. apply tri_bind with (Q := fun b' s _ => J s /\ loadable b') (Pre := Jf); [apply tri_locate; exact Hb|].
      intros b' s f [H Lb']. revert s f H. apply keeps_bind; [apply keeps_load, Lb'|]. intros sb. apply keeps_bind; [apply keeps_load, Lm|]. intros st.
      apply keeps_bind; [apply keeps_gets|]. intros [[b1 m1] v]. apply keeps_bind; [apply keeps_lift|]. intros [|]; [apply keeps_ret|]. apply keeps_bind; [apply keeps_Difference|]. intros _. apply keeps_ret.
    + eapply tri_pre; [|apply keeps_bind; [apply keeps_Unmatched|intros _; apply keeps_ret]]. intros s f H. exact (proj1 H).
Qed.
Lemma keeps_Measure c : (forall path, file_of c = Some path -> forall k, has_baseline -> slot e path = Some k -> reads k) -> keeps (p_Measure e c).
Proof.
  intros Hc. eapply tri_bind; [apply tri_mode|]. intros [|].
  - intros s f [H B]. specialize (B eq_refl). revert s f H. apply keeps_Compare. destruct c; cbn; try exact I; intros k Ek; (eapply Hc; [reflexivity|exact B|exact Ek]).
  - eapply tri_pre; [|apply keeps_bind; [apply keeps_put_meas|intros _; apply keeps_ret]]. intros s f H. exact (proj1 H).
Qed.
Lemma keeps_write path b : (forall k, slot e path = Some k -> writes k) -> keeps (p_write_file e path b).
Proof.
  intros W s f H. unfold p_write_file. destruct (slot e path) as [k|] eqn:Ek; cbn [touches alone]; [|split; [constructor|exact H]].
  specialize (W k eq_refl). split; [constructor; [split; cbn [fst snd]; tauto|constructor]|exact H].
Qed.
Lemma keeps_run p : (forall path k, may_write p path -> slot e path = Some k -> writes k) -> (forall path k, may_measure p path -> has_baseline -> slot e path = Some k -> reads k) -> keeps (p_run e p).
Proof.
  induction p as [z|x|c k IH|t k IH|z k IH|path b k IH]; intros W M; cbn [p_run].
  - apply keeps_ret.
  - apply keeps_lift.
  - apply keeps_bind; [apply keeps_Measure; intros path Hp k' B Ek; apply (M path k' (or_introl Hp) B Ek)|]. intros r. apply IH; intros path k' H; [apply W; exists r; exact H|apply M; right; exists r; exact H].
  - apply keeps_bind; [apply keeps_modify; intros s H; destruct H; constructor; assumption|]. intros _. apply IH; assumption.
  - apply keeps_bind; [apply keeps_modify; intros s H; destruct H; constructor; assumption|]. intros _. apply IH; assumption.
  - apply keeps_bind; [apply keeps_write; intros k' Ek; exact (W path k' (or_introl eq_refl) Ek)|]. intros _. apply IH; [intros path' k' H; apply W; right; exact H|exact M].
Qed.
(** the command line *)
Definition Jstart (s : rst) (f : store) : Prop := J s /\ f = f0.
Definition parsed (x : nat * list str * option str * option str) : Prop := let '(argc, argv, inf, outf) := x in
  (exists rest, rest_of cmd rest /\ firstn argc argv = a0 :: rest) /\ (forall v, inf = Some v -> gives cmd ($"-I") v) /\ (forall v, outf = Some v -> gives cmd ($"-O") v).
Lemma given l o v more : cmd = l ++ o :: v :: more -> gives cmd o v.
Proof. intros E. exists l, more. exact E. Qed.
Lemma tri_parse : forall fuel l more tail inf outf, cmd = l ++ more -> (forall v, inf = Some v -> gives cmd ($"-I") v) -> (forall v, outf = Some v -> gives cmd ($"-O") v) ->
  tri Jstart (p_parse_loop e fuel (1 + length more) (a0 :: more ++ tail) inf outf) (fun x s f => Jstart s f /\ parsed x) Jf.
Proof.
  induction fuel as [|fuel IH]; intros l more tail inf outf Ec Hi Ho s f H; [split; [constructor|exact (proj1 H)]|]. cbn [p_parse_loop].
  assert (Pd : parsed (1 + length more, a0 :: more ++ tail, inf, outf)).
  { split; [|split; assumption]. exists more. split; [exists l; exact Ec|]. cbn [Nat.add firstn]. f_equal. rewrite firstn_app, firstn_all, Nat.sub_diag, app_nil_r. reflexivity. }
  destruct more as [|k more]; [split; [constructor|split; assumption]|].
  change (1 + length (k :: more) <=? 1) with false. cbv iota. change (rd 1 (a0 :: (k :: more) ++ tail)) with (Ok k).
  revert s f H. match goal with |- forall s f, Jstart s f -> Forall K (touches (?t s) f) /\ _ => change (tri Jstart t (fun x s f => Jstart s f /\ parsed x) Jf) end.
  apply tri_bind with (Q := fun a s f => Jstart s f /\ a = k); [apply tri_lift; auto|]. intros a s f [H ->]. revert s f H.
  match goal with |- forall s f, Jstart s f -> Forall K (touches (?t s) f) /\ _ => change (tri Jstart t (fun x s f => Jstart s f /\ parsed x) Jf) end.
  cbv zeta.
  destruct more as [|v more].
  - (* a lone option *)
    assert (G : tri Jstart (p_parse_loop e fuel (1 + length [k]) (a0 :: [k] ++ tail) inf outf) (fun x s f => Jstart s f /\ parsed x) Jf) by (apply (IH l [k] tail inf outf Ec Hi Ho)).
    change (2 <? 1 + length [k]) with false. cbv iota. destruct (eqs k ($"-O")); [exact G|]. destruct (eqs k ($"-I")); [exact G|]. destruct (eqs k ($"-R")); [exact G|]. destruct (eqs k ($"-P")); [exact G|].
    apply tri_ret. intros s f H. split; assumption.
  - assert (L2 : (2 <? 1 + length (k :: v :: more)) = true) by reflexivity. rewrite L2. cbv iota. change (rd 2 (a0 :: (k :: v :: more) ++ tail)) with (Ok v).
    destruct (swap_loop_spec more [a0] k v tail) as (p & q & E & _). cbn [length app] in E.
    assert (L3 : 1 + length (k :: v :: more) - 3 = length more) by (cbn [length]; lia). rewrite L3.
    change (a0 :: (k :: v :: more) ++ tail) with (a0 :: k :: v :: more ++ tail). rewrite E.
    assert (L4 : 1 + length (k :: v :: more) - 2 = 1 + length more) by (cbn [length]; lia). rewrite L4.
    pose proof (given l k v more Ec) as Gk.
    assert (G : forall inf outf, (forall v, inf = Some v -> gives cmd ($"-I") v) -> (forall v, outf = Some v -> gives cmd ($"-O") v) ->
      tri Jstart (argv' <+ plift (Ok (a0 :: more ++ p :: q :: tail)) ;; p_parse_loop e fuel (1 + length more) argv' inf outf) (fun x s f => Jstart s f /\ parsed x) Jf).
    { intros inf' outf' Hi' Ho'. apply tri_bind with (Q := fun a s f => Jstart s f /\ a = a0 :: more ++ p :: q :: tail); [apply tri_lift; auto|].
      intros a s f [H ->]. revert s f H. apply (IH (l ++ [k; v]) more (p :: q :: tail) inf' outf'); [rewrite Ec, <- app_assoc; reflexivity|assumption..]. }
    assert (R : In k [$"-O"; $"-I"; $"-P"] -> forall (s : rst) (f : store) k', Jstart s f -> slot e v = Some k' -> reads k').
    { intros Ik s f k' _ Ek. left. exists k, v. auto. }
    assert (JJ : forall s f, Jstart s f -> Jf s f) by (intros s f H; exact (proj1 H)).
    destruct (eqs_spec k ($"-O")) as [->|NO].
    { apply tri_bind with (Q := fun a s f => Jstart s f /\ a = v); [apply tri_lift; auto|]. intros a s f [H ->]. revert s f H.
      eapply tri_bind with (Q := fun _ => Jstart); [apply tri_is_file; apply R; left; reflexivity|]. intros there.
      eapply tri_bind with (Q := fun _ => Jstart); [destruct there; [apply tri_is_writable; apply R; left; reflexivity|apply tri_ret; auto]|]. intros ok.
      apply G; [exact Hi|]. destruct ok; intros v' Ev; [injection Ev as <-; exact Gk|discriminate]. }
    destruct (eqs_spec k ($"-I")) as [->|NI].
    { apply tri_bind with (Q := fun a s f => Jstart s f /\ a = v); [apply tri_lift; auto|]. intros a s f [H ->]. revert s f H.
      eapply tri_bind with (Q := fun _ => Jstart); [apply tri_is_file; apply R; right; left; reflexivity|]. intros there.
      eapply tri_bind with (Q := fun _ => Jstart); [destruct there; [apply tri_is_readable; apply R; right; left; reflexivity|apply tri_ret; auto]|]. intros [|]; [|apply tri_lift; exact JJ].
      apply G; [|exact Ho]. intros v' Ev; injection Ev as <-; exact Gk. }
    destruct (eqs_spec k ($"-R")) as [->|NR].
    { apply tri_bind with (Q := fun a s f => Jstart s f /\ a = v); [apply tri_lift; auto|]. intros a s f [H ->]. revert s f H.
      eapply tri_bind with (Q := fun _ => Jstart); [apply tri_pure; intros s f [H Ef]; split; [destruct H; constructor; assumption|exact Ef]|]. intros _. apply G; assumption. }
    destruct (eqs_spec k ($"-P")) as [->|NP].
    { apply tri_bind with (Q := fun a s f => Jstart s f /\ a = v); [apply tri_lift; auto|]. intros a s f [H ->]. revert s f H.
      eapply tri_bind with (Q := fun _ => Jstart); [apply tri_is_directory; apply R; right; right; left; reflexivity|]. intros there.
      eapply tri_bind with (Q := fun _ => Jstart); [destruct there; [apply tri_is_readable; apply R; right; right; left; reflexivity|apply tri_ret; auto]|]. intros [|]; [|apply tri_lift; exact JJ].
      apply tri_bind with (Q := fun a s f => Jstart s f /\ a = a0 :: more ++ p :: q :: tail); [apply tri_lift; auto|]. intros a s f [H ->]. revert s f H.
      eapply tri_bind with (Q := fun _ => Jstart); [apply tri_pure; intros s f [H Ef]; split; [destruct H; constructor; try assumption; constructor; [left; exact Gk|assumption]|exact Ef]|]. intros _.
      apply (IH (l ++ [$"-P"; v]) more (p :: q :: tail) inf outf); [rewrite Ec, <- app_assoc; reflexivity|assumption..]. }
    apply tri_ret. intros s f H. split; assumption.
Qed.
Lemma tri_body (body : list str -> P Z) : (forall rest, rest_of cmd rest -> keeps (body (a0 :: rest))) -> tri Jstart (p_main_body e body (a0 :: cmd)) (fun _ => Jf) Jf.
Proof.
  intros Kb. unfold p_main_body. apply tri_bind with (Q := fun r s f => Jstart s f /\ exists rest, rest_of cmd rest /\ firstn (fst r) (snd r) = a0 :: rest).
  - unfold p_Parse. apply tri_bind with (Q := fun x s f => Jstart s f /\ parsed x).
    + pose proof (tri_parse (S (length (a0 :: cmd))) [] cmd [] None None eq_refl) as T. rewrite app_nil_r in T. apply T; discriminate.
    + intros [[[argc argv] inf] outf] s f [H (R & Hi & Ho)]. revert s f H.
      apply tri_bind with (Q := fun _ => Jstart); [apply tri_pure; intros s f [H Ef]; split; [|exact Ef]; destruct inf as [v|]; [|exact H]; destruct H; constructor; try assumption; intros _; apply Hi; reflexivity|]. intros _.
      apply tri_bind with (Q := fun _ => Jstart); [apply tri_pure; intros s f [H Ef]; split; [|exact Ef]; destruct outf as [v|]; [|exact H]; destruct H; constructor; try assumption; intros _; apply Ho; reflexivity|]. intros _.
      apply tri_ret. intros s f H. split; [exact H|exact R].
  - intros [argc argv] s f [H (rest & R & E)]. cbn [fst snd] in E. rewrite E. revert s f H.
    apply tri_bind with (Q := fun _ => Jf); [eapply tri_pre; [|apply tri_Begin]; intros s f [H ->]; split; [exact H|intros k; left; reflexivity]|]. intros _.
    exact (Kb rest R).
Qed.
Lemma keeps_finish ret : keeps (p_finish e ret).
Proof.
  intros s f H. unfold p_finish. destruct (negb _); [split; [constructor|exact H]|]. revert s f H.
  match goal with |- forall s f, Jf s f -> Forall K (touches (?t s) f) /\ _ => change (keeps t) end. apply keeps_bind; [apply keeps_mode|]. intros cm. apply keeps_gets.
Qed.
Lemma process_files (body : list str -> P Z) : (forall rest, rest_of cmd rest -> keeps (body (a0 :: rest))) -> forall s, J s -> Forall K (touches (process_with e body (a0 :: cmd) s) f0).
Proof.
  intros Kb s H. unfold process_with. rewrite touches_then. set (s1 := set_unmatched s (s_unmatched s + 1)). assert (H1 : J s1) by (destruct H; constructor; assumption).
  destruct (tri_body body Kb s1 f0 (conj H1 eq_refl)) as [T1 T2]. apply Forall_app. split; [exact T1|]. destruct (alone (p_main_body e body (a0 :: cmd) s1) f0) as [f2 [s2 r]]. cbn [fst snd].
  destruct r as [ret| | | |]; try constructor.
  - rewrite touches_then. destruct (keeps_End s2 f2 T2) as [T3 T4]. apply Forall_app. split; [exact T3|]. destruct (alone (p_End e s2) f2) as [f3 [s3 r]]. cbn [fst snd].
    destruct r as [u| | | |]; try constructor; apply keeps_finish; [|exact T4]. destruct T4; constructor; assumption.
  - apply keeps_finish. exact T2.
Qed.
Lemma own_writes rest path k : rest_of cmd rest -> mw (a0 :: rest) path -> slot e path = Some k -> writes k.
Proof. intros R Hw Ek. right. exists rest, path. auto. Qed.
Lemma own_reads rest path k : rest_of cmd rest -> mm (a0 :: rest) path -> has_baseline -> slot e path = Some k -> reads k.
Proof. intros R Hm (v & G) Ek. right. right. left. exists v, rest, path. auto. Qed.
Lemma new_J s : s_path s = dirs -> s_in s = [] -> s_out s = [] -> s_os s = None -> s_is s = None -> s_input s = [] -> J s.
Proof.
  intros E1 E2 E3 E4 E5 E6. constructor; try congruence; [rewrite E1; apply Forall_forall; intros d Hd; right; exact Hd|]. rewrite E6. intros g [].
Qed.
End Names.

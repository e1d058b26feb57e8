(** C78: the memory behind measurement objects. *)
From Coq Require Import Floats.SpecFloat.
From Verif Require Import Base Str B64Model MeasModel BufModel BufSpec BufFacts BufActs BufGentle BufEqual BufFile BufSteps BufOps BufStep BufLife.

(** the program uses its own living objects, and pointers it got from GetContentAsData *)
Definition may (h : list (op * res answer)) (s : bst) (p : op) : Prop :=
  forallb (mine s) (handles p) = true /\ forall q, In q (uses p) -> exists o, In (GetData o, Ok (APtr q)) h.
Definition goes_on (r : res answer) : Prop := (exists a, r = Ok a) \/ (exists i, r = Throw i).

(** * Values *)
Lemma new_object e p s s' k : perform e p s = (s', Ok (AObj k)) -> k = length (b_objs s).
Proof.
  assert (N : forall A (g : A -> answer) (m : B A), bmap g m s = (s', Ok (AObj k)) -> exists x, g x = AObj k).
  { intros A g m. unfold bmap, bbind. destruct (m s) as [s1 [a|i| | |]]; try discriminate. unfold bret. intros E. injection E as _ E. exists a. exact E. }
  destruct p as [c|o|o o'|o|o t|o n|o b|o n|o n|o p n|o|o|q|o o'|f o|f g]; cbn [perform]; intros E;
    try (apply N in E; destruct E as (y & E); discriminate E); try (unfold attr, bbind, get in E; destruct (nth_error (b_objs s) o) as [[y|]|]; unfold BufModel.put, bret in E; discriminate E).
  - unfold bmap, bbind, create, bret in E. injection E as _ E. auto.
  - unfold bmap, b_Copy, bbind, get in E. destruct (nth_error (b_objs s) o) as [[y|]|]; try discriminate E. unfold create, bret in E. injection E as _ E. auto.
Qed.
Theorem C78_values : forall e h s p s' r, history e h s -> may h s p -> perform e p s = (s', r) ->
  does e p s s' r /\ (goes_on r -> forall k, mine s k = true -> ~ In k (handles p) -> mine s' k = true /\ value s' k = value s k).
Proof.
  intros e h s p s' r H [M U] E. pose proof (history_invariant _ _ _ H) as I. destruct (step e p s s' r (proj1 I) M (held_reach h s p I U) E) as [D S]. split; [exact D|].
  intros X k Mk N. destruct (S X) as (LB & LO & Z & _). destruct (mine_alive s k Mk) as (x & L & C).
  destruct (z_obj _ _ _ _ _ Z k x L) as [L' V]; [intros [Y|Y]; [contradiction|rewrite Y in E; pose proof (new_object e p s s' k E); pose proof (alive_lt _ _ _ L); lia]|]. split; [exact (alive_mine _ _ _ L' C)|].
  rewrite (value_alive _ _ _ L'), (value_alive _ _ _ L), V. reflexivity.
Qed.
Print Assumptions C78_values.

(** * Programs without base64 *)
(** [SetAttributeEncoding("base64")] does not occur, and SetContentAsData is given memory of the program, as much as it says *)
Definition ordinary (p : op) : Prop :=
  match p with SetEncoding _ n => n <> $"base64" | SetData _ (At _) _ => False | SetData _ (Own b) n => n <= length b | _ => True end.
Definition settled (s : bst) : Prop := forall k d, mine s k = true -> value s k = Some d -> denc d <> $"base64" /\ forall l, ddata d = Some l -> exists b, l = map Some b.
Lemma settled_ensure sc d : denc d <> $"base64" -> ensure_data sc d = (d, Ok tt).
Proof.
  intros E. unfold ensure_data. destruct (ddata d) eqn:D; [reflexivity|]. unfold UpdateContentAsData. cbv zeta. assert (Ed : DeleteContentAsData d = d) by (destruct d as [a1 a2 a3 a4 a5 a6 a7]; cbn [ddata] in D; rewrite D; reflexivity). rewrite Ed.
  destruct (eqs (denc d) ($"none")); [reflexivity|]. apply eqs_false in E. rewrite E. reflexivity.
Qed.
Definition all_known (d : dm) : Prop := denc d <> $"base64" /\ forall l, ddata d = Some l -> exists b, l = map Some b.
Lemma known_view d : all_known d -> exists b, data_view d = map Some b.
Proof. intros [_ K]. unfold data_view. destruct (ddata d) as [l|]; [exact (K l eq_refl)|eauto]. Qed.
Lemma memeq_known n : forall a b, n <= length a -> n <= length b -> exists v, memeq n (map Some a) (map Some b) = Ok v.
Proof.
  induction n as [|n IH]; intros a b Ha Hb; [destruct a, b; exists true; reflexivity|]. destruct a as [|x a]; cbn [length] in Ha; [lia|]. destruct b as [|y b]; cbn [length] in Hb; [lia|]. cbn [map memeq].
  destruct (IH a b) as [v Ev]; [lia|lia|]. unfold cell in *. rewrite Ev. cbn [bind]. eauto.
Qed.
Lemma known_equal sc d e : all_known d -> all_known e -> exists v, data_IsEqual sc d e = (d, e, Ok v).
Proof.
  intros Kd Ke. rewrite data_IsEqual_short. rewrite (settled_ensure sc d (proj1 Kd)), (settled_ensure sc e (proj1 Ke)). cbn [fst snd]. destruct (known_view d Kd) as [a Va], (known_view e Ke) as [b Vb].
  destruct (eqs (dname d) (dname e) && eqs (type_of (dcls d)) (type_of (dcls e))); [|eauto]. destruct (length (data_view d) =? length (data_view e)) eqn:En; [|eauto]. apply Nat.eqb_eq in En. rewrite Va, Vb, !map_length in *.
  destruct (memeq_known (length a) a b) as [v Ev]; [lia|lia|]. unfold cell in *. rewrite Ev. eauto.
Qed.
Lemma known_set d b : all_known d -> exists d', SetContentAsData d b = (d', Ok tt) /\ all_known d'.
Proof.
  intros [E _]. unfold SetContentAsData. cbv zeta. set (e1 := set_data (DeleteContentAsData d) (Some (map Some b))). destruct (eqs (dcomp e1) ($"none")).
  - change (denc e1) with (denc d). apply eqs_false in E as E'. rewrite E'. exists e1. split; [destruct (eqs (denc d) ($"none")); reflexivity|]. split; [exact E|]. intros l Hl. injection Hl as <-. eauto.
  - change (denc (DeleteContentAsData e1)) with (denc d). apply eqs_false in E as E'. rewrite E'. exists (DeleteContentAsData e1). split; [destruct (eqs (denc d) ($"none")); reflexivity|]. split; [exact E|]. discriminate.
Qed.
Lemma known_new c : all_known (new_dm c).
Proof. split; discriminate. Qed.
Lemma known_load fs f d : Load fs f = Ok d -> all_known d.
Proof.
  unfold Load. destruct (fs (cstr (ffile f))) as [|bytes|]; [intros E; injection E as <-; apply known_new| |discriminate].
  destruct (known_set (new_dm (match CreateDataMeasurement (ftype f) with Some c => c | None => CPlain end)) bytes (known_new _)) as (d1 & -> & K). cbn [bind]. intros E. injection E as <-. exact K.
Qed.
Lemma known_file sc fs f d : all_known d -> exists r, file_IsEqual_data sc fs f d = (d, r) /\ ((exists v, r = Ok v) \/ r = Throw ExnRuntime).
Proof.
  intros K. unfold file_IsEqual_data. destruct (negb (eqs (fname f) (dname d)) || negb (eqs (ftype f) (type_of (dcls d)))); [eauto|]. destruct (Load_result fs f) as [[d2 Ld]|Ld]; rewrite Ld; [|eauto].
  destruct (known_equal sc d d2 K (known_load _ _ _ Ld)) as [v ->]. eauto.
Qed.
Lemma known_files sc fs f g : (exists v, file_IsEqual_file sc fs f g = Ok v) \/ file_IsEqual_file sc fs f g = Throw ExnRuntime.
Proof.
  unfold file_IsEqual_file. destruct (negb (eqs (fname f) (fname g)) || negb (eqs (ftype f) (ftype g))); [eauto|]. destruct (Load_result fs f) as [[d Ld]|Ld]; rewrite Ld; cbn [bind]; [|auto].
  destruct (known_file sc fs g d (known_load _ _ _ Ld)) as (r & -> & R). exact R.
Qed.
Lemma settled_step e h s p s' r : history e h s -> may h s p -> ordinary p -> settled s -> (forall q, In q (uses p) -> exists l, points s q l) -> perform e p s = (s', r) -> goes_on r /\ settled s'.
Proof.
  intros H My O St Pt E. destruct (C78_values e h s p s' r H My E) as [D Oth]. destruct My as [M U]. pose proof (history_invariant _ _ _ H) as I.
  pose proof (step e p s s' r (proj1 I) M (held_reach h s p I U) E) as [_ S].
  assert (Fin : goes_on r -> (forall k d, In k (handles p) \/ r = Ok (AObj k) -> value s' k = Some d -> all_known d) -> goes_on r /\ settled s').
  { intros X K. split; [exact X|]. destruct (S X) as (LB & LO & Z & _). intros k d Mk Vk. destruct (in_dec Nat.eq_dec k (handles p)) as [Ik|Nk]; [apply (K k d); auto|].
    destruct (mine s k) eqn:Ms.
    - destruct (Oth X k Ms Nk) as [_ V]. rewrite V in Vk. exact (St k d Ms Vk).
    - destruct (mine_alive s' k Mk) as (x & L & C). destruct (z_new _ _ _ _ _ Z k x L C) as [(y & Y)|Y]; [|apply (K k d); auto].
      exfalso. assert (Oy : o_local y = true) by (unfold mine in Ms; unfold alive in Y; rewrite Y in Ms; apply negb_false_iff; exact Ms).
      assert (Or : orphan s' k) by (apply (z_orphan _ _ _ _ _ Z k); left; exists y; split; [exact Y|exact Oy]). destruct Or as (w & W & Cw). unfold alive in L. rewrite L in W. injection W as <-. congruence. }
  assert (One : forall o d, handles p = [o] -> (forall k, r <> Ok (AObj k)) -> goes_on r -> value s' o = Some d -> all_known d -> goes_on r /\ settled s').
  { intros o d Hp Nr X V K. apply Fin; [exact X|]. rewrite Hp. intros k d' [[<-|[]]|Y] V'; [congruence|exfalso; exact (Nr k Y)]. }
  destruct p as [c|o|o o'|o|o t|o n|o b|o n|o n|o p n|o|o|q|o o'|f o|f g]; cbn [handles forallb ordinary does uses] in *; try (apply andb_prop in M; destruct M as [M M']); try (apply andb_prop in M'; destruct M' as [M' _]);
    try (destruct (mine_alive s o M) as (x & L & C); pose proof (value_alive s o x L) as Vx; pose proof (St o _ M Vx : all_known _) as Kx; set (d := erase (b_heap s) x) in *).
  - destruct D as (k & -> & _ & _ & Vk). apply Fin; [left; eauto|]. intros j d [[]|Ej] V. injection Ej as <-. rewrite Vk in V. injection V as <-. apply known_new.
  - destruct (D _ Vx) as (k & -> & _ & _ & Vk & Vo). apply Fin; [left; eauto|]. intros j d' [[<-|[]]|Ej] V; [rewrite Vo in V; injection V as <-; exact Kx|]. injection Ej as <-. rewrite Vk in V. injection V as <-. split; [apply Kx|discriminate].
  - destruct (mine_alive s o' M') as (m & L' & C'). pose proof (value_alive s o' m L') as Vm. pose proof (St o' _ M' Vm : all_known _) as Km. destruct (D _ _ Vx Vm) as (-> & Vo & Vo'). apply Fin; [left; eauto|].
    intros j d' [[<-|[<-|[]]]|Ej] V; [rewrite Vo in V; injection V as <-; split; [apply Km|discriminate]| |discriminate Ej]. destruct (Nat.eq_dec o' o) as [->|N]; [rewrite Vo in V; injection V as <-; split; [apply Km|discriminate]|]. rewrite (Vo' N) in V. injection V as <-. exact Km.
  - destruct D as [-> Vo]. apply Fin; [left; eauto|]. intros j d' [[<-|[]]|Ej] V; [rewrite Vo in V; discriminate V|discriminate Ej].
  - destruct (D _ Vx) as [-> Vo]. apply (One o _ eq_refl ltac:(discriminate) (or_introl (ex_intro _ _ eq_refl)) Vo). split; [apply Kx|discriminate].
  - destruct (D _ Vx) as [-> Vo]. apply (One o _ eq_refl ltac:(discriminate) (or_introl (ex_intro _ _ eq_refl)) Vo). exact Kx.
  - destruct (D _ Vx) as [-> Vo]. apply (One o _ eq_refl ltac:(discriminate) (or_introl (ex_intro _ _ eq_refl)) Vo). exact Kx.
  - destruct (D _ Vx) as [-> Vo]. apply (One o _ eq_refl ltac:(discriminate) (or_introl (ex_intro _ _ eq_refl)) Vo). split; [exact O|apply Kx].
  - destruct (D _ Vx) as [-> Vo]. apply (One o _ eq_refl ltac:(discriminate) (or_introl (ex_intro _ _ eq_refl)) Vo). exact Kx.
  - destruct p as [b|q]; [|destruct O]. destruct (D _ (firstn n b) Vx (conj O eq_refl)) as [Er Vo]. destruct (known_set d (firstn n b) Kx) as (d' & Es & K'). rewrite Es in Er, Vo. subst r. apply (One o _ eq_refl ltac:(discriminate) (or_introl (ex_intro _ _ eq_refl)) Vo). exact K'.
  - destruct (D _ Vx) as [Vo Er]. unfold GetContentAsData in *. rewrite (settled_ensure _ d (proj1 Kx)) in *. cbn [fst snd bind] in *. destruct Er as (q & -> & _). apply (One o _ eq_refl ltac:(discriminate) (or_introl (ex_intro _ _ eq_refl)) Vo). exact Kx.
  - destruct (D _ Vx) as [Er Vo]. unfold GetContentAsDataSize in *. rewrite (settled_ensure _ d (proj1 Kx)) in *. cbn [fst snd bind] in *. subst r. apply (One o _ eq_refl ltac:(discriminate) (or_introl (ex_intro _ _ eq_refl)) Vo). exact Kx.
  - destruct D as [-> D]. destruct (Pt q (in_eq _ _)) as [l Pl]. rewrite (D l Pl) in *. apply Fin; [left; eauto|]. intros k d [[]|Y]. discriminate Y.
  - destruct (mine_alive s o' M') as (m & L' & C'). pose proof (value_alive s o' m L') as Vm. pose proof (St o' _ M' Vm : all_known _) as Km. specialize (D _ _ Vx Vm). destruct (known_equal (e_sc e) d _ Kx Km) as [v Ev]. rewrite Ev in D. destruct D as (-> & Vo & Vo'). apply Fin; [left; eexists; reflexivity|].
    intros j d' [[<-|[<-|[]]]|Ej] V; [rewrite Vo in V; injection V as <-; exact Kx| |discriminate Ej]. destruct (Nat.eq_dec o' o) as [->|N]; [rewrite Vo in V; injection V as <-; exact Kx|]. rewrite (Vo' N) in V. injection V as <-. exact Km.
  - specialize (D _ Vx). destruct (known_file (e_sc e) (e_fs e) f d Kx) as (v & Ev & Rv). rewrite Ev in D. destruct D as [-> Vo]. destruct Rv as [[b ->]| ->]; apply (One o _ eq_refl ltac:(discriminate)) with (2 := Vo); try exact Kx; [left|right]; eexists; reflexivity.
  - destruct (known_files (e_sc e) (e_fs e) f g) as [[b Eb]|Eb]; rewrite Eb in D; subst r; (apply Fin; [|intros k d [[]|Y]; discriminate Y]); [left|right]; eexists; reflexivity.
Qed.
Lemma settled_history e h s : history e h s -> (forall p r, In (p, r) h -> ordinary p) -> settled s.
Proof.
  induction 1 as [|h s p s' r H IH M U E X]; intros O; [intros [|k] d Mk; discriminate Mk|].
  assert (St : settled s) by (apply IH; intros p0 r0 I; apply (O p0 r0); apply in_or_app; auto).
  assert (Op : ordinary p) by (apply (O p r); apply in_or_app; right; apply in_eq).
  destruct p as [c|o|o o'|o|o t|o n|o b|o n|o n|o p n|o|o|q|o o'|f o|f g]; try (refine (proj2 (settled_step e h s _ s' r H (conj M U) Op St _ E)); intros q []).
  - (* SetData *) destruct p as [b|q]; [|destruct Op]. refine (proj2 (settled_step e h s _ s' r H (conj M U) Op St _ E)). intros q [].
  - (* ReadAt *) destruct (C78_values e h s _ s' r H (conj M U) E) as [D _]. cbn [does] in D. destruct D as [-> _]. exact St.
Qed.
(** in a program without base64 nothing is undefined, as long as it reads through its pointers while they point to something *)
Theorem C78_no_faults : forall e h s p s' r, history e h s -> (forall p r, In (p, r) h -> ordinary p) -> may h s p -> ordinary p -> (forall q, In q (uses p) -> exists l, points s q l) ->
  perform e p s = (s', r) -> goes_on r.
Proof. intros e h s p s' r H O My Op Pt E. exact (proj1 (settled_step e h s p s' r H My Op (settled_history e h s H O) Pt E)). Qed.
Print Assumptions C78_no_faults.

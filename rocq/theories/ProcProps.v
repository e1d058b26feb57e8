(** C75: tests that run at the same time. *)
From Coq Require Import Floats.SpecFloat.
From Verif Require Import Base Str Dec PathModel PathFacts MeasModel DiffModel VisitModel XmlModel ReadModel ReadFacts RegModel RegStart ArgFacts ArgProps CutProps LimitProps ImgModel ItkModel ItkRunProps ProcModel ProcFacts ProcSys ProcNames ProcItkFacts ProcItkNames.
Local Open Scope Z_scope.

(** a test program, with the plain or the ITK driver, started with arguments in a new process *)
Inductive job :=
| Job (e : env) (test : list str -> prog) (name : str) (cmd : list str)
| ItkJob (ie : ienv) (test : list str -> iprog) (name : str) (cmd : list str).
Definition no_files : store := fun _ => None.
Definition start (j : job) : proc (rst * res Z) :=
  match j with
  | Job e test name cmd => process e test (name :: cmd) (new_test no_files)
  | ItkJob ie test name cmd => itk_process ie test (name :: cmd) (new_itk_test ie no_files)
  end.
(** what it does when nothing else runs *)
Definition alone_in (f : store) (j : job) : rst * res Z :=
  match j with
  | Job e test name cmd => Main e test (name :: cmd) (new_test f)
  | ItkJob ie test name cmd => itk_Main ie test (name :: cmd) (new_itk_test ie f)
  end.
(** the files it then looks at, reads or writes; those it changes; how often *)
Definition uses (f : store) (j : job) (k : str) : Prop := In k (map fst (touches (start j) f)).
Definition changes (f : store) (j : job) (k : str) : Prop := In (k, true) (touches (start j) f).
Definition accesses (f : store) (j : job) : nat := length (touches (start j) f).
(** no job changes what another uses *)
Definition independent (f : store) (jobs : list job) : Prop := forall i j a b k, i <> j -> nth_error jobs i = Some a -> nth_error jobs j = Some b -> changes f a k -> ~ uses f b k.
(** one after the other *)
Fixpoint serial (f : store) (jobs : list job) : store * list (rst * res Z) :=
  match jobs with
  | [] => (f, [])
  | j :: rest => let x := alone_in f j in let y := serial (s_files (fst x)) rest in (fst y, x :: snd y)
  end.

Lemma start_alone f j : alone (start j) f = (s_files (fst (alone_in f j)), (set_files (fst (alone_in f j)) no_files, snd (alone_in f j))).
Proof.
  destruct j as [e test name cmd|ie test name cmd]; [exact (process_alone e test (name :: cmd) (new_test no_files) f)|exact (itk_process_alone ie test (name :: cmd) (new_itk_test ie no_files) f)].
Qed.
Lemma independent_apart f jobs : independent f jobs -> apart f (map start jobs).
Proof.
  intros H ps1 p ps2 q k E Iq C U. apply map_eq_app in E. destruct E as (j1 & j2 & -> & E1 & E2). apply map_eq_cons in E2. destruct E2 as (a & j3 & -> & <- & E3).
  rewrite in_app_iff in Iq. assert (Q : exists i b, nth_error (j1 ++ a :: j3) i = Some b /\ start b = q /\ i <> length j1).
  { destruct Iq as [I|I].
    - rewrite <- E1 in I. apply in_map_iff in I. destruct I as (b & Eb & Ib). apply In_nth_error in Ib. destruct Ib as (i & Ei). assert (L : (i < length j1)%nat) by (apply nth_error_Some; congruence).
      exists i, b. rewrite nth_error_app1 by exact L. repeat split; [exact Ei|exact Eb|lia].
    - rewrite <- E3 in I. apply in_map_iff in I. destruct I as (b & Eb & Ib). apply In_nth_error in Ib. destruct Ib as (i & Ei).
      exists (length j1 + S i)%nat, b. rewrite nth_error_app2 by lia. replace (length j1 + S i - length j1)%nat with (S i) by lia. repeat split; [exact Ei|exact Eb|lia]. }
  destruct Q as (i & b & Ei & <- & Ni). apply (H (length j1) i a b k); [congruence| |exact Ei|exact C|exact U]. rewrite nth_error_app2 by lia. rewrite Nat.sub_diag. reflexivity.
Qed.

(** * C75 *)
(** Whatever the schedule, and wherever it is cut (a test may be killed, the machine may stop): a test that has ended has returned what it returns alone, wrote the same to standard output, and
    left the files it uses as it leaves them alone; a file no test changes is unchanged; the tests never wait for each other and end after as many accesses as alone. *)
Theorem C75_parallel : forall f jobs n f' ps, independent f jobs -> steps n (f, map start jobs) (f', ps) ->
  length ps = length jobs /\
  (forall i j s r, nth_error jobs i = Some j -> nth_error ps i = Some (Done (s, r)) ->
     r = snd (alone_in f j) /\ s_stdout s = s_stdout (fst (alone_in f j)) /\ forall k, uses f j k -> f' k = s_files (fst (alone_in f j)) k) /\
  (forall k, (forall j, In j jobs -> ~ changes f j k) -> f' k = f k) /\
  (n <= list_sum (map (accesses f) jobs))%nat /\
  ((exists y, step1 (f', ps) y) \/ (forall p, In p ps -> exists a, p = Done a) /\ n = list_sum (map (accesses f) jobs)).
Proof.
  intros f jobs n f' ps Hi Hs. pose proof (independent_apart f jobs Hi) as Ap. destruct (inv_steps f _ n f' ps Ap Hs) as [I U].
  assert (EA : list_sum (map (fun p => length (touches p f)) (map start jobs)) = list_sum (map (accesses f) jobs)) by (rewrite map_map; reflexivity).
  split; [rewrite (inv_length _ _ _ _ _ I), map_length; reflexivity|]. split; [|split; [|split]].
  - intros i j s r Ej Ep. destruct (inv_nth _ _ _ _ _ I i (start j) (Done (s, r))) as (l & fi & G & E); [rewrite nth_error_map, Ej; reflexivity|exact Ep|].
    destruct (goes_rest _ _ _ _ _ G) as [_ A]. cbn [alone] in A. rewrite start_alone in A. apply pair_equal_spec in A. destruct A as [A1 A2]. apply pair_equal_spec in A2. destruct A2 as [A2 A3].
    split; [exact (eq_sym A3)|]. split; [rewrite <- A2; reflexivity|]. intros k Hk. rewrite (E k Hk), A1. reflexivity.
  - intros k Hk. apply U. intros p Ip. apply in_map_iff in Ip. destruct Ip as (j & <- & Ij). exact (Hk j Ij).
  - rewrite <- EA. exact (inv_total _ _ _ _ _ I).
  - destruct (can_move f' ps) as [D|M]; [right|left; exact M]. split; [exact D|]. rewrite <- EA. exact (inv_all _ _ _ _ _ I D).
Qed.
Print Assumptions C75_parallel.

Lemma steps_trans {A} n (x y : store * list (proc A)) : steps n x y -> forall m z, steps m y z -> steps (n + m) x z.
Proof.
  intros H m z Hz. induction Hz as [y|m y u z Hu IH S]; [rewrite Nat.add_0_r; exact H|]. rewrite Nat.add_succ_r. econstructor; [exact (IH H)|exact S].
Qed.
Lemma steps_solo {A} (p : proc A) : forall f a b, exists n, steps n (f, a ++ p :: b) (fst (alone p f), a ++ Done (snd (alone p f)) :: b).
Proof.
  induction p as [x|k change next IH]; intros f a b; [exists 0%nat; constructor|]. cbn [alone]. destruct (IH (f k) (accessed f k change) a b) as [n H]. exists (1 + n)%nat.
  apply steps_trans with (y := (accessed f k change, a ++ next (f k) :: b)); [|exact H]. econstructor; [constructor|constructor].
Qed.
Definition ended (x : rst * res Z) : proc (rst * res Z) := Done (set_files (fst x) no_files, snd x).
Lemma serial_steps jobs : forall f a, exists n, steps n (f, a ++ map start jobs) (fst (serial f jobs), a ++ map ended (snd (serial f jobs))).
Proof.
  induction jobs as [|j jobs IH]; intros f a; [exists 0%nat; constructor|]. cbn [serial map fst snd]. destruct (steps_solo (start j) f a (map start jobs)) as [n Hn].
  rewrite start_alone in Hn. cbn [fst snd] in Hn. destruct (IH (s_files (fst (alone_in f j))) (a ++ [ended (alone_in f j)])) as [m Hm]. exists (n + m)%nat.
  apply steps_trans with (1 := Hn). rewrite <- !app_assoc in Hm. exact Hm.
Qed.
Lemma changed_dec f j k : changes f j k \/ ~ changes f j k.
Proof.
  unfold changes. induction (touches (start j) f) as [|[k' b] l [IH|IH]]; [right; intros []|left; right; exact IH|].
  destruct b; [destruct (eqs_spec k' k) as [->|N]; [left; left; reflexivity|]|]; right; intros [E|I]; try (elim (IH I)); apply pair_equal_spec in E; destruct E as [E1 E2]; [elim (N E1)|discriminate].
Qed.
Lemma some_changes f k jobs : (exists j, In j jobs /\ changes f j k) \/ forall j, In j jobs -> ~ changes f j k.
Proof.
  induction jobs as [|j jobs [(j' & I & C)|IH]]; [right; intros j []|left; exists j'; split; [right; exact I|exact C]|].
  destruct (changed_dec f j k) as [C|C]; [left; exists j; split; [left; reflexivity|exact C]|]. right. intros j' [<-|I]; [exact C|apply IH; exact I].
Qed.
Lemma change_uses f j k : changes f j k -> uses f j k.
Proof. intros H. exact (in_map fst _ _ H). Qed.
(** All tests end, and the results and all files are those of running one test after the other. *)
Theorem C75_same_as_serial : forall f jobs n f' ps, independent f jobs -> steps n (f, map start jobs) (f', ps) -> (forall y, ~ step1 (f', ps) y) ->
  (forall k, f' k = fst (serial f jobs) k) /\ length ps = length jobs /\
  forall i p, nth_error ps i = Some p -> exists s r s', p = Done (s, r) /\ nth_error (snd (serial f jobs)) i = Some (s', r) /\ s_stdout s = s_stdout s'.
Proof.
  intros f jobs n f' ps Hi Hs Stop. destruct (C75_parallel f jobs n f' ps Hi Hs) as (L & R & U & _ & [[y Hy]|[D _]]); [elim (Stop y Hy)|].
  destruct (serial_steps jobs f []) as [m Hm]. cbn [app] in Hm. destruct (C75_parallel f jobs m _ _ Hi Hm) as (L' & R' & U' & _).
  assert (At : forall i j, nth_error jobs i = Some j -> exists s r s', nth_error ps i = Some (Done (s, r)) /\ nth_error (snd (serial f jobs)) i = Some (s', r) /\
      nth_error (map ended (snd (serial f jobs))) i = Some (Done (set_files s' no_files, r)) /\ s_stdout s = s_stdout s').
  { intros i j Ej. assert (Li : (i < length jobs)%nat) by (apply nth_error_Some; congruence).
    destruct (nth_error ps i) as [p|] eqn:Ep; [|apply nth_error_None in Ep; lia]. destruct (D p (nth_error_In _ _ Ep)) as [[s r] ->].
    rewrite map_length in L'. destruct (nth_error (snd (serial f jobs)) i) as [[s' r']|] eqn:Es; [|apply nth_error_None in Es; lia].
    assert (Em : nth_error (map ended (snd (serial f jobs))) i = Some (Done (set_files s' no_files, r'))) by (rewrite nth_error_map, Es; reflexivity).
    destruct (R i j s r Ej Ep) as (E1 & E2 & _). destruct (R' i j _ _ Ej Em) as (E3 & E4 & _). exists s, r, s'. assert (Er : r' = r) by congruence. rewrite Er in *. split; [reflexivity|]. split; [reflexivity|]. split; [exact Em|]. rewrite E2. symmetry. exact E4. }
  split; [|split; [exact L|]].
  - intros k. destruct (some_changes f k jobs) as [(j & Ij & C)|N]; [|rewrite (U k N), (U' k N); reflexivity].
    apply In_nth_error in Ij. destruct Ij as (i & Ej). destruct (At i j Ej) as (s & r & s' & E1 & E2 & E3 & _).
    destruct (R i j s r Ej E1) as (_ & _ & F). destruct (R' i j _ _ Ej E3) as (_ & _ & F'). rewrite (F k (change_uses f j k C)), (F' k (change_uses f j k C)). reflexivity.
  - intros i p Ep. assert (Li : (i < length ps)%nat) by (apply nth_error_Some; congruence). destruct (nth_error jobs i) as [j|] eqn:Ej; [|apply nth_error_None in Ej; lia].
    destruct (At i j Ej) as (s & r & s' & E1 & E2 & E3 & E4). 
    exists s, r, s'. split; [congruence|auto].
Qed.
Print Assumptions C75_same_as_serial.

(** What a test uses, from its command line, its measurements and its baseline only: the values of -O, -I and -P, the places where the baseline is searched; when it compares also the files it measures
    and those recorded in the baseline, at their place or in a directory of -P; and the files it writes itself.  It changes only the value of -O and its own files. *)
Theorem C75_files_used : forall e test a0 cmd f k, uses f (Job e test a0 cmd) k ->
  (exists o v, In o [$"-O"; $"-I"; $"-P"] /\ gives cmd o v /\ slot e v = Some k) \/
  (exists v d p, gives cmd ($"-I") v /\ gives cmd ($"-P") d /\ Append d v = Ok p /\ slot e p = Some k) \/
  (exists v rest path, gives cmd ($"-I") v /\ rest_of cmd rest /\ may_measure (test (a0 :: rest)) path /\ slot e path = Some k) \/
  (exists g, records e [] cmd f g /\ (slot e (ffile g) = Some k \/ exists d p, gives cmd ($"-P") d /\ Append d (Tail (ffile g)) = Ok p /\ slot e p = Some k)) \/
  (exists rest path, rest_of cmd rest /\ may_write (test (a0 :: rest)) path /\ slot e path = Some k).
Proof.
  intros e test a0 cmd f k H. unfold uses, start in H. apply in_map_iff in H. destruct H as ([k' b] & <- & I). cbn [fst].
  pose proof (plain_files e test a0 cmd f (new_test no_files)) as F. specialize (F ltac:(apply new_J; reflexivity)).
  assert (S : forall d, searched [] cmd d -> gives cmd ($"-P") d) by (intros d [S|[]]; exact S).
  destruct (proj1 (Forall_forall _ _) F _ I) as [[[R|[(v & G & [E|(d & p & G' & A & E)])|[R|(g & R & [E|(d & p & G' & A & E)])]]]|[(v & G & E)|R]] _]; cbn [fst] in *.
  - left. exact R.
  - left. exists ($"-I"), v. split; [right; left; reflexivity|auto].
  - right. left. exists v, d, p. auto.
  - right. right. left. exact R.
  - right. right. right. left. exists g. auto.
  - right. right. right. left. exists g. split; [exact R|]. right. exists d, p. auto.
  - left. exists ($"-O"), v. split; [left; reflexivity|auto].
  - right. right. right. right. exact R.
Qed.
Print Assumptions C75_files_used.
Theorem C75_files_changed : forall e test a0 cmd f k, changes f (Job e test a0 cmd) k ->
  (exists v, gives cmd ($"-O") v /\ slot e v = Some k) \/
  (exists rest path, rest_of cmd rest /\ may_write (test (a0 :: rest)) path /\ slot e path = Some k).
Proof.
  intros e test a0 cmd f k H. unfold changes, start in H. pose proof (plain_files e test a0 cmd f (new_test no_files)) as F. specialize (F ltac:(apply new_J; reflexivity)).
  destruct (proj1 (Forall_forall _ _) F _ H) as [_ W]. exact (W eq_refl).
Qed.
Print Assumptions C75_files_changed.
(** The ITK driver: it also searches the default baseline directory, and after a difference of two images it writes three images, named after the measured file, to the output directory. *)
Theorem C75_itk_files_used : forall ie test a0 cmd f k, uses f (ItkJob ie test a0 cmd) k ->
  let e := i_env ie in
  let place d := gives cmd ($"-P") d \/ d = i_baselines ie in
  (exists o v, In o [$"-O"; $"-I"; $"-P"] /\ gives cmd o v /\ slot e v = Some k) \/
  (exists v d p, gives cmd ($"-I") v /\ place d /\ Append d v = Ok p /\ slot e p = Some k) \/
  (exists v rest path, gives cmd ($"-I") v /\ rest_of cmd rest /\ i_may_measure (e_sc e) (a0 :: cmd) 0 (test (a0 :: rest)) path /\ slot e path = Some k) \/
  (exists g, records e [i_baselines ie] cmd f g /\ (slot e (ffile g) = Some k \/ exists d p, place d /\ Append d (Tail (ffile g)) = Ok p /\ slot e p = Some k)) \/
  (exists rest path, rest_of cmd rest /\ i_may_write (e_sc e) (a0 :: cmd) 0 (test (a0 :: rest)) path /\ slot e path = Some k) \/
  (exists v rest image ext path, gives cmd ($"-I") v /\ rest_of cmd rest /\ i_may_image (e_sc e) (a0 :: cmd) 0 (test (a0 :: rest)) image /\
     In ext [$".diff.png"; $".base.png"; $".test.png"] /\ Append (i_output ie) (Tail image ++ ext) = Ok path /\ slot e path = Some k).
Proof.
  intros ie test a0 cmd f k H. cbv zeta. unfold uses, start in H. apply in_map_iff in H. destruct H as ([k' b] & <- & I). cbn [fst].
  pose proof (itk_files ie test a0 cmd f (new_itk_test ie no_files)) as F. specialize (F ltac:(apply new_J; reflexivity)).
  assert (S : forall d, searched [i_baselines ie] cmd d -> gives cmd ($"-P") d \/ d = i_baselines ie) by (intros d [S|[S|[]]]; [left; exact S|right; symmetry; exact S]).
  destruct (proj1 (Forall_forall _ _) F _ I) as [[[R|[(v & G & [E|(d & p & G' & A & E)])|[R|(g & R & [E|(d & p & G' & A & E)])]]]|[(v & G & E)|(rest & path & Hr & [W|((v & G) & image & ext & Hi & Ie & Ea)] & E)]] _]; cbn [fst tl] in *.
  - left. exact R.
  - left. exists ($"-I"), v. split; [right; left; reflexivity|auto].
  - right. left. exists v, d, p. auto.
  - right. right. left. exact R.
  - right. right. right. left. exists g. auto.
  - right. right. right. left. exists g. split; [exact R|]. right. exists d, p. auto.
  - left. exists ($"-O"), v. split; [left; reflexivity|auto].
  - right. right. right. right. left. exists rest, path. auto.
  - right. right. right. right. right. exists v, rest, image, ext, path. auto 10.
Qed.
Print Assumptions C75_itk_files_used.
Theorem C75_itk_files_changed : forall ie test a0 cmd f k, changes f (ItkJob ie test a0 cmd) k ->
  let e := i_env ie in
  (exists v, gives cmd ($"-O") v /\ slot e v = Some k) \/
  (exists rest path, rest_of cmd rest /\ i_may_write (e_sc e) (a0 :: cmd) 0 (test (a0 :: rest)) path /\ slot e path = Some k) \/
  (exists v rest image ext path, gives cmd ($"-I") v /\ rest_of cmd rest /\ i_may_image (e_sc e) (a0 :: cmd) 0 (test (a0 :: rest)) image /\
     In ext [$".diff.png"; $".base.png"; $".test.png"] /\ Append (i_output ie) (Tail image ++ ext) = Ok path /\ slot e path = Some k).
Proof.
  intros ie test a0 cmd f k H. cbv zeta. unfold changes, start in H. pose proof (itk_files ie test a0 cmd f (new_itk_test ie no_files)) as F. specialize (F ltac:(apply new_J; reflexivity)).
  destruct (proj1 (Forall_forall _ _) F _ H) as [_ W]. specialize (W eq_refl). cbn [fst] in W. destruct W as [W|(rest & path & Hr & [W|((v & G) & image & ext & Hi & Ie & Ea)] & E)].
  - left. exact W.
  - right. left. exists rest, path. auto.
  - right. right. cbn [tl] in G. exists v, rest, image, ext, path. auto 10.
Qed.
Print Assumptions C75_itk_files_changed.
(** So the command lines, the tests and the baselines decide: no test may write (-O, its own files, difference images) what another one names. *)
Definition may_change (j : job) (k : str) : Prop :=
  match j with
  | Job e test name cmd => writes e (fun args => may_write (test args)) name cmd k
  | ItkJob ie test name cmd => writes (i_env ie) (itk_writes ie test (name :: cmd)) name cmd k
  end.
Definition may_read (f : store) (j : job) (k : str) : Prop :=
  match j with
  | Job e test name cmd => reads e [] (fun args => may_measure (test args)) name cmd f k
  | ItkJob ie test name cmd => reads (i_env ie) [i_baselines ie] (itk_measures ie test (name :: cmd)) name cmd f k
  end.
Theorem C75_apart_by_names : forall f jobs,
  (forall i j a b k, i <> j -> nth_error jobs i = Some a -> nth_error jobs j = Some b -> may_change a k -> ~ may_read f b k /\ ~ may_change b k) ->
  independent f jobs.
Proof.
  assert (Q : forall f j k b, In (k, b) (touches (start j) f) -> (may_read f j k \/ may_change j k) /\ (b = true -> may_change j k)).
  { intros f j k b I. destruct j as [e test name cmd|ie test name cmd]; unfold start in I.
    - pose proof (plain_files e test name cmd f (new_test no_files)) as F. specialize (F ltac:(apply new_J; reflexivity)). exact (proj1 (Forall_forall _ _) F _ I).
    - pose proof (itk_files ie test name cmd f (new_itk_test ie no_files)) as F. specialize (F ltac:(apply new_J; reflexivity)). exact (proj1 (Forall_forall _ _) F _ I). }
  intros f jobs H i j a b k N Ea Eb C U. destruct (Q f a k true C) as [_ W]. destruct (H i j a b k N Ea Eb (W eq_refl)) as [R1 R2].
  unfold uses in U. apply in_map_iff in U. destruct U as ([k' x] & <- & I). destruct (Q f b _ x I) as [[U|U] _]; [exact (R1 U)|exact (R2 U)].
Qed.
Print Assumptions C75_apart_by_names.

(** a schedule: the numbers of the processes that move *)
Fixpoint move {A} (i : nat) (f : store) (ps : list (proc A)) : store * list (proc A) :=
  match ps with
  | [] => (f, [])
  | p :: rest =>
      match i with
      | O => match p with Done a => (f, ps) | Access k change next => (accessed f k change, next (f k) :: rest) end
      | S i' => let x := move i' f rest in (fst x, p :: snd x)
      end
  end.
Fixpoint moves {A} (l : list nat) (f : store) (ps : list (proc A)) : store * list (proc A) :=
  match l with [] => (f, ps) | i :: l' => let x := move i f ps in moves l' (fst x) (snd x) end.
Lemma move_steps {A} : forall i f a (ps : list (proc A)), exists n, steps n (f, a ++ ps) (fst (move i f ps), a ++ snd (move i f ps)).
Proof.
  induction i as [|i IH]; intros f a [|p ps]; cbn [move fst snd]; try (exists 0%nat; constructor).
  - destruct p as [x|k change next]; [exists 0%nat; constructor|]. exists 1%nat. econstructor; [constructor|constructor].
  - destruct (IH f (a ++ [p]) ps) as [n H]. exists n. rewrite <- !app_assoc in H. exact H.
Qed.
Lemma moves_steps {A} : forall l f (ps : list (proc A)), exists n, steps n (f, ps) (moves l f ps).
Proof.
  induction l as [|i l IH]; intros f ps; [exists 0%nat; constructor|]. cbn [moves]. destruct (move_steps i f [] ps) as [n H]. cbn [app] in H. rewrite <- surjective_pairing in H. destruct (IH (fst (move i f ps)) (snd (move i f ps))) as [m H'].
  exists (n + m)%nat. apply steps_trans with (1 := H). rewrite <- surjective_pairing in *. exact H'.
Qed.
Definition result {A} (ps : list (proc (rst * res A))) (i : nat) : option (res A) := match nth_error ps i with Some (Done (_, r)) => Some r | _ => None end.

(** "the tests may run in parallel" in any case: not if one records the baseline another one compares with.  In either order both succeed; at the same time the comparison may find the
    baseline empty. *)
Definition c75_job (o v : str) : job := Job ex_env ex_recording ($"prog") [o; v].
Definition c75_files : store := s_files (fst (alone_in no_files (c75_job ($"-O") ($"b.xml")))).
Theorem C75_always_parallel_refuted : exists f a b n f' ps,
  map snd (snd (serial f [a; b])) = [Ok 0; Ok 0] /\ map snd (snd (serial f [b; a])) = [Ok 0; Ok 0] /\
  steps n (f, map start [a; b]) (f', ps) /\ result ps 0 = Some (Ok 0) /\ result ps 1 = Some (Ok (-1)).
Proof.
  destruct (moves_steps ([0;0;0;1;1;1;1;1;1;0;0;0;0;0;0;0])%nat c75_files (map start [c75_job ($"-O") ($"b.xml"); c75_job ($"-I") ($"b.xml")])) as [n H]. rewrite surjective_pairing in H.
  exists c75_files, (c75_job ($"-O") ($"b.xml")), (c75_job ($"-I") ($"b.xml")), n. do 2 eexists. split; [vm_compute; reflexivity|]. split; [vm_compute; reflexivity|]. split; [exact H|]. split; vm_compute; reflexivity.
Qed.
Print Assumptions C75_always_parallel_refuted.

(** two recordings and a comparison at the same time *)
Definition c75_jobs : list job := [c75_job ($"-O") ($"x.xml"); c75_job ($"-I") ($"b.xml"); c75_job ($"-O") ($"y.xml")].
Lemma same_key (k : str) (l : list (str * bool)) : (forall x, In x l -> fst x = k) -> forall q, In q (map fst l) -> q = k.
Proof. intros H q I. apply in_map_iff in I. destruct I as (x & <- & Ix). exact (H x Ix). Qed.
Definition all_at (k : str) (l : list (str * bool)) : bool := forallb (fun x => eqs (fst x) k) l.
Lemma all_at_spec k l q : all_at k l = true -> In q (map fst l) -> q = k.
Proof. intros H. apply same_key. intros x Ix. apply eqs_true. exact (proj1 (forallb_forall _ _) H x Ix). Qed.
Lemma Some_inj {A} (x y : A) : Some x = Some y -> x = y.
Proof. congruence. Qed.
Example C75_case : independent c75_files c75_jobs /\
  (exists n f' ps, steps n (c75_files, map start c75_jobs) (f', ps) /\ result ps 0 = Some (Ok 0) /\ result ps 1 = Some (Ok 0) /\ result ps 2 = Some (Ok 0) /\ f' ($"x.xml") = c75_files ($"b.xml") /\ f' ($"y.xml") = f' ($"x.xml")) /\
  (exists n f' ps, steps n (c75_files, map start c75_jobs) (f', ps) /\ result ps 0 = None /\ result ps 1 = Some (Ok 0) /\ result ps 2 = None /\ f' ($"b.xml") = c75_files ($"b.xml") /\ f' ($"y.xml") = Some (FFile true true [])).
Proof.
  split; [|split].
  - assert (T : forall i a k, nth_error c75_jobs i = Some a -> uses c75_files a k -> k = nth i [$"x.xml"; $"b.xml"; $"y.xml"] []).
    { intros i a k Ea U. destruct i as [|[|[|i]]]; try (apply Some_inj in Ea; subst a; revert U; apply all_at_spec; vm_compute; reflexivity). destruct i; discriminate Ea. }
    intros i j a b k N Ea Eb C U. pose proof (T i a k Ea (change_uses _ _ _ C)) as E1. pose proof (T j b k Eb U) as E2. rewrite E1 in E2.
    destruct i as [|[|[|[|i]]]]; try discriminate Ea; destruct j as [|[|[|[|j]]]]; try discriminate Eb; try (elim N; reflexivity); vm_compute in E2; discriminate E2.
  - destruct (moves_steps ([0;1;2;0;1;2;0;1;2;1;1;1;0;0;2;2;0;2])%nat c75_files (map start c75_jobs)) as [n H]. rewrite surjective_pairing in H. exists n. do 2 eexists. split; [exact H|]. vm_compute. repeat split.
  - destruct (moves_steps ([0;1;2;0;1;2;0;1;1;1;1])%nat c75_files (map start c75_jobs)) as [n H]. rewrite surjective_pairing in H. exists n. do 2 eexists. split; [exact H|]. vm_compute. repeat split.
Qed.

(** "The difference images of a test are there after the tests have run": not if another test measures an image of the same file name, even in another directory.  Both tests only compare and
    write nothing themselves. *)
Definition c75_images (p : str) : job := ItkJob ex_itk (two_images p p) ($"prog") [$"-I"; $"b.xml"].
Theorem C75_itk_difference_images_refuted : exists f a b n f' ps k,
  snd (alone_in f a) = Ok 2 /\ snd (alone_in f b) = Ok 2 /\ f k = None /\
  (exists t, s_files (fst (alone_in f a)) k = Some (FFile true true t) /\ i_png ex_itk (ex_image ($"c")) = Some t) /\   (* the image measured by [a] *)
  steps n (f, map start [a; b]) (f', ps) /\ result ps 0 = Some (Ok 2) /\ result ps 1 = Some (Ok 2) /\ f' k <> s_files (fst (alone_in f a)) k.
Proof.
  destruct (moves_steps (repeat 0 60 ++ repeat 1 60)%nat ex_image_files (map start [c75_images ($"one/x.mha"); c75_images ($"two/x.mha")])) as [n H]. rewrite surjective_pairing in H.
  exists ex_image_files, (c75_images ($"one/x.mha")), (c75_images ($"two/x.mha")), n. do 2 eexists. exists ($"out/x.mha.test.png"). split; [vm_compute; reflexivity|]. split; [vm_compute; reflexivity|]. split; [reflexivity|]. split; [eexists; split; vm_compute; reflexivity|]. split; [exact H|].
  split; [vm_compute; reflexivity|]. split; [vm_compute; reflexivity|]. vm_compute. discriminate.
Qed.
Print Assumptions C75_itk_difference_images_refuted.
(** an ITK test that finds differences and a recording at the same time *)
Definition c75_mixed : list job := [c75_images ($"one/x.mha"); c75_job ($"-O") ($"x.xml")].
Example C75_itk_case : independent ex_image_files c75_mixed /\
  exists n f' ps, steps n (ex_image_files, map start c75_mixed) (f', ps) /\ result ps 0 = Some (Ok 2) /\ result ps 1 = Some (Ok 0) /\ f' ($"x.xml") = c75_files ($"b.xml") /\ f' ($"out/x.mha.test.png") = s_files (fst (alone_in ex_image_files (c75_images ($"one/x.mha")))) ($"out/x.mha.test.png").
Proof.
  split.
  - assert (T : forall k, uses ex_image_files (c75_job ($"-O") ($"x.xml")) k -> k = $"x.xml") by (intros k; apply all_at_spec; vm_compute; reflexivity).
    assert (T' : ~ uses ex_image_files (c75_images ($"one/x.mha")) ($"x.xml")).
    { intros U. assert (B : existsb (fun x => eqs (fst x) ($"x.xml")) (touches (start (c75_images ($"one/x.mha"))) ex_image_files) = false) by (vm_compute; reflexivity).
      apply in_map_iff in U. destruct U as (x & E & I). assert (C : existsb (fun x => eqs (fst x) ($"x.xml")) (touches (start (c75_images ($"one/x.mha"))) ex_image_files) = true); [|congruence].
      apply existsb_exists. exists x. split; [exact I|]. rewrite E. apply eqs_refl. }
    intros i j a b k N Ea Eb C U. destruct i as [|[|[|i]]]; try discriminate Ea; destruct j as [|[|[|j]]]; try discriminate Eb; try (elim N; reflexivity); apply Some_inj in Ea, Eb; subst a b.
    + rewrite (T k U) in C. apply T', change_uses, C.
    + pose proof (T k (change_uses _ _ _ C)) as ->. exact (T' U).
  - destruct (moves_steps (concat (repeat [0;1;0;0;0] 12))%nat ex_image_files (map start c75_mixed)) as [n H]. rewrite surjective_pairing in H. exists n. do 2 eexists. split; [exact H|]. vm_compute. repeat split.
Qed.

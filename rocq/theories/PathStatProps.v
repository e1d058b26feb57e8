(** Property C58 (file status queries), and C13 on a file system. *)
From Verif Require Import Base Str PathModel PathFacts PathProps.

(** * Specification: which file or directory a path names *)
(** The components of a path, followed one after the other from the directory at position [p]: empty ones and [.] stay, [..] goes up
    (the root is its own parent), any other must be an entry of the directory. *)
Inductive follows (r : node) : list str -> list str -> list str -> Prop :=
| f_end p : follows r p [] p
| f_stay p c cs q pr pw px es : lookup r p = Some (Dir pr pw px es) -> c = [] \/ c = $"." -> follows r p cs q -> follows r p (c :: cs) q
| f_up p c cs q pr pw px es : lookup r p = Some (Dir pr pw px es) -> c = $".." -> follows r (removelast p) cs q -> follows r p (c :: cs) q
| f_down p c cs q pr pw px es n : lookup r p = Some (Dir pr pw px es) -> c <> [] -> c <> $"." -> c <> $".." -> assoc c es = Some n ->
    follows r (p ++ [c]) cs q -> follows r p (c :: cs) q.
(** [path] names the node [n]: the characters up to the first NUL, not none, from the root or from the current directory. *)
Definition names (s : os) (path : str) (n : node) : Prop :=
  exists q, lookup (root s) q = Some n /\
    exists start cs, follows (root s) start cs q /\
      ((exists rest, cstr path = slash :: rest /\ start = [] /\ cs = split slash rest) \/
       (exists c rest, cstr path = c :: rest /\ c <> slash /\ start = cwd s /\ cs = split slash (c :: rest))).

Lemma lookup_app n p q : lookup n (p ++ q) = match lookup n p with Some m => lookup m q | None => None end.
Proof.
  revert n. induction p as [|c p IH]; intros n; [reflexivity|]. cbn [app lookup]. destruct n as [|r w x es]; [reflexivity|].
  destruct (assoc c es); [apply IH|reflexivity].
Qed.
Lemma walk_none r cs : walk r None cs = None.
Proof. induction cs as [|c cs IH]; [reflexivity|exact IH]. Qed.
Lemma walk_follows r cs : forall p q, walk r (Some p) cs = Some q <-> follows r p cs q.
Proof.
  assert (D1 : $".." <> $".") by (vm_compute; discriminate). assert (D2 : $".." <> []) by (vm_compute; discriminate). assert (D3 : $"." <> []) by (vm_compute; discriminate).
  induction cs as [|c cs IH]; intros p q.
  - cbn. split; [intros H; injection H as ->; constructor|intros H; inversion H; reflexivity].
  - unfold walk. cbn [fold_left]. fold (walk r (walk1 r (Some p) c) cs). unfold walk1, is_dir_at.
    destruct (lookup r p) as [[pr pw px|pr pw px es]|] eqn:L.
    2:{ destruct (eqs_spec c []) as [E1|N1]; [|destruct (eqs_spec c ($".")) as [E2|N2]]; cbn [orb].
        - rewrite IH. split; [intros H; eapply f_stay; eauto|intros H; inversion H; solve [subst; assumption|congruence]].
        - rewrite IH. split; [intros H; eapply f_stay; eauto|intros H; inversion H; solve [subst; assumption|congruence]].
        - destruct (eqs_spec c ($"..")) as [E3|N3].
          + rewrite IH. split; [intros H; eapply f_up; eauto|intros H; inversion H; solve [subst; assumption|intuition congruence|congruence]].
          + rewrite lookup_app, L. cbn [lookup]. destruct (assoc c es) as [n|] eqn:A.
            * rewrite IH. split; [intros H; eapply f_down; eauto|intros H; inversion H; solve [subst; assumption|intuition congruence|congruence]].
            * rewrite walk_none. split; [discriminate|]. intros H. inversion H; subst; try solve [intuition congruence|congruence]. }
    all: rewrite walk_none; split; [discriminate|]; intros H; inversion H; subst; congruence.
Qed.
Lemma stat_names s path n : stat s path = Some n <-> names s path n.
Proof.
  unfold stat, resolve, names. destruct (cstr path) as [|c rest].
  - split; [discriminate|]. intros (q & _ & st & cs & _ & [(r & E & _)|(d & r & E & _)]); discriminate E.
  - destruct (eqc_spec c slash) as [->|N].
    + destruct (walk (root s) (Some []) (split slash rest)) as [q|] eqn:W.
      * split.
        { intros L. exists q. split; [exact L|]. exists [], (split slash rest). split; [apply walk_follows; exact W|]. left. exists rest. auto. }
        intros (q' & L & st & cs & F & [(r & E & -> & ->)|(d & r & E & N & _)]); [|injection E as <- <-; contradiction].
        injection E as <-. apply walk_follows in F. rewrite W in F. injection F as <-. exact L.
      * split; [discriminate|]. intros (q' & L & st & cs & F & [(r & E & -> & ->)|(d & r & E & N & _)]); [|injection E as <- <-; contradiction].
        injection E as <-. apply walk_follows in F. congruence.
    + destruct (walk (root s) (Some (cwd s)) (split slash (c :: rest))) as [q|] eqn:W.
      * split.
        { intros L. exists q. split; [exact L|]. exists (cwd s), (split slash (c :: rest)). split; [apply walk_follows; exact W|]. right. exists c, rest. auto. }
        intros (q' & L & st & cs & F & [(r & E & _)|(d & r & E & _ & -> & ->)]); [injection E as -> _; contradiction|].
        injection E as <- <-. apply walk_follows in F. rewrite W in F. injection F as <-. exact L.
      * split; [discriminate|]. intros (q' & L & st & cs & F & [(r & E & _)|(d & r & E & _ & -> & ->)]); [injection E as -> _; contradiction|].
        injection E as <- <-. apply walk_follows in F. congruence.
Qed.

(** ** C58 *)
(** A path names at most one file or directory. *)
Theorem C58_at_most_one : forall s path n m, names s path n -> names s path m -> n = m.
Proof. intros s path n m A B. apply stat_names in A, B. congruence. Qed.
Print Assumptions C58_at_most_one.
(** The three questions of kind. *)
Theorem C58_kind : forall s path,
  (IsFile s path = true <-> exists r w x, names s path (File r w x)) /\
  (IsDirectory s path = true <-> exists r w x es, names s path (Dir r w x es)) /\
  (Exists s path = true <-> exists n, names s path n).
Proof.
  intros s path. unfold IsFile, IsDirectory, Exists.
  assert (H : forall n, names s path n <-> stat s path = Some n) by (intros n; symmetry; apply stat_names).
  split; [|split]; split.
  - destruct (stat s path) as [[r w x|r w x es]|]; try discriminate. intros _. exists r, w, x. apply H. reflexivity.
  - intros (r & w & x & E). apply H in E. rewrite E. reflexivity.
  - destruct (stat s path) as [[r w x|r w x es]|]; try discriminate. intros _. exists r, w, x, es. apply H. reflexivity.
  - intros (r & w & x & es & E). apply H in E. rewrite E. reflexivity.
  - destruct (stat s path) as [n|]; [|discriminate]. intros _. exists n. apply H. reflexivity.
  - intros (n & E). apply H in E. rewrite E. reflexivity.
Qed.
Print Assumptions C58_kind.
(** The permissions asked for: for a directory, readable and writable also mean that it can be entered. *)
Theorem C58_permissions : forall s path,
  (IsReadable s path = true <-> (exists w x, names s path (File true w x)) \/ (exists w es, names s path (Dir true w true es))) /\
  (IsWritable s path = true <-> (exists r x, names s path (File r true x)) \/ (exists r es, names s path (Dir r true true es))) /\
  (IsExecutable s path = true <-> (exists r w, names s path (File r w true)) \/ (exists r w es, names s path (Dir r w true es))).
Proof.
  intros s path. unfold IsReadable, IsWritable, IsExecutable, access, IsDirectory.
  assert (H : forall n, names s path n <-> stat s path = Some n) by (intros n; symmetry; apply stat_names).
  assert (HF : forall r w x, names s path (File r w x) <-> stat s path = Some (File r w x)) by (intros; apply H).
  assert (HD : forall r w x es, names s path (Dir r w x es) <-> stat s path = Some (Dir r w x es)) by (intros; apply H). clear H.
  split; [|split].
  - split.
    + destruct (stat s path) as [[[] w x|[] w [] es]|]; cbn; try discriminate; intros _; [left; exists w, x; apply HF; reflexivity|right; exists w, es; apply HD; reflexivity].
    + intros [(w & x & E)|(w & es & E)]; [apply HF in E|apply HD in E]; rewrite E; reflexivity.
  - split.
    + destruct (stat s path) as [[r [] x|r [] [] es]|]; cbn; try discriminate; intros _; [left; exists r, x; apply HF; reflexivity|right; exists r, es; apply HD; reflexivity].
    + intros [(r & x & E)|(r & es & E)]; [apply HF in E|apply HD in E]; rewrite E; reflexivity.
  - split.
    + destruct (stat s path) as [[r w []|r w [] es]|]; cbn; try discriminate; intros _; [left; exists r, w; apply HF; reflexivity|right; exists r, w, es; apply HD; reflexivity].
    + intros [(r & w & E)|(r & w & es & E)]; [apply HF in E|apply HD in E]; rewrite E; reflexivity.
Qed.
Print Assumptions C58_permissions.
(** The listing of a directory: its entries and the two dot entries; nothing if it is not a directory or must not be read. *)
Theorem C58_search_directory : forall s path name, In name (SearchDirectory s path) <->
  exists w x es, names s path (Dir true w x es) /\ (name = $"." \/ name = $".." \/ exists n, In (name, n) es).
Proof.
  intros s path name. unfold SearchDirectory, IsDirectory.
  assert (HD : forall r w x es, names s path (Dir r w x es) <-> stat s path = Some (Dir r w x es)) by (intros; symmetry; apply stat_names).
  split.
  - destruct (stat s path) as [[r w x|[] w x es]|] eqn:S; try contradiction. intros H. exists w, x, es. split; [apply HD; reflexivity|].
    cbn [app In] in H. destruct H as [H|[H|H]]; [left; congruence|right; left; congruence|right; right].
    apply in_map_iff in H. destruct H as ([k n] & <- & H). exists n. exact H.
  - intros (w & x & es & E & H). apply HD in E. rewrite E. cbn [app In].
    destruct H as [->|[->|(n & H)]]; [auto|auto|]. right; right. apply in_map_iff. exists (name, n). split; [reflexivity|exact H].
Qed.
Print Assumptions C58_search_directory.
(** What is said of a path is said of its characters up to the first NUL; of the empty path nothing holds. *)
Theorem C58_nul : forall s path, IsFile s path = IsFile s (cstr path) /\ IsDirectory s path = IsDirectory s (cstr path) /\
  IsReadable s path = IsReadable s (cstr path) /\ IsWritable s path = IsWritable s (cstr path) /\ IsExecutable s path = IsExecutable s (cstr path) /\
  Exists s path = Exists s (cstr path) /\ SearchDirectory s path = SearchDirectory s (cstr path) /\ Exists s [] = false.
Proof.
  intros s path. assert (E : stat s (cstr path) = stat s path).
  { unfold stat, resolve. assert (C : cstr (cstr path) = cstr path); [|rewrite C; reflexivity].
    induction path as [|c p IH]; [reflexivity|]. cbn. destruct (eqc c nul) eqn:N; [reflexivity|]. cbn. rewrite N. f_equal. exact IH. }
  unfold IsFile, IsDirectory, IsReadable, IsWritable, IsExecutable, Exists, SearchDirectory, access, IsDirectory. rewrite E. repeat split.
Qed.
Print Assumptions C58_nul.
(** Changing the current directory makes the directory named by the path the current one (C15). *)
Theorem C58_change_directory : forall s path s', SetCurrentDirectory s path = (s', Ok true) -> forall n, names s path n <-> names s' ($".") n.
Proof.
  intros s path s' H n. rewrite <- !stat_names. unfold SetCurrentDirectory in H. destruct (IsDirectory s path) eqn:D; cbn [negb] in H; [|discriminate].
  destruct (resolve s path) as [q|] eqn:R; [|discriminate]. destruct (access s path false false true); [|discriminate].
  injection H as <-. unfold stat at 1. rewrite R. unfold IsDirectory, stat in D. rewrite R in D.
  unfold stat, resolve. cbn -[is_dir_at lookup]. unfold is_dir_at. destruct (lookup (root s) q) as [[r w x|r w x es]|] eqn:L; try discriminate. rewrite L. reflexivity.
Qed.
Print Assumptions C58_change_directory.

(** ** C13 on a file system *)
Theorem C13_search_in_file_system : forall s f pl,
  let found p := exists r w x, names s p (File r w x) in
  (exists pre e post r, pl = pre ++ e :: post /\ Append e f = Ok r /\ found r /\
     (forall x y, In x pre -> Append x f = Ok y -> ~ found y) /\ SearchPathList (IsFile s) f pl = Ok r)
  \/ ((forall x y, In x pl -> Append x f = Ok y -> ~ found y) /\
      (pl = [] -> SearchPathList (IsFile s) f pl = Ok []) /\
      (forall pre e, pl = pre ++ [e] -> SearchPathList (IsFile s) f pl = Append e f)).
Proof.
  intros s f pl found.
  assert (K : forall p, IsFile s p = true <-> found p) by (intros p; apply (proj1 (C58_kind s p))).
  assert (K' : forall p, IsFile s p = false -> ~ found p) by (intros p H G; apply K in G; congruence).
  destruct (C13_search_path_list (IsFile s) f pl) as [(pre & e & post & r & E1 & E2 & E3 & E4 & E5)|(E1 & E2 & E3)]; [left|right].
  - exists pre, e, post, r. rewrite <- K. repeat split; try assumption. intros x y H1 H2. apply K'. eapply E4; eassumption.
  - split; [|split; assumption]. intros x y H1 H2. apply K'. eapply E1; eassumption.
Qed.
Print Assumptions C13_search_in_file_system.

(** Non-vacuity *)
Definition stat_os : os := Os (Dir true true true [($"home", Dir true true true [($"f", File true false false); ($"d", Dir true true false [])])]) [$"home"].
Example C58_example : names stat_os ($"../home/./f") (File true false false) /\ IsReadable stat_os ($"f") = true /\ IsWritable stat_os ($"f") = false /\
  IsFile stat_os ($"d") = false /\ IsDirectory stat_os ($"d") = true /\ IsReadable stat_os ($"d") = false /\
  SearchDirectory stat_os ($"/home") = [$"."; $".."; $"f"; $"d"] /\ Exists stat_os ($"f/") = false /\
  SearchPathList (IsFile stat_os) ($"f") [$"d"; $"/home"; $"/"] = Ok ($"/home/f").
Proof. split; [apply stat_names; vm_compute; reflexivity|]. vm_compute. repeat split. Qed.

(** Properties C10-C15, C53: path names. *)
From Verif Require Import Base Str PathModel PathFacts.

(** C10 *)
Theorem C10_append : forall p f,
  (is_absolute f = true \/ p = [] -> Append p f = Ok f) /\
  (is_absolute f = false -> p <> [] ->
     exists q k, p = q ++ repeat slash k /\ q <> [] /\ (length q = 1 \/ forall q', q <> q' ++ [slash]) /\
                 Append p f = Ok (q ++ [slash] ++ f)).
Proof. exact append_char. Qed.
Print Assumptions C10_append.
Theorem C10_append_assoc : forall p f g,
  (x <-- Append p f ;; Append x g) = (y <-- Append f g ;; Append p y).
Proof. exact append_assoc. Qed.
Print Assumptions C10_append_assoc.
Theorem C10_append_empty_left : forall f, Append [] f = Ok f.
Proof. exact append_nil. Qed.
Print Assumptions C10_append_empty_left.
Example C10_cases : Append ($"a//") ($"b") = Ok ($"a/b") /\ Append ($"/") ($"b") = Ok ($"//b") /\
  Append ($"a") ($"/b") = Ok ($"/b") /\ Append ($"a") [] = Ok ($"a/").
Proof. vm_compute. auto. Qed.

(** C11 *)
Theorem C11_directory_and_tail : forall p,
  (free slash p -> DirectoryName p = $"." /\ Tail p = p) /\
  (forall d t, p = d ++ slash :: t -> free slash t ->
     Tail p = t /\ DirectoryName p = match d with [] => $"." | _ => d end) /\
  (free slash p \/ exists d t, p = d ++ slash :: t /\ free slash t).
Proof. exact decomposition. Qed.
Print Assumptions C11_directory_and_tail.
Theorem C11_tail_of_append : forall p f r, Append p f = Ok r -> Tail r = Tail f.
Proof. exact tail_append. Qed.
Print Assumptions C11_tail_of_append.
Theorem C11_directory_of_append : forall p f r, p <> [] -> free slash f -> Append p f = Ok r ->
  exists k, p = DirectoryName r ++ repeat slash k.
Proof. exact dir_append. Qed.
Print Assumptions C11_directory_of_append.
Example C11_cases : DirectoryName ($"/a/b/c") = $"/a/b" /\ Tail ($"/a/b/c") = $"c" /\ DirectoryName ($"/a") = $".".
Proof. vm_compute. auto. Qed.
(** Rejoining directory and tail changes the meaning of a root-level path. *)
Theorem C11_rejoin_refuted : exists s p r, Append (DirectoryName p) (Tail p) = Ok r /\
  Exists s p = true /\ Exists s r = false.
Proof.
  exists (Os (Dir true true true [($"a", File true true false); ($"home", Dir true true true [])]) [$"home"]), ($"/a"), ($"./a").
  vm_compute. auto.
Qed.
Print Assumptions C11_rejoin_refuted.

(** C12 *)
Theorem C12_extension : forall p,
  (free dot (Tail p) -> Extension p = []) /\
  (forall b e, Tail p = b ++ dot :: e -> free dot e -> Extension p = e /\ free slash e /\
      exists pre, p = pre ++ dot :: e).
Proof. exact extension_char. Qed.
Print Assumptions C12_extension.
Theorem C12_extension_of_append : forall p f r, Append p f = Ok r -> Extension r = Extension f.
Proof. exact ext_append. Qed.
Print Assumptions C12_extension_of_append.
Example C12_cases : Extension ($"/d.d/x.tar.gz") = $"gz" /\ Extension ($"/d.d/x") = [].
Proof. vm_compute. auto. Qed.

(** C13 *)
Theorem C13_search_path_list : forall isfile f pl,
  (exists pre e post r, pl = pre ++ e :: post /\ Append e f = Ok r /\ isfile r = true /\
     (forall x y, In x pre -> Append x f = Ok y -> isfile y = false) /\ SearchPathList isfile f pl = Ok r)
  \/ ((forall x y, In x pl -> Append x f = Ok y -> isfile y = false) /\
      (pl = [] -> SearchPathList isfile f pl = Ok []) /\
      (forall pre e, pl = pre ++ [e] -> SearchPathList isfile f pl = Append e f)).
Proof. intros. apply search_loop_spec. Qed.
Print Assumptions C13_search_path_list.
(** The header promises an empty path when nothing is found. *)
Theorem C13_not_found_empty_refuted : exists isfile f pl r, (forall x, isfile x = false) /\
  SearchPathList isfile f pl = Ok r /\ r <> [].
Proof. exists (fun _ => false), ($"f"), [$"d"], ($"d/f"). split; [reflexivity|]. split; [vm_compute; reflexivity|discriminate]. Qed.
Print Assumptions C13_not_found_empty_refuted.

(** C14 *)
Theorem C14_colon_list : forall v, v <> [] ->
  exists l, GetPathListFromColonSeparatedList v = Ok l /\ l <> [] /\ Forall (free colon) l /\ join colon l = v.
Proof.
  intros v H. exists (split colon v). split; [apply colon_spec, H|]. split; [apply split_ne|].
  split; [apply split_elems|apply join_split].
Qed.
Print Assumptions C14_colon_list.
Theorem C14_colon_list_of_join : forall l, Forall (free colon) l -> l <> [] -> l <> [[]] ->
  GetPathListFromColonSeparatedList (join colon l) = Ok l.
Proof.
  intros l Hf Hn H1. rewrite colon_spec; [rewrite split_join by assumption; reflexivity|].
  intros E. apply H1. rewrite <- (split_join colon l Hn Hf), E. reflexivity.
Qed.
Print Assumptions C14_colon_list_of_join.
Theorem C14_colon_list_empty : GetPathListFromColonSeparatedList [] = Ok [].
Proof. reflexivity. Qed.
Print Assumptions C14_colon_list_empty.
Example C14_case : GetPathListFromColonSeparatedList ($"a::/b:") = Ok [$"a"; []; $"/b"; []].
Proof. vm_compute. reflexivity. Qed.

(** C15 *)
Theorem C15_not_a_directory : forall s p, IsDirectory s p = false <-> SetCurrentDirectory s p = (s, Throw ExnRuntime).
Proof.
  intros s p. split; [apply chdir_throw|]. intros H. apply chdir_cases in H. destruct H as (_ & _ & _ & [H _] & _). auto.
Qed.
Print Assumptions C15_not_a_directory.
Theorem C15_success : forall s p s' r, SetCurrentDirectory s p = (s', r) ->
  root s' = root s /\ (r <> Ok true -> s' = s) /\
  (r = Ok true <-> IsDirectory s p = true /\ IsExecutable s p = true) /\
  (r = Ok true -> resolve s p = Some (cwd s')).
Proof. intros s p s' r H. apply chdir_cases in H. tauto. Qed.
Print Assumptions C15_success.
Theorem C15_relative_paths_follow : forall s p s1 f r,
  free nul p -> free nul f -> p <> [] -> f <> [] -> is_absolute f = false ->
  SetCurrentDirectory s p = (s1, Ok true) -> Append p f = Ok r ->
  resolve s1 f = resolve s r /\ stat s1 f = stat s r.
Proof. exact chdir_then. Qed.
Print Assumptions C15_relative_paths_follow.
Theorem C15_two_steps : forall s p s1 f r,
  free nul p -> free nul f -> p <> [] -> f <> [] -> is_absolute f = false ->
  SetCurrentDirectory s p = (s1, Ok true) -> Append p f = Ok r ->
  forall s2, SetCurrentDirectory s1 f = (s2, Ok true) -> SetCurrentDirectory s r = (s2, Ok true).
Proof. exact chdir_append. Qed.
Print Assumptions C15_two_steps.
Theorem C15_history : forall l s, is_dir_at (root s) (cwd s) = true ->
  root (chdirs s l) = root s /\ is_dir_at (root s) (cwd (chdirs s l)) = true.
Proof. exact chdirs_inv. Qed.
Print Assumptions C15_history.
Theorem C15_set_get : forall s t, Forall good_name (cwd s) -> is_dir_at (root s) (cwd s) = true ->
  GetCurrentDirectory s = Ok t -> forall c s', SetCurrentDirectory (Os (root s) c) t = (s', Ok true) -> s' = s.
Proof. exact set_get. Qed.
Print Assumptions C15_set_get.
(** The fixed 1024-byte buffer: a deeper current directory is read from an uninitialised array. *)
Theorem C15_get_current_directory_defined : forall s, is_dir_at (root s) (cwd s) = true ->
  (GetCurrentDirectory s = UB <-> 1024 <= length (abs_text (cwd s))) /\
  (length (abs_text (cwd s)) < 1024 -> GetCurrentDirectory s = Ok (abs_text (cwd s))).
Proof.
  intros s Hd. unfold GetCurrentDirectory. rewrite Hd. unfold MAX_PATH.
  destruct (Nat.ltb_spec (length (abs_text (cwd s))) 1024) as [H|H].
  - split; [split; [discriminate|intros H1; exfalso; revert H1; apply Nat.lt_nge; exact H]|reflexivity].
  - split; [split; [intros _; exact H|reflexivity]|intros H1; exfalso; revert H; apply Nat.lt_nge; exact H1].
Qed.
Print Assumptions C15_get_current_directory_defined.
Definition ex_os : os :=
  Os (Dir true true true [($"home", Dir true true true [($"u", Dir true true true [($"f", File true true false)])])]) [$"home"].
Example C15_case : is_dir_at (root ex_os) (cwd ex_os) = true /\ Forall good_name (cwd ex_os) /\
  SetCurrentDirectory ex_os ($"u") = (Os (root ex_os) [$"home"; $"u"], Ok true) /\
  GetCurrentDirectory (Os (root ex_os) [$"home"; $"u"]) = Ok ($"/home/u") /\
  SetCurrentDirectory ex_os ($"u/f") = (ex_os, Throw ExnRuntime).
Proof.
  split; [reflexivity|]. split; [|vm_compute; auto].
  constructor; [|constructor]. unfold good_name. repeat split; try discriminate; apply freeb_spec; reflexivity.
Qed.

(** C53: Append agrees with the operating system. *)
Theorem C53_append_denotes : forall s p f r,
  free nul p -> free nul f -> p <> [] -> f <> [] -> is_absolute f = false -> Append p f = Ok r ->
  resolve s r = match resolve s p with Some pos => resolve (Os (root s) pos) f | None => None end.
Proof. exact resolve_append. Qed.
Print Assumptions C53_append_denotes.
Example C53_case : resolve ex_os ($"./../home//u/f") = Some [$"home"; $"u"; $"f"].
Proof. vm_compute. reflexivity. Qed.

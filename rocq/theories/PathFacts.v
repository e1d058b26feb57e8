(** Lemmas about path names. *)
From Verif Require Import Base Str PathModel.

(** * Trailing slashes *)
Fixpoint rstrip (t : str) : str :=
  match t with
  | [] => []
  | x :: t' => match rstrip t' with
               | [] => if eqc x slash then [] else [x]
               | y :: u => x :: y :: u
               end
  end.

Lemma rstrip_snoc t x : rstrip (t ++ [x]) = if eqc x slash then rstrip t else t ++ [x].
Proof.
  induction t as [|y t IH]; cbn [app rstrip].
  - destruct (eqc x slash); reflexivity.
  - rewrite IH. destruct (eqc x slash) eqn:E; [reflexivity|].
    destruct (t ++ [x]) eqn:E2; [destruct t; discriminate|reflexivity].
Qed.
Lemma rstrip_prefix t : exists k, t = rstrip t ++ repeat slash k.
Proof.
  induction t as [|x t [k IH]]; [exists 0; reflexivity|]. cbn [rstrip].
  destruct (rstrip t) as [|y u] eqn:E.
  - cbn [app] in IH. destruct (eqc_spec x slash) as [->|Hn].
    + exists (S k). cbn. f_equal. exact IH.
    + exists k. cbn. f_equal. exact IH.
  - exists k. cbn [app]. f_equal. exact IH.
Qed.
Lemma rstrip_len t : length (rstrip t) <= length t.
Proof. destruct (rstrip_prefix t) as [k E]. rewrite E at 2. rewrite app_length. lia. Qed.
Lemma rstrip_firstn t : firstn (length (rstrip t)) t = rstrip t.
Proof.
  destruct (rstrip_prefix t) as [k E]. rewrite E at 2.
  rewrite firstn_app, firstn_all, Nat.sub_diag. cbn [firstn]. apply app_nil_r.
Qed.
Lemma rstrip_last t q : rstrip t <> q ++ [slash].
Proof.
  revert q. induction t as [|x t IH] using rev_ind; intros q.
  - cbn. destruct q; discriminate.
  - rewrite rstrip_snoc. destruct (eqc_spec x slash) as [->|Hn]; [apply IH|].
    intros H. apply app_inj_tail in H. destruct H; contradiction.
Qed.
Lemma rstrip_idem t : rstrip (rstrip t) = rstrip t.
Proof.
  induction t as [|x t IH] using rev_ind; [reflexivity|].
  rewrite rstrip_snoc. destruct (eqc x slash) eqn:E; [exact IH|]. rewrite rstrip_snoc, E. reflexivity.
Qed.
Lemma rstrip_app_ne a b : rstrip b <> [] -> rstrip (a ++ b) = a ++ rstrip b.
Proof.
  induction a as [|x a IH]; intros H; [reflexivity|]. cbn [app rstrip]. rewrite IH by exact H.
  destruct (a ++ rstrip b) eqn:E; [|reflexivity].
  apply app_eq_nil in E. destruct E; contradiction.
Qed.
Lemma rstrip_cons_ne d u : d <> slash -> rstrip (d :: u) = d :: rstrip u.
Proof.
  intros H. cbn [rstrip]. apply eqc_false in H. rewrite H. destruct (rstrip u); reflexivity.
Qed.

Lemma strip_index_spec c t i : i <= length t ->
  strip_index (c :: t) i = Ok (length (rstrip (firstn i t))).
Proof.
  induction i as [|i IH]; intros Hi; [reflexivity|].
  cbn [strip_index]. unfold rd. cbn [nth_error].
  destruct (nth_error t i) as [x|] eqn:E; [|apply nth_error_None in E; lia].
  cbn [bind].
  assert (Ef : firstn (S i) t = firstn i t ++ [x]).
  { clear -E. revert i E. induction t as [|y t IH]; intros [|i] E; cbn in *; try discriminate.
    - inversion E; reflexivity.
    - f_equal. apply IH, E. }
  rewrite Ef, rstrip_snoc. destruct (eqc x slash).
  - apply IH. lia.
  - rewrite app_length, firstn_length_le by lia. cbn. f_equal. lia.
Qed.

Lemma append_rel c t f : is_absolute f = false -> Append (c :: t) f = Ok ((c :: rstrip t) ++ slash :: f).
Proof.
  intros H. unfold Append. rewrite H. cbn [orb length Nat.eqb Nat.sub]. rewrite Nat.sub_0_r.
  rewrite strip_index_spec by lia. rewrite firstn_all. cbn [bind].
  rewrite Nat.add_1_r. cbn [firstn]. rewrite rstrip_firstn. reflexivity.
Qed.
Lemma append_abs p f : is_absolute f = true -> Append p f = Ok f.
Proof. intros H. unfold Append. rewrite H. reflexivity. Qed.
Lemma append_nil f : Append [] f = Ok f.
Proof. unfold Append. rewrite orb_true_r. reflexivity. Qed.

Lemma append_ok p f : exists r, Append p f = Ok r.
Proof.
  destruct (is_absolute f) eqn:E; [rewrite append_abs by exact E; eauto|].
  destruct p; [rewrite append_nil; eauto|rewrite append_rel by exact E; eauto].
Qed.

Lemma append_char p f :
  (is_absolute f = true \/ p = [] -> Append p f = Ok f) /\
  (is_absolute f = false -> p <> [] ->
     exists q k, p = q ++ repeat slash k /\ q <> [] /\ (length q = 1 \/ forall q', q <> q' ++ [slash]) /\
                 Append p f = Ok (q ++ [slash] ++ f)).
Proof.
  split.
  - intros [H| ->]; [apply append_abs, H|apply append_nil].
  - intros H Hp. destruct p as [|c t]; [contradiction|].
    destruct (rstrip_prefix t) as [k E].
    exists (c :: rstrip t), k. split; [cbn [app]; f_equal; exact E|]. split; [discriminate|].
    split; [|rewrite append_rel by exact H; reflexivity].
    destruct (rstrip t) as [|y u] eqn:Er; [left; reflexivity|right].
    intros q' Hq. destruct q' as [|z q']; [discriminate|].
    apply (rstrip_last t q'). rewrite Er. inversion Hq; reflexivity.
Qed.

Lemma append_assoc p f g :
  (x <-- Append p f ;; Append x g) = (y <-- Append f g ;; Append p y).
Proof.
  destruct (is_absolute g) eqn:Eg.
  { rewrite (append_abs f g Eg). cbn [bind]. rewrite (append_abs p g Eg).
    destruct (append_ok p f) as [x ->]. cbn [bind]. apply append_abs, Eg. }
  destruct p as [|c t].
  { rewrite append_nil. cbn [bind]. destruct (append_ok f g) as [y ->]. cbn [bind]. rewrite append_nil. reflexivity. }
  destruct f as [|d u].
  { rewrite append_nil. cbn [bind]. rewrite append_rel by reflexivity. cbn [bind app].
    rewrite append_rel by exact Eg. rewrite append_rel by exact Eg.
    rewrite rstrip_snoc, eqc_refl, rstrip_idem. reflexivity. }
  rewrite (append_rel d u g Eg). cbn [bind].
  destruct (eqc_spec d slash) as [->|Hd].
  { rewrite (append_abs (c :: t) (slash :: u)) by reflexivity. cbn [bind].
    rewrite append_rel by exact Eg. rewrite (append_abs (c :: t)) by reflexivity. reflexivity. }
  assert (Hr : is_absolute (d :: u) = false) by (cbn; apply eqc_false; exact Hd).
  rewrite (append_rel c t (d :: u) Hr). cbn [bind app].
  rewrite append_rel by exact Eg.
  rewrite (append_rel c t) by exact Hr.
  replace (rstrip t ++ slash :: d :: u) with ((rstrip t ++ [slash]) ++ (d :: u)) by (rewrite <- app_assoc; reflexivity).
  rewrite rstrip_app_ne by (rewrite rstrip_cons_ne by exact Hd; discriminate).
  rewrite rstrip_cons_ne by exact Hd. cbn [app]. rewrite <- !app_assoc. reflexivity.
Qed.

(** * Directory, tail, extension *)
Lemma tail_free p : free slash p -> Tail p = p.
Proof.
  intros H. unfold Tail. destruct p as [|c t]; [reflexivity|]. cbn [length Nat.eqb].
  rewrite rfind_free by exact H. reflexivity.
Qed.
Lemma tail_split d t : free slash t -> Tail (d ++ slash :: t) = t.
Proof.
  intros H. unfold Tail. rewrite app_length. cbn [length].
  replace (length d + S (length t) =? 0) with false by (symmetry; apply Nat.eqb_neq; lia).
  rewrite rfind_last by exact H.
  replace (d ++ slash :: t) with ((d ++ [slash]) ++ t) by (rewrite <- app_assoc; reflexivity).
  replace (length d + 1) with (length (d ++ [slash])) by (rewrite app_length; reflexivity).
  apply substr_suffix. lia.
Qed.
Lemma dir_free p : free slash p -> DirectoryName p = $".".
Proof. intros H. unfold DirectoryName. rewrite rfind_free by exact H. reflexivity. Qed.
Lemma dir_split d t : free slash t -> DirectoryName (d ++ slash :: t) = match d with [] => $"." | _ => d end.
Proof.
  intros H. unfold DirectoryName. rewrite rfind_last by exact H. destruct d as [|c d]; [reflexivity|].
  cbn [length]. change (S (length d)) with (length (c :: d)). apply substr_prefix.
Qed.

Lemma decomposition p :
  (free slash p -> DirectoryName p = $"." /\ Tail p = p) /\
  (forall d t, p = d ++ slash :: t -> free slash t ->
     Tail p = t /\ DirectoryName p = match d with [] => $"." | _ => d end) /\
  (free slash p \/ exists d t, p = d ++ slash :: t /\ free slash t).
Proof.
  split; [intros H; split; [apply dir_free, H|apply tail_free, H]|].
  split; [intros d t -> H; split; [apply tail_split, H|apply dir_split, H]|apply last_split].
Qed.

Lemma tail_no_slash p : free slash (Tail p).
Proof.
  destruct (last_split slash p) as [H|(d & t & -> & H)]; [rewrite tail_free by exact H; exact H|].
  rewrite tail_split by exact H. exact H.
Qed.

Lemma ext_free p : free dot (Tail p) -> Extension p = [].
Proof. intros H. unfold Extension. rewrite rfind_free by exact H. reflexivity. Qed.
Lemma ext_split p b e : Tail p = b ++ dot :: e -> free dot e -> Extension p = e.
Proof.
  intros E H. unfold Extension. rewrite E, rfind_last by exact H.
  replace (b ++ dot :: e) with ((b ++ [dot]) ++ e) by (rewrite <- app_assoc; reflexivity).
  replace (length b + 1) with (length (b ++ [dot])) by (rewrite app_length; reflexivity).
  apply substr_suffix. rewrite !app_length. cbn. lia.
Qed.
Lemma extension_char p :
  (free dot (Tail p) -> Extension p = []) /\
  (forall b e, Tail p = b ++ dot :: e -> free dot e -> Extension p = e /\ free slash e /\
      exists pre, p = pre ++ dot :: e).
Proof.
  split; [apply ext_free|]. intros b e E H. split; [eapply ext_split; eauto|].
  split.
  - pose proof (tail_no_slash p) as Hf. rewrite E in Hf. apply free_app in Hf. destruct Hf as [_ Hf].
    apply free_cons in Hf. tauto.
  - destruct (last_split slash p) as [Hf|(d & t & Ep & Hf)].
    + rewrite tail_free in E by exact Hf. exists b. exact E.
    + exists (d ++ slash :: b). rewrite Ep in *. rewrite tail_split in E by exact Hf. rewrite E, <- app_assoc. reflexivity.
Qed.

(** * Interaction with Append *)
Lemma tail_app_sep d f : Tail (d ++ slash :: f) = Tail f.
Proof.
  destruct (last_split slash f) as [H|(a & b & -> & H)].
  - rewrite tail_split, tail_free by exact H. reflexivity.
  - rewrite (tail_split a b H).
    replace (d ++ slash :: a ++ slash :: b) with ((d ++ slash :: a) ++ slash :: b) by (rewrite <- app_assoc; reflexivity).
    apply tail_split, H.
Qed.
Lemma tail_append p f r : Append p f = Ok r -> Tail r = Tail f.
Proof.
  destruct (append_char p f) as [H1 H2]. intros H.
  destruct (is_absolute f) eqn:E; [rewrite H1 in H by auto; inversion H; reflexivity|].
  destruct p as [|c t]; [rewrite H1 in H by auto; inversion H; reflexivity|].
  destruct (H2 eq_refl ltac:(discriminate)) as (q & k & _ & _ & _ & Hq). rewrite Hq in H. inversion H. apply tail_app_sep.
Qed.
Lemma ext_append p f r : Append p f = Ok r -> Extension r = Extension f.
Proof. intros H. unfold Extension. rewrite (tail_append p f r H). reflexivity. Qed.
Lemma dir_append p f r : p <> [] -> free slash f -> Append p f = Ok r ->
  exists k, p = DirectoryName r ++ repeat slash k.
Proof.
  intros Hp Hf H. destruct (append_char p f) as [_ H2].
  assert (E : is_absolute f = false).
  { destruct f as [|c f]; [reflexivity|]. cbn. apply eqc_false. apply free_cons in Hf. tauto. }
  destruct (H2 E Hp) as (q & k & Eq & Hq & _ & Ha). exists k.
  rewrite Ha in H. inversion H. subst r. cbn [app]. rewrite dir_split by exact Hf. destruct q; [contradiction|exact Eq].
Qed.

(** * SearchPathList *)
Lemma search_loop_spec isfile f : forall pl full0,
  (exists pre e post r, pl = pre ++ e :: post /\ Append e f = Ok r /\ isfile r = true /\
     (forall x y, In x pre -> Append x f = Ok y -> isfile y = false) /\ search_loop isfile pl f full0 = Ok r)
  \/ ((forall x y, In x pl -> Append x f = Ok y -> isfile y = false) /\
      (pl = [] -> search_loop isfile pl f full0 = Ok full0) /\
      (forall pre e, pl = pre ++ [e] -> search_loop isfile pl f full0 = Append e f)).
Proof.
  induction pl as [|e pl IH]; intros full0.
  - right. split; [intros ? ? []|]. split; [reflexivity|]. intros pre e H. destruct pre; discriminate.
  - destruct (append_ok e f) as [r Hr]. cbn [search_loop]. rewrite Hr. cbn [bind].
    destruct (isfile r) eqn:Ei.
    + left. exists [], e, pl, r. repeat split; auto. intros ? ? [].
    + destruct (IH r) as [(pre & e' & post & r' & -> & H1 & H2 & H3 & H4)|(H1 & H2 & H3)].
      * left. exists (e :: pre), e', post, r'. repeat split; auto.
        intros x y [<-|Hx] Hy; [congruence|eauto].
      * right. split; [intros x y [<-|Hx] Hy; [congruence|eauto]|]. split; [discriminate|].
        intros pre e' Hp. destruct pre as [|z pre].
        -- inversion Hp; subst. rewrite H2 by reflexivity. symmetry; exact Hr.
        -- inversion Hp; subst. eapply H3. reflexivity.
Qed.

(** * Colon separated lists *)
Lemma colon_loop_spec : forall fuel pre s, length s < fuel ->
  colon_loop fuel (pre ++ s) (length pre) = Ok (split colon s).
Proof.
  induction fuel as [|fuel IH]; intros pre s Hf; [lia|].
  cbn [colon_loop]. rewrite find_from_app.
  destruct (first_split colon s) as [H|(a & b & -> & H)].
  - rewrite find_free0 by exact H. cbn [option_map]. rewrite split_free by exact H.
    rewrite substr_suffix; [reflexivity|rewrite app_length; lia].
  - rewrite find_first0 by exact H. cbn [option_map].
    replace (length pre + length a + 1) with (length (pre ++ a ++ [colon])) by (rewrite !app_length; cbn; lia).
    replace (pre ++ a ++ colon :: b) with ((pre ++ a ++ [colon]) ++ b) by (rewrite <- !app_assoc; reflexivity).
    rewrite IH by (rewrite app_length in Hf; cbn in Hf; lia). cbn [bind].
    rewrite split_app by exact H. do 2 f_equal.
    rewrite <- !app_assoc. replace (length pre + length a - length pre) with (length a) by lia. apply substr_mid.
Qed.
Lemma colon_spec v : v <> [] -> GetPathListFromColonSeparatedList v = Ok (split colon v).
Proof. intros H. destruct v; [contradiction|]. apply (colon_loop_spec _ []). lia. Qed.

(** * Resolution *)
Lemma walk_none r cs : walk r None cs = None.
Proof. unfold walk. induction cs as [|c cs IH]; [reflexivity|exact IH]. Qed.
Lemma walk_app r pos a b : walk r pos (a ++ b) = walk r (walk r pos a) b.
Proof. apply fold_left_app. Qed.
Lemma walk1_nil r p c : walk1 r (walk1 r p []) c = walk1 r p c.
Proof.
  destruct p as [p|]; [|reflexivity]. cbn [walk1]. destruct (is_dir_at r p) eqn:E; [|reflexivity].
  cbn [eqs orb]. cbn [walk1]. rewrite E. reflexivity.
Qed.
Lemma walk_empties r p k cs : cs <> [] -> walk r p (repeat [] k ++ cs) = walk r p cs.
Proof.
  intros H. induction k as [|k IH]; [reflexivity|].
  cbn [repeat app]. unfold walk in *. cbn [fold_left].
  destruct cs as [|c cs]; [contradiction|].
  destruct k as [|k].
  - cbn [repeat app fold_left]. rewrite walk1_nil. reflexivity.
  - cbn [repeat app fold_left] in *. rewrite walk1_nil. exact IH.
Qed.
Lemma walk_sep r p k cs : walk r p (split slash (repeat slash k) ++ cs) = walk r p (repeat [] (S k) ++ cs).
Proof.
  f_equal. f_equal. induction k as [|k IH]; [reflexivity|]. cbn [repeat split]. rewrite eqc_refl, IH. reflexivity.
Qed.

Lemma split_trailing q k : split slash (q ++ repeat slash k) = split slash q ++ repeat [] k.
Proof.
  revert q. induction k as [|k IH]; intros q; [cbn [repeat]; rewrite !app_nil_r; reflexivity|].
  cbn [repeat]. replace (q ++ slash :: repeat slash k) with ((q ++ [slash]) ++ repeat slash k) by (rewrite <- app_assoc; reflexivity).
  rewrite IH. rewrite split_sep. cbn [split]. rewrite <- app_assoc. reflexivity.
Qed.

Definition resolve_from (r : node) (pos : option (list str)) (f : str) : option (list str) :=
  walk r pos (split slash f).

Lemma resolve_eq s path : free nul path -> path <> [] ->
  resolve s path = if is_absolute path then walk (root s) (Some []) (split slash (tl path))
                   else walk (root s) (Some (cwd s)) (split slash path).
Proof.
  intros Hn Hp. unfold resolve. rewrite cstr_free by exact Hn. destruct path; [contradiction|]. reflexivity.
Qed.

(** The position named by an appended path is the position named by the second path, seen from the first. *)
Lemma resolve_append s p f r : free nul p -> free nul f -> p <> [] -> f <> [] -> is_absolute f = false ->
  Append p f = Ok r ->
  resolve s r = match resolve s p with Some pos => resolve (Os (root s) pos) f | None => None end.
Proof.
  intros Hnp Hnf Hp Hf Ha H.
  assert (Hgoal : forall q k, p = q ++ repeat slash k -> q <> [] -> 
     resolve s (q ++ slash :: f) = match resolve s p with Some pos => resolve (Os (root s) pos) f | None => None end).
  2:{ destruct (append_char p f) as [_ H2]. destruct (H2 Ha Hp) as (q & k & Eq & Hq & _ & Hr).
      rewrite Hr in H. inversion H. apply (Hgoal q k Eq Hq). }
  intros q k Eq Hq.
  assert (Hrf : match resolve s p with Some pos => resolve (Os (root s) pos) f | None => None end
                = walk (root s) (resolve s p) (split slash f)).
  { destruct (resolve s p) as [pos|]; [|rewrite walk_none; reflexivity].
    rewrite resolve_eq by assumption. rewrite Ha. reflexivity. }
  rewrite Hrf. clear Hrf.
  assert (Hnq : free nul (q ++ slash :: f)).
  { apply free_app. rewrite Eq in Hnp. apply free_app in Hnp. split; [tauto|]. apply free_cons. split; [discriminate|exact Hnf]. }
  rewrite resolve_eq; [|exact Hnq|destruct q; discriminate].
  rewrite resolve_eq by assumption. subst p. destruct q as [|c q]; [contradiction|].
  cbn [app is_absolute tl].
  assert (Hsp : forall pos q, walk (root s) pos (split slash (q ++ slash :: f))
     = walk (root s) (walk (root s) pos (split slash (q ++ repeat slash k))) (split slash f)).
  { intros pos q0. rewrite split_sep, split_trailing, !walk_app. rewrite <- walk_app.
    rewrite <- (walk_app _ _ (repeat [] k)). rewrite walk_empties by apply split_ne. rewrite <- walk_app. reflexivity. }
  destruct (eqc c slash).
  - apply Hsp.
  - apply (Hsp _ (c :: q)).
Qed.

(** position reached is always an existing node *)
Lemma lookup_app n a b : lookup n (a ++ b) = match lookup n a with Some m => lookup m b | None => None end.
Proof.
  revert n. induction a as [|c a IH]; intros n; [reflexivity|]. cbn [app lookup]. destruct n; [reflexivity|].
  destruct (assoc c entries); [apply IH|reflexivity].
Qed.
Lemma is_dir_prefix r p c n : lookup r (p ++ [c]) = Some n -> is_dir_at r p = true.
Proof.
  unfold is_dir_at. rewrite lookup_app. destruct (lookup r p) as [m|]; [|discriminate].
  cbn. destruct m; [discriminate|reflexivity].
Qed.
Lemma walk1_exists r p c q : walk1 r (Some p) c = Some q -> exists n, lookup r q = Some n.
Proof.
  cbn [walk1]. destruct (is_dir_at r p) eqn:E; [|discriminate].
  assert (Hp : exists n, lookup r p = Some n) by (unfold is_dir_at in E; destruct (lookup r p); [eauto|discriminate]).
  destruct (eqs c [] || eqs c ($".")); [intros H; inversion H; subst; exact Hp|].
  destruct (eqs c ($"..")).
  - intros H; inversion H; subst. destruct p as [|x p] using rev_ind; [exact Hp|].
    rewrite removelast_last. destruct Hp as [n Hn]. rewrite lookup_app in Hn. destruct (lookup r p); [eauto|discriminate].
  - destruct (lookup r (p ++ [c])) eqn:El; [|discriminate]. intros H; inversion H; subst. eauto.
Qed.
Lemma walk_exists r cs : forall p q, cs <> [] -> walk r (Some p) cs = Some q -> exists n, lookup r q = Some n.
Proof.
  induction cs as [|c cs IH]; intros p q Hn H; [contradiction|].
  unfold walk in H. cbn [fold_left] in H. destruct (walk1 r (Some p) c) as [p'|] eqn:E.
  - destruct cs as [|c' cs]; [cbn in H; inversion H; subst; eapply walk1_exists; eauto|].
    eapply IH; [discriminate|exact H].
  - change (walk r None cs = Some q) in H. rewrite walk_none in H. discriminate.
Qed.
Lemma resolve_exists s path p : resolve s path = Some p -> exists n, lookup (root s) p = Some n.
Proof.
  unfold resolve. destruct (cstr path) as [|c rest]; [discriminate|].
  destruct (eqc c slash); apply walk_exists, split_ne.
Qed.
Lemma stat_some s path p : resolve s path = Some p -> exists n, stat s path = Some n.
Proof. intros H. destruct (resolve_exists s path p H) as [n Hn]. exists n. unfold stat. rewrite H. exact Hn. Qed.

(** SetCurrentDirectory *)
Lemma chdir_throw s path : IsDirectory s path = false -> SetCurrentDirectory s path = (s, Throw ExnRuntime).
Proof. intros H. unfold SetCurrentDirectory. rewrite H. reflexivity. Qed.
Lemma chdir_cases s path s' r : SetCurrentDirectory s path = (s', r) ->
  root s' = root s /\
  (r = Ok true -> IsDirectory s path = true /\ resolve s path = Some (cwd s')) /\
  (r <> Ok true -> s' = s) /\ (r = Throw ExnRuntime <-> IsDirectory s path = false) /\
  (r = Ok true <-> IsDirectory s path = true /\ IsExecutable s path = true).
Proof.
  unfold SetCurrentDirectory, IsExecutable. destruct (IsDirectory s path) eqn:E; cbn [negb].
  - destruct (resolve s path) as [p|] eqn:Er.
    + destruct (access s path false false true); intros H; inversion H; subst; cbn;
        repeat split; intros; try tauto; try congruence; try discriminate. destruct H0; discriminate.
    + exfalso. unfold IsDirectory, stat in E. rewrite Er in E. discriminate.
  - intros H; inversion H; subst. repeat split; intros; try tauto; try congruence; try discriminate. destruct H0; discriminate.
Qed.

Lemma is_dir_resolve s path : IsDirectory s path = true <-> exists p, resolve s path = Some p /\ is_dir_at (root s) p = true.
Proof.
  unfold IsDirectory, stat, is_dir_at. split.
  - destruct (resolve s path) as [p|]; [|discriminate]. intros H. exists p. auto.
  - intros (p & -> & H). exact H.
Qed.

(** relative resolution after a successful change of directory *)
Lemma chdir_then s p s1 f r : free nul p -> free nul f -> p <> [] -> f <> [] -> is_absolute f = false ->
  SetCurrentDirectory s p = (s1, Ok true) -> Append p f = Ok r ->
  resolve s1 f = resolve s r /\ stat s1 f = stat s r.
Proof.
  intros Hnp Hnf Hp Hf Ha H Hr.
  destruct (chdir_cases _ _ _ _ H) as (Hroot & Hok & _). destruct (Hok eq_refl) as [_ Hres].
  assert (E : resolve s1 f = resolve s r).
  { rewrite (resolve_append s p f r) by assumption. rewrite Hres. destruct s1 as [r1 c1]. cbn in *. subst r1. reflexivity. }
  split; [exact E|]. unfold stat. rewrite E, Hroot. reflexivity.
Qed.

(** GetCurrentDirectory text resolves back to the current directory. *)
Definition good_name (c : str) : Prop := c <> [] /\ free slash c /\ free nul c /\ c <> $"." /\ c <> $"..".
Lemma abs_split p : p <> [] -> Forall good_name p -> split slash (tl (abs_text p)) = p.
Proof.
  intros Hn H. destruct p as [|c p]; [contradiction|].
  assert (E : tl (abs_text (c :: p)) = join slash (c :: p)).
  { clear. cbn. revert c. induction p as [|d p IH]; intros c; [cbn; apply app_nil_r|].
    cbn [flat_map join]. rewrite <- IH. reflexivity. }
  rewrite E. apply split_join; [discriminate|]. eapply Forall_impl; [|exact H]. unfold good_name. tauto.
Qed.
Lemma walk_names r p : forall pos, Forall good_name p -> is_dir_at r (pos ++ p) = true -> 
  walk r (Some pos) p = Some (pos ++ p).
Proof.
  induction p as [|c p IH]; intros pos Hg Hd; [rewrite app_nil_r; reflexivity|].
  inversion Hg as [|? ? Hc Hp]; subst.
  assert (Hl : exists n, lookup r (pos ++ [c]) = Some n).
  { replace (pos ++ c :: p) with ((pos ++ [c]) ++ p) in Hd by (rewrite <- app_assoc; reflexivity).
    unfold is_dir_at in Hd. rewrite lookup_app in Hd. destruct (lookup r (pos ++ [c])); [eauto|discriminate]. }
  destruct Hl as [n Hn].
  unfold walk. cbn [fold_left]. 
  assert (E : walk1 r (Some pos) c = Some (pos ++ [c])).
  { cbn [walk1]. rewrite (is_dir_prefix _ _ _ _ Hn). destruct Hc as (H1 & _ & _ & H2 & H3).
    apply eqs_false in H1, H2, H3. rewrite H1, H2, H3. cbn [orb]. rewrite Hn. reflexivity. }
  rewrite E. fold (walk r (Some (pos ++ [c])) p). rewrite IH; [rewrite <- app_assoc; reflexivity|assumption|].
  rewrite <- app_assoc. exact Hd.
Qed.
Lemma abs_free p : Forall good_name p -> free nul (abs_text p).
Proof.
  intros H. destruct p as [|c p]; [cbn; intros [?|[]]; discriminate|].
  cbn [abs_text]. induction H as [|d l Hd Hl IH]; [apply free_nil|].
  cbn [flat_map]. apply free_cons. split; [discriminate|]. apply free_app. split; [unfold good_name in Hd; tauto|].
  exact IH.
Qed.
Lemma getcwd_resolves s t : Forall good_name (cwd s) -> is_dir_at (root s) (cwd s) = true -> 
  GetCurrentDirectory s = Ok t -> forall c, resolve (Os (root s) c) t = Some (cwd s).
Proof.
  intros Hg Hd H c. unfold GetCurrentDirectory in H. rewrite Hd in H.
  destruct (length (abs_text (cwd s)) <? MAX_PATH); [|discriminate]. inversion H; subst t. clear H.
  rewrite resolve_eq; [|apply abs_free, Hg|destruct (cwd s); discriminate].
  cbn [root PathModel.cwd]. destruct (cwd s) as [|d p] eqn:E.
  - unfold walk. cbn [abs_text is_absolute tl split fold_left walk1 eqc]. change (eqc slash slash) with true. cbn [fold_left walk1]. rewrite Hd. reflexivity.
  - replace (is_absolute (abs_text (d :: p))) with true by reflexivity.
    rewrite abs_split; [|discriminate|exact Hg]. apply (walk_names _ _ []); assumption.
Qed.

(** Histories of directory changes: each failing call leaves the state alone. *)
Definition chdirs (s : os) (l : list str) : os := fold_left (fun s p => fst (SetCurrentDirectory s p)) l s.
Lemma chdirs_inv l : forall s, is_dir_at (root s) (cwd s) = true ->
  root (chdirs s l) = root s /\ is_dir_at (root s) (cwd (chdirs s l)) = true.
Proof.
  induction l as [|p l IH]; intros s Hd; [auto|].
  unfold chdirs in *. cbn [fold_left].
  destruct (SetCurrentDirectory s p) as [s' r] eqn:E. cbn [fst].
  destruct (chdir_cases _ _ _ _ E) as (Hr & Hok & Hno & _ & _).
  assert (Hd' : is_dir_at (root s') (cwd s') = true).
  { destruct r as [[|]| | | |]; try (rewrite (Hno ltac:(discriminate)); exact Hd).
    destruct (Hok eq_refl) as [H1 H2]. apply is_dir_resolve in H1. destruct H1 as (q & Hq & Hdq).
    rewrite Hr. congruence. }
  destruct (IH s' Hd') as [H1 H2]. split; [congruence|]. rewrite <- Hr. exact H2.
Qed.
Lemma chdir_append s p s1 f r : free nul p -> free nul f -> p <> [] -> f <> [] -> is_absolute f = false ->
  SetCurrentDirectory s p = (s1, Ok true) -> Append p f = Ok r ->
  forall s2, SetCurrentDirectory s1 f = (s2, Ok true) -> SetCurrentDirectory s r = (s2, Ok true).
Proof.
  intros Hnp Hnf Hp Hf Ha H Hr s2 H2.
  destruct (chdir_then s p s1 f r Hnp Hnf Hp Hf Ha H Hr) as [E1 E2].
  destruct (chdir_cases _ _ _ _ H) as (Hroot & _).
  assert (Ed : IsDirectory s r = IsDirectory s1 f) by (unfold IsDirectory; rewrite E2; reflexivity).
  assert (Ea : access s r false false true = access s1 f false false true) by (unfold access; rewrite E2; reflexivity).
  unfold SetCurrentDirectory in *. rewrite Ed, Ea, <- E1.
  destruct (IsDirectory s1 f); [|discriminate]. cbn [negb] in *. destruct (resolve s1 f); [|discriminate].
  rewrite Hroot in H2. destruct (access s1 f false false true); [exact H2|discriminate].
Qed.
Lemma set_get s t : Forall good_name (cwd s) -> is_dir_at (root s) (cwd s) = true ->
  GetCurrentDirectory s = Ok t -> forall c s', SetCurrentDirectory (Os (root s) c) t = (s', Ok true) -> s' = s.
Proof.
  intros Hg Hd Ht c s' H. pose proof (getcwd_resolves s t Hg Hd Ht c) as Hr.
  destruct (chdir_cases _ _ _ _ H) as (Hroot & Hok & _). destruct (Hok eq_refl) as [_ E].
  rewrite Hr in E. inversion E. destruct s, s'. cbn in *. congruence.
Qed.

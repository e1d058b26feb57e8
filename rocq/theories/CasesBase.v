(** Concrete cases for the theorems of B64Props, PathProps, PathStatProps and MeasProps that have hypotheses: each theorem is applied to a case that meets them. *)
From Coq Require Import Reals.
From Flocq Require Import Core.
From Coq Require Import Floats.SpecFloat.
From Coq Require Import Lra.
From Verif Require Import Base Str B64Spec B64Model B64Thm Dec XmlText MeasModel MeasFacts MeasFacts2 FloatFacts TolFacts B64Props PathModel PathFacts PathProps PathStatProps MeasProps.

Lemma seven s : forallb (fun c => code c <? 128) s = true -> seven_bit s.
Proof. intros H c I. rewrite forallb_forall in H. apply Nat.ltb_lt, H, I. Qed.
Lemma free_lit c s : freeb c s = true -> Str.free c s.
Proof. unfold freeb, Str.free. intros H I. apply negb_true_iff in H. assert (X : existsb (eqc c) s = true) by (apply existsb_exists; exists c; split; [exact I|apply eqc_refl]). congruence. Qed.
Ltac met := first [reflexivity | discriminate | apply seven; reflexivity | apply free_lit; reflexivity | vm_compute; lia | intros X; vm_compute in X; discriminate X].

(** * base64 *)
Example C01_encode_is_rfc4648_met : Encode (Opts false false) ($"light work") = Ok (rfc4648 ($"light work")).
Proof. apply C01_encode_is_rfc4648; met. Qed.
Example C02_encode_layout_met : exists k, Encode default_opts (repeat "a"%char 60) = Ok (firstn 72 (rfc4648 (repeat "a"%char 60)) ++ [nl] ++ skipn 72 (rfc4648 (repeat "a"%char 60)) ++ repeat nul k).
Proof. destruct (C02_encode_layout default_opts (repeat "a"%char 60)) as (k & E & _); [met|]. exists k. rewrite E. change (54 <=? length (repeat "a"%char 60)) with true. cbv iota. rewrite <- !app_assoc. reflexivity. Qed.
Example C04_decode_encode_met : Decode true default_opts ($"bGlnaHQh") (repeat None 7) = (map Some ($"light!") ++ [None], Ok 6) /\ snd (Decode true default_opts ($"bGk=") (repeat None 7)) = Throw ExnRuntime.
Proof.
  split.
  - apply (C04_decode_encode true default_opts default_opts ($"light!") ($"bGlnaHQh") (repeat None 7)); [met|met|]. split; [met|right; right; met].
  - apply (C04_decode_encode true default_opts default_opts ($"li") ($"bGk=") (repeat None 7)); [met|met|]. intros [X _]. discriminate X.
Qed.
Example C05_decode_language_met : snd (Decode true (Opts true true) ($"b G.l-n") (repeat None 8)) = Ok 3 /\ snd (Decode true default_opts ($"b Gln") (repeat None 8)) = Throw ExnRuntime.
Proof.
  split.
  - destruct (C05_decode_language true (Opts true true) ($"b G.l-n") (repeat None 8)) as [H _]; [met|met|]. destruct H as [_ H]; [split; met|]. rewrite H. reflexivity.
  - apply (C05_decode_language true default_opts ($"b Gln") (repeat None 8)); [met|met|]. intros [X _]. discriminate X.
Qed.
Example C06_padded_rejected_met : snd (Decode true default_opts ($"bGk=") (repeat None 4)) = Throw ExnRuntime.
Proof. apply C06_padded_rejected; [met|met|right; right; right; left; reflexivity]. Qed.
Example C06_padded_overruns_met : snd (Decode true default_opts ($"bGk=") (repeat None 2)) = UB.
Proof. apply (C06_padded_overruns true default_opts default_opts ($"li") ($"bGk=")); met. Qed.
Example C07_decode_fits_reported_size_met : exists w r, Decode true default_opts ($"bGlnaHQgdw==") (repeat None 10) = (map Some w ++ skipn (length w) (repeat None 10), r) /\ length w <= 10 /\ r <> UB.
Proof. apply (C07_decode_fits_reported_size true default_opts ($"bGlnaHQgdw==") 10 (repeat None 10)); met. Qed.
Example C08_isbase64_counts_symbols_met : IsBase64 true default_opts ($"bGln") = Ok (symbol_count (ignoreInvalids default_opts) ($"bGln")) /\ symbol_count (ignoreInvalids default_opts) ($"bGln") = 4.
Proof. split; [apply C08_isbase64_counts_symbols; met|reflexivity]. Qed.
Example C08_isbase64_ratio_met : 4 * 3 = 3 * 4.
Proof. apply (C08_isbase64_ratio true default_opts ($"bGln") (repeat None 8) 4 3 (fst (Decode true default_opts ($"bGln") (repeat None 8)))); met. Qed.
Example C09_decode_undefined_iff_met : snd (Decode true default_opts ($"ab" ++ [chr 200]) (repeat None 4)) = UB.
Proof. apply C09_decode_undefined_iff; [met|]. exists ($"ab"), (chr 200), []. split; [met|]. split; [met|]. split; [met|met]. Qed.
Example C09_isbase64_undefined_iff_met : IsBase64 true default_opts ($"ab" ++ [chr 200]) = UB.
Proof. apply C09_isbase64_undefined_iff. exists ($"ab"), (chr 200), []. split; [met|]. split; [met|]. split; [met|met]. Qed.
Example C09_unsigned_char_defined_met : snd (Decode false default_opts [chr 200; chr 201] (repeat None 2)) <> UB /\ IsBase64 false default_opts [chr 200; chr 201] <> UB.
Proof. apply C09_unsigned_char_defined; met. Qed.

(** * Path names *)
Example C10_append_met : Append ($"x") ($"/b") = Ok ($"/b") /\ exists q k, $"a//" = q ++ repeat slash k /\ Append ($"a//") ($"b") = Ok (q ++ [slash] ++ $"b").
Proof. split; [apply C10_append; left; reflexivity|]. destruct (proj2 (C10_append ($"a//") ($"b"))) as (q & k & E & _ & _ & R); [met|met|]. exists q, k. auto. Qed.
Example C11_directory_and_tail_met : Tail ($"/a/b/c") = $"c" /\ DirectoryName ($"/a/b/c") = $"/a/b" /\ DirectoryName ($"c") = $".".
Proof. destruct (proj1 (proj2 (C11_directory_and_tail ($"/a/b/c"))) ($"/a/b") ($"c")) as [E F]; [met|met|]. split; [exact E|]. split; [exact F|]. apply C11_directory_and_tail. met. Qed.
Example C11_tail_of_append_met : Tail ($"d/e/f") = Tail ($"e/f").
Proof. apply (C11_tail_of_append ($"d/")); met. Qed.
Example C11_directory_of_append_met : exists k, $"d//" = DirectoryName ($"d/f") ++ repeat slash k.
Proof. apply (C11_directory_of_append ($"d//") ($"f")); met. Qed.
Example C12_extension_met : Extension ($"/d.d/x.tar.gz") = $"gz" /\ Extension ($"/d.d/x") = [].
Proof. split; [apply (proj2 (C12_extension ($"/d.d/x.tar.gz")) ($"x.tar") ($"gz")); met|apply C12_extension; met]. Qed.
Example C12_extension_of_append_met : Extension ($"d.d/x.y") = Extension ($"x.y").
Proof. apply (C12_extension_of_append ($"d.d")); met. Qed.
Example C14_colon_list_met : exists l, GetPathListFromColonSeparatedList ($"a::/b:") = Ok l /\ l <> [] /\ Forall (free colon) l /\ join colon l = $"a::/b:".
Proof. apply C14_colon_list; met. Qed.
Example C14_colon_list_of_join_met : GetPathListFromColonSeparatedList (join colon [$"a"; []; $"/b"]) = Ok [$"a"; []; $"/b"].
Proof. apply C14_colon_list_of_join; [|met|met]. repeat constructor; met. Qed.
Example C15_not_a_directory_met : SetCurrentDirectory ex_os ($"u/f") = (ex_os, Throw ExnRuntime).
Proof. apply C15_not_a_directory; met. Qed.
Example C15_success_met : resolve ex_os ($"u") = Some [$"home"; $"u"].
Proof. apply (C15_success ex_os ($"u") (Os (root ex_os) [$"home"; $"u"]) (Ok true)); met. Qed.
Example C15_relative_paths_follow_met : stat (Os (root ex_os) [$"home"; $"u"]) ($"f") = stat ex_os ($"u/f") /\ Exists ex_os ($"u/f") = true.
Proof. split; [apply (C15_relative_paths_follow ex_os ($"u") (Os (root ex_os) [$"home"; $"u"]) ($"f") ($"u/f")); met|met]. Qed.
Example C15_two_steps_met : SetCurrentDirectory ex_os ($"../home/u") = (Os (root ex_os) [$"home"; $"u"], Ok true).
Proof. apply (C15_two_steps ex_os ($"..") (Os (root ex_os) []) ($"home/u") ($"../home/u")); met. Qed.
Example C15_history_met : is_dir_at (root ex_os) (cwd (chdirs ex_os [$"u"; $".."; $"nowhere"; $"/home"])) = true.
Proof. apply C15_history; met. Qed.
Example C15_set_get_met : SetCurrentDirectory (Os (root ex_os) []) ($"/home") = (ex_os, Ok true).
Proof. assert (E : exists s', SetCurrentDirectory (Os (root ex_os) []) ($"/home") = (s', Ok true)) by (eexists; vm_compute; reflexivity). destruct E as [s' E]. rewrite E. rewrite (C15_set_get ex_os ($"/home")) with (c := []) (s' := s'); [reflexivity| | | |exact E]; [exact (proj1 (proj2 C15_case))|met|met]. Qed.
Example C15_get_current_directory_defined_met : GetCurrentDirectory ex_os = Ok (abs_text (cwd ex_os)).
Proof. apply C15_get_current_directory_defined; met. Qed.
Example C53_append_denotes_met : resolve ex_os ($"./../home//u/f") = match resolve ex_os ($"./..") with Some pos => resolve (Os (root ex_os) pos) ($"home//u/f") | None => None end.
Proof. apply C53_append_denotes; met. Qed.

(** * Files and directories *)
Example names_file : names stat_os ($"../home/./f") (File true false false).
Proof. exact (proj1 C58_example). Qed.
Example C58_at_most_one_met : forall n, names stat_os ($"../home/./f") n -> n = File true false false.
Proof. intros n H. exact (C58_at_most_one stat_os ($"../home/./f") n _ H names_file). Qed.
Example C58_kind_met : IsFile stat_os ($"../home/./f") = true /\ exists r w x es, names stat_os ($"d") (Dir r w x es).
Proof. split; [apply C58_kind; exists true, false, false; exact names_file|apply C58_kind; reflexivity]. Qed.
Example C58_permissions_met : IsReadable stat_os ($"../home/./f") = true /\ ((exists w x, names stat_os ($"f") (File true w x)) \/ (exists w es, names stat_os ($"f") (Dir true w true es))).
Proof. split; [apply C58_permissions; left; exists false, false; exact names_file|apply C58_permissions; reflexivity]. Qed.
Example C58_search_directory_met : exists w x es, names stat_os ($"/home") (Dir true w x es) /\ ($"d" = $"." \/ $"d" = $".." \/ exists n, In ($"d", n) es).
Proof. apply C58_search_directory. vm_compute. tauto. Qed.
Example C58_change_directory_met : forall n, names stat_os ($"/home") n <-> names stat_os ($".") n.
Proof. apply C58_change_directory; met. Qed.

(** * Measurements *)
Example C16_no_markup_met : free "<" ($"a&lt;b &amp;&amp; c&gt;d").
Proof. apply (C16_no_markup ($"a<b && c>d")); met. Qed.
Example C16_identity_iff_met : ApplyEscapeSequences ($"plain text") = Ok ($"plain text").
Proof. apply C16_identity_iff. split; [met|split; met]. Qed.
Example C18_factory_met : CreateDataMeasurement ($"numeric/double") = Some CDouble.
Proof. apply C18_factory. reflexivity. Qed.
Example C18_unknown_met : CreateDataMeasurement ($"image/png") = None.
Proof. apply C18_unknown. intros []; met. Qed.
Local Notation a_file := (Mf ($"n") true ($"text/plain") ($"a.txt")).
Local Notation b_file := (Mf ($"n") true ($"text/plain") ($"b.txt")).
Local Notation dir_file := (Mf ($"n") true ($"text/plain") ($"dir/")).
Example C18_load_met : exists d, Load ex_fs a_file = Ok d /\ dname d = $"n" /\ ddata d = Some (map Some ($"hello")).
Proof. destruct (C18_load ex_fs a_file ($"hello")) as (d & H & E & F & _); [met|]. exists d. auto. Qed.
Local Notation old := (SetContent (new_dm CPlain) ($"old")).
Example C19_set_data_without_encoding_met : exists d', SetContentAsData old ($"new!") = (d', Ok tt) /\ GetContentAsData true d' = (d', Ok (map Some ($"new!"))) /\ dcontent d' = $"old".
Proof. destruct (C19_set_data_without_encoding true old ($"new!")) as (d' & E & F & _ & G & _); [met|met|]. exists d'. auto. Qed.
Example C19_copy_loses_data_met : forall d', SetContentAsData old ($"new!") = (d', Ok tt) -> GetContentAsData true (Copy d') = (Copy d', Ok (map Some ($"old"))).
Proof. intros d' E. apply (C19_copy_loses_data true old ($"new!") d'); [met|met|exact E]. Qed.
Example C19_set_data_with_compression_met : let d := SetAttributeCompression old ($"zip") in dcontent (fst (SetContentAsData d ($"new!"))) = $"old".
Proof. cbv zeta. destruct (SetContentAsData (SetAttributeCompression old ($"zip")) ($"new!")) as [d' r] eqn:E. destruct (C19_set_data_with_compression _ _ _ _ (ltac:(discriminate) : dcomp (SetAttributeCompression old ($"zip")) <> $"none") E) as (_ & _ & F). exact F. Qed.
Example C19_stale_after_encoding_change_met : let d := fst (SetContentAsData old ($"new!")) in snd (GetContentAsData true (SetAttributeEncoding d ($"base64"))) = Ok (map Some ($"new!")).
Proof. cbv zeta. rewrite (C19_stale_after_encoding_change true _ (map Some ($"new!"))); reflexivity. Qed.
Example C19_set_content_refreshes_met : let d := fst (SetContentAsData old ($"new!")) in snd (GetContentAsData true (SetContent d ($"newer"))) = Ok (map Some ($"newer")).
Proof. cbv zeta. rewrite C19_set_content_refreshes; [reflexivity|met]. Qed.
Local Notation b64 t := (SetContent (SetAttributeEncoding (new_dm CPlain) ($"base64")) ($t)).
Example C20_base64_data_met : (exists d', GetContentAsData true (b64 "bGlnaHQh") = (d', Ok (map Some (decoded ($"bGlnaHQh")) ++ repeat None 2))) /\ exists d' w, GetContentAsData true (b64 "bGk=") = (d', Throw ExnRuntime) /\ GetContentAsData true d' = (d', Ok (map Some w ++ repeat None (3 - length w))).
Proof.
  split.
  - destruct (C20_base64_data true (b64 "bGlnaHQh") eq_refl eq_refl) as (_ & H & _); [met|]. destruct H as [_ H]; [met|met|met|]. exact H.
  - destruct (C20_base64_data true (b64 "bGk=") eq_refl eq_refl) as (_ & _ & H); [met|]. apply H; [met|]. intros [X _]. discriminate X.
Qed.
Example C20_base64_comparison_undefined_met : snd (data_IsEqual true (b64 "bGlnaHQh") (b64 "bGlnaHQh")) = UB.
Proof. apply C20_base64_comparison_undefined; met. Qed.
Example C20_base64_set_get_met : forall d', SetContentAsData (b64 "x") ($"light!") = (d', Ok tt) -> exists d'', GetContentAsData true d' = (d'', Ok (map Some ($"light!") ++ repeat None 2)).
Proof. intros d' E. destruct (C20_base64_set_get true (b64 "x") ($"light!") d' eq_refl eq_refl E) as (_ & _ & _ & H). apply H; met. Qed.
Example C21_integer_value_kept_met : int_GetValue (int_SetValue (new_dm CInt) (-2147483648)) = Ok (-2147483648)%Z.
Proof. apply C21_integer_value_kept. vm_compute. split; discriminate. Qed.
Example C21_value_defined_iff_met : int_GetValue (SetContent (new_dm CInt) ($"  ")) = UB /\ forall v, int_GetValue (SetContent (new_dm CInt) ($"7")) = Ok v -> in_int v.
Proof. split; [apply C21_value_defined_iff; reflexivity|apply C21_value_defined_iff]. Qed.
Example C21_value_read_met : int_GetValue (SetContent (new_dm CInt) ($" -12x")) = Ok (-12)%Z.
Proof. destruct (C21_value_read (SetContent (new_dm CInt) ($" -12x")) ($" ") ($"-") ($"12") ($"x")) as [H _]; [met|right; right; left; reflexivity|met|met|met|]. apply H. met. Qed.
Lemma dbl_64 : rv (dbl 1 (-6)) = (/ 64)%R.
Proof. unfold rv. replace (dbl 1 (-6)) with (S754_finite false 4503599627370496 (-58)) by reflexivity. unfold BinarySingleNaN.SF2R, F2R. cbn -[IZR Rdiv Rinv]. lra. Qed.
Ltac in_lit := vm_compute; split; discriminate.
Example C22_integer_tolerance_met : exists b, tol_int 100 101 (dbl 1 (-6)) = Ok b /\ (b = true <-> (IZR (Z.abs (100 - 101)) <= rnd64 (Rabs (rv (dbl 1 (-6))) * IZR (Z.abs 100)))%R \/ (IZR (Z.abs (100 - 101)) <= rnd64 (Rabs (rv (dbl 1 (-6))) * IZR (Z.abs 101)))%R).
Proof. apply C22_integer_tolerance; [met|met|in_lit|in_lit|exact (proj1 (proj2 (proj2 C22_case)))]. Qed.
Example C22_integer_within_tolerance_met : tol_int 100 101 (dbl 1 (-6)) = Ok true.
Proof.
  apply C22_integer_within_tolerance; [met|met|exact (proj1 (proj2 (proj2 C22_case)))|]. left. assert (E : rv (dbl 1 (-6)) = (/ 64)%R). { exact dbl_64. } rewrite E. rewrite Rabs_pos_eq by lra. change (Z.abs (100 - 101)) with 1%Z. change (Z.abs 100) with 100%Z. lra.
Qed.
Example C22_integer_undefined_met : tol_int 2000000000 (-2000000000) (dbl 1 0) = UB.
Proof. apply (C22_integer_undefined 2000000000 (-2000000000) (dbl 1 0)); [in_lit|in_lit|]. right. left. reflexivity. Qed.
Example C23_symmetric_met : tol_double (dbl 1 0) (dbl 17 (-4)) (dbl 1 (-3)) = tol_double (dbl 17 (-4)) (dbl 1 0) (dbl 1 (-3)).
Proof. apply C23_symmetric; met. Qed.
Example C23_reflexive_met : tol_double (dbl 17 (-4)) (dbl 17 (-4)) (dbl 1 (-30)) = true.
Proof. apply C23_reflexive; met. Qed.
Example C23_nan_tolerance_met : tol_double (dbl 1 (-60)) (dbl 1 (-55)) S754_nan = true /\ ((Rabs (rv (dbl 1 (-60))) < bpow radix2 (-52))%R /\ (Rabs (rv (dbl 1 (-55))) < bpow radix2 (-52))%R).
Proof. assert (E : tol_double (dbl 1 (-60)) (dbl 1 (-55)) S754_nan = true) by reflexivity. split; [exact E|]. destruct (C23_nan_tolerance (dbl 1 (-60)) (dbl 1 (-55))) as [_ H]; [reflexivity|reflexivity|]. apply H; [reflexivity|reflexivity|exact E]. Qed.
Example C23_infinity_met : tol_double (S754_infinity false) (dbl 1 0) (dbl 1 (-5)) = true /\ tol_float (S754_infinity false) (S754_infinity false) (dbl 1 (-5)) = false.
Proof. destruct (C23_infinity false (dbl 1 0) (dbl 1 (-5))) as (A & _ & _ & B); [met|met|met|]. split; [apply B; met|exact A]. Qed.
Lemma dbl_mono : (Rabs (rv (dbl 1 (-6))) <= Rabs (rv (dbl 1 (-3))))%R.
Proof. rewrite dbl_64. assert (E : rv (dbl 1 (-3)) = (/ 8)%R). { unfold rv. replace (dbl 1 (-3)) with (S754_finite false 4503599627370496 (-55)) by reflexivity. unfold BinarySingleNaN.SF2R, F2R. cbn -[IZR Rdiv Rinv]. lra. } rewrite E, !Rabs_pos_eq by lra. lra. Qed.
Example C23_monotone_met : tol_double (dbl 1 0) (dbl 65 (-6)) (dbl 1 (-3)) = true.
Proof. destruct (C23_monotone (dbl 1 0) (dbl 65 (-6)) (dbl 1 (-6)) (dbl 1 (-3))) as [_ H]; [met|met|met|met|met|met|intros _; exact dbl_mono|]. apply H; met. Qed.
Lemma dbl_one : rv (dbl 1 0) = 1%R.
Proof. unfold rv. replace (dbl 1 0) with (S754_finite false 4503599627370496 (-52)) by reflexivity. unfold BinarySingleNaN.SF2R, F2R. cbn -[IZR Rdiv Rinv]. lra. Qed.
Example C23_meaning_met : tol_double (dbl 1 0) (dbl 1 0) (dbl 1 (-6)) = true <-> (Rabs (rnd64 (rv (dbl 1 0) - rv (dbl 1 0))) <= rnd64 (Rabs (rv (dbl 1 (-6))) * Rabs (rv (dbl 1 0))))%R \/ (Rabs (rnd64 (rv (dbl 1 0) - rv (dbl 1 0))) <= rnd64 (Rabs (rv (dbl 1 (-6))) * Rabs (rv (dbl 1 0))))%R \/ ((Rabs (rv (dbl 1 0)) < bpow radix2 (-52))%R /\ (Rabs (rv (dbl 1 0)) < bpow radix2 (-52))%R).
Proof.
  destruct (C23_meaning (dbl 1 0) (dbl 1 0) (dbl 1 (-6))) as [_ H]; [reflexivity|reflexivity|reflexivity|reflexivity|]. apply H; [reflexivity|reflexivity|]. replace (rv (dbl 1 0) - rv (dbl 1 0))%R with 0%R by lra. unfold rnd64, rnd. rewrite round_0 by apply valid_rnd_N. rewrite Rabs_R0. apply bpow_gt_0.
Qed.
Local Notation seven_named n := (SetAttributeName (int_SetValue (new_dm CInt) 7) ($n)).
Example C24_in_memory_exact_met : forall io, exists v, Compare true ex_fs io new_cmp (MD (seven_named "n")) (MD (seven_named "m")) = (MD (seven_named "n"), MD (seven_named "m"), Ok v) /\ (v = true <-> $"n" = $"m" /\ CInt = CInt /\ dcontent (seven_named "n") = dcontent (seven_named "m")).
Proof. intros io. apply (C24_in_memory_exact true ex_fs io new_cmp (seven_named "n") (seven_named "m")); met. Qed.
Example C24_in_memory_data_met : forall io, exists v, snd (Compare true ex_fs io new_cmp (MD (fst (SetContentAsData old ($"new!")))) (MD (fst (SetContentAsData old ($"new?"))))) = Ok v /\ (v = true <-> dname old = dname old /\ dcls old = dcls old /\ $"new!" = $"new?").
Proof. intros io. destruct (C24_in_memory_data true ex_fs io new_cmp (fst (SetContentAsData old ($"new!"))) (fst (SetContentAsData old ($"new?"))) ($"new!") ($"new?")) as (v & E & F); [met|met|met|]. exists v. rewrite E. split; [reflexivity|exact F]. Qed.
Local Notation loose := (SetTolerance new_cmp (dbl 1 (-6))).
Example C24_tolerant_met : forall io, exists v, Compare true ex_fs io loose (MD (seven_named "n")) (MD (seven_named "m")) = (MD (seven_named "n"), MD (seven_named "m"), v) /\ v = (l <-- int_GetValue (seven_named "n") ;; r <-- int_GetValue (seven_named "m") ;; tol_int l r (GetTolerance loose)).
Proof. intros io. destruct (C24_tolerant true ex_fs io loose (seven_named "n") (seven_named "m")) as (v & E & _ & F & _); [met|met|met|]. exists v. split; [exact E|]. apply F; reflexivity. Qed.
Example C24_tolerant_ignores_names_met : forall io, snd (Compare true ex_fs io loose (MD (seven_named "n")) (MD (seven_named "m"))) = snd (Compare true ex_fs io loose (MD (int_SetValue (new_dm CInt) 7)) (MD (int_SetValue (new_dm CInt) 7))).
Proof. intros io. apply (C24_tolerant_ignores_names true ex_fs io loose (int_SetValue (new_dm CInt) 7) (int_SetValue (new_dm CInt) 7)); met. Qed.
Example C25_two_files_met : forall io, exists v, Compare true ex_fs io new_cmp (MF a_file) (MF b_file) = (MF a_file, MF b_file, Ok v).
Proof. intros io. destruct (C25_two_files true ex_fs io new_cmp a_file b_file) as (v & E & _); [intros (_ & _ & [X|[X _]]); discriminate X|]. exists v. exact E. Qed.
Example C25_directory_met : forall io, Compare true ex_fs io new_cmp (MF dir_file) (MF a_file) = (MF dir_file, MF a_file, Throw ExnRuntime).
Proof. intros io. apply C25_directory; [met|met|]. left. reflexivity. Qed.
Example C25_images_never_equal_met : forall io, snd (Compare true ex_fs io new_cmp (MF (Mf ($"n") true ($"image/png") ($"a.txt"))) (MF (Mf ($"n") true ($"image/png") ($"a.txt")))) = Ok false.
Proof. intros io. rewrite C25_images_never_equal; [reflexivity|]. intros []; met. Qed.
Example C25_file_and_data_met : forall io, snd (Compare true ex_fs io new_cmp (MF a_file) (MD (SetAttributeName old ($"n")))) = snd (Compare true ex_fs io new_cmp (MD (SetAttributeName old ($"n"))) (MF a_file)).
Proof. intros io. apply (C25_file_and_data true ex_fs io new_cmp a_file (SetAttributeName old ($"n"))); met. Qed.

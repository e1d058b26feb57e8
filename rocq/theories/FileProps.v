(** C43, continued: measured files in a comparing run. *)
From Coq Require Import Floats.SpecFloat.
From Verif Require Import Base Str Dec PathModel PathFacts MeasModel MeasFacts MeasFacts2 MeasProps VisitModel XmlModel ReadModel ReadBack ReadProps RegModel ArgFacts ArgProps RegSpec RegFacts RegStart RegMain RegProps RegProps2.

(** the measurement of a file: the calls and their types *)
Inductive file_call : call -> str -> str -> str -> Prop :=
| fc_text file n : file_call (FileTextPlain file n) file n ($"text/plain")
| fc_png file n : file_call (FileImagePNG file n) file n ($"image/png")
| fc_jpeg file n : file_call (FileImageJPEG file n) file n ($"image/jpeg").
Lemma file_call_meas io c file n ty : file_call c file n ty -> meas_of io true c = MF (Mf n true ty file) /\ tolerant_of c = false.
Proof. intros H. destruct H; split; reflexivity. Qed.

(** a measured file meets the baseline measurement of a file with the same name and type *)
Lemma file_compared e s c file g rest : compare_mode e s = Ok true -> s_input s = MF g :: rest -> file_call c file (fname g) (ftype g) ->
  (forall g', found e (s_path s) (s_files s) (MF g) (MF (Mf (fname g) true (ftype g) file)) = MF g' ->
     ~ reads_dir (sources e (s_files s)) g' (Mf (fname g) true (ftype g) file)) ->
  exists s' v, Measure e c s = (s', Ok (if v : bool then 1 else 0)%Z) /\ s_unmatched s' = (s_unmatched s + if v then 0 else 1)%Z /\ s_input s' = rest /\
    verdict e (s_path s) (MF g) (c, s_tol s, s_files s) = Ok v.
Proof.
  intros Hc Hi Hf Hd. destruct (file_call_meas (e_io e) c file _ _ Hf) as [M T].
  set (h := Mf (fname g) true (ftype g) file) in *.
  assert (V : exists v g', found e (s_path s) (s_files s) (MF g) (MF h) = MF g' /\
     Compare (e_sc e) (sources e (s_files s)) (e_io e) new_cmp (MF g') (MF h) = (MF g', MF h, Ok v)).
  { assert (G : exists g', found e (s_path s) (s_files s) (MF g) (MF h) = MF g').
    { unfold found. destruct (SearchPathList (is_file e (s_files s)) (Tail (ffile g)) (s_path s)) as [[|a p]| | | |]; eexists; reflexivity. }
    destruct G as [g' G]. destruct (C25_two_files (e_sc e) (sources e (s_files s)) (e_io e) new_cmp g' h (Hd g' G)) as (v & E & _). exists v, g'. auto. }
  destruct V as (v & g' & F & C).
  assert (W : verdict e (s_path s) (MF g) (c, s_tol s, s_files s) = Ok v) by (unfold verdict; rewrite M, T, F, C; reflexivity).
  assert (R : exists s' z, CompareMeasurement e (MF h) false s = (s', Ok z)).
  { unfold CompareMeasurement, mbind at 1, gets at 1. cbv iota. rewrite Hi. unfold mbind at 1, modify at 1. cbv iota.
    cbn [mname mtype fname ftype h]. rewrite !eqs_refl. cbn [andb]. unfold mbind at 1. rewrite locate_found. cbv iota.
    change (s_path (set_input s rest)) with (s_path s). change (s_files (set_input s rest)) with (s_files s). fold h. rewrite F.
    unfold mbind at 1, gets at 1. cbv iota. change (s_files (set_input s rest)) with (s_files s). change (visitor (set_input s rest) false) with new_cmp. rewrite C.
    unfold mbind at 1, mlift at 1. cbv iota. destruct v; [eexists; eexists; reflexivity|].
    unfold DifferenceMeasurement, mbind, modify, mlift, put. cbv iota. unfold Difference. cbn [AddPrefixesToNames snd].
    destruct (AddPrefixesToNames (MF h) (MF g')) as [m1 b1]. cbn [snd]. rewrite !print_print_of. cbn [bind]. eexists; eexists; reflexivity. }
  destruct R as (s' & z & R). pose proof R as R0. rewrite <- M, <- T in R0. destruct (compare_one e c s s' (Ok z) R0) as [A _].
  destruct (A z eq_refl) as (A1 & A2 & A3 & _). clear A. rewrite Hi in A1, A2, A3. cbn [results mismatches tl hd] in A1, A2, A3.
  assert (K : kind_of_moment e (MF g) (c, s_tol s, s_files s) = true).
  { unfold kind_of_moment, same_kind. cbn [fst]. rewrite M. cbn [mname mtype fname ftype h]. rewrite !eqs_refl. reflexivity. }
  assert (S : same_value e (s_path s) (MF g) (c, s_tol s, s_files s) = v) by (unfold same_value; rewrite W; destruct v; reflexivity).
  rewrite K, S in A1, A2. exists s', v. split; [|split; [|split; [exact A3|exact W]]].
  - unfold Measure, GetCompareMode, mbind at 1. rewrite Hc. cbv iota. rewrite M, T, R. apply (f_equal (hd 0%Z)) in A1. cbn [hd] in A1. rewrite A1. destruct v; reflexivity.
  - rewrite A2. destruct v; cbn [andb]; lia.
Qed.
(** ... or raises an exception, if a directory is read: the baseline's partner is used up, nothing is counted, nothing written *)
Lemma file_raises e s c file g rest g' : compare_mode e s = Ok true -> s_input s = MF g :: rest -> file_call c file (fname g) (ftype g) ->
  found e (s_path s) (s_files s) (MF g) (MF (Mf (fname g) true (ftype g) file)) = MF g' ->
  reads_dir (sources e (s_files s)) g' (Mf (fname g) true (ftype g) file) ->
  Measure e c s = (set_input s rest, Throw ExnRuntime).
Proof.
  intros Hc Hi Hf F D. destruct (file_call_meas (e_io e) c file _ _ Hf) as [M T].
  unfold Measure, GetCompareMode, mbind at 1. rewrite Hc. cbv iota. rewrite M, T.
  unfold CompareMeasurement, mbind at 1, gets at 1. cbv iota. rewrite Hi. unfold mbind at 1, modify at 1. cbv iota.
  cbn [mname mtype fname ftype]. rewrite !eqs_refl. cbn [andb]. unfold mbind at 1. rewrite locate_found. cbv iota.
  change (s_path (set_input s rest)) with (s_path s). change (s_files (set_input s rest)) with (s_files s). rewrite F.
  unfold mbind at 1, gets at 1. cbv iota. change (s_files (set_input s rest)) with (s_files s). change (visitor (set_input s rest) false) with new_cmp.
  unfold Compare, numeric_meas, IsEqual. rewrite (file_file_dir (e_sc e) _ g' _ D). reflexivity.
Qed.

(** The baseline of a measured text file is searched by its last path component in the search directories; the first directory that
    has it wins; the measurement matches iff that file has the same bytes. *)
Theorem C43_measured_file_found : forall e s file g rest pre d post r br bf,
  compare_mode e s = Ok true -> s_input s = MF g :: rest -> ftype g = $"text/plain" ->
  s_path s = pre ++ d :: post -> Append d (Tail (ffile g)) = Ok r -> is_file e (s_files s) r = true ->
  (forall x y, In x pre -> Append x (Tail (ffile g)) = Ok y -> is_file e (s_files s) y = false) ->
  contents e (s_files s) r = Some br -> contents e (s_files s) file = Some bf ->
  exists s', s_input s' = rest /\
    (br = bf -> Measure e (FileTextPlain file (fname g)) s = (s', Ok 1%Z) /\ s_unmatched s' = s_unmatched s) /\
    (br <> bf -> Measure e (FileTextPlain file (fname g)) s = (s', Ok 0%Z) /\ s_unmatched s' = (s_unmatched s + 1)%Z).
Proof.
  intros e s file g rest pre d post r br bf Hc Hi Ht Hp Ha Hr Hb Cr Cf.
  assert (Fc : file_call (FileTextPlain file (fname g)) file (fname g) (ftype g)) by (rewrite Ht; constructor).
  assert (Rd : forall g', found e (s_path s) (s_files s) (MF g) (MF (Mf (fname g) true (ftype g) file)) = MF g' ->
     ~ reads_dir (sources e (s_files s)) g' (Mf (fname g) true (ftype g) file)).
  { intros g' G. rewrite (found_in_first e (s_path s) (s_files s) g _ pre d post r Hp Ha Hr Hb) in G. injection G as <-. unfold reads_dir, unreadable. cbn [ffile].
    rewrite (sources_cstr _ _ _ _ Cr), (sources_cstr _ _ _ _ Cf). intros (_ & _ & [X|(X & _)]); discriminate X. }
  destruct (file_compared e s _ file g rest Hc Hi Fc Rd) as (s' & v & M & U & I & V). exists s'. split; [exact I|].
  assert (E : v = true <-> br = bf).
  { unfold verdict in V. cbn [tolerant_of] in V. destruct (file_call_meas (e_io e) _ _ _ _ Fc) as [Me _]. rewrite Me in V.
    rewrite (found_in_first e (s_path s) (s_files s) g _ pre d post r Hp Ha Hr Hb) in V.
    match type of V with snd (Compare ?a ?b ?c ?d (MF ?x) (MF ?y)) = _ => destruct (C25_two_files a b c d x y) as (v' & E' & V') end.
    { apply Rd. apply (found_in_first e (s_path s) (s_files s) g _ pre d post r Hp Ha Hr Hb). }
    rewrite E' in V. cbn [snd] in V. apply Ok_inj in V. subst v'. unfold file_bytes, missing in V'. cbn [fname ftype ffile] in V'.
    rewrite (sources_cstr _ _ _ _ Cr), (sources_cstr _ _ _ _ Cf) in V'. rewrite V'. split; [tauto|]. intros ->. split; [reflexivity|]. split; [reflexivity|]. split; [exists CPlain; exact Ht|]. split; [reflexivity|]. intros [X|X]; discriminate X. }
  split.
  - intros X. apply E in X. subst v. split; [exact M|]. rewrite U. lia.
  - intros X. destruct v; [elim X; apply E; reflexivity|]. split; [exact M|exact U].
Qed.
Print Assumptions C43_measured_file_found.
(** If no search directory has it, the measurement differs, whatever the current directory has ... *)
Theorem C43_measured_file_not_found : forall e s c file g rest,
  compare_mode e s = Ok true -> s_input s = MF g :: rest -> file_call c file (fname g) (ftype g) ->
  s_path s <> [] -> Tail (ffile g) <> [] -> fname g <> [] ->
  (forall d r, In d (s_path s) -> Append d (Tail (ffile g)) = Ok r -> node_at e (s_files s) r = None) ->
  exists s', Measure e c s = (s', Ok 0%Z) /\ s_unmatched s' = (s_unmatched s + 1)%Z /\ s_input s' = rest.
Proof.
  intros e s c file g rest Hc Hi Hf Hp Ht Hn H. destruct (file_compared e s c file g rest Hc Hi Hf) as (s' & v & M & U & I & V).
  { intros g' G. destruct (search_none e (s_files s) (Tail (ffile g)) (s_path s) H Hp Ht) as (a & p & S & N). unfold found in G. rewrite S in G.
    injection G as <-. unfold reads_dir, unreadable, missing. cbn [fname ftype ffile]. 
    assert (Z0 : sources e (s_files s) (cstr (a :: p)) = Missing) by (rewrite sources_at; unfold sources; rewrite N; reflexivity). rewrite !Z0.
    intros (_ & _ & [X|(_ & _ & X)]); [discriminate X|]. destruct (X eq_refl). contradiction. }
  rewrite (found_nowhere e (s_path s) (s_files s) g c (s_tol s)) in V; try assumption.
  - apply Ok_inj in V. subst v. exists s'. auto.
  - destruct (file_call_meas (e_io e) c file _ _ Hf) as [-> _]. reflexivity.
Qed.
Print Assumptions C43_measured_file_not_found.
(** ... and without search directories the recorded name itself is the path of the baseline file. *)
Theorem C43_no_directories : forall e s file g rest bg bf,
  compare_mode e s = Ok true -> s_input s = MF g :: rest -> ftype g = $"text/plain" -> s_path s = [] ->
  contents e (s_files s) (ffile g) = Some bg -> contents e (s_files s) file = Some bf ->
  exists s', s_input s' = rest /\
    (bg = bf -> Measure e (FileTextPlain file (fname g)) s = (s', Ok 1%Z) /\ s_unmatched s' = s_unmatched s) /\
    (bg <> bf -> Measure e (FileTextPlain file (fname g)) s = (s', Ok 0%Z) /\ s_unmatched s' = (s_unmatched s + 1)%Z).
Proof.
  intros e s file g rest bg bf Hc Hi Ht Hp Cg Cf.
  assert (Fc : file_call (FileTextPlain file (fname g)) file (fname g) (ftype g)) by (rewrite Ht; constructor).
  assert (Rd : forall g', found e (s_path s) (s_files s) (MF g) (MF (Mf (fname g) true (ftype g) file)) = MF g' ->
     ~ reads_dir (sources e (s_files s)) g' (Mf (fname g) true (ftype g) file)).
  { intros g' G. rewrite Hp in G. cbn [found SearchPathList search_loop] in G. injection G as <-. unfold reads_dir, unreadable. cbn [ffile].
    rewrite (sources_cstr _ _ _ _ Cg), (sources_cstr _ _ _ _ Cf). intros (_ & _ & [X|(X & _)]); discriminate X. }
  destruct (file_compared e s _ file g rest Hc Hi Fc Rd) as (s' & v & M & U & I & V). exists s'. split; [exact I|].
  assert (E : v = true <-> bg = bf).
  { unfold verdict in V. cbn [tolerant_of] in V. destruct (file_call_meas (e_io e) _ _ _ _ Fc) as [Me _]. rewrite Me, Hp in V. cbn [found SearchPathList search_loop] in V.
    match type of V with snd (Compare ?a ?b ?c ?d (MF ?x) (MF ?y)) = _ => destruct (C25_two_files a b c d x y) as (v' & E' & V') end.
    { apply Rd. rewrite Hp. reflexivity. }
    rewrite E' in V. cbn [snd] in V. apply Ok_inj in V. subst v'. unfold file_bytes, missing in V'. cbn [fname ftype ffile] in V'.
    rewrite (sources_cstr _ _ _ _ Cg), (sources_cstr _ _ _ _ Cf) in V'. rewrite V'. split; [tauto|]. intros ->. split; [reflexivity|]. split; [reflexivity|]. split; [exists CPlain; exact Ht|]. split; [reflexivity|]. intros [X|X]; discriminate X. }
  split.
  - intros X. apply E in X. subst v. split; [exact M|]. rewrite U. lia.
  - intros X. destruct v; [elim X; apply E; reflexivity|]. split; [exact M|exact U].
Qed.
Print Assumptions C43_no_directories.
(** the path of the baseline file of a measured file: found in a search directory, or under the last one, or, without search directories, as recorded *)
Lemma found_path e dirs f g m : exists p, found e dirs f (MF g) (MF m) = MF (Mf (fname g) (fesc g) (ftype g) p) /\
  (p = ffile g \/ exists d, In d dirs /\ Append d (Tail (ffile g)) = Ok p).
Proof.
  unfold found, SearchPathList.
  assert (S : forall l full, (forall d, In d l -> In d dirs) -> forall p, search_loop (is_file e f) l (Tail (ffile g)) full = Ok p ->
    p = full \/ exists d, In d dirs /\ Append d (Tail (ffile g)) = Ok p).
  { induction l as [|x l IH]; intros full Hl p; cbn [search_loop]; [intros X; apply Ok_inj in X; auto|].
    destruct (append_ok x (Tail (ffile g))) as [y Ey]. rewrite Ey. cbn [bind]. destruct (is_file e f y).
    - intros X. apply Ok_inj in X. subst y. right. exists x. split; [apply Hl; left; reflexivity|exact Ey].
    - intros X. destruct (IH y (fun d Hd => Hl d (or_intror Hd)) p X) as [->|X']; [right; exists x; split; [apply Hl; left; reflexivity|exact Ey]|auto]. }
  destruct (search_loop (is_file e f) dirs (Tail (ffile g)) []) as [[|c p]| | | |] eqn:E;
    try (exists (ffile g); split; [destruct g; reflexivity|left; reflexivity]).
  exists (c :: p). split; [reflexivity|]. right. destruct (S dirs [] (fun d H => H) _ E) as [X|X]; [discriminate X|exact X].
Qed.
(** An image file never matches, even its own recording (where the baseline file would be there must not be a directory). *)
Theorem C43_image_files_never_match : forall e s c file g rest,
  compare_mode e s = Ok true -> s_input s = MF g :: rest -> file_call c file (fname g) (ftype g) -> ftype g <> $"text/plain" ->
  is_directory e (s_files s) (ffile g) = false ->
  (forall d r, In d (s_path s) -> Append d (Tail (ffile g)) = Ok r -> is_directory e (s_files s) r = false) ->
  exists s', Measure e c s = (s', Ok 0%Z) /\ s_unmatched s' = (s_unmatched s + 1)%Z /\ s_input s' = rest.
Proof.
  intros e s c file g rest Hc Hi Hf Ht Hd1 Hd2.
  assert (N : forall k, ftype g <> type_of k). { intros k X. revert Ht. rewrite X. clear - Hf X. remember (ftype g) as ty eqn:E. clear E. destruct Hf; [intros []; symmetry; exact X| |]; destruct k; discriminate X. }
  destruct (found_path e (s_path s) (s_files s) g (Mf (fname g) true (ftype g) file)) as (p & Fp & Hp).
  assert (Hdir : is_directory e (s_files s) p = false) by (destruct Hp as [->|(d & Hd & Ha)]; [exact Hd1|exact (Hd2 d p Hd Ha)]).
  assert (Hs : unreadable (sources e (s_files s)) (Mf (fname g) (fesc g) (ftype g) p) = false).
  { unfold unreadable. cbn [ffile]. rewrite sources_at. unfold sources. unfold is_directory in Hdir. destruct (node_at e (s_files s) p) as [[[|] w b|[|] w x]|]; try reflexivity. discriminate Hdir. }
  destruct (file_compared e s c file g rest Hc Hi Hf) as (s' & v & M & U & I & V).
  { intros g' G. rewrite Fp in G. injection G as <-. intros (_ & _ & [X|(_ & (k & X) & _)]); [congruence|exact (N k X)]. }
  assert (v = false) as ->; [|exists s'; auto]. destruct v; [exfalso|reflexivity].
  unfold verdict in V. destruct (file_call_meas (e_io e) c file _ _ Hf) as [Me T]. rewrite Me, T, Fp, C25_images_never_equal in V by exact N.
  rewrite Hs, andb_false_r in V. discriminate V.
Qed.
Print Assumptions C43_image_files_never_match.
(** Where the baseline file of a measured file would be there is a directory that may be read: the measurement raises an exception; its partner in the baseline is
    used up, but nothing is counted and nothing written.  So the run ends with -1 (C36). *)
Theorem C43_directory_raises : forall e s c file g rest p w x,
  compare_mode e s = Ok true -> s_input s = MF g :: rest -> file_call c file (fname g) (ftype g) ->
  (s_path s = [] /\ p = ffile g \/ exists d, s_path s = [d] /\ Append d (Tail (ffile g)) = Ok p) ->
  node_at e (s_files s) p = Some (FDir true w x) ->
  Measure e c s = (set_input s rest, Throw ExnRuntime).
Proof.
  intros e s c file g rest p w x Hc Hi Hf Hp Hd.
  assert (Nf : is_file e (s_files s) p = false) by (unfold is_file; rewrite Hd; reflexivity).
  assert (Pn : p <> []) by (intros ->; discriminate Hd).
  apply (file_raises e s c file g rest (Mf (fname g) (fesc g) (ftype g) p) Hc Hi Hf).
  - destruct Hp as [[Hp ->]|(d & Hp & Ha)]; rewrite Hp; unfold found, SearchPathList; cbn [search_loop].
    + destruct g; reflexivity.
    + rewrite Ha. cbn [bind]. rewrite Nf. destruct p; [contradiction|reflexivity].
  - split; [reflexivity|]. split; [reflexivity|]. left. unfold unreadable. cbn [ffile]. rewrite sources_at. unfold sources. rewrite Hd. reflexivity.
Qed.
Print Assumptions C43_directory_raises.
(** A file that may not be read counts as missing: the measurement differs, also when both have the same bytes.  The baseline's file is there, in the first search directory that has it
    or (without search directories) as recorded. *)
Theorem C43_no_permission : forall e s c file g rest p r w b,
  compare_mode e s = Ok true -> s_input s = MF g :: rest -> file_call c file (fname g) (ftype g) -> fname g <> [] ->
  (s_path s = [] /\ p = ffile g \/
   exists pre d post, s_path s = pre ++ d :: post /\ Append d (Tail (ffile g)) = Ok p /\ forall x y, In x pre -> Append x (Tail (ffile g)) = Ok y -> is_file e (s_files s) y = false) ->
  node_at e (s_files s) p = Some (FFile r w b) ->
  r = false \/ (exists w' b', node_at e (s_files s) file = Some (FFile false w' b')) \/ node_at e (s_files s) file = None ->
  exists s', Measure e c s = (s', Ok 0%Z) /\ s_unmatched s' = (s_unmatched s + 1)%Z /\ s_input s' = rest.
Proof.
  intros e s c file g rest p r w b Hc Hi Hf Hn Hp Eb Hm. set (h := Mf (fname g) true (ftype g) file). set (g1 := Mf (fname g) (fesc g) (ftype g) p).
  assert (Fd : found e (s_path s) (s_files s) (MF g) (MF h) = MF g1).
  { destruct Hp as [[Hp ->]|(pre & d & post & Hp & Ha & Hb)]; [rewrite Hp; destruct g; reflexivity|].
    apply (found_in_first e (s_path s) (s_files s) g h pre d post p Hp Ha); [unfold is_file; rewrite Eb; reflexivity|exact Hb]. }
  set (fs := sources e (s_files s)) in *.
  assert (Mi : unreadable fs g1 = false /\ (missing fs g1 = true \/ unreadable fs h = false /\ missing fs h = true)).
  { unfold unreadable, missing, fs. cbn [ffile g1 h]. rewrite !sources_at. unfold sources. rewrite Eb. destruct Hm as [->|[(w' & b' & ->)| ->]]; [auto|destruct r; auto..]. }
  destruct Mi as [U1 U2].
  assert (Nd : ~ reads_dir fs g1 h).
  { intros (_ & _ & [X|(X & _ & Y)]); [congruence|]. destruct U2 as [M1|[M1 _]]; [|congruence]. destruct (Y M1) as [Z _]. exact (Hn Z). }
  destruct (file_compared e s c file g rest Hc Hi Hf) as (s' & v & M & U & I & V).
  { intros g' G. fold h in G. rewrite Fd in G. injection G as <-. exact Nd. }
  exists s'. assert (v = false) as ->; [|auto]. destruct v; [exfalso|reflexivity].
  unfold verdict in V. destruct (file_call_meas (e_io e) c file _ _ Hf) as [Me T]. rewrite Me, T in V. fold h in V. rewrite Fd in V. fold fs in V.
  destruct (C25_two_files (e_sc e) fs (e_io e) new_cmp g1 h Nd) as (v' & E' & V').
  change (visitor s false) with new_cmp in V. unfold mbind in V. rewrite E' in V. cbn [snd] in V. apply Ok_inj in V. subst v'. destruct (proj1 V' eq_refl) as (_ & _ & _ & _ & Y).
  destruct (Y (match U2 with or_introl M1 => or_introl M1 | or_intror M1 => or_intror (proj2 M1) end)) as [Z _]. exact (Hn Z).
Qed.
Print Assumptions C43_no_permission.
Example C43_permission_case :
  let files := fun k => if eqs k ($"b.xml") then Some (FFile true true []) else if eqs k ($"out/t.txt") then Some (FFile true true ($"one"))
                        else if eqs k ($"data/t.txt") then Some (FFile false true ($"one")) else None in
  let s := Rst files [] [MF (Mf ($"n") true ($"text/plain") ($"t.txt"))] [] [] [$"data"] None (Some ($"b.xml")) default_tol 0%Z 0%Z in
  compare_mode ex_env s = Ok true /\ Append ($"data") (Tail ($"t.txt")) = Ok ($"data/t.txt") /\ node_at ex_env files ($"data/t.txt") = Some (FFile false true ($"one")) /\
  snd (Measure ex_env (FileTextPlain ($"out/t.txt") ($"n")) s) = Ok 0%Z.
Proof. vm_compute. repeat split. Qed.
(** A file measured under a name that ends with a slash is recorded without a name; comparing with a search directory then reads that directory. *)
Theorem C43_recorded_without_name : forall io c file n ty, file_call c (file ++ [slash]) n ty ->
  meas_of io false c = MF (Mf n true ty []) /\
  (forall d, d <> [] -> exists d' k, Append d (Tail []) = Ok (d' ++ [slash]) /\ d = d' ++ repeat slash k).
Proof.
  intros io c file n ty H. split.
  - assert (T : Tail (file ++ [slash]) = []).
    { unfold Tail. rewrite app_length. cbn [length]. rewrite Nat.add_1_r. cbn [Nat.eqb].
      rewrite rfind_last by (intros []). unfold substr. rewrite skipn_all2; [destruct (_ - _); reflexivity|rewrite app_length; cbn [length]; lia]. }
    remember (file ++ [slash]) as q eqn:Eq. destruct H; unfold meas_of, file_meas; rewrite T; reflexivity.
  - intros [|c0 t] Hd; [contradiction|]. destruct (rstrip_prefix t) as [k K]. exists (c0 :: rstrip t), k. split; [|cbn [app]; rewrite <- K; reflexivity].
    apply append_rel. reflexivity.
Qed.
Print Assumptions C43_recorded_without_name.
Example C43_directory_case :
  let files := fun k => if eqs k ($"b.xml") then Some (FFile true true []) else if eqs k ($"out/t.txt") then Some (FFile true true ($"one"))
                        else if eqs k ($"data") || eqs k ($"data/") then Some (FDir true true true) else None in
  let s := Rst files [] [MF (Mf ($"n") true ($"text/plain") [])] [] [] [$"data"] None (Some ($"b.xml")) default_tol 0%Z 0%Z in
  compare_mode ex_env s = Ok true /\ Append ($"data") (Tail []) = Ok ($"data/") /\ node_at ex_env files ($"data/") = Some (FDir true true true) /\
  snd (Measure ex_env (FileTextPlain ($"out/t.txt") ($"n")) s) = Throw ExnRuntime.
Proof. vm_compute. repeat split. Qed.
Example C43_files_case : forall (same : bool),
  let files := fun k => if eqs k ($"b.xml") then Some (FFile true true []) else if eqs k ($"data/t.txt") then Some (FFile true true ($"one"))
                        else if eqs k ($"out/t.txt") then Some (FFile true true (if same then $"one" else $"two")) else if eqs k ($"data") then Some (FDir true true true) else None in
  let s := Rst files [] [MF (Mf ($"n") true ($"text/plain") ($"t.txt"))] [] [] [$"none"; $"data"] None (Some ($"b.xml")) default_tol 0%Z 0%Z in
  compare_mode ex_env s = Ok true /\ s_path s = [$"none"] ++ $"data" :: [] /\ Append ($"data") (Tail ($"t.txt")) = Ok ($"data/t.txt") /\
  is_file ex_env files ($"data/t.txt") = true /\ is_file ex_env files ($"none/t.txt") = false /\
  contents ex_env files ($"data/t.txt") = Some ($"one") /\
  snd (Measure ex_env (FileTextPlain ($"out/t.txt") ($"n")) s) = Ok (if same then 1 else 0)%Z.
Proof. intros []; vm_compute; repeat split. Qed.

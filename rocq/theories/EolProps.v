(** C74: what a run depends on in its baseline file; line ends. *)
From Coq Require Import Floats.SpecFloat.
From Verif Require Import Base Str Dec PathModel PathFacts MeasModel XmlText XmlModel ReadModel ReadBack ReadProps RegModel ArgFacts ArgProps RegSpec RegFacts RegStart RegMain RegProps RegProps2 RegRound RegProps3 FileProps CutProps ReuseProps LimitModel LimitProps SwapProps.

(** * Specification: line ends (XML 1.0, 2.11): CR LF and a CR not followed by LF are read as LF *)
Definition cr : ascii := "013"%char.
Fixpoint unix (s : str) : str :=
  match s with
  | [] => []
  | c :: r => if eqc c cr then nl :: match r with c' :: r' => if eqc c' nl then unix r' else unix r | [] => [] end else c :: unix r
  end.
(** every line end in the Windows form *)
Definition dos (s : str) : str := flat_map (fun c => if eqc c nl then [cr; nl] else [c]) s.
(** ... in the form of the old Macintosh *)
Definition mac (s : str) : str := map (fun c => if eqc c nl then cr else c) s.
Lemma unix_dos s : ~ In cr s -> unix (dos s) = s.
Proof.
  induction s as [|c s IH]; intros H; [reflexivity|]. cbn [dos flat_map]. destruct (eqc_spec c nl) as [->|N].
  - cbn [app unix]. rewrite !eqc_refl. fold (dos s). rewrite IH; [reflexivity|]. intros X. apply H. right. exact X.
  - cbn [app unix]. destruct (eqc_spec c cr) as [->|N']; [exfalso; apply H; left; reflexivity|]. fold (dos s). rewrite IH; [reflexivity|]. intros X. apply H. right. exact X.
Qed.
Lemma unix_mac s : ~ In cr s -> unix (mac s) = s.
Proof.
  induction s as [|c s IH]; intros H; [reflexivity|]. cbn [mac map]. assert (H' : ~ In cr s) by (intros X; apply H; right; exact X). specialize (IH H'). destruct (eqc_spec c nl) as [->|N].
  - cbn [unix]. rewrite eqc_refl. fold (mac s). rewrite IH. destruct s as [|c' s']; [reflexivity|]. cbn [mac map]. destruct (eqc_spec c' nl) as [->|N']; [reflexivity|].
    destruct (eqc_spec c' nl); [contradiction|]. reflexivity.
  - cbn [unix]. destruct (eqc_spec c cr) as [->|N']; [exfalso; apply H; left; reflexivity|]. fold (mac s). rewrite IH. reflexivity.
Qed.
Lemma unix_same s : ~ In cr s -> unix s = s.
Proof.
  induction s as [|c s IH]; intros H; [reflexivity|]. cbn [unix]. destruct (eqc_spec c cr) as [->|N']; [exfalso; apply H; left; reflexivity|]. rewrite IH; [reflexivity|]. intros X. apply H. right. exact X.
Qed.

(** * The parser *)
Definition clear_mode (m : mode) : mode := match m with MText br _ => MText br false | MVal n al a q v _ => MVal n al a q v false | m => m end.
Definition clear (st : pstate) : pstate := PState (clear_mode (pmode st)) (popen st) (proot st).
Definition flagged (m : mode) : bool := match m with MText _ b => b | MVal _ _ _ _ _ b => b | _ => false end.
Lemma clear_unflagged st : flagged (pmode st) = false -> clear st = st.
Proof. destruct st as [m o r]. cbn. intros H. unfold clear. cbn. f_equal. destruct m; cbn in *; congruence. Qed.
Ltac fin := repeat match goal with
  | |- context [if ?b then _ else _] => destruct b
  | |- context [match ?x with [] => _ | _ :: _ => _ end] => destruct x
  | |- context [match ?x with 0 => _ | S _ => _ end] => destruct x
  | |- context [match ?x with Some _ => _ | None => _ end] => destruct x
  end; reflexivity.
Lemma step_clear st c : c <> nl -> step (clear st) c = step st c.
Proof.
  intros N. assert (E : eqc c nl = false) by (apply eqc_false; exact N). destruct st as [m o r]. unfold clear, step. cbn [pmode popen proot]. destruct m; cbn [clear_mode]; try reflexivity; rewrite E; cbn [andb]; reflexivity.
Qed.
Lemma step_unflagged st c : c <> cr -> flagged (pmode (fst (step st c))) = false.
Proof.
  intros N. assert (E : (code c =? 13) = false).
  { destruct (code c =? 13) eqn:E; [|reflexivity]. exfalso. apply N. apply Nat.eqb_eq in E. revert E. clear. unfold code, cr. intros E. rewrite <- (Ascii.ascii_nat_embedding c), E. reflexivity. }
  destruct st as [m o r]. unfold step, bad, other, go, open_elem, close_elem. cbn [pmode popen proot]. rewrite ?E. destruct m; fin.
Qed.
(** the quotation mark is one *)
Definition quoted (m : mode) : bool := match m with MVal _ _ _ q _ _ | MValEnt _ _ _ q _ _ => eqc q dquote || eqc q squote | _ => true end.
Lemma quoted_step st c : quoted (pmode st) = true -> quoted (pmode (fst (step st c))) = true.
Proof.
  intros Q. destruct st as [m o r]. unfold step, bad, other, go, open_elem, close_elem. cbn [pmode popen proot] in *.
  destruct m as [| | |[|]|[|[|]]| | | | | | | | |[|]| | |]; cbn [quoted] in Q;
    repeat match goal with
    | |- context [if ?b then _ else _] => destruct b eqn:?
    | |- context [match ?x with [] => _ | _ :: _ => _ end] => destruct x
    | |- context [match ?x with Some _ => _ | None => _ end] => destruct x
    end; cbn; auto; try reflexivity.
Qed.
Ltac each m o := destruct m as [br [|]|e| |[|d]|[|[|d]]|n|n al sp|n al a|n al a|n al a|n al a q v [|]|n al a q v e|n al|[|c n]|n| |]; cbn [flagged quoted pmode] in *; try discriminate; destruct o as [|o1 o].
Lemma step_cr st : quoted (pmode st) = true -> flagged (pmode st) = false -> snd (step st cr) = snd (step st nl) /\ clear (fst (step st cr)) = fst (step st nl).
Proof.
  destruct st as [m o r]. intros Q H. each m o;
  try (split; reflexivity); try (apply orb_true_iff in Q as [Q|Q]; apply eqc_true in Q; subst q; split; reflexivity); try (destruct e as [|c0 [|c1 e]]; split; reflexivity).
Qed.
Lemma step_crlf st : quoted (pmode st) = true -> flagged (pmode st) = false ->
  fst (step (fst (step st cr)) nl) = fst (step st nl) /\ snd (step st cr) ++ snd (step (fst (step st cr)) nl) = snd (step st nl).
Proof.
  destruct st as [m o r]. intros Q H. each m o;
  try (split; reflexivity); try (apply orb_true_iff in Q as [Q|Q]; apply eqc_true in Q; subst q; split; reflexivity); try (destruct e as [|c0 [|c1 e]]; split; reflexivity).
Qed.
Lemma feed_unix : forall n s st, length s <= n -> quoted (pmode st) = true -> flagged (pmode st) = false ->
  snd (feed st s) = snd (feed st (unix s)) /\ clear (fst (feed st s)) = fst (feed st (unix s)).
Proof.
  induction n as [|n IH]; intros s st L Q F.
  { destruct s; [|cbn in L; lia]. cbn. split; [reflexivity|]. apply clear_unflagged, F. }
  destruct s as [|c s]; [cbn; split; [reflexivity|]; apply clear_unflagged, F|]. cbn [length] in L. cbn [unix]. destruct (eqc_spec c cr) as [->|N].
  - pose proof (step_cr st Q F) as [C1 C2]. pose proof (quoted_step st nl Q) as Qn. assert (Fn : flagged (pmode (fst (step st nl))) = false) by (apply step_unflagged; discriminate).
    assert (K : forall s', length s' <= n -> (match s' with c' :: _ => c' <> nl | [] => True end) ->
      snd (feed st (cr :: s')) = snd (feed st (nl :: unix s')) /\ clear (fst (feed st (cr :: s'))) = fst (feed st (nl :: unix s'))).
    { intros s' L' H. cbn [feed]. destruct (step st cr) as [st1 e1] eqn:E1. destruct (step st nl) as [st2 e2] eqn:E2. cbn [fst snd] in *. subst e2.
      destruct s' as [|c' s']; [cbn; rewrite app_nil_r; split; [reflexivity|exact C2]|].
      assert (X : feed st1 (c' :: s') = feed st2 (c' :: s')). { cbn [feed]. rewrite <- C2, (step_clear st1 c' H). reflexivity. }
      rewrite X. destruct (IH (c' :: s') st2 L' Qn Fn) as [I1 I2]. destruct (feed st2 (c' :: s')) as [st3 e3]. destruct (feed st2 (unix (c' :: s'))) as [st4 e4]. cbn [fst snd] in *. rewrite I1. split; [reflexivity|exact I2]. }
    destruct s as [|c' s].
    + apply (K []); [cbn; lia|exact I].
    + destruct (eqc_spec c' nl) as [->|N'].
      * pose proof (step_crlf st Q F) as [D1 D2]. clear C1 C2. cbn [feed]. destruct (step st cr) as [st1 e1] eqn:E1. cbn [fst snd] in *. destruct (step st1 nl) as [st2 e2] eqn:E2. destruct (step st nl) as [st3 e3] eqn:E3. cbn [fst snd] in *. subst st3 e3.
        destruct (IH s st2) as [I1 I2]; [cbn in L; lia|exact Qn|exact Fn|]. destruct (feed st2 s) as [st4 e4]. destruct (feed st2 (unix s)) as [st5 e5]. cbn [fst snd] in *. subst e5. rewrite app_assoc. split; [reflexivity|exact I2].
      * apply (K (c' :: s)); [lia|exact N'].
  - cbn [feed]. pose proof (quoted_step st c Q) as Qn. pose proof (step_unflagged st c N) as Fn. destruct (step st c) as [st1 e1]. cbn [fst] in *. destruct (IH s st1) as [I1 I2]; [lia|exact Qn|exact Fn|].
    destruct (feed st1 s) as [st4 e4]. destruct (feed st1 (unix s)) as [st5 e5]. cbn [fst snd] in *. subst e5. split; [reflexivity|exact I2].
Qed.
Lemma strip_unix p : (forall c, In c p -> c <> cr /\ c <> nl) -> forall s, strip_prefix p (unix s) = match strip_prefix p s with Some r => Some (unix r) | None => None end.
Proof.
  induction p as [|x p IH]; intros H s; [reflexivity|]. destruct (H x (or_introl eq_refl)) as [N1 N2]. destruct s as [|c s]; [reflexivity|]. cbn [unix strip_prefix]. destruct (eqc_spec c cr) as [->|N].
  - assert (E1 : eqc x nl = false) by (apply eqc_false; exact N2). assert (E2 : eqc x cr = false) by (apply eqc_false; exact N1). rewrite E1, E2. reflexivity.
  - cbn [strip_prefix]. destruct (eqc x c); [|reflexivity]. apply IH. intros c' H'. apply H. right. exact H'.
Qed.
Lemma supported_unix n : forall s, length s <= n -> supported_bytes (unix s) = supported_bytes s.
Proof.
  unfold supported_bytes. induction n as [|n IH]; intros s L; [destruct s; [reflexivity|cbn in L; lia]|]. destruct s as [|c s]; [reflexivity|]. cbn [length] in L. cbn [unix]. destruct (eqc_spec c cr) as [->|N].
  - destruct s as [|c' s]; [reflexivity|]. cbn [length] in L. destruct (eqc_spec c' nl) as [->|N'].
    + cbn [forallb]. rewrite IH by lia. reflexivity.
    + change (forallb (fun c => (0 <? code c) && (code c <? 128)) (unix (c' :: s)) = forallb (fun c => (0 <? code c) && (code c <? 128)) (c' :: s)). apply IH. cbn [length]. lia.
  - cbn [forallb]. rewrite IH by lia. reflexivity.
Qed.
Lemma expat_unix ext s : expat (fun _ => ext s) (unix s) = expat ext s.
Proof.
  unfold expat. rewrite (supported_unix (length s) s (le_n _)). destruct (supported_bytes s); [|reflexivity].
  rewrite strip_unix.
  2:{ intros c H. split; intros ->; revert H; vm_compute; intros H; repeat (destruct H as [H|H]; [discriminate H|]); exact H. }
  set (r := match strip_prefix xml_decl s with Some r => r | None => s end). replace (match match strip_prefix xml_decl s with Some r => Some (unix r) | None => None end with Some r => r | None => unix s end) with (unix r).
  2:{ unfold r. destruct (strip_prefix xml_decl s); reflexivity. }
  destruct (feed_unix (length r) r pinit (le_n _) eq_refl eq_refl) as [F1 F2]. destruct (feed pinit r) as [st e1]. destruct (feed pinit (unix r)) as [st' e2]. cbn [fst snd] in *. subst.
  unfold clear, complete. cbn [pmode popen proot]. destruct (pmode st); reflexivity.
Qed.
Lemma expat_ext ext ext' s : ext s = ext' s -> expat ext s = expat ext' s.
Proof. intros H. unfold expat. rewrite H. reflexivity. Qed.
Lemma read_unix asserts ext doc : ReadXMLInput asserts (fun _ => ext doc) (unix doc) = ReadXMLInput asserts ext doc.
Proof.
  destruct (expat ext doc) as [evs ok] eqn:E. rewrite (C41_result asserts ext doc evs ok E). apply C41_result. rewrite expat_unix. exact E.
Qed.

(** * C74 *)
(** A document is read as the one with its line ends in the Unix form.  (The hypothesis is about parts of XML outside of the model, see XmlModel.) *)
Theorem C74_line_ends : forall asserts ext doc, ext (unix doc) = ext doc -> ReadXMLInput asserts ext (unix doc) = ReadXMLInput asserts ext doc.
Proof.
  intros asserts ext doc H. rewrite <- (read_unix asserts ext doc). destruct (expat ext (unix doc)) as [evs ok] eqn:E. rewrite (C41_result asserts ext _ evs ok E).
  symmetry. apply C41_result. rewrite <- E. apply expat_ext. symmetry. exact H.
Qed.
Print Assumptions C74_line_ends.

(** Converting the line ends of a baseline file, in any way, changes nothing in the runs compared with it. *)
Theorem C74_converted_baseline : forall e f f' test a0 rest opts inf o f1 l k r w b b' s1 x,
  command_line e f opts rest -> input_of opts = Some inf -> started e f (output_of e f opts) (dirs_of opts) inf = Some (o, f1, l) ->
  slot e (baseline_path e f1 (dirs_of opts) inf) = Some k -> o <> Some k -> f k = Some (FFile r w b) ->
  f' k = Some (FFile r w b') -> (forall k', k' <> k -> f' k' = f k') ->
  unix b' = unix b -> e_ext e (unix b) = e_ext e b -> e_ext e (unix b') = e_ext e b' ->
  leaves_alone e (Some k) (test (a0 :: rest)) -> measures_others e (Some k) (test (a0 :: rest)) -> names_others e (Some k) (dirs_of opts) l ->
  Main e test (a0 :: flat opts ++ rest) (new_test f) = (s1, x) ->
  exists s2, Main e test (a0 :: flat opts ++ rest) (new_test f') = (s2, x) /\ s_stdout s2 = s_stdout s1 /\ s_files s2 k = f' k /\ (forall k', k' <> k -> s_files s2 k' = s_files s1 k').
Proof.
  intros e f f' test a0 rest opts inf o f1 l k r w b b' s1 x Hc Hi Hs Hk Ok0 Hf Hf' Ho Hu Hx Hx' L N1 N2 E.
  refine (C74_only_measurements_count e f f' test a0 rest opts inf o f1 l k r w b b' s1 x Hc Hi Hs Hk Ok0 Hf Hf' Ho _ L N1 N2 E).
  rewrite <- (C74_line_ends _ _ b Hx), <- (C74_line_ends _ _ b' Hx'), Hu. reflexivity.
Qed.
Print Assumptions C74_converted_baseline.

(** Recording, converting the line ends of the document in any way, comparing: as without conversion (C39), whatever the rest of the parser does. *)
Theorem C74_record_convert_compare : forall e f test a0 rest opts o f1 s1 z k b e' f' opts' inf o' f2,
  command_line e f opts rest -> input_of opts = None -> opened e f (output_of e f opts) = Some (o, f1) ->
  leaves_alone e o (test (a0 :: rest)) -> ends (test (a0 :: rest)) = Ok k ->
  Forall storable (map (meas_of (e_io e) false) (recorded (test (a0 :: rest)))) -> comment_safe (e_host e) -> comment_safe (e_time e) ->
  Main e test (a0 :: flat opts ++ rest) (new_test f) = (s1, Ok z) ->
  (* the converted document *)
  unix b = written o s1 ->
  command_line e' f' opts' rest -> input_of opts' = Some inf -> expected_of opts' = expected_of opts -> e_io e' = e_io e ->
  opened e' f' (output_of e' f' opts') = Some (o', f2) ->
  contents e' f2 (baseline_path e' f2 (dirs_of opts') inf) = Some b ->
  repeatable e' (dirs_of opts') default_tol f2 (test (a0 :: rest)) ->
  exists s2, Main e' test (a0 :: flat opts' ++ rest) (new_test f') = (s2, Ok z) /\ s_stdout s2 = [] /\ s_files s2 = leaves e' f2 (test (a0 :: rest)).
Proof.
  intros e f test a0 rest opts o f1 s1 z k b e' f' opts' inf o' f2 Hc Hi Ho Hl He Hs Hh Ht Hm Hu Hc' Hi' Hx Hio Ho' Hb Hr.
  destruct (C44_recorded_document e f test a0 opts rest o f1 Hc Hi Ho Hl) as (s1' & z' & ps & M & P & W).
  assert (E1 : (s1', Ok z') = (s1, Ok z)) by congruence. injection E1 as -> ->.
  rewrite He in W. rewrite (lines_prints _ _ P) in W.
  destruct (main_record e f test a0 opts rest Hc Hi) as [s1' Z]. rewrite Ho, He, Hm in Z. injection Z as <- ->.
  rewrite <- Hx. eapply (compare_repeats e' f' test a0 opts' rest inf o' f2 _ k Hc' Hi' Ho' Hb); [|exact Hr|exact He].
  rewrite <- read_unix, Hu, W, Hio. apply read_recorded; assumption.
Qed.
Print Assumptions C74_record_convert_compare.

(** The text files the measurements name are compared byte by byte: there a conversion is a mismatch. *)
Definition c74_baseline (eol : str) : str := xml_decl ++ eol ++ $"<output>" ++ eol ++ $"<DartMeasurementFile name=" ++ [dquote] ++ $"t" ++ [dquote] ++ $" type=" ++ [dquote] ++ $"text/plain" ++ [dquote] ++ $">a.txt</DartMeasurementFile>" ++ eol ++ $"</output>" ++ eol.
Definition c74_files (eol text_eol : str) : store := fun p =>
  if eqs p ($"b.xml") then Some (FFile true true (c74_baseline eol)) else if eqs p ($"a.txt") then Some (FFile true true ($"one" ++ text_eol ++ $"two" ++ text_eol)) else if eqs p ($"out.txt") then Some (FFile true true ($"one" ++ [nl] ++ $"two" ++ [nl])) else None.
Definition c74_test : list str -> prog := fun _ => Call (FileTextPlain ($"out.txt") ($"t")) (fun _ => Return 0).
Definition c74_args : list str := [$"prog"; $"-I"; $"b.xml"].
Theorem C74_text_file_refuted : exists e f f' test argv k b b', f k = Some (FFile true true b) /\ f' k = Some (FFile true true b') /\ (forall k', k' <> k -> f' k' = f k') /\ unix b' = unix b /\
  snd (Main e test argv (new_test f)) = Ok 0%Z /\ snd (Main e test argv (new_test f')) = Ok 1%Z.
Proof.
  exists ex_env, (c74_files [nl] [nl]), (c74_files [nl] [cr; nl]), c74_test, c74_args, ($"a.txt"). do 2 eexists. split; [reflexivity|]. split; [reflexivity|].
  split; [|split; [reflexivity|split; vm_compute; reflexivity]]. intros k' N. unfold c74_files. destruct (eqs k' ($"b.xml")); [reflexivity|].
  destruct (eqs_spec k' ($"a.txt")) as [X|X]; [contradiction|reflexivity].
Qed.
Print Assumptions C74_text_file_refuted.

Example C74_case : 
  (* a document with all three kinds of line ends, in text, attributes and between *)
  unix ($"a" ++ [cr; nl] ++ $"b" ++ [cr] ++ $"c" ++ [nl; cr; nl; nl]) = $"a" ++ [nl] ++ $"b" ++ [nl] ++ $"c" ++ [nl; nl; nl] /\
  ReadXMLInput true (fun _ => ([], false)) (dos (written (Some ($"b.xml")) (fst (Main ex_env ex_recording [$"prog"; $"-O"; $"b.xml"] (new_test (fun _ => None)))))) =
  ReadXMLInput true (fun _ => ([], false)) (written (Some ($"b.xml")) (fst (Main ex_env ex_recording [$"prog"; $"-O"; $"b.xml"] (new_test (fun _ => None))))) /\
  (* the hypotheses of C74_converted_baseline *)
  command_line (c70_env false) (c74_files [nl] [nl]) [($"-I", $"b.xml")] [] /\
  started (c70_env false) (c74_files [nl] [nl]) [] [] ($"b.xml") = Some (None, c74_files [nl] [nl], [MF (Mf ($"t") true ($"text/plain") ($"a.txt"))]) /\
  slot (c70_env false) (baseline_path (c70_env false) (c74_files [nl] [nl]) [] ($"b.xml")) = Some ($"b.xml") /\
  leaves_alone (c70_env false) (Some ($"b.xml")) (c74_test [$"prog"]) /\ measures_others (c70_env false) (Some ($"b.xml")) (c74_test [$"prog"]) /\
  names_others (c70_env false) (Some ($"b.xml")) [] [MF (Mf ($"t") true ($"text/plain") ($"a.txt"))] /\
  snd (Main (c70_env false) c74_test c74_args (new_test (c74_files [nl] [nl]))) = Ok 0%Z /\ snd (Main (c70_env false) c74_test c74_args (new_test (c74_files [cr; nl] [nl]))) = Ok 0%Z.
Proof.
  split; [reflexivity|]. split; [vm_compute; reflexivity|]. split.
  { split; [|exact I]. constructor; [|constructor]. split; [cbn; auto|]. split; intros E; [split; reflexivity|discriminate E]. }
  split; [reflexivity|]. split; [reflexivity|]. split; [repeat constructor|]. split; [split; [intros f E; injection E as <-; discriminate|intros r; exact I]|].
  split; [|split; vm_compute; reflexivity]. intros g [E|[]]. injection E as <-. split; [discriminate|intros d p []].
Qed.

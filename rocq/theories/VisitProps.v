(** Theorems about the difference visitor (property C26). *)
From Verif Require Import Base Str XmlText MeasModel MeasFacts DiffModel DiffSpec DiffProps VisitModel.

Definition is_plain (m : meas) : Prop := exists d, m = MD d /\ dcls d = CPlain.
(** [m'] is [m] under another name *)
Definition renamed (n : str) (m m' : meas) : Prop :=
  mname m' = n /\ mtype m' = mtype m /\ mcontent m' = mcontent m /\ melem m' = melem m /\ mesc m' = mesc m.
Definition dq : ascii := chr 34.

Lemma print_ok m : exists p, Print m = Ok p.
Proof. unfold Print. destruct (mesc m); [rewrite escape_spec|]; cbn [bind]; eexists; reflexivity. Qed.

Theorem C26_general_report : forall sc asserts oob baseline m, ~ is_plain m ->
  exists b' m' pt pb, Difference sc asserts oob baseline m = (b', m', Ok (pt ++ [nl] ++ pb ++ [nl])) /\
    renamed ($"Test " ++ mname m) m m' /\ renamed ($"Baseline " ++ mname baseline) baseline b' /\
    Print m' = Ok pt /\ Print b' = Ok pb.
Proof.
  intros sc asserts oob baseline m Hp.
  assert (G : forall x : meas * meas * res str,
    x = (let '(m', baseline') := AddPrefixesToNames m baseline in
         (baseline', m', a <-- Print m' ;; b <-- Print baseline' ;; Ok (a ++ [nl] ++ b ++ [nl]))) ->
    exists b' m' pt pb, x = (b', m', Ok (pt ++ [nl] ++ pb ++ [nl])) /\
    renamed ($"Test " ++ mname m) m m' /\ renamed ($"Baseline " ++ mname baseline) baseline b' /\
    Print m' = Ok pt /\ Print b' = Ok pb).
  { intros x ->. unfold AddPrefixesToNames.
    destruct (print_ok (mset_name m ($"Test " ++ mname m))) as [pt E1].
    destruct (print_ok (mset_name baseline ($"Baseline " ++ mname baseline))) as [pb E2].
    do 4 eexists. rewrite E1. cbn [bind]. rewrite E2. cbn [bind]. split; [reflexivity|].
    assert (R : forall n u, renamed n u (mset_name u n)) by (intros n [u|u]; repeat split).
    split; [apply R|]. split; [apply R|]. split; assumption. }
  apply G. unfold Difference. destruct m as [d|f]; [|reflexivity].
  destruct (dcls d) eqn:E; try reflexivity. exfalso. apply Hp. exists d. auto.
Qed.
Print Assumptions C26_general_report.

Theorem C26_plain_text_report : forall sc asserts oob baseline m, is_plain m ->
  fst (Difference sc asserts oob baseline m) = (baseline, m) /\
  forall text, Diff sc asserts oob (mcontent baseline) (mcontent m) = Ok text ->
  exists e, unescape e = Some text /\
    snd (Difference sc asserts oob baseline m) =
      Ok ($"<DartMeasurement name=" ++ [dq] ++ $"Difference " ++ mname m ++ [dq] ++ $" type=" ++ [dq] ++ $"text/plain" ++
          [dq] ++ $">" ++ e ++ $"</DartMeasurement>" ++ [nl]).
Proof.
  intros sc asserts oob baseline m (d & -> & Hc). unfold Difference. rewrite Hc. split; [reflexivity|].
  intros text E. exists (flat_map esc1 text). split; [apply unescape_escape|].
  cbn [snd]. cbn [mcontent] in *. rewrite E. cbn [bind]. unfold Print.
  cbn [mesc mcontent SetContent SetAttributeName DeleteContentAsData new_dm desc dcontent].
  rewrite escape_spec. cbn [bind]. f_equal. cbn -[app flat_map quoted]. unfold quoted. rewrite <- !app_assoc. reflexivity.
Qed.
Print Assumptions C26_plain_text_report.

(** The reported text leads from the baseline text to the test's text. *)
Theorem C26_plain_text_report_is_patch : forall sc asserts f baseline m,
  is_plain m -> small (mcontent baseline) (mcontent m) -> distinct_hashes sc (mcontent baseline) (mcontent m) ->
  free nul (mcontent baseline) -> free nul (mcontent m) ->
  exists e text, unescape e = Some text /\ patch text (mcontent baseline) = Some (mcontent m) /\
    Difference sc asserts (Some f) baseline m = (baseline, m,
      Ok ($"<DartMeasurement name=" ++ [dq] ++ $"Difference " ++ mname m ++ [dq] ++ $" type=" ++ [dq] ++ $"text/plain" ++
          [dq] ++ $">" ++ e ++ $"</DartMeasurement>" ++ [nl])).
Proof.
  intros sc asserts f baseline m Hp Hs Hd N0 N1.
  destruct (C29_diff_succeeds sc _ _ Hs Hd) as [text E]. specialize (E asserts f).
  destruct (C26_plain_text_report sc asserts (Some f) baseline m Hp) as [A B].
  destruct (B text E) as (e & Ue & Se). exists e, text. split; [exact Ue|].
  split; [apply (C34_printed_difference_is_patch sc asserts f _ _ text Hs N0 N1 E)|].
  rewrite <- Se, <- A. destruct (Difference sc asserts (Some f) baseline m). reflexivity.
Qed.
Print Assumptions C26_plain_text_report_is_patch.
Example C26_case :
  snd (Difference true true (Some (fun _ _ => 0%Z))
    (MD (SetContent (SetAttributeName (new_dm CString) $"n") $"a"))
    (MD (SetContent (SetAttributeName (new_dm CPlain) $"n") $"b"))) =
  Ok ($"<DartMeasurement name=" ++ [dq] ++ $"Difference n" ++ [dq] ++ $" type=" ++ [dq] ++ $"text/plain" ++ [dq] ++ $">1c1
&lt; a
----
&gt; b
</DartMeasurement>
").
Proof. vm_compute. reflexivity. Qed.

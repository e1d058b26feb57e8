(** C44, continued: the text of a recorded document. *)
From Coq Require Import Floats.SpecFloat.
From Verif Require Import Base Str Dec PathModel PathFacts MeasModel MeasFacts XmlModel ReadBack ReadProps RegModel ArgFacts ArgProps RegSpec RegMain RegProps RegProps2 RegRound LineSpec.

Lemma escaped_esc t : escaped t = flat_map esc1 t.
Proof. reflexivity. Qed.
Lemma int_text_wrap i : int_text i (print_int (wrap32 i)).
Proof.
  exists (wrap32 i). split; [exact (wrap32_range i)|]. split; [|reflexivity]. unfold wrap32.
  rewrite (Z.mod_eq (i + 2147483648) 4294967296) by lia.
  replace (i - (i + 2147483648 - 4294967296 * ((i + 2147483648) / 4294967296) - 2147483648))%Z with (((i + 2147483648) / 4294967296) * 4294967296)%Z by ring.
  apply Z.mod_mul. lia.
Qed.
Lemma last_part_tail f : last_part f (Tail f).
Proof.
  split.
  - intros H. exact (tail_no_slash f H).
  - destruct (last_split slash f) as [H|(d & t & -> & H)].
    + left. symmetry. apply tail_free. exact H.
    + right. exists d. rewrite tail_split by exact H. reflexivity.
Qed.
Lemma print_data c n t : print_of (MD (SetContent (named c n) t)) = element DATA n (type_of c) t.
Proof.
  unfold print_of, element. cbn [PrintStartTag named SetAttributeName SetContent DeleteContentAsData new_dm dname dcls denc dcomp desc mesc mcontent dcontent melem].
  rewrite (eqs_refl default_enc), (eqs_refl default_comp). unfold quoted. unfold q. rewrite <- !app_assoc. reflexivity.
Qed.
Lemma print_file ty f n : print_of (file_meas false ty f n) = element FILE n ty (Tail f).
Proof.
  unfold print_of, file_meas, element. cbn [PrintStartTag fname ftype mesc fesc mcontent ffile melem].
  unfold quoted. unfold q. rewrite <- !app_assoc. reflexivity.
Qed.
Lemma line_print io c : line io c (print_of (meas_of io false c)).
Proof.
  destruct c as [t n|t n|f n|i n tol|x n tol|x n tol|b n tol|f n|f n]; cbn [meas_of];
    unfold int_SetValue, float_SetValue, double_SetValue, bool_SetValue; rewrite ?print_data, ?print_file.
  - apply line_string.
  - apply line_plain.
  - apply line_text_file, last_part_tail.
  - apply line_integer, int_text_wrap.
  - apply line_float.
  - apply line_double.
  - destruct b; [exact (line_boolean io true n tol)|exact (line_boolean io false n tol)].
  - apply line_png, last_part_tail.
  - apply line_jpeg, last_part_tail.
Qed.

(** A recording run writes the first lines, one line per measurement, and the last line unless the test ended with an exception. *)
Theorem C44_recorded_text : forall e f test a0 opts rest o f1,
  command_line e f opts rest -> input_of opts = None -> opened e f (output_of e f opts) = Some (o, f1) ->
  leaves_alone e o (test (a0 :: rest)) ->
  exists s' z ls, Main e test (a0 :: flat opts ++ rest) (new_test f) = (s', Ok z) /\
    Forall2 (line (e_io e)) (recorded (test (a0 :: rest))) ls /\
    written o s' = first_lines (e_host e) (e_time e) ++ concat (map (fun l => l ++ [nl]) ls) ++
                   match ends (test (a0 :: rest)) with Ok _ => last_line | _ => [] end.
Proof.
  intros e f test a0 opts rest o f1 Hc Hi Ho Hl.
  destruct (C44_recorded_document e f test a0 opts rest o f1 Hc Hi Ho Hl) as (s' & z & ps & M & P & W).
  exists s', z, ps. split; [exact M|]. split; [|exact W].
  clear - P. remember (map (meas_of (e_io e) false) (recorded (test (a0 :: rest)))) as l eqn:E. revert E.
  generalize (recorded (test (a0 :: rest))). induction P as [|m p l ps H P IH]; intros cs E.
  - destruct cs; [constructor|discriminate].
  - destruct cs as [|c cs]; [discriminate|]. cbn [map] in E. injection E as -> ->. constructor; [|apply IH; reflexivity].
    rewrite print_print_of in H. apply Ok_inj in H. subst p. apply line_print.
Qed.
Print Assumptions C44_recorded_text.
(** The line is determined by the measurement. *)
Theorem C44_line_determined : forall io c l l', line io c l -> line io c l' -> l = l'.
Proof.
  assert (I : forall i t t', int_text i t -> int_text i t' -> t = t').
  { intros i t t' (v & R & C & ->) (v' & R' & C' & ->). f_equal. clear - R C R' C'.
    apply Z.mod_divide in C, C'; [|lia|lia]. destruct C as [a A], C' as [b B]. assert (v - v' = (b - a) * 4294967296)%Z by lia. nia. }
  assert (P : forall f t t', last_part f t -> last_part f t' -> t = t').
  { assert (G : forall f t, last_part f t -> t = Tail f).
    { intros f t [N [->|[d ->]]].
      - symmetry. apply tail_free. exact N.
      - symmetry. apply tail_split. exact N. }
    intros f t t' A B. rewrite (G _ _ A), (G _ _ B). reflexivity. }
  intros io c l l' H. destruct H; intros H'; inversion H'; subst; try reflexivity; f_equal; eauto.
Qed.
Print Assumptions C44_line_determined.
Example C44_text_case :
  line (e_io ex_env) (NumericInteger (-4294967301) ($"n") true) ($"<DartMeasurement name=" ++ q ++ $"n" ++ q ++ $" type=" ++ q ++ $"numeric/integer" ++ q ++ $">-5</DartMeasurement>") /\
  line (e_io ex_env) (FileImagePNG ($"dir/a.png") ($"n")) ($"<DartMeasurementFile name=" ++ q ++ $"n" ++ q ++ $" type=" ++ q ++ $"image/png" ++ q ++ $">a.png</DartMeasurementFile>") /\
  line (e_io ex_env) (TextPlain ($"a<b") ($"n")) ($"<DartMeasurement name=" ++ q ++ $"n" ++ q ++ $" type=" ++ q ++ $"text/plain" ++ q ++ $">a&lt;b</DartMeasurement>").
Proof.
  split; [|split].
  - exact (line_integer _ _ _ true _ (int_text_wrap (-4294967301))).
  - exact (line_png _ _ ($"n") _ (last_part_tail ($"dir/a.png"))).
  - exact (line_plain _ ($"a<b") ($"n")).
Qed.

(** Concrete cases for the theorems of DiffProps and VisitProps that have hypotheses: each theorem is applied to a case that meets them. *)
From Verif Require Import Base Str Dec XmlText MeasModel DiffModel DiffFacts DiffSpec DiffPrint DiffProps VisitModel VisitProps CasesBase.
Local Open Scope Z_scope.

Definition t0 : str := $"a" ++ [nl] ++ $"b" ++ [nl] ++ $"c" ++ [nl] ++ $"d".
Definition t1 : str := $"b" ++ [nl] ++ $"c" ++ [nl] ++ $"x" ++ [nl] ++ $"y".
Lemma t_distinct : distinct_hashes true t0 t1.
Proof.
  intros a b Ha Hb. vm_compute in Ha, Hb.
  repeat (destruct Ha as [<-|Ha]; [repeat (destruct Hb as [<-|Hb]; [vm_compute; intros E; first [reflexivity|discriminate E]|]); destruct Hb|]). destruct Ha.
Qed.
Lemma t_small : small t0 t1.
Proof. vm_compute. reflexivity. Qed.
Lemma t_built : exists l0 l1 v0 v1, BuildLines true t0 t1 = Ok (l0, l1, v0, v1) /\ v0 = [1; 2; 3; 4] /\ v1 = [2; 3; 5; 6].
Proof. do 4 eexists. split; [vm_compute; reflexivity|]. split; reflexivity. Qed.
Local Notation some := (Some (fun (_ : bool) (_ : Z) => 0)).
Lemma t_edits : edits_of true some [1; 2; 3; 4] [2; 3; 5; 6] = Ok [mkedit 0 0 0 1; mkedit 3 2 2 1].
Proof. vm_compute. reflexivity. Qed.
Example C27_lines_lossless_met : exists l0, join nl l0 = t0 /\ Forall (free nl) l0 /\ l0 <> [].
Proof. destruct t_built as (l0 & l1 & v0 & v1 & E & _). exists l0. apply (C27_lines_lossless _ _ _ _ _ _ _ E). Qed.
Example C27_line_count_met : exists l0 v0 : list _, length l0 = 4%nat /\ length v0 = length (l0 : list str) /\ (v0 : list Z) = [1; 2; 3; 4].
Proof. destruct t_built as (l0 & l1 & v0 & v1 & E & -> & _). exists l0, [1; 2; 3; 4]. destruct (C27_line_count _ _ _ _ _ _ _ E) as (A & _ & B & _). rewrite A. split; [reflexivity|]. split; [exact (eq_trans B A)|reflexivity]. Qed.
Example C28_same_id_iff_same_line_met : exists ls : list str, length ls = 8%nat /\ forall i j, (i < 8)%nat -> (j < 8)%nat -> (nth i [1; 2; 3; 4; 2; 3; 5; 6] 0 = nth j [1; 2; 3; 4; 2; 3; 5; 6] 0 <-> nth i ls [] = nth j ls []).
Proof.
  destruct t_built as (l0 & l1 & v0 & v1 & E & -> & ->). pose proof (C28_same_id_iff_same_line _ _ _ _ _ _ _ E) as H. cbv zeta in H. destruct H as [L H]. exists (l0 ++ l1). cbn [app length] in L. split; [auto|]. rewrite <- L in H. exact H.
Qed.
Example C28_succeeds_without_collisions_met : is_ok (BuildLines true t0 t1).
Proof. apply C28_succeeds_without_collisions. exact t_distinct. Qed.
Example C29_middle_snake_terminates_met : exists xm ym l D', FindEditMidPoint 14 [1; 2] [3; 4] 0 2 0 2 (fun _ => None) = Ok ((xm, ym, l), D') /\ 0 <= xm <= 2 /\ 0 <= ym <= 2 /\ (xm - 0) + (ym - 0) < (2 - 0) + (2 - 0) /\ (2 - xm) + (2 - ym) < (2 - 0) + (2 - 0).
Proof. apply C29_middle_snake_terminates; first [lia|discriminate|cbn; lia]. Qed.
Example C29_diff_terminates_met : exists out, forall asserts f, Diff true asserts (Some f) t0 t1 = Ok out.
Proof. destruct (C29_diff_terminates true t0 t1 t_small) as [H|[_ H]]; [exact H|]. destruct (H t_distinct). Qed.
Example C29_diff_succeeds_met : exists out, forall asserts f, Diff true asserts (Some f) t0 t1 = Ok out.
Proof. apply C29_diff_succeeds; [exact t_small|exact t_distinct]. Qed.
Example C30_search_in_bounds_met : is_ok (FindEditMidPoint ((len [1; 7; 2] + len [3; 7; 4]) * 2 + 6) [1; 7; 2] [3; 7; 4] 0 3 0 3 (fun _ => None)).
Proof. apply C30_search_in_bounds; first [lia|discriminate|cbn; lia]. Qed.
Example C30_outside_reads_harmless_met : Diff true true some t0 t1 = Diff true false (Some (fun _ i => i)) t0 t1.
Proof. apply C30_outside_reads_harmless. exact t_small. Qed.
Example C31_edits_correct_met : exists es, edits_of true some [1; 2; 3; 4] [2; 3; 5; 6] = Ok es /\ apply_edits 0 (lines t0) (lines t1) es = lines t1.
Proof. destruct t_built as (l0 & l1 & v0 & v1 & E & -> & ->). destruct (C31_edits_correct _ _ _ _ _ _ _ t_small E) as (es & A & _ & B). exists es. split; [apply A|exact B]. Qed.
Example C32_edits_well_formed_met : well_formed false 0 0 (lines t0) (lines t1) [mkedit 0 0 0 1; mkedit 3 2 2 1].
Proof. destruct t_built as (l0 & l1 & v0 & v1 & E & -> & ->). exact (C32_edits_well_formed _ _ _ _ _ _ _ _ _ _ t_small E t_edits). Qed.
Example C33_empty_iff_equal_met : forall out, Diff true true some t0 t1 = Ok out -> out <> [].
Proof. intros out E X. apply (C33_empty_iff_equal true true (fun _ _ => 0) t0 t1 out t_small E) in X. discriminate X. Qed.
Example C34_printed_difference_is_patch_met : exists out, Diff true true some t0 t1 = Ok out /\ patch out t0 = Some t1.
Proof.
  destruct C29_diff_succeeds_met as (out & E). exists out. split; [apply E|]. apply (C34_printed_difference_is_patch true true (fun _ _ => 0) t0 t1 out t_small); [apply free_lit; reflexivity|apply free_lit; reflexivity|apply E].
Qed.
Example C35_bounded_met : total deleted [mkedit 0 0 0 1; mkedit 3 2 2 1] <= len (lines t0).
Proof. destruct t_built as (l0 & l1 & v0 & v1 & E & -> & ->). exact (proj1 (C35_bounded _ _ _ _ _ _ _ _ _ _ t_small E t_edits)). Qed.
Local Notation text c t := (MD (SetContent (SetAttributeName (new_dm c) ($"n")) t)).
Example C26_general_report_met : exists b' m' pt pb, Difference true true some (text CString t0) (text CString t1) = (b', m', Ok (pt ++ [nl] ++ pb ++ [nl])) /\ renamed ($"Test n") (text CString t1) m' /\ Print m' = Ok pt /\ Print b' = Ok pb.
Proof. destruct (C26_general_report true true some (text CString t0) (text CString t1)) as (b' & m' & pt & pb & A & B & _ & C & D); [intros (d & E & F); injection E as <-; discriminate F|]. exists b', m', pt, pb. split; [exact A|]. split; [exact B|]. split; [exact C|exact D]. Qed.
Example C26_plain_text_report_met : fst (Difference true true some (text CString t0) (text CPlain t1)) = (text CString t0, text CPlain t1).
Proof. apply C26_plain_text_report. eexists. split; reflexivity. Qed.
Example C26_plain_text_report_is_patch_met : exists e text', unescape e = Some text' /\ patch text' t0 = Some t1 /\ fst (Difference true true some (text CPlain t0) (text CPlain t1)) = (text CPlain t0, text CPlain t1).
Proof.
  destruct (C26_plain_text_report_is_patch true true (fun _ _ => 0) (text CPlain t0) (text CPlain t1)) as (e & x & A & B & C); [eexists; split; reflexivity|exact t_small|exact t_distinct|apply free_lit; reflexivity|apply free_lit; reflexivity|].
  exists e, x. split; [exact A|]. split; [exact B|]. rewrite C. reflexivity.
Qed.

(** What the parser of XmlModel reports: no element has two attributes of one name, and after a well-formed document every element has been closed. *)
From Coq Require Import Floats.SpecFloat Permutation.
From Verif Require Import Base Str XmlText XmlModel ReadModel HeapFacts.

(** the number of elements open after these events *)
Fixpoint depth_after (evs : list event) (d : nat) : nat :=
  match evs with
  | [] => d
  | EStart _ _ :: evs' => depth_after evs' (S d)
  | EEnd _ :: evs' => depth_after evs' (pred d)
  | EData _ :: evs' => depth_after evs' d
  end.
Definition well_reported (r : list event * bool) : Prop := snd r = true -> distinct (fst r) /\ depth_after (fst r) 0 = 0.

Lemma on_events_depth asserts : forall evs p p', on_events asserts p evs = Ok p' -> pdepth p' = depth_after evs (pdepth p).
Proof.
  induction evs as [|e evs IH]; intros p p' E; cbn [on_events] in E; [injection E as <-; reflexivity|].
  destruct (on_event asserts p e) as [p1| | | |] eqn:E1; cbn [bind] in E; try discriminate E. rewrite (IH p1 p' E). destruct e as [n al|n|s]; cbn [on_event depth_after] in *.
  - unfold on_start in E1. destruct (_ && _); [discriminate E1|]. destruct (_ && _); [discriminate E1|]. f_equal. destruct (pdepth p =? 1); [|injection E1 as <-; reflexivity]. destruct (_ || _); [|injection E1 as <-; reflexivity].
    destruct (start_measurement n al); cbn [bind] in E1; try discriminate E1. injection E1 as <-. reflexivity.
  - injection E1 as <-. reflexivity.
  - injection E1 as <-. f_equal. unfold on_data. destruct (pdepth p =? 2); reflexivity.
Qed.
Lemma depth_app a b d : depth_after (a ++ b) d = depth_after b (depth_after a d).
Proof. revert d. induction a as [|[n al|n|s] a IH]; intros d; cbn [app depth_after]; auto. Qed.

(** the attributes read so far *)
Definition attrs_of (m : mode) : list (str * str) :=
  match m with
  | MTag _ al _ | MAtt _ al _ | MEq _ al _ | MQuote _ al _ | MVal _ al _ _ _ _ | MValEnt _ al _ _ _ _ | MSlash _ al => al
  | _ => []
  end.
Definition fine (st : pstate) : Prop := NoDup (map fst (attrs_of (pmode st))).
Lemma has_attr_in a al : has_attr a al = false -> ~ In a (map fst al).
Proof.
  intros E I. apply in_map_iff in I. destruct I as ([k v] & Ek & I). cbn in Ek. subst k. assert (existsb (fun p => eqs (fst p) a) al = true); [|unfold has_attr in E; congruence]. apply existsb_exists. exists (a, v). split; [exact I|apply eqs_refl].
Qed.
Lemma step_sound st c : fine st -> let r := step st c in fine (fst r) /\ distinct (snd r) /\ length (popen (fst r)) = depth_after (snd r) (length (popen st)).
Proof.
  intros Hf. cbv zeta. assert (D0 : distinct []) by (intros n al []). assert (D1 : forall x, distinct [EData x]) by (intros x n al [E|[]]; discriminate E).
  assert (N0 : NoDup (map (@fst str str) [])) by constructor.
  unfold fine in *. unfold step. destruct st as [m o r]. cbn [pmode popen proot] in *. unfold bad, other, go, stext, open_elem, close_elem. cbn [pmode popen proot].
  destruct m; cbn [attrs_of] in Hf;
    repeat (match goal with |- context [if ?x then _ else _] => destruct x eqn:? | |- context [match ?x with _ => _ end] => destruct x eqn:? end; cbn [fst snd pmode popen proot attrs_of depth_after length pred] in * );
    cbn [fst snd pmode popen proot attrs_of depth_after length pred app] in *; (split; [|split]); auto; try (intros n' al' [E|[]]; try discriminate E; injection E as <- <-; assumption).
  all: try (intros n' al' [E|[E|[]]]; try discriminate E; injection E as <- <-; assumption).
  rewrite map_app. cbn [map fst]. apply NoDup_rev in Hf. rewrite <- (rev_involutive (map fst al ++ [a])). apply NoDup_rev. rewrite rev_app_distr. cbn [rev app]. constructor; [|exact Hf].
    rewrite <- in_rev. apply has_attr_in. assumption.
Qed.
Lemma distinct_app a b : distinct a -> distinct b -> distinct (a ++ b).
Proof. intros A B n al I. apply in_app_or in I. destruct I as [I|I]; [exact (A n al I)|exact (B n al I)]. Qed.
Lemma feed_sound : forall s st, fine st -> let r := feed st s in distinct (snd r) /\ length (popen (fst r)) = depth_after (snd r) (length (popen st)).
Proof.
  cbv zeta. induction s as [|c s IH]; intros st Hf; cbn [feed]; [split; [intros n al []|reflexivity]|].
  destruct (step_sound st c Hf) as (A & B & C). destruct (step st c) as [st1 e1]. cbn [fst snd] in *. destruct (IH st1 A) as (B' & C'). destruct (feed st1 s) as [st2 e2]. cbn [fst snd] in *.
  split; [apply distinct_app; assumption|]. rewrite depth_app, <- C. exact C'.
Qed.
Lemma expat_sound ext s : well_reported (ext s) -> well_reported (expat ext s).
Proof.
  intros He. unfold expat. destruct (supported_bytes s); [|exact He]. assert (F0 : fine pinit) by constructor. destruct (feed_sound (match strip_prefix xml_decl s with Some r => r | None => s end) pinit F0) as (A & B).
  destruct (feed pinit _) as [st evs]. cbn [fst snd] in *. intros Hc.
  assert (X : match pmode st with MOther => well_reported (ext s) | _ => complete st = true -> distinct evs /\ depth_after evs 0 = 0 end).
  { assert (Y : complete st = true -> distinct evs /\ depth_after evs 0 = 0). { unfold complete. intros Y. split; [exact A|]. change 0 with (length (popen pinit)) at 1. rewrite <- B. destruct (pmode st); try discriminate Y. destruct (popen st); [reflexivity|discriminate Y]. }
    destruct (pmode st); assumption. }
  destruct (pmode st); first [exact (X Hc)].
Qed.

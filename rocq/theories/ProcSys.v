(** Processes that do not change what others access do not notice each other. *)
From Verif Require Import Base Str RegModel ProcModel ProcFacts.

Section System.
Context {A : Type}.
Implicit Types p q : proc A.
Definition keys (l : list (str * bool)) : list str := map fst l.
(** where a process that runs alone is after the accesses [l] *)
Inductive goes : proc A -> store -> list (str * bool) -> proc A -> store -> Prop :=
| goes0 p f : goes p f [] p f
| goesS p f l k change next f1 : goes p f l (Access k change next) f1 ->
    goes p f (l ++ [(k, match change (f1 k) with None => false | Some _ => true end)]) (next (f1 k)) (accessed f1 k change).
Lemma goes_rest p f l p' f' : goes p f l p' f' -> touches p f = l ++ touches p' f' /\ alone p f = alone p' f'.
Proof.
  intros H. induction H as [p f|p f l k change next f1 H [IH1 IH2]]; [split; reflexivity|]. cbn [touches alone] in IH1, IH2. split; [|exact IH2]. rewrite IH1, <- app_assoc. reflexivity.
Qed.
(** the state of all of them: each is where it would be alone, and sees the files it ever accesses as if it were alone; [n] accesses were made *)
Inductive inv (f f' : store) : list (proc A) -> list (proc A) -> nat -> Prop :=
| inv_nil : inv f f' [] [] 0
| inv_cons p ps p' ps' l fi n : goes p f l p' fi -> (forall k, In k (keys (touches p f)) -> f' k = fi k) -> inv f f' ps ps' n -> inv f f' (p :: ps) (p' :: ps') (length l + n).
Lemma inv_start f ps : inv f f ps ps 0.
Proof. induction ps as [|p ps IH]; [constructor|]. apply (inv_cons f f p ps p ps [] f 0); [constructor|reflexivity|exact IH]. Qed.
Lemma inv_change f f' f'' ps ps' n : inv f f' ps ps' n -> (forall p k, In p ps -> In k (keys (touches p f)) -> f'' k = f' k) -> inv f f'' ps ps' n.
Proof.
  intros H. induction H as [|p ps p' ps' l fi n G E H IH]; intros C; [constructor|]. apply inv_cons with (fi := fi); [exact G| |apply IH; intros q k I; apply C; right; exact I].
  intros k I. rewrite <- (E k I). apply (C p k); [left; reflexivity|exact I].
Qed.
Lemma inv_split f f' ps ps1' x ps2' n : inv f f' ps (ps1' ++ x :: ps2') n -> exists ps1 p ps2 l fi n1 n2, ps = ps1 ++ p :: ps2 /\ length ps1 = length ps1' /\
  inv f f' ps1 ps1' n1 /\ inv f f' ps2 ps2' n2 /\ goes p f l x fi /\ (forall k, In k (keys (touches p f)) -> f' k = fi k) /\ n = (n1 + (length l + n2)).
Proof.
  revert ps n. induction ps1' as [|y ps1' IH]; intros ps n H; cbn [app] in H; inversion H as [|p ps0 p' ps0' l fi n0 G E H0]; subst.
  - exists [], p, ps0, l, fi, 0, n0. repeat split; try assumption; constructor.
  - destruct (IH _ _ H0) as (ps1 & q & ps2 & l' & fi' & n1 & n2 & -> & L & I1 & I2 & G' & E' & ->). exists (p :: ps1), q, ps2, l', fi', (length l + n1), n2.
    split; [reflexivity|]. split; [cbn [length]; congruence|]. split; [apply inv_cons with (fi := fi); assumption|]. repeat split; try assumption. lia.
Qed.
Lemma inv_join f f' ps1 ps1' n1 p x l fi ps2 ps2' n2 : inv f f' ps1 ps1' n1 -> goes p f l x fi -> (forall k, In k (keys (touches p f)) -> f' k = fi k) -> inv f f' ps2 ps2' n2 ->
  inv f f' (ps1 ++ p :: ps2) (ps1' ++ x :: ps2') (n1 + (length l + n2)).
Proof.
  intros H G E H2. induction H as [|q ps q' ps' l' fi' n G' E' H IH]; cbn [app]; [apply inv_cons with (fi := fi); assumption|].
  replace (length l' + n + (length l + n2)) with (length l' + (n + (length l + n2))) by lia. apply inv_cons with (fi := fi'); assumption.
Qed.
Definition apart (f : store) (ps : list (proc A)) : Prop := forall ps1 p ps2 q k, ps = ps1 ++ p :: ps2 -> In q (ps1 ++ ps2) ->
  In (k, true) (touches p f) -> ~ In k (keys (touches q f)).
Lemma inv_step f f1 ps ps1 n f2 ps2 : apart f ps -> inv f f1 ps ps1 n -> (forall k, (forall p, In p ps -> ~ In (k, true) (touches p f)) -> f1 k = f k) ->
  step1 (f1, ps1) (f2, ps2) -> inv f f2 ps ps2 (S n) /\ (forall k, (forall p, In p ps -> ~ In (k, true) (touches p f)) -> f2 k = f k).
Proof.
  intros Ap H U S1. inversion S1 as [f0 a k change next b]; subst. destruct (inv_split _ _ _ _ _ _ _ H) as (qs1 & p & qs2 & l & fi & n1 & n2 & -> & L & I1 & I2 & G & E & ->).
  destruct (goes_rest _ _ _ _ _ G) as [T _]. cbn [touches] in T.
  assert (Ek : f1 k = fi k). { apply E. rewrite T. unfold keys. rewrite map_app. apply in_or_app. right. left. reflexivity. }
  assert (Kc : forall v, change (f1 k) = Some v -> In (k, true) (touches p f)). { intros v Hv. rewrite T. apply in_or_app. right. left. rewrite <- Ek, Hv. reflexivity. }
  assert (O : forall q k', In q (qs1 ++ qs2) -> In k' (keys (touches q f)) -> accessed f1 k change k' = f1 k').
  { intros q k' Hq Hk. unfold accessed. destruct (change (f1 k)) as [v|] eqn:Ec; [|reflexivity]. unfold upd. destruct (eqs_spec k' k) as [->|]; [|reflexivity].
    elim (Ap qs1 p qs2 q k eq_refl Hq (Kc v eq_refl) Hk). }
  split.
  - rewrite Ek. replace (S (n1 + (length l + n2))) with (n1 + (length (l ++ [(k, match change (fi k) with None => false | Some _ => true end)]) + n2)) by (rewrite app_length; cbn [length]; lia).
    apply inv_join with (fi := accessed fi k change).
    + apply inv_change with (f' := f1); [exact I1|]. intros q k' Hq. apply O. apply in_or_app. left. exact Hq.
    + constructor. exact G.
    + intros k' Hk. unfold accessed. rewrite Ek. destruct (change (fi k)); [|apply E; exact Hk]. unfold upd. rewrite (E k' Hk). reflexivity.
    + apply inv_change with (f' := f1); [exact I2|]. intros q k' Hq. apply O. apply in_or_app. right. exact Hq.
  - intros k' Hk. rewrite <- (U k' Hk). unfold accessed. destruct (change (f1 k)) as [v|] eqn:Ec; [|reflexivity]. unfold upd. destruct (eqs_spec k' k) as [->|]; [|reflexivity].
    elim (Hk p); [apply in_or_app; right; left; reflexivity|apply (Kc v eq_refl)].
Qed.
Lemma inv_steps f ps n f' ps' : apart f ps -> steps n (f, ps) (f', ps') ->
  inv f f' ps ps' n /\ (forall k, (forall p, In p ps -> ~ In (k, true) (touches p f)) -> f' k = f k).
Proof.
  intros Ap H. remember (f, ps) as x eqn:Ex. remember (f', ps') as y eqn:Ey. revert f' ps' Ey. induction H as [x|n x y z H IH S]; intros f' ps' Ey; subst.
  - injection Ey as <- <-. split; [apply inv_start|reflexivity].
  - destruct y as [f1 ps1]. destruct (IH eq_refl f1 ps1 eq_refl) as [I U]. apply (inv_step f f1 ps ps1 n f' ps' Ap I U S).
Qed.
Lemma inv_total f f' ps ps' n : inv f f' ps ps' n -> n <= list_sum (map (fun p => length (touches p f)) ps).
Proof.
  intros H. induction H as [|p ps p' ps' l fi n G E H IH]; [apply le_n|]. cbn [map list_sum]. destruct (goes_rest _ _ _ _ _ G) as [T _].
  change (list_sum (length (touches p f) :: map (fun p => length (touches p f)) ps)) with (length (touches p f) + list_sum (map (fun p => length (touches p f)) ps)).
  rewrite T at 1. rewrite app_length. lia.
Qed.
Lemma inv_all f f' ps ps' n : inv f f' ps ps' n -> (forall p, In p ps' -> exists a, p = Done a) -> n = list_sum (map (fun p => length (touches p f)) ps).
Proof.
  intros H. induction H as [|p ps p' ps' l fi n G E H IH]; intros D; [reflexivity|].
  change (list_sum (map (fun p => length (touches p f)) (p :: ps))) with (length (touches p f) + list_sum (map (fun p => length (touches p f)) ps)).
  destruct (goes_rest _ _ _ _ _ G) as [T _]. destruct (D p' (or_introl eq_refl)) as [a ->]. rewrite T at 1. cbn [touches]. rewrite app_nil_r. rewrite <- IH; [reflexivity|]. intros q Hq. apply D. right. exact Hq.
Qed.
Lemma inv_nth f f' ps ps' n : inv f f' ps ps' n -> forall i p p', nth_error ps i = Some p -> nth_error ps' i = Some p' ->
  exists l fi, goes p f l p' fi /\ forall k, In k (keys (touches p f)) -> f' k = fi k.
Proof.
  intros H. induction H as [|p ps p' ps' l fi n G E H IH]; intros [|i] q q' Hq Hq'; try discriminate.
  - injection Hq as <-. injection Hq' as <-. eauto.
  - exact (IH i q q' Hq Hq').
Qed.
Lemma inv_length f f' ps ps' n : inv f f' ps ps' n -> length ps' = length ps.
Proof. intros H. induction H; [reflexivity|]. cbn [length]. congruence. Qed.
Lemma can_move (f : store) (ps : list (proc A)) : (forall p, In p ps -> exists a, p = Done a) \/ exists y, step1 (f, ps) y.
Proof.
  induction ps as [|p ps [IH|[[f2 ps2] IH]]].
  - left. intros p [].
  - destruct p as [a|k change next]; [left; intros q [<-|Hq]; [eauto|apply IH; exact Hq]|]. right. eexists. apply (Step1 f [] k change next ps).
  - right. inversion IH as [f0 a k change next b]; subst. eexists. apply (Step1 f (p :: a) k change next b).
Qed.
End System.

(** Models of the [std::string] members used by the code base, with their characterising lemmas.
    [npos] is [None]. *)
From Verif Require Import Base.

(** [s.find(c, pos)] *)
Fixpoint find_from (c : ascii) (s : str) (pos : nat) : option nat :=
  match s, pos with
  | [], _ => None
  | x :: s', 0 => if eqc x c then Some 0 else option_map S (find_from c s' 0)
  | _ :: s', S pos' => option_map S (find_from c s' pos')
  end.

(** [s.rfind(c)] *)
Fixpoint rfind (c : ascii) (s : str) : option nat :=
  match s with
  | [] => None
  | x :: s' => match rfind c s' with
               | Some i => Some (S i)
               | None => if eqc x c then Some 0 else None
               end
  end.

(** [s.substr(pos, n)] for [pos <= s.length()] *)
Definition substr (s : str) (pos n : nat) : str := firstn n (skipn pos s).

(** what a C function sees of a string passed with [c_str()] *)
Fixpoint cstr (s : str) : str :=
  match s with [] => [] | x :: s' => if eqc x nul then [] else x :: cstr s' end.

(** [c] does not occur in [s] *)
Definition free (c : ascii) (s : str) : Prop := ~ In c s.
Definition freeb (c : ascii) (s : str) : bool := negb (existsb (eqc c) s).

Lemma freeb_spec c s : freeb c s = true <-> free c s.
Proof.
  unfold freeb, free. rewrite negb_true_iff, <- not_true_iff_false, existsb_exists.
  split; intros H H1; apply H.
  - exists c. split; [exact H1|apply eqc_refl].
  - destruct H1 as (x & Hx & Ex). apply eqc_true in Ex. subst; assumption.
Qed.
Lemma free_cons c x s : free c (x :: s) <-> x <> c /\ free c s.
Proof. unfold free. cbn [In]. tauto. Qed.
Lemma free_app c a b : free c (a ++ b) <-> free c a /\ free c b.
Proof. unfold free. rewrite in_app_iff. tauto. Qed.
Lemma free_nil c : free c [].
Proof. intros []. Qed.

Lemma rfind_free c s : free c s -> rfind c s = None.
Proof.
  induction s as [|x s IH]; intros H; [reflexivity|]. apply free_cons in H. destruct H as [H1 H2].
  cbn [rfind]. rewrite IH by exact H2. apply eqc_false in H1. rewrite H1. reflexivity.
Qed.
Lemma rfind_last c a b : free c b -> rfind c (a ++ c :: b) = Some (length a).
Proof.
  intros H. induction a as [|x a IH].
  - cbn [app rfind]. rewrite rfind_free by exact H. rewrite eqc_refl. reflexivity.
  - cbn [app rfind]. rewrite IH. reflexivity.
Qed.
(** every string either avoids [c] or splits at its last [c] *)
Lemma last_split c s : free c s \/ exists a b, s = a ++ c :: b /\ free c b.
Proof.
  induction s as [|x s IH]; [left; apply free_nil|].
  destruct IH as [H|(a & b & -> & H)].
  - destruct (eqc_spec x c) as [->|Hn].
    + right. exists [], s. auto.
    + left. apply free_cons. auto.
  - right. exists (x :: a), b. auto.
Qed.
Lemma first_split c s : free c s \/ exists a b, s = a ++ c :: b /\ free c a.
Proof.
  induction s as [|x s IH]; [left; apply free_nil|].
  destruct (eqc_spec x c) as [->|Hn].
  - right. exists [], s. split; [reflexivity|apply free_nil].
  - destruct IH as [H|(a & b & -> & H)].
    + left. apply free_cons. auto.
    + right. exists (x :: a), b. split; [reflexivity|apply free_cons; auto].
Qed.
Lemma find_free0 c s : free c s -> find_from c s 0 = None.
Proof.
  induction s as [|x s IH]; intros H; [reflexivity|]. apply free_cons in H. destruct H as [H1 H2].
  cbn [find_from]. apply eqc_false in H1. rewrite H1, IH by exact H2. reflexivity.
Qed.
Lemma find_first0 c a b : free c a -> find_from c (a ++ c :: b) 0 = Some (length a).
Proof.
  induction a as [|x a IH]; intros H; cbn [app find_from].
  - rewrite eqc_refl. reflexivity.
  - apply free_cons in H. destruct H as [H1 H2]. apply eqc_false in H1. rewrite H1, IH by exact H2. reflexivity.
Qed.
Lemma find_from_app c p s : find_from c (p ++ s) (length p) = option_map (fun i => length p + i) (find_from c s 0).
Proof.
  induction p as [|x p IH]; cbn [app length find_from].
  - destruct (find_from c s 0); reflexivity.
  - rewrite IH. destruct (find_from c s 0); reflexivity.
Qed.

Lemma substr_mid a b c : substr (a ++ b ++ c) (length a) (length b) = b.
Proof.
  unfold substr. rewrite skipn_app, skipn_all, Nat.sub_diag. cbn [skipn app].
  rewrite firstn_app, firstn_all, Nat.sub_diag. cbn [firstn]. apply app_nil_r.
Qed.
Lemma substr_prefix a b : substr (a ++ b) 0 (length a) = a.
Proof. apply (substr_mid [] a b). Qed.
Lemma substr_suffix a b n : n = length b -> substr (a ++ b) (length a) n = b.
Proof. intros ->. rewrite <- (app_nil_r b) at 1. apply substr_mid. Qed.

Lemma cstr_free s : free nul s -> cstr s = s.
Proof.
  induction s as [|x s IH]; intros H; [reflexivity|]. apply free_cons in H. destruct H as [H1 H2].
  cbn [cstr]. apply eqc_false in H1. rewrite H1, IH by exact H2. reflexivity.
Qed.
Lemma cstr_is_free s : free nul (cstr s).
Proof.
  induction s as [|x s IH]; [apply free_nil|]. cbn [cstr]. destruct (eqc_spec x nul); [apply free_nil|].
  apply free_cons; auto.
Qed.

(** Split at every [c] and join, used by specifications. *)
Fixpoint split (c : ascii) (s : str) : list str :=
  match s with
  | [] => [[]]
  | x :: s' => if eqc x c then [] :: split c s'
               else match split c s' with
                    | [] => [[x]]
                    | w :: ws => (x :: w) :: ws
                    end
  end.
Fixpoint join (c : ascii) (l : list str) : str :=
  match l with
  | [] => []
  | [w] => w
  | w :: l' => w ++ c :: join c l'
  end.

Lemma split_ne c s : split c s <> [].
Proof. destruct s as [|x s]; cbn; [discriminate|]. destruct (eqc x c); [discriminate|]. destruct (split c s); discriminate. Qed.
Lemma split_free c s : free c s -> split c s = [s].
Proof.
  induction s as [|x s IH]; intros H; [reflexivity|]. apply free_cons in H. destruct H as [H1 H2].
  cbn [split]. apply eqc_false in H1. rewrite H1, IH by exact H2. reflexivity.
Qed.
Lemma split_app c a b : free c a -> split c (a ++ c :: b) = a :: split c b.
Proof.
  induction a as [|x a IH]; intros H; cbn [app split].
  - rewrite eqc_refl. reflexivity.
  - apply free_cons in H. destruct H as [H1 H2]. apply eqc_false in H1. rewrite H1, IH by exact H2. reflexivity.
Qed.
Lemma split_sep c a b : split c (a ++ c :: b) = split c a ++ split c b.
Proof.
  induction a as [|x a IH]; cbn [app split].
  - rewrite eqc_refl. reflexivity.
  - destruct (eqc x c); [cbn [app]; f_equal; exact IH|].
    rewrite IH. pose proof (split_ne c a). destruct (split c a); [contradiction|reflexivity].
Qed.
Lemma join_split c s : join c (split c s) = s.
Proof.
  induction s as [|x s IH]; [reflexivity|]. cbn [split].
  pose proof (split_ne c s) as Hn. destruct (eqc_spec x c) as [->|Hx].
  - destruct (split c s) as [|w ws] eqn:E; [contradiction|]. cbn [join app] in *. f_equal. exact IH.
  - destruct (split c s) as [|w ws] eqn:E; [contradiction|]. rewrite <- IH.
    destruct ws; reflexivity.
Qed.
Lemma split_elems c s : Forall (free c) (split c s).
Proof.
  induction s as [|x s IH]; cbn [split].
  - constructor; [apply free_nil|constructor].
  - destruct (eqc_spec x c) as [->|Hn]; [constructor; [apply free_nil|exact IH]|].
    destruct (split c s) as [|w ws]; [constructor; [apply free_cons; split; [exact Hn|apply free_nil]|constructor]|].
    inversion IH; subst. constructor; [apply free_cons; auto|assumption].
Qed.
Lemma split_join c l : l <> [] -> Forall (free c) l -> split c (join c l) = l.
Proof.
  induction l as [|w l IH]; intros Hn Hf; [contradiction|]. inversion Hf; subst.
  destruct l as [|v l].
  - cbn [join]. apply split_free. assumption.
  - change (join c (w :: v :: l)) with (w ++ c :: join c (v :: l)).
    rewrite split_app by assumption. f_equal. apply IH; [discriminate|assumption].
Qed.

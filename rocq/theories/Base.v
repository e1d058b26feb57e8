(** Common vocabulary of all the models.

    - [str] is the model of [std::string] and of byte buffers: a list of
      8-bit characters (Coq's [ascii] is exactly the 256 byte values).
    - [res] is the outcome of running a piece of C++: a value, a thrown
      exception, undefined behaviour, a failed [assert] (abort), or running
      forever ([Hang], also used when recursion fuel is exhausted, so that a
      theorem concluding [Ok] excludes it). *)
From Coq Require Export Ascii String List Arith ZArith NArith Lia Bool.
Export ListNotations.
Open Scope list_scope.

Notation str := (list ascii).

(** String literals: [S"abc"]. *)
Definition lit (s : string) : str := list_ascii_of_string s.
Notation "'$' s" := (lit s%string) (at level 8, s at level 0, only parsing).

Inductive exn : Type :=
| ExnRuntime        (* std::runtime_error and other std::exception objects *)
| ExnOther.         (* anything else thrown *)

Inductive res (A : Type) : Type :=
| Ok (a : A)
| Throw (e : exn)
| UB
| Abort
| Hang.
Arguments Ok {A} a.
Arguments Throw {A} e.
Arguments UB {A}.
Arguments Abort {A}.
Arguments Hang {A}.

Definition bind {A B} (m : res A) (k : A -> res B) : res B :=
  match m with
  | Ok a => k a
  | Throw e => Throw e
  | UB => UB
  | Abort => Abort
  | Hang => Hang
  end.
Notation "x <-- m ;; k" := (bind m (fun x => k))
  (at level 61, m at next level, right associativity).
Notation "' p <-- m ;; k" := (bind m (fun p => k))
  (at level 61, p pattern, m at next level, right associativity).

Lemma Ok_inj {A} (a b : A) : Ok a = Ok b -> a = b.
Proof. congruence. Qed.

Definition is_ok {A} (m : res A) : Prop := exists a, m = Ok a.

(** Character code, 0..255. *)
Definition code (c : ascii) : nat := nat_of_ascii c.
Definition chr (n : nat) : ascii := ascii_of_nat n.

Definition nl : ascii := "010"%char.
Definition nul : ascii := "000"%char.

Definition eqc (a b : ascii) : bool := Ascii.eqb a b.

Fixpoint eqs (a b : str) : bool :=
  match a, b with
  | [], [] => true
  | x :: a', y :: b' => eqc x y && eqs a' b'
  | _, _ => false
  end.

Lemma eqc_true a b : eqc a b = true <-> a = b.
Proof. apply Ascii.eqb_eq. Qed.
Lemma eqc_refl a : eqc a a = true.
Proof. apply eqc_true; reflexivity. Qed.
Lemma eqc_false a b : eqc a b = false <-> a <> b.
Proof. unfold eqc; rewrite <- Ascii.eqb_neq; reflexivity. Qed.
Lemma eqc_spec a b : reflect (a = b) (eqc a b).
Proof. apply Ascii.eqb_spec. Qed.
Lemma eqs_true : forall a b, eqs a b = true <-> a = b.
Proof.
  induction a as [|x a IH]; intros [|y b]; simpl; try (split; congruence).
  rewrite andb_true_iff, eqc_true, IH. split; [intros [-> ->]; reflexivity | intros H; inversion H; auto].
Qed.
Lemma eqs_refl a : eqs a a = true.
Proof. apply eqs_true; reflexivity. Qed.
Lemma eqs_false a b : eqs a b = false <-> a <> b.
Proof.
  rewrite <- eqs_true. destruct (eqs a b); split; congruence.
Qed.
Lemma eqs_spec a b : reflect (a = b) (eqs a b).
Proof.
  destruct (eqs a b) eqn:E; constructor.
  - apply eqs_true; exact E.
  - apply eqs_false; exact E.
Qed.
Lemma str_eq_dec : forall a b : str, {a = b} + {a <> b}.
Proof. apply list_eq_dec, ascii_dec. Qed.

(** Memory cells: [None] is an indeterminate (never written) byte. *)
Definition cell := option ascii.

(** Array update with bounds check: [None] when [i] is out of range. *)
Fixpoint set_at {A} (i : nat) (x : A) (l : list A) : option (list A) :=
  match l, i with
  | [], _ => None
  | _ :: l', 0 => Some (x :: l')
  | y :: l', S i' => match set_at i' x l' with
                     | Some l'' => Some (y :: l'')
                     | None => None
                     end
  end.

Definition wr {A} (i : nat) (x : A) (l : list A) : res (list A) :=
  match set_at i x l with Some l' => Ok l' | None => UB end.
Definition rd {A} (i : nat) (l : list A) : res A :=
  match nth_error l i with Some x => Ok x | None => UB end.

Lemma set_at_app {A} (l1 l2 : list A) y x :
  set_at (length l1) x (l1 ++ y :: l2) = Some (l1 ++ x :: l2).
Proof. induction l1 as [|z l1 IH]; simpl; [reflexivity | rewrite IH; reflexivity]. Qed.

Lemma set_at_length {A} : forall (l : list A) i x l', set_at i x l = Some l' -> length l' = length l.
Proof.
  induction l as [|y l IH]; intros [|i] x l' H; simpl in *; try discriminate.
  - inversion H; reflexivity.
  - destruct (set_at i x l) eqn:E; [|discriminate]. inversion H; subst; simpl. f_equal. eapply IH; eauto.
Qed.

Lemma set_at_some {A} : forall (l : list A) i x, i < length l -> exists l', set_at i x l = Some l'.
Proof.
  induction l as [|y l IH]; intros [|i] x H; simpl in *; try lia; eauto.
  destruct (IH i x ltac:(lia)) as [l' ->]; eauto.
Qed.

(** Finite sweeps over the byte values. *)
Definition all_bytes : list ascii := map ascii_of_nat (seq 0 256).

Lemma all_bytes_complete c : In c all_bytes.
Proof.
  unfold all_bytes. apply in_map_iff. exists (nat_of_ascii c). split.
  - apply ascii_nat_embedding.
  - apply in_seq. pose proof (nat_ascii_bounded c). lia.
Qed.

Lemma byte_sweep (f : ascii -> bool) :
  forallb f all_bytes = true -> forall c, f c = true.
Proof. intros H c. rewrite forallb_forall in H. apply H, all_bytes_complete. Qed.

Lemma byte_sweep2 (f : ascii -> ascii -> bool) :
  forallb (fun a => forallb (f a) all_bytes) all_bytes = true -> forall a b, f a b = true.
Proof. intros H a b. apply byte_sweep with (c := a) in H. apply byte_sweep; exact H. Qed.

(** Three-element list induction. *)
Lemma list_ind3 {A} (P : list A -> Prop) :
  P [] -> (forall a, P [a]) -> (forall a b, P [a; b]) ->
  (forall a b c l, P l -> P (a :: b :: c :: l)) -> forall l, P l.
Proof.
  intros H0 H1 H2 H3.
  fix IH 1. intros [|a [|b [|c l]]]; [exact H0|apply H1|apply H2|apply H3, IH].
Qed.
Lemma list_ind4 {A} (P : list A -> Prop) :
  P [] -> (forall a, P [a]) -> (forall a b, P [a; b]) -> (forall a b c, P [a; b; c]) ->
  (forall a b c d l, P l -> P (a :: b :: c :: d :: l)) -> forall l, P l.
Proof.
  intros H0 H1 H2 H3 H4.
  fix IH 1. intros [|a [|b [|c [|d l]]]]; [exact H0|apply H1|apply H2|apply H3|apply H4, IH].
Qed.

(** The line difference raises no exception: in every model function the only outcomes are a value, undefined
    behaviour, a failed assertion and running forever. *)
From Verif Require Import Base Str DiffModel.
Local Open Scope Z_scope.
Definition calm {A} (r : res A) : Prop := forall i, r <> Throw i.
Lemma calm_bind {A B} (m : res A) (k : A -> res B) : calm m -> (forall a, calm (k a)) -> calm (bind m k).
Proof. intros H K i. destruct m; cbn [bind]; try discriminate; [apply K|]. intros E. exact (H e eq_refl). Qed.
Lemma calm_ok {A} (a : A) : calm (Ok a). Proof. discriminate. Qed.
Lemma calm_ub {A} : calm (@UB A). Proof. discriminate. Qed.
Lemma calm_abort {A} : calm (@Abort A). Proof. discriminate. Qed.
Lemma calm_hang {A} : calm (@Hang A). Proof. discriminate. Qed.
Ltac calm :=
  repeat first
    [ apply calm_ok | apply calm_ub | apply calm_abort | apply calm_hang
    | assumption
    | match goal with
      | H : forall _, _ |- _ => apply H
      | |- calm (bind _ _) => apply calm_bind; [|intros]
      | |- calm (if ?b then _ else _) => destruct b
      | |- calm (let (_, _) := ?x in _) => destruct x
      | |- calm (match ?x with _ => _ end) => destruct x
      end ].
Lemma calm_vread o v i : calm (vread o v i). Proof. unfold vread. calm. Qed.
Lemma calm_rda n A i : calm (rda n A i). Proof. unfold rda. calm. Qed.
Lemma calm_wra n A i v : calm (wra n A i v). Proof. unfold wra. calm. Qed.
Lemma calm_assert b : calm (assert_ b). Proof. unfold assert_. calm. Qed.
Ltac calm' := repeat (cbv zeta; calm; try apply calm_vread; try apply calm_rda; try apply calm_wra; try apply calm_assert).
Lemma calm_fsnake fuel : forall xv yv xe ye x y, calm (fsnake fuel xv yv xe ye x y).
Proof. induction fuel; intros; cbn [fsnake]; calm'. Qed.
Lemma calm_bsnake fuel : forall xv yv xe ye x y, calm (bsnake fuel xv yv xe ye x y).
Proof. induction fuel; intros; cbn [bsnake]; calm'. Qed.
Lemma calm_eat_fwd fuel : forall xv yv xe ye x y, calm (eat_fwd fuel xv yv xe ye x y).
Proof. induction fuel; intros; cbn [eat_fwd]; calm'. Qed.
Lemma calm_eat_back fuel : forall xv yv xe ye x y, calm (eat_back fuel xv yv xe ye x y).
Proof. induction fuel; intros; cbn [eat_back]; calm'. Qed.
Ltac calm2 := repeat (calm'; try apply calm_fsnake; try apply calm_bsnake; try apply calm_eat_fwd; try apply calm_eat_back).
Lemma calm_floop fuel : forall n fo bo xv yv xe ye odd fmin bmin bmax len k D, calm (floop fuel n fo bo xv yv xe ye odd fmin bmin bmax len k D).
Proof. induction fuel; intros; cbn [floop]; calm2. Qed.
Lemma calm_bloop fuel : forall n fo bo xv yv xe ye odd fmin bmin bmax len k D, calm (bloop fuel n fo bo xv yv xe ye odd fmin bmin bmax len k D).
Proof. induction fuel; intros; cbn [bloop]; calm2. Qed.
Lemma calm_mloop fuel : forall n fo bo xv yv xb xe yb ye dmin dmax odd len fmin fmax bmin bmax D,
  calm (mloop fuel n fo bo xv yv xb xe yb ye dmin dmax odd len fmin fmax bmin bmax D).
Proof.
  induction fuel; intros; cbn [mloop]; [calm|]. repeat (calm2; try apply calm_floop; try apply calm_bloop).
Qed.
Lemma calm_mid n xv yv xb xe yb ye D : calm (FindEditMidPoint n xv yv xb xe yb ye D).
Proof. unfold FindEditMidPoint. cbv zeta. apply calm_bind; [apply calm_wra|intros]. apply calm_bind; [apply calm_wra|intros]. apply calm_mloop. Qed.
Lemma calm_merge l1 l2 : calm (merge_edits l1 l2). Proof. unfold merge_edits. calm'. Qed.
Lemma calm_gen fuel : forall asserts oob n xv yv xb xe yb ye D, calm (GenerateEditList fuel asserts oob n xv yv xb xe yb ye D).
Proof.
  induction fuel; intros; cbn [GenerateEditList]; [calm|].
  repeat (calm2; try apply calm_mid; try apply calm_merge).
Qed.
Lemma calm_scan ls h w t : forall passed ids, calm (scan ls h w passed t ids).
Proof. induction t as [|[h' i] r IH]; intros; cbn [scan]; calm. Qed.
Lemma calm_ids fuel : forall l0 l1 t0 t1 id v0 v1, calm (id_loop fuel l0 l1 t0 t1 id v0 v1).
Proof. induction fuel; intros; cbn [id_loop]; [calm|]. cbv zeta. repeat (calm; try apply calm_scan). Qed.
Lemma Diff_raises_nothing sc asserts oob s0 s1 : forall i, Diff sc asserts oob s0 s1 <> Throw i.
Proof.
  change (calm (Diff sc asserts oob s0 s1)). unfold Diff, BuildLines, edits_of. cbv zeta.
  repeat (calm2; try apply calm_ids; try apply calm_gen).
Qed.

(** Facts about PipeModel. *)
From Coq Require Import Floats.SpecFloat.
From Verif Require Import Base Str Dec PathModel MeasModel VisitModel RegModel ImgModel ItkModel ErrModel PipeModel.

Definition out (t : str) (x : xst) : xst := Xst (set_stdout (x_s x) (s_stdout (x_s x) ++ t)) (x_err x) (x_what x).
Lemma out_out a b x : out b (out a x) = out (a ++ b) x.
Proof. unfold out. cbn [x_s x_err x_what]. f_equal. unfold set_stdout. cbn. rewrite app_assoc. reflexivity. Qed.
Lemma out_nil x : out [] x = x.
Proof. destruct x as [s err w]. unfold out. cbn [x_s x_err x_what]. rewrite app_nil_r. destruct s. reflexivity. Qed.
Lemma p_say t x n mem : lift (quiet (ItkModel.say t)) (Pst x n mem) = (Pst (out t x) n mem, Ok tt).
Proof. reflexivity. Qed.

Fixpoint told (first : bool) (l : list str) : str := match l with [] => [] | a :: l' => (if first then [] else $" ") ++ a ++ told false l' end.
Lemma told_cons first a l : told first (a :: l) = (if first then [] else $" ") ++ a ++ told false l.
Proof. reflexivity. Qed.
Lemma told_spaced l : told true l = spaced l.
Proof.
  destruct l as [|a l]; [reflexivity|]. revert a. induction l as [|b l IH]; intros a; [rewrite told_cons; cbn; apply app_nil_r|].
  rewrite told_cons. change (spaced (a :: b :: l)) with (a ++ $" " ++ spaced (b :: l)). rewrite <- IH, !told_cons. reflexivity.
Qed.
Definition pointers (l : list str) : list (option (option str)) := map (fun s => Some (Some s)) l.
Lemma pointers_length l : length (pointers l) = length l. Proof. apply map_length. Qed.
Lemma store_next c done v k x n mem : store_at c (Z.of_nat (length done)) v (Pst x n ((c, Array (pointers done ++ repeat None (S k))) :: mem)) =
  (Pst x n ((c, Array (pointers done ++ Some v :: repeat None k)) :: mem), Ok tt).
Proof.
  unfold store_at. cbn [p_mem p_x p_next block_at put_block]. rewrite Nat.eqb_refl. cbn [put_block]. rewrite app_length, pointers_length, repeat_length.
  replace ((0 <=? Z.of_nat (length done)) && (Z.of_nat (length done) <? Z.of_nat (length done + S k)))%Z with true by (symmetry; apply andb_true_intro; split; [apply Z.leb_le|apply Z.ltb_lt]; lia).
  rewrite Nat2Z.id. rewrite firstn_app, pointers_length, firstn_all2, Nat.sub_diag by (rewrite pointers_length; lia). cbn [firstn].
  rewrite skipn_app, pointers_length, skipn_all2 by (rewrite pointers_length; lia). replace (S (length done) - length done) with 1 by lia. cbn [skipn repeat app]. rewrite app_nil_r. reflexivity.
Qed.
Lemma command_filled c mem : forall l done x n, command_loop c (Z.of_nat (length done) + 1) l (Pst x n ((c, Array (pointers done ++ repeat None (S (length l)))) :: mem)) =
  (Pst (out (told (length done =? 0) l) x) n ((c, Array (pointers (done ++ l) ++ [None])) :: mem), Ok tt).
Proof.
  induction l as [|a l IH]; intros done x n.
  - cbn [command_loop]. rewrite app_nil_r. change (told (length done =? 0) []) with (@nil ascii). rewrite out_nil. reflexivity.
  - cbn [command_loop]. unfold pbind at 1. replace (Z.of_nat (length done) + 1 - 1)%Z with (Z.of_nat (length done)) by lia. rewrite store_next. cbv iota beta.
    unfold pbind at 1. rewrite p_say. cbv iota beta.
    replace (Z.of_nat (length done) + 1 + 1)%Z with (Z.of_nat (length (done ++ [a])) + 1)%Z by (rewrite app_length; cbn; lia).
    replace (pointers done ++ Some (Some a) :: repeat None (length (a :: l))) with (pointers (done ++ [a]) ++ repeat None (S (length l))) by (unfold pointers; rewrite map_app, <- app_assoc; reflexivity).
    rewrite IH. rewrite <- app_assoc. cbn [app]. rewrite out_out, told_cons.
    replace (length (done ++ [a]) =? 0) with false by (rewrite app_length, Nat.add_comm; reflexivity).
    replace (Z.of_nat (length done) + 1 =? 1)%Z with (length done =? 0). { rewrite <- app_assoc. reflexivity. }
    destruct (length done); [reflexivity|]. symmetry. apply Z.eqb_neq. lia.
Qed.
Lemma strings_pointers l r : strings (pointers l ++ Some None :: r) = Some l.
Proof. induction l as [|a l IH]; [reflexivity|]. cbn [pointers map app strings]. fold (pointers l). rewrite IH. reflexivity. Qed.
Lemma data_drained k c f mem x n : forall chunks acc, data_loop (S (length chunks)) k acc (Pst x n ((k, Proc c (Some (Process chunks (Some f)))) :: mem)) =
  (Pst x n ((k, Proc c (Some (Process [] (Some f)))) :: mem), Ok (drain chunks acc)).
Proof.
  induction chunks as [|[b d] l IH]; intros acc; cbn [data_loop length]; unfold pbind at 1, wait_data; cbn [p_mem p_x p_next block_at]; rewrite Nat.eqb_refl; cbv iota beta; [reflexivity|].
  cbn [put_block]. rewrite Nat.eqb_refl. apply (IH (acc ++ d)).
Qed.
Lemma data_hangs k c mem x n : forall chunks acc, data_loop (S (length chunks)) k acc (Pst x n ((k, Proc c (Some (Process chunks None))) :: mem)) =
  (Pst x n ((k, Proc c (Some (Process [] None))) :: mem), Hang).
Proof.
  induction chunks as [|[b d] l IH]; intros acc; cbn [data_loop length]; unfold pbind at 1, wait_data; cbn [p_mem p_x p_next block_at]; rewrite Nat.eqb_refl; cbv iota beta; [reflexivity|].
  cbn [put_block]. rewrite Nat.eqb_refl. apply (IH (acc ++ d)).
Qed.
Lemma remove_fresh n mem : Forall (fun b : nat * block => fst b < n) mem -> remove_block n mem = mem.
Proof.
  induction mem as [|b mem IH]; intros H; [reflexivity|]. apply Forall_cons_iff in H. destruct H as [Hb H]. unfold remove_block in *. cbn [List.filter]. rewrite IH by exact H.
  rewrite (proj2 (Nat.eqb_neq (fst b) n)) by lia. reflexivity.
Qed.

(** * The body of the test *)
Definition heading (rest : list str) : str := $"Redirecting output from: " ++ quote ++ spaced rest ++ quote ++ [nl].
Definition array_of (rest : list str) : block := Array (pointers rest ++ [Some None]).
Lemma test_eq launch dir e a0 rest x n mem : Forall (fun b : nat * block => fst b < n) mem ->
  let q := launch rest in let arr := (n, array_of rest) in let left := fun f => (S n, Proc (Some rest) (Some (Process [] f))) in
  p_Test launch dir e (a0 :: rest) (Pst x n mem) =
  match pr_fate q with
  | None => (Pst (out (heading rest) x) (S (S n)) (left None :: arr :: mem), Hang)
  | Some f =>
      let '(x1, r) := x_Measure dir e (TextPlain (drain (pr_chunks q) []) ($"stdout")) (out (heading rest) x) in
      match r with
      | Ok _ => (Pst (Xst (x_s x1) (x_err x1 ++ fate_says f) (x_what x1)) (S (S n)) (arr :: mem), Ok (value_of f))
      | Throw i => (Pst x1 (S (S n)) (left (Some f) :: arr :: mem), Throw i)
      | UB => (Pst x1 (S (S n)) (left (Some f) :: arr :: mem), UB)
      | Abort => (Pst x1 (S (S n)) (left (Some f) :: arr :: mem), Abort)
      | Hang => (Pst x1 (S (S n)) (left (Some f) :: arr :: mem), Hang)
      end
  end.
Proof.
  intros F. cbv zeta. unfold p_Test. cbn [length tl]. unfold pbind at 1. rewrite p_say. cbv iota beta. unfold pbind at 1, alloc at 1. cbn [p_x p_next p_mem]. cbv iota beta.
  unfold pbind at 1. pose proof (command_filled n mem rest [] (out ($"Redirecting output from: " ++ quote) x) (S n)) as C. cbn [length pointers map app] in C. change (Z.of_nat 0 + 1)%Z with 1%Z in C. rewrite C. clear C. cbv iota beta.
  unfold pbind at 1. replace (Z.of_nat (S (length rest)) - 1)%Z with (Z.of_nat (length rest)) by lia. pose proof (store_next n rest None 0) as St. cbn [repeat] in St. rewrite St. clear St. cbv iota beta.
  unfold pbind at 1. rewrite p_say. cbv iota beta.
  assert (O : out (quote ++ [nl]) (out (told (0 =? 0) rest) (out ($"Redirecting output from: " ++ quote) x)) = out (heading rest) x).
  { rewrite !out_out. f_equal. change (0 =? 0) with true. rewrite told_spaced. unfold heading. rewrite <- !app_assoc. reflexivity. }
  rewrite O. clear O. set (x0 := out (heading rest) x).
  unfold pbind at 1, alloc at 1. cbn [p_x p_next p_mem]. cbv iota beta.
  unfold pbind at 1, set_command at 1. cbn [p_x p_next p_mem block_at]. rewrite !Nat.eqb_refl. rewrite (proj2 (Nat.eqb_neq (S n) n)) by lia. rewrite strings_pointers. cbn [put_block]. rewrite Nat.eqb_refl. cbv iota beta.
  unfold pbind at 1, execute at 1. cbn [p_x p_next p_mem block_at]. rewrite !Nat.eqb_refl. cbn [put_block]. rewrite Nat.eqb_refl. cbv iota beta.
  unfold pbind at 1. cbn [p_x p_next p_mem block_at]. rewrite !Nat.eqb_refl. cbv iota beta.
  destruct (launch rest) as [chunks fo]. cbn [pr_chunks pr_fate]. unfold pbind at 1. destruct fo as [f|]; [rewrite data_drained|rewrite data_hangs; reflexivity]. cbv iota beta.
  unfold pbind at 1, wait_exit at 1. cbn [p_x p_next p_mem block_at]. rewrite !Nat.eqb_refl. cbv iota beta.
  unfold pbind at 1, lift at 1. cbn [p_x p_next p_mem]. destruct (x_Measure dir e _ x0) as [x1 r]. destruct r as [z|i| | |]; try reflexivity.
  unfold pbind at 1, get_state at 1. cbn [p_x p_next p_mem block_at]. rewrite !Nat.eqb_refl. cbv iota beta.
  unfold pbind at 1, lift at 1, say at 1. cbn [p_x p_next p_mem]. cbv iota beta.
  unfold pbind at 1, delete at 1. cbn [p_x p_next p_mem block_at]. rewrite !Nat.eqb_refl. cbv iota beta.
  unfold pret. f_equal. f_equal. unfold remove_block. cbn [List.filter fst]. rewrite Nat.eqb_refl, (proj2 (Nat.eqb_neq n (S n))) by lia. cbn [negb].
  fold (remove_block (S n) mem). rewrite remove_fresh; [reflexivity|]. eapply Forall_impl; [|exact F]. cbn. intros; lia.
Qed.

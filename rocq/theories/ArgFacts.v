(** Facts about ParseAndRemoveArguments. *)
From Coq Require Import Permutation.
From Verif Require Import Base Str Dec PathModel MeasModel RegModel.

Definition flags : list str := [$"-O"; $"-I"; $"-R"; $"-P"].
(** options with their parameters, as they appear on the command line *)
Definition flat (opts : list (str * str)) : list str := flat_map (fun o => [fst o; snd o]) opts.
(** parameters of the option [k] *)
Definition values (k : str) (opts : list (str * str)) : list str := map snd (filter (fun o => eqs (fst o) k) opts).
Fixpoint last_value {A} (l : list A) (d : A) : A := match l with [] => d | x :: l' => last_value l' x end.

(** an option the program accepts: a baseline must be a readable file, a search directory a readable directory *)
Definition accepted (e : env) (f : store) (o : str * str) : Prop :=
  In (fst o) flags /\
  (fst o = $"-I" -> is_file e f (snd o) = true /\ is_readable e f (snd o) = true) /\
  (fst o = $"-P" -> is_directory e f (snd o) = true /\ is_readable e f (snd o) = true).
Definition out_choice (e : env) (f : store) (v : str) : option str :=
  if is_file e f v && negb (is_writable e f v) then None else Some v.

Lemma set_at_mid {A} (pre : list A) x y post : set_at (length pre) y (pre ++ x :: post) = Some (pre ++ y :: post).
Proof. apply set_at_app. Qed.
Lemma nth_mid {A} (pre : list A) x post : nth_error (pre ++ x :: post) (length pre) = Some x.
Proof. induction pre; [reflexivity|assumption]. Qed.
Lemma swap_mid pre a b c post : swap (length pre + 2) (length pre) (pre ++ a :: b :: c :: post) = Ok (pre ++ c :: b :: a :: post).
Proof.
  assert (L : length pre + 2 = length (pre ++ [a; b])) by (rewrite app_length; reflexivity).
  assert (L' : length pre + 2 = length (pre ++ [c; b])) by (rewrite app_length; reflexivity).
  unfold swap, rd, wr. rewrite L at 1.
  replace (pre ++ a :: b :: c :: post) with ((pre ++ [a; b]) ++ c :: post) at 1 by (rewrite <- app_assoc; reflexivity).
  rewrite nth_mid. cbn [bind]. rewrite nth_mid. cbn [bind].
  rewrite L. replace (pre ++ a :: b :: c :: post) with ((pre ++ [a; b]) ++ c :: post) at 1 by (rewrite <- app_assoc; reflexivity).
  rewrite set_at_mid. cbn [bind]. rewrite <- app_assoc. cbn [app]. rewrite set_at_mid. reflexivity.
Qed.
Lemma swap_loop_spec xs : forall pre a b tail, exists p q,
  swap_loop (length xs) (length pre) (pre ++ a :: b :: xs ++ tail) = Ok (pre ++ xs ++ p :: q :: tail) /\
  Permutation [a; b] [p; q].
Proof.
  induction xs as [|x xs IH]; intros pre a b tail.
  - exists a, b. split; [reflexivity|apply Permutation_refl].
  - cbn [length swap_loop app]. rewrite swap_mid. cbn [bind].
    destruct (IH (pre ++ [x]) b a tail) as (p & q & E & P). rewrite app_length in E. cbn [length] in E.
    rewrite <- app_assoc in E. cbn [app] in E. exists p, q. rewrite E. split.
    + rewrite <- app_assoc. reflexivity.
    + eapply Permutation_trans; [|exact P]. constructor.
Qed.

(** the state after the options have taken effect *)
Fixpoint after (opts : list (str * str)) (s : rst) : rst :=
  match opts with
  | [] => s
  | (k, v) :: r => after r (if eqs k ($"-R") then set_expected s (wrap32 (strtol10 v))
                            else if eqs k ($"-P") then set_path s (v :: s_path s) else s)
  end.
Fixpoint in_after (opts : list (str * str)) (i : option str) : option str :=
  match opts with [] => i | (k, v) :: r => in_after r (if eqs k ($"-I") then Some v else i) end.
Fixpoint out_after (e : env) (f : store) (opts : list (str * str)) (o : option str) : option str :=
  match opts with [] => o | (k, v) :: r => out_after e f r (if eqs k ($"-O") then out_choice e f v else o) end.

Lemma after_files opts : forall s, s_files (after opts s) = s_files s.
Proof. induction opts as [|[k v] r IH]; intros s; [reflexivity|]. cbn [after]. rewrite IH. destruct (eqs k ($"-R")), (eqs k ($"-P")); reflexivity. Qed.

Lemma negb_choice (e : env) f v : (if negb (is_file e f v && negb (is_writable e f v)) then Some v else None) = out_choice e f v.
Proof. unfold out_choice. destruct (is_file e f v && negb (is_writable e f v)); reflexivity. Qed.

(** one option is consumed *)
Lemma parse_one e fuel a0 k v more tail inf outf s : accepted e (s_files s) (k, v) ->
  exists p q, Permutation [k; v] [p; q] /\
  parse_loop e (S fuel) (3 + length more) (a0 :: k :: v :: more ++ tail) inf outf s =
  parse_loop e fuel (1 + length more) (a0 :: more ++ p :: q :: tail) (in_after [(k, v)] inf) (out_after e (s_files s) [(k, v)] outf) (after [(k, v)] s).
Proof.
  intros (Hk & HI & HP). cbn [fst snd] in *.
  destruct (swap_loop_spec more [a0] k v tail) as (p & q & E & P). cbn [length app] in E.
  exists p, q. split; [exact P|].
  cbn [parse_loop]. change (3 + length more <=? 1) with false. cbv iota.
  change (rd 1 (a0 :: k :: v :: more ++ tail)) with (Ok k). change (rd 2 (a0 :: k :: v :: more ++ tail)) with (Ok v).
  unfold mbind, mlift, gets, modify. cbv iota beta.
  assert (L2 : (2 <? 3 + length more) = true) by (apply Nat.ltb_lt; lia). rewrite L2.
  assert (L3 : 3 + length more - 3 = length more) by lia. rewrite L3, E.
  assert (L4 : 3 + length more - 2 = 1 + length more) by lia. rewrite L4.
  cbn [in_after out_after after].
  cbn [In flags] in Hk. destruct Hk as [<-|[<-|[<-|[<-|[]]]]].
  - change (eqs ($"-O") ($"-O")) with true. cbv iota beta. change (eqs ($"-O") ($"-I")) with false.
    change (eqs ($"-O") ($"-R")) with false. change (eqs ($"-O") ($"-P")) with false. cbv iota.
    rewrite negb_choice. reflexivity.
  - change (eqs ($"-I") ($"-O")) with false. change (eqs ($"-I") ($"-I")) with true. change (eqs ($"-I") ($"-R")) with false.
    change (eqs ($"-I") ($"-P")) with false. cbv iota beta. destruct (HI eq_refl) as [-> ->]. reflexivity.
  - change (eqs ($"-R") ($"-O")) with false. change (eqs ($"-R") ($"-I")) with false. change (eqs ($"-R") ($"-R")) with true.
    cbv iota beta. reflexivity.
  - change (eqs ($"-P") ($"-O")) with false. change (eqs ($"-P") ($"-I")) with false. change (eqs ($"-P") ($"-R")) with false.
    change (eqs ($"-P") ($"-P")) with true. cbv iota beta. destruct (HP eq_refl) as [-> ->]. cbn [andb]. reflexivity.
Qed.

Lemma parse_prefix e a0 more opts : forall fuel tail inf outf s, Forall (accepted e (s_files s)) opts ->
  exists tail', Permutation (flat opts ++ tail) tail' /\
  parse_loop e (length opts + fuel) (1 + 2 * length opts + length more) (a0 :: flat opts ++ more ++ tail) inf outf s =
  parse_loop e fuel (1 + length more) (a0 :: more ++ tail') (in_after opts inf) (out_after e (s_files s) opts outf) (after opts s).
Proof.
  induction opts as [|[k v] opts IH]; intros fuel tail inf outf s H.
  - exists tail. split; [apply Permutation_refl|]. reflexivity.
  - inversion H as [|? ? H1 H2]; subst.
    destruct (parse_one e (length opts + fuel) a0 k v (flat opts ++ more) tail inf outf s H1) as (p & q & P & E).
    set (s1 := after [(k, v)] s) in *.
    assert (Hf : s_files s1 = s_files s) by apply after_files.
    destruct (IH fuel (p :: q :: tail) (in_after [(k, v)] inf) (out_after e (s_files s) [(k, v)] outf) s1) as (tail' & P' & E').
    { rewrite Hf. exact H2. }
    exists tail'. split.
    + eapply Permutation_trans; [|exact P'].
      change (flat ((k, v) :: opts) ++ tail) with ([k; v] ++ flat opts ++ tail). change (p :: q :: tail) with ([p; q] ++ tail).
      eapply Permutation_trans; [apply Permutation_app; [exact P|apply Permutation_refl]|]. rewrite !app_assoc.
      apply Permutation_app_tail. apply Permutation_app_comm.
    + change (flat ((k, v) :: opts)) with (k :: v :: flat opts). cbn [app length Nat.add].
      rewrite <- !app_assoc in E. cbn [Nat.add] in E. rewrite app_length in E.
      assert (L : length (flat opts) = 2 * length opts).
      { clear. induction opts as [|o opts IH]; [reflexivity|]. cbn [flat flat_map app length]. fold (flat opts). lia. }
      rewrite L in E.
      match goal with |- parse_loop _ _ ?n _ _ _ _ = _ => replace n with (S (S (S (2 * length opts + length more)))) by lia end.
      rewrite E. rewrite Hf in E'. cbn [Nat.add] in E'.
      rewrite E'. cbn [in_after out_after]. reflexivity.
Qed.

(** the other end: nothing left or not an option; an option without parameter *)
Lemma parse_stop e a0 more tail fuel inf outf s :
  (match more with [] => True | a :: _ => ~ In a flags end) ->
  parse_loop e (S fuel) (1 + length more) (a0 :: more ++ tail) inf outf s = (s, Ok (1 + length more, a0 :: more ++ tail, inf, outf)).
Proof.
  intros H. cbn [parse_loop]. destruct more as [|a more]; [reflexivity|].
  cbn [length Nat.add]. change (S (S (length more)) <=? 1) with false. cbv iota.
  change (rd 1 (a0 :: (a :: more) ++ tail)) with (Ok a). unfold mbind, mlift, mret. cbv iota beta.
  assert (N : forall k, In k flags -> eqs a k = false) by (intros k Hk; apply eqs_false; intros ->; auto).
  rewrite !N by (cbn [flags In]; auto 6). reflexivity.
Qed.
Lemma parse_lone e a0 k tail fuel inf outf s : In k flags ->
  parse_loop e fuel 2 (a0 :: k :: tail) inf outf s = (s, Hang).
Proof.
  intros H. induction fuel as [|fuel IH]; [reflexivity|]. cbn [parse_loop]. change (2 <=? 1) with false. cbv iota.
  change (rd 1 (a0 :: k :: tail)) with (Ok k). unfold mbind, mlift. cbv iota beta. change (2 <? 2) with false. cbv iota.
  cbn [In flags] in H. destruct H as [<-|[<-|[<-|[<-|[]]]]];
    repeat match goal with |- context [eqs (lit ?a) (lit ?b)] => let r := eval vm_compute in (eqs (lit a) (lit b)) in change (eqs (lit a) (lit b)) with r end;
    cbv iota; exact IH.
Qed.
Lemma parse_reject e a0 k v more tail fuel inf outf s :
  (k = $"-I" /\ is_file e (s_files s) v && is_readable e (s_files s) v = false \/
   k = $"-P" /\ is_directory e (s_files s) v && is_readable e (s_files s) v = false) ->
  parse_loop e (S fuel) (3 + length more) (a0 :: k :: v :: more ++ tail) inf outf s = (s, Throw ExnRuntime).
Proof.
  intros H. cbn [parse_loop]. change (3 + length more <=? 1) with false. cbv iota.
  change (rd 1 (a0 :: k :: v :: more ++ tail)) with (Ok k). change (rd 2 (a0 :: k :: v :: more ++ tail)) with (Ok v).
  unfold mbind, mlift, gets, modify. cbv iota beta.
  assert (L2 : (2 <? 3 + length more) = true) by (apply Nat.ltb_lt; lia). rewrite L2.
  destruct H as [[-> E]|[-> E]];
    repeat match goal with |- context [eqs (lit ?a) (lit ?b)] => let r := eval vm_compute in (eqs (lit a) (lit b)) in change (eqs (lit a) (lit b)) with r end;
    cbv iota beta; rewrite E; reflexivity.
Qed.

(** declarative reading of the effects *)
Lemma in_after_values opts : forall i, in_after opts i = last_value (map Some (values ($"-I") opts)) i.
Proof.
  induction opts as [|[k v] r IH]; intros i; [reflexivity|]. cbn [in_after]. rewrite IH. unfold values. cbn [filter fst].
  destruct (eqs k ($"-I")); reflexivity.
Qed.
Lemma out_after_values e f opts : forall o, out_after e f opts o = last_value (map (out_choice e f) (values ($"-O") opts)) o.
Proof.
  induction opts as [|[k v] r IH]; intros i; [reflexivity|]. cbn [out_after]. rewrite IH. unfold values. cbn [filter fst].
  destruct (eqs k ($"-O")); reflexivity.
Qed.
Lemma after_spec opts : forall s, let s' := after opts s in
  s_expected s' = last_value (map (fun v => wrap32 (strtol10 v)) (values ($"-R") opts)) (s_expected s) /\
  s_path s' = rev (values ($"-P") opts) ++ s_path s /\
  s' = set_expected (set_path s (s_path s')) (s_expected s').
Proof.
  induction opts as [|[k v] r IH]; intros s.
  - cbn. destruct s. auto.
  - cbn [after]. cbv zeta in *. unfold values. cbn [filter fst].
    destruct (eqs_spec k ($"-R")) as [->|N1].
    + change (eqs ($"-R") ($"-P")) with false. cbv iota. destruct (IH (set_expected s (wrap32 (strtol10 v)))) as (A & B & C).
      cbn [map last_value snd]. split; [exact A|]. split; [exact B|]. rewrite C at 1. destruct s; reflexivity.
    + destruct (eqs_spec k ($"-P")) as [->|N2].
      * destruct (IH (set_path s (v :: s_path s))) as (A & B & C). split; [exact A|]. split; [|rewrite C at 1; destruct s; reflexivity].
        rewrite B. cbn [map rev snd]. rewrite <- app_assoc. reflexivity.
      * exact (IH s).
Qed.

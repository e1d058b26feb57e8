(** Top-level lemmas about Decode and IsBase64. *)
From Verif Require Import Base B64Spec B64Model B64Facts B64Dec.
Require Import ZifyBool ZifyNat.
Ltac Zify.zify_post_hook ::= Z.div_mod_to_equations.

Lemma decode_of_dpure sc o s buf w r : dpure sc o s 0 [] 0 false = (w, r) -> length w <= length buf ->
  Decode sc o s buf = (map Some w ++ skipn (length w) buf, r).
Proof.
  intros H Hl. unfold Decode. pose proof (decode_mem sc o s [] buf 0 0 [] 0 false eq_refl) as M.
  rewrite H in M. unfold mem_run in M. replace (length w <=? length buf) with true in M by lia.
  exact M.
Qed.
Lemma decode_small sc o s buf w r : dpure sc o s 0 [] 0 false = (w, r) -> length buf < length w ->
  snd (Decode sc o s buf) = UB.
Proof.
  intros H Hl. unfold Decode. pose proof (decode_mem sc o s [] buf 0 0 [] 0 false eq_refl) as M.
  rewrite H in M. unfold mem_run in M. replace (length w <=? length buf) with false in M by lia.
  exact M.
Qed.

(** writes never exceed the number of characters *)

Lemma dp_padded_nowrite sc o s : forall bn buf br, fst (dpure sc o s bn buf br true) = [].
Proof.
  induction s as [|c s IH]; intros bn buf br; [reflexivity|].
  cbn [dpure]. destruct (bits_of sc c) as [bits| | | |]; try reflexivity.
  destruct (bits <=? 64).
  - destruct (bits =? PaddingBits); [|reflexivity]. cbn [negb]. cbv zeta.
    destruct (bn + 1 =? 4); [reflexivity|].
    specialize (IH (bn + 1) buf br). destruct (dpure sc o s (bn + 1) buf br true). cbn in *. exact IH.
  - destruct (bits =? WhiteSpaceBits); [apply IH|]. destruct (bits =? InvalidBase64Bits); [|reflexivity].
    destruct (negb (ignoreInvalids o)); [reflexivity|apply IH].
Qed.

Lemma dp_writes sc o s : forall bn buf br p,
  length (fst (dpure sc o s bn buf br p)) <= bn + length s.
Proof.
  induction s as [|c s IH]; intros bn buf br p; [cbn; lia|].
  cbn [dpure length]. destruct (bits_of sc c) as [bits| | | |]; cbn [fst length]; try lia.
  destruct (bits <=? 64).
  - destruct (bits =? PaddingBits).
    + set (w := if negb p then _ else _). 
      assert (length w <= bn).
      { subst w. destruct (negb p); [|cbn; lia].
        destruct bn as [|[|[|[|bn]]]]; try (cbn; lia);
        destruct buf as [|v0 [|v1 [|v2 [|v3 buf]]]]; cbn; lia. }
      destruct (bn + 1 =? 4) eqn:E4; [cbn; lia|].
      pose proof (dp_padded_nowrite sc o s (bn + 1) buf br) as Hn.
      destruct (dpure sc o s (bn + 1) buf br true) as [w' r]. cbn in Hn. subst w'.
      cbn [fst]. rewrite app_nil_r. lia.
    + destruct p; [cbn; lia|].
      destruct (bn + 1 =? 4) eqn:E4.
      * destruct buf as [|v0 [|v1 [|v2 [|v3 buf]]]]; try (cbn; lia).
        specialize (IH 0 [] br false). destruct (dpure sc o s 0 [] br false). cbn in *. lia.
      * specialize (IH (bn + 1) (buf ++ [bits]) (br + 1) false). lia.
  - destruct (bits =? WhiteSpaceBits); [specialize (IH bn buf br p); lia|].
    destruct (bits =? InvalidBase64Bits); [|cbn; lia].
    destruct (negb (ignoreInvalids o)); [cbn; lia|specialize (IH bn buf br p); lia].
Qed.

Lemma decode_accepts sc o s buf : all_low sc s -> length s <= length buf ->
  good (sig (ignoreInvalids o) s) = true ->
  let l := sig (ignoreInvalids o) s in
  Decode sc o s buf = (map Some (decoded l) ++ skipn (length (decoded l)) buf, Ok (3 * (length l / 4))).
Proof.
  intros Hl Hb Hg l. apply decode_of_dpure.
  - rewrite dp_filter by exact Hl. rewrite dp_good by exact Hg. reflexivity.
  - pose proof (dp_writes sc o s 0 [] 0 false) as W. rewrite dp_filter, dp_good in W by assumption. cbn [fst] in W. unfold l. lia.
Qed.
Lemma decode_rejects sc o s buf : all_low sc s -> length s <= length buf ->
  good (sig (ignoreInvalids o) s) = false -> snd (Decode sc o s buf) = Throw ExnRuntime.
Proof.
  intros Hl Hb Hg.
  destruct (dp_bad sc o (sig (ignoreInvalids o) s) (sig_low _ _ _ Hl) (sig_sig _ _) Hg 0) as [w Hw].
  rewrite <- dp_filter in Hw by exact Hl.
  rewrite (decode_of_dpure _ _ _ _ _ _ Hw); [reflexivity|].
  pose proof (dp_writes sc o s 0 [] 0 false) as W. rewrite Hw in W. cbn in W. lia.
Qed.

Lemma decoded_length l : good l = true -> length (decoded l) = 3 * (length l / 4).
Proof.
  induction l as [|a|a b|a b c|a b c d l IH] using list_ind4; intros H; unfold good in H;
    apply andb_true_iff in H; destruct H as [Hs Hm]; try (cbn in Hm; discriminate); [reflexivity|].
  cbn [forallb] in Hs. repeat (apply andb_true_iff in Hs; destruct Hs as [? Hs]).
  rewrite decoded_cons4 by assumption. cbn [length]. rewrite IH.
  - cbn [length]. lia.
  - unfold good. rewrite Hs. cbn [length andb] in *. lia.
Qed.

(** * Round trip *)
Lemma sym_idx n : n < 64 -> is_symbol (nth n alphabet "?"%char) = true /\ v64 (nth n alphabet "?"%char) = n.
Proof.
  intros H.
  assert (E : forallb (fun n => is_symbol (nth n alphabet "?"%char) && (v64 (nth n alphabet "?"%char) =? n)) (seq 0 64) = true)
    by (vm_compute; reflexivity).
  rewrite forallb_forall in E. specialize (E n). rewrite in_seq in E. specialize (E ltac:(lia)).
  apply andb_true_iff in E. rewrite Nat.eqb_eq in E. exact E.
Qed.

Lemma symbol_ok six : length six = 6 -> is_symbol (symbol six) = true /\ symbol_bits (symbol six) = six.
Proof.
  intros H. destruct six as [|a [|b [|c [|d [|e [|f [|g six]]]]]]]; try discriminate H.
  destruct a, b, c, d, e, f; vm_compute; auto.
Qed.

Lemma quad_syms a b c : forallb is_symbol (quad a b c) = true.
Proof.
  rewrite quad_eq. cbn [forallb].
  rewrite !(fun s H => proj1 (symbol_ok s H)); destruct a, b, c; reflexivity.
Qed.
Lemma quad_decoded a b c : decoded (quad a b c) = [a; b; c].
Proof.
  rewrite quad_eq. unfold decoded. cbn [flat_map].
  rewrite !(fun s H => proj2 (symbol_ok s H)); destruct a, b, c; reflexivity.
Qed.
Lemma dp_quad sc o a b c t br w r : dpure sc o t 0 [] (br + 3) false = (w, r) ->
  dpure sc o (quad a b c ++ t) 0 [] br false = (a :: b :: c :: w, r).
Proof.
  intros H. pose proof (quad_syms a b c) as Hs. pose proof (quad_decoded a b c) as Hd.
  rewrite quad_eq in *. set (q1 := symbol (firstn 6 (byte_bits a))) in *.
  set (q2 := symbol (skipn 6 (byte_bits a) ++ _)) in *.
  set (q3 := symbol (skipn 4 (byte_bits b) ++ _)) in *. set (q4 := symbol (skipn 2 (byte_bits c))) in *.
  cbn [forallb] in Hs. apply andb_true_iff in Hs; destruct Hs as [Ha Hs].
  apply andb_true_iff in Hs; destruct Hs as [Hb Hs].
  apply andb_true_iff in Hs; destruct Hs as [Hc Hs].
  apply andb_true_iff in Hs; destruct Hs as [He Hs].
  rewrite decoded_cons4 in Hd by assumption. cbn [app].
    rewrite (dp_sym _ _ _ _ _ _ _ _ Ha). cbn [Nat.add Nat.eqb app].
    rewrite (dp_sym _ _ _ _ _ _ _ _ Hb). cbn [Nat.add Nat.eqb app].
    rewrite (dp_sym _ _ _ _ _ _ _ _ Hc). cbn [Nat.add Nat.eqb app].
    rewrite (dp_sym _ _ _ _ _ _ _ _ He). cbn [Nat.add Nat.eqb app].
  replace (br + 1 + 1 + 1) with (br + 3) by lia. rewrite H.
  inversion Hd as [[E1 E2 E3]]. rewrite E1, E2, E3. reflexivity.
Qed.

Lemma dp_two sc o a b t br : 
  dpure sc o (rfc4648 [a; b] ++ t) 0 [] br false = ([a; b; nul], Throw ExnRuntime).
Proof.
  rewrite rfc_2. set (q1 := symbol (firstn 6 (byte_bits a))).
  set (q2 := symbol (skipn 6 (byte_bits a) ++ _)). set (q3 := symbol (skipn 4 (byte_bits b) ++ _)).
  assert (H1 : is_symbol q1 = true) by (subst q1; apply symbol_ok; destruct a; reflexivity).
  assert (H2 : is_symbol q2 = true) by (subst q2; apply symbol_ok; destruct a, b; reflexivity).
  assert (H3 : is_symbol q3 = true) by (subst q3; apply symbol_ok; destruct b; reflexivity).
  cbn [app].
    rewrite (dp_sym _ _ _ _ _ _ _ _ H1). cbn [Nat.add Nat.eqb app].
    rewrite (dp_sym _ _ _ _ _ _ _ _ H2). cbn [Nat.add Nat.eqb app].
    rewrite (dp_sym _ _ _ _ _ _ _ _ H3). cbn [Nat.add Nat.eqb app].
  rewrite (dp_pad : forall sc o input bn buf br p, dpure sc o ("="%char :: input) bn buf br p = _).
  cbn [Nat.add Nat.eqb negb]. cbv zeta. f_equal.
  clear H1 H2 H3.
  assert (E : forall a b, eqs [byte_of (d1 (v64 (symbol (firstn 6 (byte_bits a)))) (v64 (symbol (skipn 6 (byte_bits a) ++ firstn 4 (byte_bits b)))));
     byte_of (d2 (v64 (symbol (skipn 6 (byte_bits a) ++ firstn 4 (byte_bits b)))) (v64 (symbol (skipn 4 (byte_bits b) ++ repeat false 2))));
     byte_of (d3' (v64 (symbol (skipn 4 (byte_bits b) ++ repeat false 2))))] [a; b; nul] = true)
   by (apply byte_sweep2; vm_compute; reflexivity).
  apply eqs_true, E.
Qed.
Lemma dp_one sc o a t br : all_low sc t -> 
  dpure sc o (rfc4648 [a] ++ t) 0 [] br false = ([a; nul], Throw ExnRuntime).
Proof.
  intros _. rewrite rfc_1. set (q1 := symbol (firstn 6 (byte_bits a))).
  set (q2 := symbol (skipn 6 (byte_bits a) ++ _)). 
  assert (H1 : is_symbol q1 = true) by (subst q1; apply symbol_ok; destruct a; reflexivity).
  assert (H2 : is_symbol q2 = true) by (subst q2; apply symbol_ok; destruct a; reflexivity).
  cbn [app].
    rewrite (dp_sym _ _ _ _ _ _ _ _ H1). cbn [Nat.add Nat.eqb app].
    rewrite (dp_sym _ _ _ _ _ _ _ _ H2). cbn [Nat.add Nat.eqb app].
  rewrite (dp_pad : forall sc o input bn buf br p, dpure sc o ("="%char :: input) bn buf br p = _).
  cbn [Nat.add Nat.eqb negb]. cbv zeta.
  rewrite (dp_pad : forall sc o input bn buf br p, dpure sc o ("="%char :: input) bn buf br p = _).
  cbn [Nat.add Nat.eqb negb app]. f_equal.
  clear H1 H2.
  assert (E : forall a, eqs [byte_of (d1 (v64 (symbol (firstn 6 (byte_bits a)))) (v64 (symbol (skipn 6 (byte_bits a) ++ repeat false 4))));
     byte_of (d2' (v64 (symbol (skipn 6 (byte_bits a) ++ repeat false 4))))] [a; nul] = true)
   by (apply byte_sweep; vm_compute; reflexivity).
  apply eqs_true, E.
Qed.

Definition extra (d : str) : str := if length d mod 3 =? 0 then [] else [nul].

Lemma dp_rfc sc o d t : all_low sc t -> forall br,
  dpure sc o (rfc4648 d ++ t) 0 [] br false =
  if length d mod 3 =? 0 then let (w, r) := dpure sc o t 0 [] (br + length d) false in (d ++ w, r)
  else (d ++ [nul], Throw ExnRuntime).
Proof.
  intros Ht. induction d as [|a|a b|a b c d IH] using list_ind3; intros br.
  - cbn [length Nat.eqb app]. rewrite Nat.add_0_r. cbn. destruct (dpure sc o t 0 [] br false). reflexivity.
  - apply dp_one; exact Ht.
  - apply dp_two.
  - rewrite rfc_cons3, <- app_assoc.
    replace (length (a :: b :: c :: d) mod 3) with (length d mod 3) by (cbn [length]; lia).
    specialize (IH (br + 3)).
    destruct (length d mod 3 =? 0).
    + replace (br + length (a :: b :: c :: d)) with (br + 3 + length d) by (cbn [length]; lia).
      destruct (dpure sc o t 0 [] (br + 3 + length d) false) as [w r].
      apply dp_quad. exact IH.
    + apply dp_quad. exact IH.
Qed.

Lemma rfc_low sc d : all_low sc (rfc4648 d).
Proof.
  assert (Hq : forall c, is_symbol c = true \/ c = eqch -> low sc c).
  { intros c H. right. pose proof (high_not_symbol c) as Hh.
    destruct (128 <=? code c) eqn:E; [|lia]. destruct H as [H| ->]; [rewrite H in Hh; discriminate|vm_compute in E; discriminate]. }
  induction d as [|a|a b|a b c d IH] using list_ind3.
  - intros c [].
  - rewrite rfc_1. intros x Hx. apply Hq. cbn [In] in Hx. decompose [or] Hx; subst; auto;
      try (left; apply symbol_ok; destruct a; reflexivity).
  - rewrite rfc_2. intros x Hx. apply Hq. cbn [In] in Hx. decompose [or] Hx; subst; auto;
      try (left; apply symbol_ok; destruct a, b; reflexivity).
  - rewrite rfc_cons3. apply all_low_app. split; [|exact IH].
    intros x Hx. apply Hq. left. pose proof (quad_syms a b c) as Hs. rewrite forallb_forall in Hs. auto.
Qed.

Lemma sig_app ign a b : sig ign (a ++ b) = sig ign a ++ sig ign b.
Proof. apply filter_app. Qed.
Lemma sig_rfc ign d : sig ign (rfc4648 d) = rfc4648 d.
Proof.
  assert (Hq : forall l, forallb (fun c => is_symbol c || eqc c eqch) l = true -> sig ign l = l).
  { induction l as [|c l IH]; intros H; [reflexivity|]. cbn [forallb] in H. apply andb_true_iff in H. destruct H as [H1 H2].
    unfold sig. cbn [filter]. destruct (classify ign c) as [? Hs|? Hs|Hsp Hs|? ? ? ? Hs|? ? ? ? Hs]; rewrite ?Hs; try (f_equal; apply IH, H2).
    - exfalso. apply orb_true_iff in H1. destruct H1 as [H1|H1]; [apply symbol_not_space in H1; congruence|].
      apply eqc_true in H1. subst c. discriminate Hsp.
    - exfalso. apply orb_true_iff in H1. destruct H1 as [H1|H1]; [congruence|apply eqc_true in H1; congruence]. }
  apply Hq. induction d as [|a|a b|a b c d IH] using list_ind3.
  - reflexivity.
  - rewrite rfc_1. cbn [forallb]. rewrite !(fun s H => proj1 (symbol_ok s H)); destruct a; reflexivity.
  - rewrite rfc_2. cbn [forallb]. rewrite !(fun s H => proj1 (symbol_ok s H)); destruct a, b; reflexivity.
  - rewrite rfc_cons3, forallb_app, IH, andb_true_r.
    pose proof (quad_syms a b c) as Hs. rewrite forallb_forall in *. intros x Hx. rewrite (Hs x Hx). reflexivity.
Qed.

(** NULs left at the end of the encoded text *)
Definition nuls (o : opts) (d : str) : nat :=
  if addNewLines o then let T := rfc4648 d in
    length T / 72 - (if 54 <=? length d then 1 else 0) else 0.

Lemma sig_encode o ign d T : Encode o d = Ok T -> 
  sig ign T = rfc4648 d ++ sig ign (repeat nul (nuls o d)) /\ (forall sc, all_low sc T).
Proof.
  rewrite encode_closed. intros H. apply Ok_inj in H. subst T. unfold nuls. cbv zeta.
  assert (Hrep : forall sc k, all_low sc (repeat nul k)).
  { intros sc k c Hc. apply repeat_spec in Hc. subst c. right. cbn. lia. }
  destruct (addNewLines o).
  - destruct (54 <=? length d) eqn:E.
    + split.
      * rewrite !sig_app.
        replace (sig ign (nl :: skipn 72 (rfc4648 d))) with (sig ign (skipn 72 (rfc4648 d))).
        2:{ unfold sig. cbn [filter]. destruct ign; reflexivity. }
        rewrite <- (sig_app ign (firstn 72 (rfc4648 d)) (skipn 72 (rfc4648 d))), firstn_skipn, sig_rfc. do 3 f_equal.
        rewrite app_length. cbn [length].
        rewrite <- (firstn_skipn 72 (rfc4648 d)) at 1. rewrite app_length. lia.
      * intros sc. apply all_low_app. split; [|apply Hrep].
        pose proof (rfc_low sc d) as Hl. rewrite <- (firstn_skipn 72 (rfc4648 d)) in Hl.
        apply all_low_app in Hl. destruct Hl as [H1 H2].
        apply all_low_app. split; [exact H1|]. intros c [<-|Hc]; [right; cbn; lia|auto].
    + split.
      * rewrite sig_app, sig_rfc. do 3 f_equal. lia.
      * intros sc. apply all_low_app. split; [apply rfc_low|apply Hrep].
  - split; [rewrite sig_rfc; cbn; rewrite app_nil_r; reflexivity|intros; apply rfc_low].
Qed.

Lemma sig_nuls ign k : sig ign (repeat nul k) = if ign then [] else repeat nul k.
Proof.
  destruct ign; induction k as [|k IH]; try reflexivity; unfold sig in *; cbn [repeat filter]; cbn.
  - exact IH.
  - rewrite IH. reflexivity.
Qed.

Lemma dp_encode sc oe od d T : Encode oe d = Ok T ->
  dpure sc od T 0 [] 0 false =
   (d ++ extra d, if (length d mod 3 =? 0) && (ignoreInvalids od || (nuls oe d =? 0)) then Ok (length d) else Throw ExnRuntime).
Proof.
  intros H. destruct (sig_encode oe (ignoreInvalids od) d T H) as [Hs Hl].
  rewrite dp_filter by apply Hl. rewrite Hs, sig_nuls.
  assert (Hrep : forall sc k, all_low sc (repeat nul k)).
  { intros sc' k c Hc. apply repeat_spec in Hc. subst c. right. cbn. lia. }
  rewrite dp_rfc by (destruct (ignoreInvalids od); [intros ? []|apply Hrep]).
  unfold extra. destruct (length d mod 3 =? 0); [|reflexivity].
  destruct (ignoreInvalids od) eqn:Ei; [reflexivity|].
  destruct (nuls oe d) as [|k]; [reflexivity|]. cbn [repeat].
  rewrite dp_inv.
  - reflexivity.
  - right; cbn; lia.
  - reflexivity.
  - discriminate.
  - rewrite Ei. reflexivity.
Qed.

Lemma nuls_zero oe d : length d mod 3 = 0 -> (nuls oe d = 0 <-> addNewLines oe = false \/ length d < 108).
Proof.
  intros Hm. unfold nuls. destruct (addNewLines oe); [|tauto]. cbv zeta. rewrite rfc_length.
  destruct (54 <=? length d) eqn:E; split; intros H; try lia; try (right; lia); destruct H as [H|H]; try discriminate; lia.
Qed.

Lemma decode_encode_run sc oe od d T buf : Encode oe d = Ok T -> length d < length buf ->
  Decode sc od T buf =
   (map Some (d ++ extra d) ++ skipn (length (d ++ extra d)) buf,
    if (length d mod 3 =? 0) && (ignoreInvalids od || (nuls oe d =? 0)) then Ok (length d) else Throw ExnRuntime).
Proof.
  intros H Hb. apply decode_of_dpure; [apply (dp_encode sc); exact H|].
  rewrite app_length. unfold extra. destruct (length d mod 3 =? 0); cbn; lia.
Qed.

(** * IsBase64 *)
Lemma ib_padded sc o l : all_low sc l -> (forall c, In c l -> significant (ignoreInvalids o) c = true) ->
  forall bn br, 1 <= bn <= 3 -> isb64_loop sc o l bn br true =
   Ok (if eqs (firstn (4 - bn) l) (repeat eqch (4 - bn)) then br else 0).
Proof.
  induction l as [|c l IH]; intros Hl Hs bn br Hb.
  - cbn [isb64_loop]. replace (bn =? 0) with false by lia. cbn [negb].
    destruct bn as [|[|[|[|bn]]]]; try lia; reflexivity.
  - apply all_low_cons in Hl. destruct Hl as [Hc Hl].
    pose proof (Hs c (or_introl eq_refl)) as Hsc.
    replace (4 - bn) with (S (3 - bn)) by lia. cbn [firstn repeat eqs].
    destruct (is_symbol c) eqn:E.
    { rewrite ib_sym by exact E. pose proof (symbol_not_pad c E) as Hn. apply eqc_false in Hn. rewrite Hn. reflexivity. }
    destruct (eqc_spec c eqch) as [->|Hn].
    + rewrite ib_pad. destruct (bn + 1 =? 4) eqn:E4.
      * replace (3 - bn) with 0 by lia. reflexivity.
      * rewrite IH; [|exact Hl|intros; apply Hs; right; assumption|lia].
        replace (4 - (bn + 1)) with (3 - bn) by lia. reflexivity.
    + rewrite ib_inv by assumption. reflexivity.
Qed.

Lemma ib_sig sc o l : all_low sc l -> (forall c, In c l -> significant (ignoreInvalids o) c = true) ->
  forall bn br, bn <= 3 ->
  let d := takew is_symbol l in
  let f := 4 - (bn + length d) mod 4 in
  isb64_loop sc o l bn br false =
   Ok (match dropw is_symbol l with
       | [] => if (bn + length d) mod 4 =? 0 then br + length d else 0
       | r => if eqs (firstn f r) (repeat eqch f) then br + length d else 0
       end).
Proof.
  induction l as [|c l IH]; intros Hl Hs bn br Hb; cbv zeta.
  - cbn [isb64_loop takew dropw length]. rewrite !Nat.add_0_r.
    destruct bn as [|[|[|[|bn]]]]; try lia; reflexivity.
  - apply all_low_cons in Hl. destruct Hl as [Hc Hl].
    pose proof (Hs c (or_introl eq_refl)) as Hsc.
    cbn [takew dropw]. destruct (is_symbol c) eqn:E.
    + rewrite ib_sym by exact E. cbn [length].
      replace (bn + S (length (takew is_symbol l))) with (bn + 1 + length (takew is_symbol l)) by lia.
      destruct (bn + 1 =? 4) eqn:E4.
      * rewrite IH; [|exact Hl|intros; apply Hs; right; assumption|lia].
        replace ((bn + 1 + length (takew is_symbol l)) mod 4) with ((0 + length (takew is_symbol l)) mod 4) by lia.
        replace (br + S (length (takew is_symbol l))) with (br + 1 + length (takew is_symbol l)) by lia. reflexivity.
      * rewrite IH; [|exact Hl|intros; apply Hs; right; assumption|lia].
        replace (br + S (length (takew is_symbol l))) with (br + 1 + length (takew is_symbol l)) by lia. reflexivity.
    + cbn [length]. rewrite !Nat.add_0_r. rewrite (Nat.mod_small bn 4) by lia.
      replace (4 - bn) with (S (3 - bn)) by lia. cbn [firstn repeat eqs].
      destruct (eqc_spec c eqch) as [->|Hn].
      * rewrite ib_pad. destruct (bn + 1 =? 4) eqn:E4.
        -- replace (3 - bn) with 0 by lia. reflexivity.
        -- rewrite ib_padded; [|exact Hl|intros; apply Hs; right; assumption|lia].
           replace (4 - (bn + 1)) with (3 - bn) by lia. reflexivity.
      * rewrite ib_inv by assumption. reflexivity.
Qed.

Lemma IsBase64_spec sc o s : all_low sc s -> IsBase64 sc o s = Ok (symbol_count (ignoreInvalids o) s).
Proof.
  intros Hl. unfold IsBase64. rewrite ib_filter by exact Hl.
  rewrite ib_sig; [|apply sig_low; exact Hl|apply sig_sig|lia]. cbn [Nat.add]. reflexivity.
Qed.

(** * Lockstep: the decoder writes no more than IsBase64 reports *)
Lemma lockstep sc o s : forall bn buf br1 br2 n, bn <= 3 -> length buf = bn -> bn <= br2 ->
  isb64_loop sc o s bn br2 false = Ok n -> 0 < n ->
  br2 - bn + length (fst (dpure sc o s bn buf br1 false)) <= n.
Proof.
  assert (Hge : forall s bn br p n, isb64_loop sc o s bn br p = Ok n -> 0 < n -> br <= n).
  { clear. induction s as [|c s IH]; intros bn br p n H Hn.
    - cbn [isb64_loop] in H. destruct (negb (bn =? 0)); inversion H; lia.
    - cbn [isb64_loop] in H. destruct (bits_of sc c) as [bits| | | |]; try discriminate. cbn [bind] in H.
      destruct (bits <=? 64).
      + destruct (bits =? PaddingBits).
        * destruct (bn + 1 =? 4); [inversion H; lia|eapply IH; eauto].
        * destruct p; [inversion H; lia|].
          destruct (bn + 1 =? 4); apply IH in H; lia.
      + destruct (bits =? WhiteSpaceBits); [eapply IH; eauto|].
        destruct (bits =? InvalidBase64Bits); [|inversion H; lia].
        destruct (negb (ignoreInvalids o)); [inversion H; lia|eapply IH; eauto]. }
  induction s as [|c s IH]; intros bn buf br1 br2 n Hb Hbuf Hbr H Hn.
  - cbn [isb64_loop] in H. cbn [dpure fst length]. destruct (negb (bn =? 0)); inversion H; lia.
  - cbn [isb64_loop] in H. cbn [dpure]. destruct (bits_of sc c) as [bits| | | |]; try discriminate. cbn [bind] in H.
    destruct (bits <=? 64).
    + destruct (bits =? PaddingBits).
      * cbn [negb]. cbv zeta. set (w := match bn with 0 => [] | _ => _ end).
        assert (Hw : length w <= bn).
        { subst w. destruct bn as [|[|[|[|bn]]]]; try (cbn; lia);
          destruct buf as [|v0 [|v1 [|v2 [|v3 buf]]]]; cbn; lia. }
        destruct (bn + 1 =? 4).
        -- inversion H; subst n. cbn [fst]. lia.
        -- pose proof (dp_padded_nowrite sc o s (bn + 1) buf br1) as Hnw.
           destruct (dpure sc o s (bn + 1) buf br1 true) as [w' r]. cbn in Hnw. subst w'.
           cbn [fst]. rewrite app_nil_r. apply Hge in H; lia.
      * destruct (bn + 1 =? 4) eqn:E4.
        -- destruct buf as [|v0 [|v1 [|v2 [|v3 buf]]]]; cbn [length] in Hbuf; try lia.
           specialize (IH 0 [] br1 (br2 + 1) n ltac:(lia) eq_refl ltac:(lia) H Hn).
           destruct (dpure sc o s 0 [] br1 false) as [w' r]. cbn [fst length] in *. lia.
        -- specialize (IH (bn + 1) (buf ++ [bits]) (br1 + 1) (br2 + 1) n ltac:(lia) ltac:(rewrite app_length; cbn; lia) ltac:(lia) H Hn).
           lia.
    + destruct (bits =? WhiteSpaceBits); [eapply IH; eauto|].
      destruct (bits =? InvalidBase64Bits); [|inversion H; lia].
      destruct (negb (ignoreInvalids o)); [inversion H; lia|eapply IH; eauto].
Qed.

Lemma no_ub sc o s bn buf br p : all_low sc s -> length buf = bn \/ p = true -> bn <= 3 ->
  snd (dpure sc o s bn buf br p) <> UB.
Proof.
  revert bn buf br p. induction s as [|c s IH]; intros bn buf br p Hl Hb Hbn.
  - cbn. destruct (negb (bn =? 0)); discriminate.
  - apply all_low_cons in Hl. destruct Hl as [Hc Hl].
    destruct (classify (ignoreInvalids o) c) as [Hsy Hs| -> Hs|Hsp Hs|? ? ? ? Hs|? ? ? ? Hs].
    + rewrite dp_sym by exact Hsy. destruct p; [discriminate|]. destruct Hb as [Hb|]; [|discriminate].
      destruct (bn + 1 =? 4) eqn:E4.
      * destruct buf as [|v0 [|v1 [|v2 [|v3 buf]]]]; cbn [length] in Hb; try lia.
        specialize (IH 0 [] br false Hl (or_introl eq_refl) ltac:(lia)).
        destruct (dpure sc o s 0 [] br false). exact IH.
      * apply IH; [exact Hl|left; rewrite app_length; cbn; lia|lia].
    + rewrite dp_pad. cbv zeta. destruct (bn + 1 =? 4) eqn:E4; [discriminate|].
      specialize (IH (bn + 1) buf br true Hl (or_intror eq_refl) ltac:(lia)).
      destruct (dpure sc o s (bn + 1) buf br true). exact IH.
    + rewrite dp_skip by assumption. apply IH; assumption.
    + rewrite dp_skip by assumption. apply IH; assumption.
    + rewrite dp_inv by assumption. discriminate.
Qed.

(** With indices in range, a buffer of the reported size is never overrun. *)
Lemma decode_fits sc o s n buf : all_low sc s -> IsBase64 sc o s = Ok n -> 0 < n -> n <= length buf ->
  exists w r, Decode sc o s buf = (map Some w ++ skipn (length w) buf, r) /\ length w <= n /\ r <> UB.
Proof.
  intros Hl Hi Hn Hb. unfold IsBase64 in Hi.
  pose proof (lockstep sc o s 0 [] 0 0 n ltac:(lia) eq_refl ltac:(lia) Hi Hn) as L.
  pose proof (no_ub sc o s 0 [] 0 false Hl (or_introl eq_refl) ltac:(lia)) as U.
  destruct (dpure sc o s 0 [] 0 false) as [w r] eqn:E. cbn [fst snd] in *.
  exists w, r. split; [apply decode_of_dpure; [exact E|lia]|]. split; [lia|exact U].
Qed.

(** * Scanning and characters of 128 and above *)
Fixpoint scan (l : str) (bn : nat) (p : bool) : option (nat * bool) :=
  match l with
  | [] => Some (bn, p)
  | c :: l => if is_symbol c then if p then None else scan l (if bn + 1 =? 4 then 0 else bn + 1) false
              else if eqc c eqch then if bn + 1 =? 4 then None else scan l (bn + 1) true
              else None
  end.

Lemma scan_padded l : forall bn, bn <= 3 ->
  (scan l bn true = None <-> negb (forallb (eqc eqch) l && (length l <? 4 - bn)) = true).
Proof.
  induction l as [|c l IH]; intros bn Hb.
  - cbn [scan forallb length andb]. replace (0 <? 4 - bn) with true by lia. split; discriminate.
  - cbn [scan forallb length]. destruct (is_symbol c) eqn:E.
    { pose proof (symbol_not_pad c E) as Hn. replace (eqc eqch c) with false; [tauto|].
      symmetry. apply eqc_false. congruence. }
    destruct (eqc_spec c eqch) as [->|Hn].
    + rewrite eqc_refl. cbn [andb]. destruct (bn + 1 =? 4) eqn:E4.
      * replace (S (length l) <? 4 - bn) with false by lia. rewrite andb_false_r. tauto.
      * rewrite IH by lia. replace (S (length l) <? 4 - bn) with (length l <? 4 - (bn + 1)) by lia. tauto.
    + replace (eqc eqch c) with false by (symmetry; apply eqc_false; congruence). tauto.
Qed.

Lemma scan_spec l : forall bn, bn <= 3 ->
  (scan l bn false = None <-> 
   match dropw is_symbol l with
   | [] => false
   | r => negb (forallb (eqc eqch) r && (length r <? 4 - (bn + length (takew is_symbol l)) mod 4))
   end = true).
Proof.
  induction l as [|c l IH]; intros bn Hb.
  - cbn. split; discriminate.
  - cbn [scan takew dropw]. destruct (is_symbol c) eqn:E.
    + cbn [length]. destruct (bn + 1 =? 4) eqn:E4; rewrite IH by lia.
      * replace ((bn + S (length (takew is_symbol l))) mod 4) with ((0 + length (takew is_symbol l)) mod 4) by lia. tauto.
      * replace ((bn + S (length (takew is_symbol l)))) with (bn + 1 + length (takew is_symbol l)) by lia. tauto.
    + cbn [length forallb]. rewrite Nat.add_0_r, (Nat.mod_small bn 4) by lia.
      destruct (eqc_spec c eqch) as [->|Hn].
      * rewrite eqc_refl. cbn [andb]. destruct (bn + 1 =? 4) eqn:E4.
        -- replace (S (length l) <? 4 - bn) with false by lia. rewrite andb_false_r. tauto.
        -- rewrite scan_padded by lia. replace (S (length l) <? 4 - bn) with (length l <? 4 - (bn + 1)) by lia. tauto.
      * replace (eqc eqch c) with false by (symmetry; apply eqc_false; congruence). tauto.
Qed.

Lemma stopped_scan ign s : stopped ign s = true <-> scan (sig ign s) 0 false = None.
Proof. rewrite scan_spec by lia. reflexivity. Qed.

Lemma dp_high o p c r : (forall x, In x p -> code x < 128) -> 128 <= code c -> forall bn buf br pd,
  bn <= 3 -> length buf = bn \/ pd = true ->
  (snd (dpure true o (p ++ c :: r) bn buf br pd) = UB <-> scan (sig (ignoreInvalids o) p) bn pd <> None).
Proof.
  intros Hp Hc. induction p as [|x p IH]; intros bn buf br pd Hb Hbuf.
  - cbn [app dpure sig filter scan]. rewrite bits_high by exact Hc. cbn. split; [discriminate|reflexivity].
  - assert (Hx : low true x) by (right; apply Hp; left; reflexivity).
    specialize (IH ltac:(intros; apply Hp; right; assumption)).
    cbn [app]. unfold sig. cbn [filter]. fold (sig (ignoreInvalids o) p).
    destruct (classify (ignoreInvalids o) x) as [Hsy Hs| -> Hs|Hsp Hs|? ? ? ? Hs|Hns ? Hne ? Hs]; rewrite Hs.
    + rewrite dp_sym by exact Hsy. cbn [scan]. rewrite Hsy. destruct pd; [split; [discriminate|congruence]|].
      destruct Hbuf as [Hbuf|]; [|discriminate].
      destruct (bn + 1 =? 4) eqn:E4.
      * destruct buf as [|v0 [|v1 [|v2 [|v3 buf]]]]; cbn [length] in Hbuf; try lia.
        specialize (IH 0 [] br false ltac:(lia) (or_introl eq_refl)).
        destruct (dpure true o (p ++ c :: r) 0 [] br false). exact IH.
      * apply IH; [lia|left; rewrite app_length; cbn; lia].
    + rewrite dp_pad. cbv zeta. cbn [scan]. change (is_symbol eqch) with false. rewrite eqc_refl. cbn match.
      destruct (bn + 1 =? 4) eqn:E4; [split; [discriminate|congruence]|].
      specialize (IH (bn + 1) buf br true ltac:(lia) (or_intror eq_refl)).
      destruct (dpure true o (p ++ c :: r) (bn + 1) buf br true). exact IH.
    + rewrite dp_skip by assumption. apply IH; assumption.
    + rewrite dp_skip by assumption. apply IH; assumption.
    + rewrite dp_inv by assumption. cbn [scan]. rewrite Hns. apply eqc_false in Hne. rewrite Hne. split; [discriminate|congruence].
Qed.

Lemma ib_high o p c r : (forall x, In x p -> code x < 128) -> 128 <= code c -> forall bn br pd,
  bn <= 3 ->
  (isb64_loop true o (p ++ c :: r) bn br pd = UB <-> scan (sig (ignoreInvalids o) p) bn pd <> None).
Proof.
  intros Hp Hc. induction p as [|x p IH]; intros bn br pd Hb.
  - cbn [app isb64_loop sig filter scan]. rewrite bits_high by exact Hc. cbn. split; [discriminate|reflexivity].
  - assert (Hx : low true x) by (right; apply Hp; left; reflexivity).
    specialize (IH ltac:(intros; apply Hp; right; assumption)).
    cbn [app]. unfold sig. cbn [filter]. fold (sig (ignoreInvalids o) p).
    destruct (classify (ignoreInvalids o) x) as [Hsy Hs| -> Hs|Hsp Hs|? ? ? ? Hs|Hns ? Hne ? Hs]; rewrite Hs.
    + rewrite ib_sym by exact Hsy. cbn [scan]. rewrite Hsy. destruct pd; [split; [discriminate|congruence]|].
      destruct (bn + 1 =? 4) eqn:E4; apply IH; lia.
    + rewrite ib_pad. cbn [scan]. change (is_symbol eqch) with false. rewrite eqc_refl. cbn match.
      destruct (bn + 1 =? 4) eqn:E4; [split; [discriminate|congruence]|]. apply IH; lia.
    + rewrite ib_skip by assumption. apply IH; assumption.
    + rewrite ib_skip by assumption. apply IH; assumption.
    + rewrite ib_inv by assumption. cbn [scan]. rewrite Hns. apply eqc_false in Hne. rewrite Hne. split; [discriminate|congruence].
Qed.

Lemma first_high s : seven_bit s \/ exists p c r, s = p ++ c :: r /\ seven_bit p /\ 128 <= code c.
Proof.
  induction s as [|x s IH]; [left; intros ? []|].
  destruct (128 <=? code x) eqn:E.
  - right. exists [], x, s. split; [reflexivity|]. split; [intros ? []|lia].
  - destruct IH as [H|(p & c & r & -> & H & Hc)].
    + left. intros y [<-|Hy]; [lia|auto].
    + right. exists (x :: p), c, r. split; [reflexivity|]. split; [|exact Hc]. intros y [<-|Hy]; [lia|auto].
Qed.

Lemma decode_ub_iff o s buf : length s <= length buf ->
  (snd (Decode true o s buf) = UB <->
   exists p c r, s = p ++ c :: r /\ seven_bit p /\ 128 <= code c /\ stopped (ignoreInvalids o) p = false).
Proof.
  intros Hb.
  assert (Hd : snd (Decode true o s buf) = snd (dpure true o s 0 [] 0 false)).
  { pose proof (dp_writes true o s 0 [] 0 false) as W. destruct (dpure true o s 0 [] 0 false) as [w r] eqn:E.
    rewrite (decode_of_dpure _ _ _ _ _ _ E); [reflexivity|cbn in W; lia]. }
  rewrite Hd. clear Hd.
  assert (Hiff : forall p c r, s = p ++ c :: r -> seven_bit p -> 128 <= code c ->
     (snd (dpure true o s 0 [] 0 false) = UB <-> stopped (ignoreInvalids o) p = false)).
  { intros p c r -> Hp Hc. rewrite dp_high by (auto; lia). rewrite <- not_true_iff_false, stopped_scan. tauto. }
  split.
  - intros H. destruct (first_high s) as [Hs|(p & c & r & E & Hp & Hc)].
    + exfalso. revert H. apply no_ub; [|left; reflexivity|lia]. intros x Hx. right. apply Hs, Hx.
    + exists p, c, r. repeat split; auto. eapply Hiff; eauto.
  - intros (p & c & r & E & Hp & Hc & Hst). eapply Hiff; eauto.
Qed.

Lemma isb64_ub_iff o s :
  (IsBase64 true o s = UB <->
   exists p c r, s = p ++ c :: r /\ seven_bit p /\ 128 <= code c /\ stopped (ignoreInvalids o) p = false).
Proof.
  assert (Hiff : forall p c r, s = p ++ c :: r -> seven_bit p -> 128 <= code c ->
     (IsBase64 true o s = UB <-> stopped (ignoreInvalids o) p = false)).
  { intros p c r -> Hp Hc. unfold IsBase64. rewrite ib_high by (auto; lia).
    rewrite <- not_true_iff_false, stopped_scan. tauto. }
  split.
  - intros H. destruct (first_high s) as [Hs|(p & c & r & E & Hp & Hc)].
    + exfalso. rewrite IsBase64_spec in H; [discriminate|]. intros x Hx. right. apply Hs, Hx.
    + exists p, c, r. repeat split; auto. eapply Hiff; eauto.
  - intros (p & c & r & E & Hp & Hc & Hst). eapply Hiff; eauto.
Qed.

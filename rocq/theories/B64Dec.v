(** Lemmas about the base64 decoder model. *)
From Verif Require Import Base B64Spec B64Model B64Facts.
Require Import ZifyBool ZifyNat.
Ltac Zify.zify_post_hook ::= Z.div_mod_to_equations.

(** * Character classes *)
Definition eqch := "="%char.

Lemma bits_sweep : forall c, 
  match nth_error base64bits (code c) with
  | Some b => if 128 <=? code c then b =? 255 else
      if is_symbol c then (b =? index_of c alphabet) && (b <? 64) && negb (is_space c) && negb (eqc c eqch)
      else if eqc c eqch then (b =? 64) && negb (is_space c)
      else if is_space c then b =? 254 else b =? 255
  | None => false
  end = true.
Proof. apply byte_sweep. vm_compute. reflexivity. Qed.

Lemma high_not_symbol : forall c, (negb (128 <=? code c)) || (negb (is_symbol c) && negb (is_space c) && negb (eqc c eqch)) = true.
Proof. apply byte_sweep. vm_compute. reflexivity. Qed.

Definition v64 (c : ascii) : nat := index_of c alphabet.

Definition low (sc : bool) (c : ascii) : Prop := sc = false \/ code c < 128.

Lemma bits_sym sc c : is_symbol c = true -> bits_of sc c = Ok (v64 c) /\ v64 c < 64.
Proof.
  intros H. pose proof (bits_sweep c) as B. pose proof (high_not_symbol c) as Hh.
  unfold bits_of, rd, v64. destruct (nth_error base64bits (code c)) as [b|]; [|discriminate].
  rewrite H in *. destruct (128 <=? code c) eqn:E; [simpl in Hh; discriminate|].
  rewrite andb_false_r. split; [f_equal|]; lia.
Qed.
Lemma bits_pad sc : bits_of sc eqch = Ok 64.
Proof. destruct sc; reflexivity. Qed.
Lemma bits_space sc c : is_space c = true -> bits_of sc c = Ok 254.
Proof.
  intros H. pose proof (bits_sweep c) as B. pose proof (high_not_symbol c) as Hh.
  unfold bits_of, rd. destruct (nth_error base64bits (code c)) as [b|]; [|discriminate].
  destruct (128 <=? code c) eqn:E; [rewrite H in Hh; simpl in Hh; rewrite andb_false_r in Hh; discriminate|].
  rewrite andb_false_r.
  destruct (is_symbol c); [rewrite H in B; lia|]. destruct (eqc c eqch); [rewrite H in B; lia|].
  rewrite H in B. f_equal. lia.
Qed.
Lemma bits_inv sc c : low sc c -> is_symbol c = false -> is_space c = false -> c <> eqch -> bits_of sc c = Ok 255.
Proof.
  intros Hl H1 H2 H3. pose proof (bits_sweep c) as B.
  unfold bits_of, rd. destruct (nth_error base64bits (code c)) as [b|]; [|discriminate].
  apply eqc_false in H3. rewrite H1, H2, H3 in B.
  destruct (128 <=? code c) eqn:E.
  - destruct Hl as [->|]; [cbn [andb]; f_equal; lia|lia].
  - rewrite andb_false_r. f_equal. lia.
Qed.
Lemma bits_high c : 128 <= code c -> bits_of true c = UB.
Proof. intros H. unfold bits_of. replace (128 <=? code c) with true by lia. reflexivity. Qed.
Lemma symbol_not_pad c : is_symbol c = true -> c <> eqch.
Proof. intros H ->. vm_compute in H. discriminate. Qed.
Lemma symbol_not_space c : is_symbol c = true -> is_space c = false.
Proof.
  intros H. pose proof (bits_sweep c) as B. pose proof (high_not_symbol c) as Hh.
  destruct (nth_error base64bits (code c)) as [b|]; [|discriminate].
  destruct (128 <=? code c) eqn:E; [rewrite H in Hh; simpl in Hh; discriminate|].
  rewrite H in B. destruct (is_space c); [lia|reflexivity].
Qed.

(** Classification of a character by what a reader does with it. *)
Inductive cls (ign : bool) (c : ascii) : Prop :=
| CSym : is_symbol c = true -> significant ign c = true -> cls ign c
| CPad : c = eqch -> significant ign c = true -> cls ign c
| CSkipSpace : is_space c = true -> significant ign c = false -> cls ign c
| CSkipInv : is_symbol c = false -> is_space c = false -> c <> eqch -> ign = true -> significant ign c = false -> cls ign c
| CInv : is_symbol c = false -> is_space c = false -> c <> eqch -> ign = false -> significant ign c = true -> cls ign c.

Lemma classify ign c : cls ign c.
Proof.
  destruct (is_symbol c) eqn:E1.
  - apply CSym; auto. unfold significant. rewrite E1, (symbol_not_space c E1). reflexivity.
  - destruct (eqc_spec c eqch) as [->|Hn].
    + apply CPad; reflexivity.
    + destruct (is_space c) eqn:E2.
      * apply CSkipSpace; auto. unfold significant. rewrite E2. reflexivity.
      * destruct ign.
        -- apply CSkipInv; auto. unfold significant. rewrite E1, E2. apply eqc_false in Hn. unfold eqch in Hn. rewrite Hn. reflexivity.
        -- apply CInv; auto. unfold significant. rewrite E2. cbn. rewrite orb_true_r. reflexivity.
Qed.

(** * The decoder without memory *)
Definition byte_of (e : N) : ascii := ascii_of_N (e mod 256).

Fixpoint dpure (sc : bool) (o : opts) (input : str) (bn : nat) (buf : list nat) (br : nat) (padded : bool)
  : str * res nat :=
  match input with
  | [] => ([], if negb (bn =? 0) then Throw ExnRuntime else Ok br)
  | byte :: rest =>
      match bits_of sc byte with
      | Ok bits =>
        if bits <=? 64 then
          if bits =? PaddingBits then
            let w := if negb padded then
                       match bn, buf with
                       | 2, [v0; v1] => [byte_of (d1 v0 v1); byte_of (d2' v1)]
                       | 3, [v0; v1; v2] => [byte_of (d1 v0 v1); byte_of (d2 v1 v2); byte_of (d3' v2)]
                       | _, _ => []
                       end else [] in
            if bn + 1 =? 4 then (w, Throw ExnRuntime)
            else let (w', r) := dpure sc o rest (bn + 1) buf br true in (w ++ w', r)
          else if padded then ([], Throw ExnRuntime)
          else if bn + 1 =? 4 then
            match buf with
            | [v0; v1; v2] => let (w', r) := dpure sc o rest 0 [] br padded in
                (byte_of (d1 v0 v1) :: byte_of (d2 v1 v2) :: byte_of (d3 v2 bits) :: w', r)
            | _ => ([], UB)
            end
          else dpure sc o rest (bn + 1) (buf ++ [bits]) (br + 1) padded
        else if bits =? WhiteSpaceBits then dpure sc o rest bn buf br padded
        else if bits =? InvalidBase64Bits then
          if negb (ignoreInvalids o) then ([], Throw ExnRuntime) else dpure sc o rest bn buf br padded
        else ([], Throw ExnRuntime)
      | _ => ([], UB)
      end
  end.

Lemma put_next (pre rest : list cell) e j : j = length pre ->
  put j e (pre ++ rest) = match rest with [] => None | _ :: r => Some ((pre ++ [Some (byte_of e)]) ++ r) end.
Proof.
  intros ->. unfold put, byte_of. destruct rest as [|x r].
  - rewrite app_nil_r. induction pre as [|y pre IH]; [reflexivity|]. cbn [length set_at]. rewrite IH. reflexivity.
  - rewrite set_at_app, <- app_assoc. reflexivity.
Qed.

Definition mem_run (pre rest : list cell) (wr : str * res nat) (x : list cell * res nat) : Prop :=
  let (w, r) := wr in
  if length w <=? length rest then x = (pre ++ map Some w ++ skipn (length w) rest, r)
  else snd x = UB.

Lemma mem_nil pre rest r : mem_run pre rest ([], r) (pre ++ rest, r).
Proof. reflexivity. Qed.
Lemma mem_cons pre c rest b w r x : 
  mem_run (pre ++ [Some b]) rest (w, r) x -> mem_run pre (c :: rest) (b :: w, r) x.
Proof.
  unfold mem_run. cbn [length Nat.leb]. destruct (length w <=? length rest); auto.
  intros ->. rewrite <- app_assoc. reflexivity.
Qed.
Lemma mem_full pre b w r y : mem_run pre [] (b :: w, r) (y, UB).
Proof. reflexivity. Qed.

Lemma decode_mem sc o input : forall pre rest j bn buf br padded,
  j = length pre ->
  mem_run pre rest (dpure sc o input bn buf br padded)
                   (decode_loop sc o input (pre ++ rest) j bn buf br padded).
Proof.
  induction input as [|c input IH]; intros pre rest j bn buf br padded Hj.
  - cbn [dpure decode_loop]. apply mem_nil.
  - cbn [dpure decode_loop].
    destruct (bits_of sc c) as [bits| | | |]; try apply mem_nil.
    destruct (bits <=? 64); [|destruct (bits =? WhiteSpaceBits); [apply IH; exact Hj|];
       destruct (bits =? InvalidBase64Bits); [destruct (negb (ignoreInvalids o)); [apply mem_nil|apply IH; exact Hj]|apply mem_nil]].
    destruct (bits =? PaddingBits).
    + pose (X := if bn + 1 =? 4 then (@nil ascii, @Throw nat ExnRuntime) else dpure sc o input (bn + 1) buf br true).
      assert (Hafter : forall pre rest j, j = length pre ->
        mem_run pre rest X
          (if bn + 1 =? 4 then (pre ++ rest, Throw ExnRuntime)
           else decode_loop sc o input (pre ++ rest) j (bn + 1) buf br true)).
      { intros p q jj Hjj. unfold X. destruct (bn + 1 =? 4); [apply mem_nil|apply IH; exact Hjj]. }
      assert (Hw : forall w, (if bn + 1 =? 4 then (w, Throw ExnRuntime)
             else let (w', r) := dpure sc o input (bn + 1) buf br true in (w ++ w', r))
         = let (w', r) := X in (w ++ w', r)).
      { intros w. unfold X. destruct (bn + 1 =? 4); [rewrite app_nil_r; reflexivity|].
        destruct (dpure sc o input (bn + 1) buf br true). reflexivity. }
      rewrite Hw. clear Hw. clearbody X. destruct X as [w' r].
      destruct (negb padded); [|cbn [app]; apply Hafter; exact Hj].
      destruct bn as [|[|[|[|bn]]]]; try (cbn [app]; apply Hafter; exact Hj).
      * destruct buf as [|v0 [|v1 [|v2 buf]]]; try (cbn [app]; apply Hafter; exact Hj).
        rewrite put_next by exact Hj. destruct rest as [|x1 rest]; [apply mem_full|].
        rewrite put_next by (rewrite app_length; simpl; lia).
        apply mem_cons. destruct rest as [|x2 rest]; [apply mem_full|].
        apply mem_cons. apply Hafter. rewrite !app_length; simpl; lia.
      * destruct buf as [|v0 [|v1 [|v2 [|v3 buf]]]]; try (cbn [app]; apply Hafter; exact Hj).
        rewrite put_next by exact Hj. destruct rest as [|x1 rest]; [apply mem_full|].
        rewrite put_next by (rewrite app_length; simpl; lia).
        apply mem_cons. destruct rest as [|x2 rest]; [apply mem_full|].
        rewrite put_next by (rewrite !app_length; simpl; lia).
        apply mem_cons. destruct rest as [|x3 rest]; [apply mem_full|].
        apply mem_cons. apply Hafter. rewrite !app_length; simpl; lia.
    + destruct padded; [apply mem_nil|].
      destruct (bn + 1 =? 4); [|apply IH; exact Hj].
      destruct buf as [|v0 [|v1 [|v2 [|v3 buf]]]]; try apply mem_nil.
      replace (br + 1 - 1) with br by lia.
      specialize (fun pre rest j => IH pre rest j 0 [] br false).
      destruct (dpure sc o input 0 [] br false) as [w' r].
      rewrite put_next by exact Hj. destruct rest as [|x1 rest]; [apply mem_full|].
      rewrite put_next by (rewrite app_length; simpl; lia).
      apply mem_cons. destruct rest as [|x2 rest]; [apply mem_full|].
      rewrite put_next by (rewrite !app_length; simpl; lia).
      apply mem_cons. destruct rest as [|x3 rest]; [apply mem_full|].
      apply mem_cons. apply IH. rewrite !app_length; simpl; lia.
Qed.

(** * One step of each reader, by class *)
Section step.
Variables (sc : bool) (o : opts).

Lemma dp_skip c input bn buf br p : low sc c -> significant (ignoreInvalids o) c = false ->
  dpure sc o (c :: input) bn buf br p = dpure sc o input bn buf br p.
Proof.
  intros Hl Hs. cbn [dpure]. destruct (classify (ignoreInvalids o) c) as [? H|? H|? H|? ? ? ? H|? ? ? ? H]; try congruence.
  - rewrite bits_space by assumption. reflexivity.
  - rewrite bits_inv by assumption. cbn. match goal with E : ignoreInvalids o = true |- _ => rewrite E end. reflexivity.
Qed.
Lemma dp_inv c input bn buf br p : low sc c -> is_symbol c = false -> c <> eqch -> significant (ignoreInvalids o) c = true ->
  dpure sc o (c :: input) bn buf br p = ([], Throw ExnRuntime).
Proof.
  intros Hl H1 H2 Hs. cbn [dpure]. destruct (classify (ignoreInvalids o) c) as [? H|? H|? H|? ? ? ? H|? ? ? Hi H]; try congruence.
  rewrite bits_inv by assumption. cbn. rewrite Hi. reflexivity.
Qed.
Lemma dp_sym c input bn buf br p : is_symbol c = true ->
  dpure sc o (c :: input) bn buf br p =
  if p then ([], Throw ExnRuntime)
  else if bn + 1 =? 4 then
            match buf with
            | [v0; v1; v2] => let (w', r) := dpure sc o input 0 [] br p in
                (byte_of (d1 v0 v1) :: byte_of (d2 v1 v2) :: byte_of (d3 v2 (v64 c)) :: w', r)
            | _ => ([], UB)
            end
  else dpure sc o input (bn + 1) (buf ++ [v64 c]) (br + 1) p.
Proof.
  intros H. destruct (bits_sym sc c H) as [E Hlt]. cbn [dpure]. rewrite E.
  replace (v64 c <=? 64) with true by lia. unfold PaddingBits. replace (v64 c =? 64) with false by lia. reflexivity.
Qed.
Lemma dp_pad input bn buf br p :
  dpure sc o (eqch :: input) bn buf br p =
            let w := if negb p then
                       match bn, buf with
                       | 2, [v0; v1] => [byte_of (d1 v0 v1); byte_of (d2' v1)]
                       | 3, [v0; v1; v2] => [byte_of (d1 v0 v1); byte_of (d2 v1 v2); byte_of (d3' v2)]
                       | _, _ => []
                       end else [] in
            if bn + 1 =? 4 then (w, Throw ExnRuntime)
            else let (w', r) := dpure sc o input (bn + 1) buf br true in (w ++ w', r).
Proof. cbn [dpure]. rewrite bits_pad. reflexivity. Qed.

Lemma ib_skip c input bn br p : low sc c -> significant (ignoreInvalids o) c = false ->
  isb64_loop sc o (c :: input) bn br p = isb64_loop sc o input bn br p.
Proof.
  intros Hl Hs. cbn [isb64_loop]. destruct (classify (ignoreInvalids o) c) as [? H|? H|? H|? ? ? ? H|? ? ? ? H]; try congruence.
  - rewrite bits_space by assumption. reflexivity.
  - rewrite bits_inv by assumption. cbn. match goal with E : ignoreInvalids o = true |- _ => rewrite E end. reflexivity.
Qed.
Lemma ib_inv c input bn br p : low sc c -> is_symbol c = false -> c <> eqch -> significant (ignoreInvalids o) c = true ->
  isb64_loop sc o (c :: input) bn br p = Ok 0.
Proof.
  intros Hl H1 H2 Hs. cbn [isb64_loop]. destruct (classify (ignoreInvalids o) c) as [? H|? H|? H|? ? ? ? H|? ? ? Hi H]; try congruence.
  rewrite bits_inv by assumption. cbn. rewrite Hi. reflexivity.
Qed.
Lemma ib_sym c input bn br p : is_symbol c = true ->
  isb64_loop sc o (c :: input) bn br p =
  if p then Ok 0 else if bn + 1 =? 4 then isb64_loop sc o input 0 (br + 1) false
  else isb64_loop sc o input (bn + 1) (br + 1) false.
Proof.
  intros H. destruct (bits_sym sc c H) as [E Hlt]. cbn [isb64_loop]. rewrite E. cbn [bind].
  replace (v64 c <=? 64) with true by lia. unfold PaddingBits. replace (v64 c =? 64) with false by lia.
  destruct p; [reflexivity|]. reflexivity.
Qed.
Lemma ib_pad input bn br p :
  isb64_loop sc o (eqch :: input) bn br p =
  if bn + 1 =? 4 then Ok br else isb64_loop sc o input (bn + 1) br true.
Proof. cbn [isb64_loop]. rewrite bits_pad. reflexivity. Qed.

End step.

Definition all_low (sc : bool) (s : str) : Prop := forall c, In c s -> low sc c.
Lemma all_low_cons sc c s : all_low sc (c :: s) -> low sc c /\ all_low sc s.
Proof. intros H. split; [apply H; left; reflexivity|intros x Hx; apply H; right; exact Hx]. Qed.
Lemma all_low_app sc a b : all_low sc (a ++ b) <-> all_low sc a /\ all_low sc b.
Proof.
  unfold all_low. split.
  - intros H; split; intros c Hc; apply H, in_or_app; auto.
  - intros [H1 H2] c Hc. apply in_app_or in Hc. destruct Hc; auto.
Qed.

Lemma dp_filter sc o s : all_low sc s -> forall bn buf br p,
  dpure sc o s bn buf br p = dpure sc o (sig (ignoreInvalids o) s) bn buf br p.
Proof.
  induction s as [|c s IH]; intros Hl bn buf br p; [reflexivity|].
  apply all_low_cons in Hl. destruct Hl as [Hc Hs].
  unfold sig. cbn [filter]. destruct (significant (ignoreInvalids o) c) eqn:E.
  - cbn [dpure]. fold (sig (ignoreInvalids o) s). 
    destruct (bits_of sc c) as [bits| | | |]; try reflexivity.
    destruct (bits <=? 64); [|destruct (bits =? WhiteSpaceBits); [apply IH; exact Hs|];
       destruct (bits =? InvalidBase64Bits); [destruct (negb (ignoreInvalids o)); [reflexivity|apply IH; exact Hs]|reflexivity]].
    rewrite !(IH Hs). reflexivity.
  - rewrite dp_skip by assumption. apply IH; exact Hs.
Qed.
Lemma ib_filter sc o s : all_low sc s -> forall bn br p,
  isb64_loop sc o s bn br p = isb64_loop sc o (sig (ignoreInvalids o) s) bn br p.
Proof.
  induction s as [|c s IH]; intros Hl bn br p; [reflexivity|].
  apply all_low_cons in Hl. destruct Hl as [Hc Hs].
  unfold sig. cbn [filter]. destruct (significant (ignoreInvalids o) c) eqn:E.
  - cbn [isb64_loop]. fold (sig (ignoreInvalids o) s). 
    destruct (bits_of sc c) as [bits| | | |]; try reflexivity. cbn [bind].
    destruct (bits <=? 64); rewrite !(IH Hs); reflexivity.
  - rewrite ib_skip by assumption. apply IH; exact Hs.
Qed.

Lemma sig_sig ign s : forall c, In c (sig ign s) -> significant ign c = true.
Proof. intros c H. apply filter_In in H. tauto. Qed.
Lemma sig_low sc ign s : all_low sc s -> all_low sc (sig ign s).
Proof. intros H c Hc. apply H. apply filter_In in Hc. tauto. Qed.

(** * Padding is fatal *)
Lemma dp_padded_throws sc o l : all_low sc l -> (forall c, In c l -> significant (ignoreInvalids o) c = true) ->
  forall bn buf br, 1 <= bn <= 3 -> dpure sc o l bn buf br true = ([], Throw ExnRuntime).
Proof.
  induction l as [|c l IH]; intros Hl Hs bn buf br Hb.
  - cbn [dpure]. replace (bn =? 0) with false by lia. reflexivity.
  - apply all_low_cons in Hl. destruct Hl as [Hc Hl].
    pose proof (Hs c (or_introl eq_refl)) as Hsc.
    destruct (is_symbol c) eqn:E; [rewrite dp_sym by exact E; reflexivity|].
    destruct (eqc_spec c eqch) as [->|Hn].
    + rewrite dp_pad. cbn [negb]. cbv zeta. destruct (bn + 1 =? 4) eqn:E4; [reflexivity|].
      rewrite IH; [reflexivity|exact Hl|intros; apply Hs; right; assumption|lia].
    + apply dp_inv; assumption.
Qed.

Lemma dp_pad_throws sc o l bn buf br : bn <= 3 -> all_low sc l -> (forall c, In c l -> significant (ignoreInvalids o) c = true) ->
  exists w, dpure sc o (eqch :: l) bn buf br false = (w, Throw ExnRuntime).
Proof.
  intros Hb Hl Hs. rewrite dp_pad. cbv zeta.
  destruct (bn + 1 =? 4) eqn:E4; [eauto|].
  rewrite dp_padded_throws by (auto; lia). eauto.
Qed.

(** * Values *)
Lemma nth_sweep64 (f : nat -> nat -> bool) :
  forallb (fun a => forallb (f a) (seq 0 64)) (seq 0 64) = true -> forall a b, a < 64 -> b < 64 -> f a b = true.
Proof.
  intros H a b Ha Hb. rewrite forallb_forall in H. specialize (H a). rewrite in_seq in H. specialize (H ltac:(lia)).
  rewrite forallb_forall in H. apply H. apply in_seq. lia.
Qed.
Lemma d1_bits : forall a b, a < 64 -> b < 64 ->
  eqs [byte_of (d1 a b)] (octets (six_bits a ++ firstn 2 (six_bits b))) = true.
Proof. apply nth_sweep64. vm_compute. reflexivity. Qed.
Lemma d2_bits : forall a b, a < 64 -> b < 64 ->
  eqs [byte_of (d2 a b)] (octets (skipn 2 (six_bits a) ++ firstn 4 (six_bits b))) = true.
Proof. apply nth_sweep64. vm_compute. reflexivity. Qed.
Lemma d3_bits : forall a b, a < 64 -> b < 64 ->
  eqs [byte_of (d3 a b)] (octets (skipn 4 (six_bits a) ++ six_bits b)) = true.
Proof. apply nth_sweep64. vm_compute. reflexivity. Qed.

Lemma symbol_lt c : is_symbol c = true -> v64 c < 64.
Proof. intros H. apply (bits_sym true c H). Qed.

Lemma octets_app8 a b c d e f g h r : octets ([a;b;c;d;e;f;g;h] ++ r) = octets [a;b;c;d;e;f;g;h] ++ octets r.
Proof. reflexivity. Qed.

Lemma decoded_cons4 a b c d l :
  is_symbol a = true -> is_symbol b = true -> is_symbol c = true -> is_symbol d = true ->
  decoded (a :: b :: c :: d :: l) =
  byte_of (d1 (v64 a) (v64 b)) :: byte_of (d2 (v64 b) (v64 c)) :: byte_of (d3 (v64 c) (v64 d)) :: decoded l.
Proof.
  intros Ha Hb Hc Hd. unfold decoded. cbn [flat_map].
  apply symbol_lt in Ha, Hb, Hc, Hd.
  pose proof (d1_bits _ _ Ha Hb) as E1. pose proof (d2_bits _ _ Hb Hc) as E2. pose proof (d3_bits _ _ Hc Hd) as E3.
  apply eqs_true in E1, E2, E3.
  unfold symbol_bits. fold (v64 a) (v64 b) (v64 c) (v64 d).
  unfold six_bits in *. cbn [map app firstn skipn] in *. cbn [octets] in *.
  inversion E1 as [X1]. inversion E2 as [X2]. inversion E3 as [X3]. rewrite X1, X2, X3. reflexivity.
Qed.

(** * Decoding of significant characters *)
Definition good (l : str) : bool := forallb is_symbol l && (length l mod 4 =? 0).

Lemma dp_good sc o l : good l = true -> forall br,
  dpure sc o l 0 [] br false = (decoded l, Ok (br + 3 * (length l / 4))).
Proof.
  induction l as [|a|a b|a b c|a b c d l IH] using list_ind4; intros H br; unfold good in H;
    apply andb_true_iff in H; destruct H as [Hs Hm]; try (cbn in Hm; discriminate).
  - cbn. rewrite Nat.add_0_r. reflexivity.
  - cbn [forallb] in Hs. apply andb_true_iff in Hs; destruct Hs as [Ha Hs].
    apply andb_true_iff in Hs; destruct Hs as [Hb Hs].
    apply andb_true_iff in Hs; destruct Hs as [Hc Hs].
    apply andb_true_iff in Hs; destruct Hs as [Hd Hs].
    rewrite (dp_sym _ _ _ _ _ _ _ _ Ha). cbn [Nat.add Nat.eqb app].
    rewrite (dp_sym _ _ _ _ _ _ _ _ Hb). cbn [Nat.add Nat.eqb app].
    rewrite (dp_sym _ _ _ _ _ _ _ _ Hc). cbn [Nat.add Nat.eqb app].
    rewrite (dp_sym _ _ _ _ _ _ _ _ Hd). cbn [Nat.add Nat.eqb app].
    rewrite IH.
    + rewrite decoded_cons4 by assumption. do 2 f_equal. cbn [length]. lia.
    + unfold good. rewrite Hs. cbn [length] in Hm. cbn [andb]. apply Nat.eqb_eq. apply Nat.eqb_eq in Hm. lia.
Qed.

Lemma dp_bad sc o l : all_low sc l -> (forall c, In c l -> significant (ignoreInvalids o) c = true) ->
  good l = false -> forall br, exists w, dpure sc o l 0 [] br false = (w, Throw ExnRuntime).
Proof.
  induction l as [|a|a b|a b c|a b c d l IH] using list_ind4; intros Hl Hs Hg br.
  1: cbn in Hg; discriminate.
  all: repeat match goal with
    | H : all_low _ (_ :: _) |- _ => apply all_low_cons in H; destruct H
    end.
  all: assert (Hsa := Hs a ltac:(simpl; auto)).
  all: try assert (Hsb := Hs b ltac:(simpl; auto)).
  all: try assert (Hsc := Hs c ltac:(simpl; auto)).
  all: try assert (Hsd := Hs d ltac:(simpl; auto)).
  all: destruct (is_symbol a) eqn:Ea;
    [ rewrite (dp_sym _ _ _ _ _ _ _ _ Ea); cbn [Nat.add Nat.eqb app]
    | destruct (eqc_spec a eqch) as [->|Hn];
      [ apply dp_pad_throws; [lia| |]; try (intros x Hx; apply Hs; simpl in *; tauto); intros x Hx; simpl in Hx; decompose [or] Hx; subst; auto; fail
      | rewrite dp_inv by assumption; eauto ] ].
  1: (cbn [dpure]; eauto).
  all: destruct (is_symbol b) eqn:Eb;
    [ rewrite (dp_sym _ _ _ _ _ _ _ _ Eb); cbn [Nat.add Nat.eqb app]
    | destruct (eqc_spec b eqch) as [->|Hn];
      [ apply dp_pad_throws; [lia| |]; try (intros x Hx; apply Hs; simpl in *; tauto); intros x Hx; simpl in Hx; decompose [or] Hx; subst; auto; fail
      | rewrite dp_inv by assumption; eauto ] ].
  1: (cbn [dpure]; eauto).
  all: destruct (is_symbol c) eqn:Ec;
    [ rewrite (dp_sym _ _ _ _ _ _ _ _ Ec); cbn [Nat.add Nat.eqb app]
    | destruct (eqc_spec c eqch) as [->|Hn];
      [ apply dp_pad_throws; [lia| |]; try (intros x Hx; apply Hs; simpl in *; tauto); intros x Hx; simpl in Hx; decompose [or] Hx; subst; auto; fail
      | rewrite dp_inv by assumption; eauto ] ].
  1: (cbn [dpure]; eauto).
  all: destruct (is_symbol d) eqn:Ed;
    [ rewrite (dp_sym _ _ _ _ _ _ _ _ Ed); cbn [Nat.add Nat.eqb app]
    | destruct (eqc_spec d eqch) as [->|Hn];
      [ apply dp_pad_throws; [lia| |]; try (intros x Hx; apply Hs; simpl in *; tauto); intros x Hx; simpl in Hx; decompose [or] Hx; subst; auto; fail
      | rewrite dp_inv by assumption; eauto ] ].
  destruct (IH ltac:(assumption) ltac:(intros; apply Hs; simpl; tauto)) with (br := br + 1 + 1 + 1) as [w ->]; [|eauto].
  unfold good in *. cbn [forallb length] in Hg. rewrite Ea, Eb, Ec, Ed in Hg. cbn [andb] in Hg.
  destruct (forallb is_symbol l); [|reflexivity]. cbn [andb] in *. apply Nat.eqb_neq. apply Nat.eqb_neq in Hg. lia.
Qed.

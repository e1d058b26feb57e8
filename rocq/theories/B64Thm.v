(** Final lemmas for the base64 properties, in the exact form of B64Props.v. *)
From Verif Require Import Base B64Spec B64Model B64Facts B64Dec B64Dec2.
Require Import ZifyBool ZifyNat.
Ltac Zify.zify_post_hook ::= Z.div_mod_to_equations.

Lemma plain_lemma : forall o d, addNewLines o = false -> Encode o d = Ok (rfc4648 d).
Proof. intros o d H. rewrite encode_closed, H. reflexivity. Qed.

Lemma layout_lemma : forall o d, addNewLines o = true ->
  exists k,
    Encode o d = Ok ((if 54 <=? length d
                      then firstn 72 (rfc4648 d) ++ [nl] ++ skipn 72 (rfc4648 d)
                      else rfc4648 d) ++ repeat nul k)
    /\ k + (if 54 <=? length d then 1 else 0) = length (rfc4648 d) / 72
    /\ (k = 0 <-> length d < 52 \/ 54 <= length d < 106).
Proof.
  intros o d H. pose proof (broken_length d) as HL. unfold broken_at in HL.
  pose proof (rfc_length d) as HR.
  exists (length (rfc4648 d) / 72 - (if 54 <=? length d then 1 else 0)).
  rewrite encode_closed, H. cbv zeta. split.
  - change ([nl] ++ skipn 72 (rfc4648 d)) with (nl :: skipn 72 (rfc4648 d)). rewrite HL. do 3 f_equal. lia.
  - rewrite HR. destruct (54 <=? length d) eqn:E; lia.
Qed.

Lemma safe_lemma : forall o d, exists s, Encode o d = Ok s /\
  length s = (let c := (length d + 2) / 3 * 4 in c + (if addNewLines o then c / 72 else 0)).
Proof.
  intros o d. rewrite encode_closed. eexists. split; [reflexivity|]. cbv zeta.
  destruct (addNewLines o).
  - rewrite app_length, repeat_length. pose proof (broken_length d) as HL. unfold broken_at in HL.
    pose proof (rfc_length d) as HR. rewrite <- HR.
    assert (length (if 54 <=? length d then firstn 72 (rfc4648 d) ++ nl :: skipn 72 (rfc4648 d) else rfc4648 d)
            <= length (rfc4648 d) + length (rfc4648 d) / 72).
    { rewrite HL. destruct (54 <=? length d) eqn:E; lia. }
    lia.
  - rewrite rfc_length. lia.
Qed.

Lemma roundtrip_lemma : forall sc oe od d text buf,
  Encode oe d = Ok text -> length d < length buf ->
  (length d mod 3 = 0 /\ (addNewLines oe = false \/ ignoreInvalids od = true \/ length d < 108) ->
     Decode sc od text buf = (map Some d ++ skipn (length d) buf, Ok (length d))) /\
  (~ (length d mod 3 = 0 /\ (addNewLines oe = false \/ ignoreInvalids od = true \/ length d < 108)) ->
     snd (Decode sc od text buf) = Throw ExnRuntime).
Proof.
  intros sc oe od d text buf H Hb. pose proof (decode_encode_run sc oe od d text buf H Hb) as E. rewrite E.
  split.
  - intros [Hm Hc]. unfold extra. replace (length d mod 3 =? 0) with true by lia. rewrite app_nil_r.
    replace (true && (ignoreInvalids od || (nuls oe d =? 0))) with true; [reflexivity|].
    symmetry. cbn [andb]. apply orb_true_iff. pose proof (nuls_zero oe d Hm) as Hz.
    destruct Hc as [Hc|[Hc|Hc]]; [right; apply Nat.eqb_eq, Hz; auto|left; exact Hc|right; apply Nat.eqb_eq, Hz; auto].
  - intros Hn. cbn [snd].
    destruct ((length d mod 3 =? 0) && (ignoreInvalids od || (nuls oe d =? 0))) eqn:Ec; [|reflexivity].
    exfalso. apply Hn. apply andb_true_iff in Ec. destruct Ec as [Em Ec]. apply Nat.eqb_eq in Em.
    split; [exact Em|]. apply orb_true_iff in Ec. destruct Ec as [Ec|Ec]; [tauto|].
    apply Nat.eqb_eq in Ec. apply nuls_zero in Ec; tauto.
Qed.

Lemma low_seven sc s : seven_bit s -> all_low sc s.
Proof. intros H c Hc. right. apply H, Hc. Qed.

Lemma language_lemma : forall sc o s buf, seven_bit s -> length s <= length buf ->
  let l := sig (ignoreInvalids o) s in
  (forallb is_symbol l = true /\ length l mod 4 = 0 ->
     length (decoded l) = 3 * (length l / 4) /\
     Decode sc o s buf = (map Some (decoded l) ++ skipn (length (decoded l)) buf, Ok (length (decoded l)))) /\
  (~ (forallb is_symbol l = true /\ length l mod 4 = 0) ->
     snd (Decode sc o s buf) = Throw ExnRuntime).
Proof.
  intros sc o s buf H7 Hb l.
  assert (Hg : good l = true <-> forallb is_symbol l = true /\ length l mod 4 = 0).
  { unfold good. rewrite andb_true_iff, Nat.eqb_eq. tauto. }
  split.
  - intros Hc. apply Hg in Hc. split; [apply decoded_length; exact Hc|].
    rewrite (decoded_length l Hc) at 2. unfold l in *.
    rewrite (decode_accepts sc o s buf (low_seven _ _ H7) Hb Hc). reflexivity.
  - intros Hn. apply decode_rejects; [apply low_seven, H7|exact Hb|].
    destruct (good (sig (ignoreInvalids o) s)) eqn:E; [|reflexivity]. exfalso. apply Hn, Hg, E.
Qed.

Lemma significant_pad ign : significant ign "="%char = true.
Proof. destruct ign; reflexivity. Qed.

Lemma padded_lemma : forall sc o s buf, seven_bit s -> length s <= length buf -> In "="%char s ->
  snd (Decode sc o s buf) = Throw ExnRuntime.
Proof.
  intros sc o s buf H7 Hb Hin. apply (language_lemma sc o s buf H7 Hb).
  intros [Hs _]. rewrite forallb_forall in Hs.
  specialize (Hs "="%char). discriminate Hs.
  apply filter_In. split; [exact Hin|apply significant_pad].
Qed.

Lemma overrun_lemma : forall sc oe od d text, Encode oe d = Ok text -> length d mod 3 <> 0 ->
  forall buf, length buf = length d -> snd (Decode sc od text buf) = UB.
Proof.
  intros sc oe od d text H Hm buf Hb.
  eapply decode_small; [apply (dp_encode sc); exact H|].
  unfold extra. replace (length d mod 3 =? 0) with false by lia. rewrite app_length. cbn. lia.
Qed.

Lemma fits_lemma : forall sc o s n buf, seven_bit s -> IsBase64 sc o s = Ok n -> 0 < n -> n <= length buf ->
  exists w r, Decode sc o s buf = (map Some w ++ skipn (length w) buf, r) /\ length w <= n /\ r <> UB.
Proof. intros sc o s n buf H7. apply decode_fits, low_seven, H7. Qed.

Lemma count_lemma : forall sc o s, seven_bit s -> IsBase64 sc o s = Ok (symbol_count (ignoreInvalids o) s).
Proof. intros. apply IsBase64_spec, low_seven; assumption. Qed.

Lemma good_count ign s : forallb is_symbol (sig ign s) = true -> length (sig ign s) mod 4 = 0 ->
  symbol_count ign s = length (sig ign s).
Proof.
  intros Hs Hm. unfold symbol_count, leading, remainder.
  assert (E : forall l, forallb is_symbol l = true -> takew is_symbol l = l /\ dropw is_symbol l = []).
  { induction l as [|c l IH]; [auto|]. cbn. intros H. apply andb_true_iff in H. destruct H as [H1 H2]. rewrite H1.
    destruct (IH H2) as [-> ->]. auto. }
  destruct (E _ Hs) as [-> ->]. rewrite (proj2 (Nat.eqb_eq _ _) Hm). reflexivity.
Qed.

Lemma ratio_lemma : forall sc o s buf n m out, seven_bit s -> length s <= length buf ->
  IsBase64 sc o s = Ok n -> Decode sc o s buf = (out, Ok m) -> 4 * m = 3 * n.
Proof.
  intros sc o s buf n m out H7 Hb Hi Hd.
  destruct (language_lemma sc o s buf H7 Hb) as [Hok Hno].
  destruct (good (sig (ignoreInvalids o) s)) eqn:E.
  - unfold good in E. apply andb_true_iff in E. destruct E as [E1 E2]. apply Nat.eqb_eq in E2.
    destruct (Hok (conj E1 E2)) as [Hlen Hd'].
    rewrite Hd in Hd'. inversion Hd'. subst m.
    rewrite count_lemma in Hi by exact H7. inversion Hi. subst n.
    rewrite good_count by assumption. lia.
  - exfalso. rewrite Hd in Hno. cbn [snd] in Hno. discriminate Hno.
    intros [H1 H2]. unfold good in E. rewrite H1 in E. cbn [andb] in E. apply Nat.eqb_neq in E. congruence.
Qed.

Lemma unsigned_defined : forall o s buf, length s <= length buf ->
  snd (Decode false o s buf) <> UB /\ IsBase64 false o s <> UB.
Proof.
  intros o s buf Hb. assert (Hl : all_low false s) by (intros c _; left; reflexivity). split.
  - pose proof (no_ub false o s 0 [] 0 false Hl (or_introl eq_refl) ltac:(lia)) as U.
    pose proof (dp_writes false o s 0 [] 0 false) as W.
    destruct (dpure false o s 0 [] 0 false) as [w r] eqn:E.
    rewrite (decode_of_dpure _ _ _ _ _ _ E); [exact U|cbn in W; lia].
  - rewrite IsBase64_spec by exact Hl. discriminate.
Qed.

(** the text of any encoding in which the bytes need three different alignments *)
Definition bytes (n : nat) : str := map chr (seq 0 n).

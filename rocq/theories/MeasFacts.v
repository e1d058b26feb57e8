(** Facts about the measurement model. *)
From Coq Require Import Floats.SpecFloat.
From Verif Require Import Base Str B64Spec B64Model B64Facts B64Dec B64Dec2 B64Thm Dec XmlText MeasModel.

(** * Escaping *)
Definition esc1 (c : ascii) : str :=
  if eqc c "&" then $"&amp;" else if eqc c "<" then $"&lt;" else if eqc c ">" then $"&gt;" else [c].
Definition plainc (c : ascii) : bool := negb (special c).

Lemma find_special_app p s : find_special (p ++ s) (length p) = option_map (fun i => length p + i) (find_special s 0).
Proof.
  induction p as [|x p IH]; cbn [app length find_special].
  - destruct (find_special s 0); reflexivity.
  - rewrite IH. destruct (find_special s 0); reflexivity.
Qed.
Lemma special_split s : forallb plainc s = true \/ exists a c b, s = a ++ c :: b /\ special c = true /\ forallb plainc a = true.
Proof.
  induction s as [|x s IH]; [left; reflexivity|].
  destruct (special x) eqn:E.
  - right. exists [], x, s. auto.
  - destruct IH as [H|(a & c & b & -> & H1 & H2)].
    + left. cbn. unfold plainc at 1. rewrite E. exact H.
    + right. exists (x :: a), c, b. cbn. unfold plainc at 1. rewrite E. auto.
Qed.
Lemma find_special_none s : forallb plainc s = true -> find_special s 0 = None.
Proof.
  induction s as [|x s IH]; [reflexivity|]. cbn. unfold plainc at 1. intros H.
  apply andb_true_iff in H. destruct H as [H1 H2]. apply negb_true_iff in H1. rewrite H1, IH by exact H2. reflexivity.
Qed.
Lemma find_special_first a c b : forallb plainc a = true -> special c = true -> find_special (a ++ c :: b) 0 = Some (length a).
Proof.
  intros Ha Hc. induction a as [|x a IH]; cbn [app find_special]; [rewrite Hc; reflexivity|].
  cbn in Ha. unfold plainc at 1 in Ha. apply andb_true_iff in Ha. destruct Ha as [H1 H2]. apply negb_true_iff in H1.
  rewrite H1, IH by exact H2. reflexivity.
Qed.
Lemma esc_plain a : forallb plainc a = true -> flat_map esc1 a = a.
Proof.
  induction a as [|x a IH]; [reflexivity|]. cbn [forallb flat_map]. intros H. apply andb_true_iff in H. destruct H as [H1 H2].
  rewrite IH by exact H2. unfold esc1. unfold plainc, special in H1. apply negb_true_iff in H1.
  apply orb_false_iff in H1. destruct H1 as [H1 H3]. apply orb_false_iff in H1. destruct H1 as [H1 H4].
  rewrite H1, H4, H3. reflexivity.
Qed.

Lemma escape_loop_spec fuel : forall p rest result, length rest < fuel ->
  escape_loop fuel (p ++ rest) result (length p) (find_special (p ++ rest) (length p)) = Ok (result ++ flat_map esc1 rest).
Proof.
  induction fuel as [|fuel IH]; intros p rest result Hf; [lia|].
  rewrite find_special_app. destruct (special_split rest) as [Hp|(a & c & b & -> & Hc & Ha)].
  - rewrite find_special_none by exact Hp. cbn [option_map escape_loop]. unfold append_sub.
    rewrite app_length. replace (length p + length rest <? length p) with false by lia.
    rewrite skipn_app, skipn_all, Nat.sub_diag. cbn [skipn app]. rewrite esc_plain by exact Hp. reflexivity.
  - rewrite find_special_first by assumption. cbn [option_map escape_loop]. unfold append_sub.
    rewrite app_length. replace (length p + length (a ++ c :: b) <? length p) with false by lia.
    replace (length p + length a - length p) with (length a) by lia.
    rewrite substr_mid. cbn [bind].
    unfold rd. rewrite app_assoc. rewrite nth_error_app2 by (rewrite app_length; lia).
    rewrite app_length. replace (length p + length a - (length p + length a)) with 0 by lia. cbn [nth_error bind].
    rewrite <- app_assoc.
    assert (E : p ++ a ++ c :: b = (p ++ a ++ [c]) ++ b) by (rewrite <- !app_assoc; reflexivity).
    rewrite E. replace (length p + length a + 1) with (length (p ++ a ++ [c])) by (rewrite !app_length; cbn; lia).
    rewrite IH.
    + rewrite flat_map_app, (esc_plain a Ha). cbn [flat_map]. unfold esc1 at 2.
      f_equal. unfold special in Hc.
      destruct (eqc c "&"), (eqc c "<"), (eqc c ">"); try discriminate Hc; rewrite <- !app_assoc; reflexivity.
    + rewrite app_length in Hf. cbn in Hf. lia.
Qed.
Lemma escape_spec s : ApplyEscapeSequences s = Ok (flat_map esc1 s).
Proof. unfold ApplyEscapeSequences. apply (escape_loop_spec (S (S (length s))) [] s []). lia. Qed.

Lemma unescape_esc1 c r : unescape_from None (esc1 c ++ r) = option_map (cons c) (unescape_from None r).
Proof.
  unfold esc1. destruct (eqc_spec c "&") as [->|H1]; [reflexivity|].
  destruct (eqc_spec c "<") as [->|H2]; [reflexivity|].
  destruct (eqc_spec c ">") as [->|H3]; [reflexivity|].
  cbn [app unescape_from]. apply eqc_false in H1, H2. rewrite H1, H2. reflexivity.
Qed.
Lemma unescape_escape s : unescape (flat_map esc1 s) = Some s.
Proof.
  unfold unescape. induction s as [|c s IH]; [reflexivity|]. cbn [flat_map].
  rewrite unescape_esc1, IH. reflexivity.
Qed.
Lemma esc1_no_angle c : free "<" (esc1 c) /\ free ">" (esc1 c).
Proof.
  unfold esc1. destruct (eqc_spec c "&") as [->|H1]; [split; apply freeb_spec; reflexivity|].
  destruct (eqc_spec c "<") as [->|H2]; [split; apply freeb_spec; reflexivity|].
  destruct (eqc_spec c ">") as [->|H3]; [split; apply freeb_spec; reflexivity|].
  split; apply free_cons; auto using free_nil.
Qed.
Lemma escape_no_angle s : free "<" (flat_map esc1 s) /\ free ">" (flat_map esc1 s).
Proof.
  induction s as [|c s [IH1 IH2]]; [split; apply free_nil|]. cbn [flat_map].
  destruct (esc1_no_angle c). split; apply free_app; auto.
Qed.
(** every ampersand starts one of the three entities *)
Lemma escape_amp s : forall a b, flat_map esc1 s = a ++ "&"%char :: b ->
  exists e r, b = e ++ r /\ In e [$"amp;"; $"lt;"; $"gt;"].
Proof.
  induction s as [|c s IH]; intros a b H; [destruct a; discriminate H|]. cbn [flat_map] in H.
  assert (HE : forall e0, esc1 c = "&"%char :: e0 -> free "&" e0 -> In e0 [$"amp;"; $"lt;"; $"gt;"] ->
     exists e r, b = e ++ r /\ In e [$"amp;"; $"lt;"; $"gt;"]).
  { intros e0 E F I0. rewrite E in H. destruct a as [|x a]; cbn [app] in H; injection H as H.
    - exists e0, (flat_map esc1 s). split; [auto|exact I0].
    - subst x. 
      assert (G : forall u v, free "&" u -> u ++ v = a ++ "&"%char :: b -> exists a', v = a' ++ "&"%char :: b).
      { clear. induction u as [|y u IHu] in a |- *; intros v Fu E; [exists a; exact E|].
        destruct a as [|z a]; cbn [app] in E; injection E as E1 E2.
        - exfalso. apply Fu. left. exact E1.
        - apply free_cons in Fu. apply (IHu a v); tauto. }
      destruct (G e0 _ F H0) as [a' Ha']. apply (IH a' b Ha'). }
  unfold esc1 in H, HE. destruct (eqc_spec c "&") as [->|H1].
  { apply (HE ($"amp;")); [reflexivity|apply freeb_spec; reflexivity|cbn; auto]. }
  destruct (eqc_spec c "<") as [->|H2].
  { apply (HE ($"lt;")); [reflexivity|apply freeb_spec; reflexivity|cbn; auto]. }
  destruct (eqc_spec c ">") as [->|H3].
  { apply (HE ($"gt;")); [reflexivity|apply freeb_spec; reflexivity|cbn; auto]. }
  cbn [app] in H. destruct a as [|x a]; cbn [app] in H; injection H as Hx Hr; [congruence|].
  apply (IH a b Hr).
Qed.

(** * Types *)
Lemma type_of_inj a b : type_of a = type_of b -> a = b.
Proof. destruct a, b; intros H; try reflexivity; vm_compute in H; discriminate. Qed.
Lemma create_some t c : CreateDataMeasurement t = Some c <-> t = type_of c.
Proof.
  split.
  - unfold CreateDataMeasurement. intros H.
    repeat match type of H with (if eqs t ?k then _ else _) = _ => destruct (eqs_spec t k) as [->|?]; [injection H as <-; reflexivity|] end.
    discriminate.
  - intros ->. destruct c; reflexivity.
Qed.
Lemma create_none t : CreateDataMeasurement t = None <-> forall c, t <> type_of c.
Proof.
  split.
  - intros H c E. apply create_some in E. congruence.
  - intros H. destruct (CreateDataMeasurement t) as [c|] eqn:E; [|reflexivity]. apply create_some in E. elim (H c E).
Qed.
Lemma cls_eqb_true a b : cls_eqb a b = true <-> a = b.
Proof. destruct a, b; split; intros H; try reflexivity; discriminate. Qed.

(** * Data *)
Lemma skipn_repeat {A} (x : A) k n : skipn k (repeat x n) = repeat x (n - k).
Proof. revert k. induction n as [|n IH]; intros [|k]; try reflexivity. cbn [repeat skipn]. rewrite IH. reflexivity. Qed.
Lemma set_data_same d : set_data d (ddata d) = d.
Proof. destruct d; reflexivity. Qed.
Lemma delete_none d : ddata d = None -> DeleteContentAsData d = d.
Proof. intros H. destruct d. cbn in *. subst. reflexivity. Qed.

(** [memeq] on determinate bytes *)
Lemma memeq_bytes a b : memeq (length a) (map Some a) (map Some b) = (if length a <=? length b then Ok (eqs a (firstn (length a) b)) else UB).
Proof.
  revert b. induction a as [|x a IH]; intros b; [reflexivity|].
  destruct b as [|y b]; [reflexivity|]. cbn [length map memeq]. rewrite IH. cbn [Nat.leb].
  destruct (length a <=? length b); reflexivity.
Qed.
Lemma memeq_same_length a b : length a = length b -> memeq (length a) (map Some a) (map Some b) = Ok (eqs a b).
Proof. intros H. rewrite memeq_bytes. replace (length a <=? length b) with true by lia. rewrite H, firstn_all. reflexivity. Qed.

(** The bytes a comparison sees, if they are all determinate and need no decoding. *)
Definition direct (d : dm) (bytes : str) : Prop :=
  ddata d = Some (map Some bytes) \/ (ddata d = None /\ denc d <> $"base64" /\ dcontent d = bytes).

Lemma ensure_direct sc d bytes : direct d bytes -> ensure_data sc d = (d, Ok tt) /\ data_view d = map Some bytes.
Proof.
  intros [H|(H1 & H2 & H3)]; unfold ensure_data, data_view.
  - rewrite H. auto.
  - rewrite H1. unfold UpdateContentAsData. rewrite delete_none by exact H1. subst bytes.
    destruct (eqs (denc d) ($"none")); [auto|]. apply eqs_false in H2. rewrite H2. auto.
Qed.

Lemma data_IsEqual_direct sc a b x y : direct a x -> direct b y ->
  data_IsEqual sc a b = (a, b, Ok (eqs (dname a) (dname b) && cls_eqb (dcls a) (dcls b) && eqs x y)).
Proof.
  intros Ha Hb. unfold data_IsEqual.
  destruct (ensure_direct sc a x Ha) as [Ea Va]. destruct (ensure_direct sc b y Hb) as [Eb Vb].
  unfold GetContentAsDataSize, GetContentAsData. rewrite Ea, Eb. cbn [bind]. rewrite Ea, Eb. cbn [bind].
  rewrite Va, Vb, !map_length.
  assert (Et : eqs (type_of (dcls a)) (type_of (dcls b)) = cls_eqb (dcls a) (dcls b)).
  { destruct (cls_eqb (dcls a) (dcls b)) eqn:E.
    - apply cls_eqb_true in E. rewrite E. apply eqs_refl.
    - apply eqs_false. intros H. apply type_of_inj in H. apply cls_eqb_true in H. congruence. }
  rewrite Et. destruct (eqs (dname a) (dname b) && cls_eqb (dcls a) (dcls b)); [|reflexivity].
  cbn [andb]. destruct (Nat.eqb_spec (length x) (length y)) as [E|E].
  - rewrite Ea. cbn [bind]. rewrite Va, map_length. rewrite memeq_same_length by exact E. reflexivity.
  - destruct (eqs_spec x y) as [->|]; [congruence|reflexivity].
Qed.

(** [SetContentAsData] *)
Lemma set_none d bytes : denc d = $"none" -> dcomp d = $"none" ->
  SetContentAsData d bytes = (set_data d (Some (map Some bytes)), Ok tt).
Proof. intros H1 H2. unfold SetContentAsData. cbn [dcomp denc set_data DeleteContentAsData]. rewrite H2. cbn. rewrite H1. reflexivity. Qed.

Lemma update_b64 sc d : denc d = $"base64" -> seven_bit (dcontent d) ->
  let l := sig false (dcontent d) in
  let n := symbol_count false (dcontent d) in
  (n = 0 -> UpdateContentAsData sc d = (DeleteContentAsData d, Ok tt)) /\
  (0 < n -> forallb is_symbol l = true -> length l mod 4 = 0 ->
     UpdateContentAsData sc d = (set_data d (Some (map Some (decoded l) ++ repeat None (length l / 4))), Ok tt)) /\
  (0 < n -> ~ (forallb is_symbol l = true /\ length l mod 4 = 0) ->
     exists w, length w <= n /\
       UpdateContentAsData sc d = (set_data d (Some (map Some w ++ repeat None (n - length w))), Throw ExnRuntime)).
Proof.
  intros He H7 l n. unfold UpdateContentAsData. cbn [denc DeleteContentAsData dcontent].
  rewrite He. change (eqs ($"base64") ($"none")) with false. change (eqs ($"base64") ($"base64")) with true. cbv iota.
  rewrite count_lemma by exact H7. cbn [ignoreInvalids default_opts]. fold n.
  assert (Hcnt : 0 < n -> forallb is_symbol l = true -> length l mod 4 = 0 -> n = length l /\ length (decoded l) = 3 * (length l / 4)).
  { intros _ Hs Hm. split; [apply good_count; assumption|]. apply decoded_length. unfold good. rewrite Hs, Hm. reflexivity. }
  pose proof (low_seven sc _ H7) as Hl.
  split; [intros ->; reflexivity|]. split.
  - intros Hn Hs Hm. destruct (Hcnt Hn Hs Hm) as [E1 E2]. destruct n as [|n'] eqn:En; [lia|].
    rewrite (decode_of_dpure sc default_opts (dcontent d) (repeat None (S n')) (decoded l) (Ok (3 * (length l / 4)))).
    + unfold set_data. cbn [dname desc dcls denc dcomp dcontent DeleteContentAsData]. f_equal. f_equal. f_equal. f_equal.
      rewrite skipn_repeat. f_equal. rewrite E2, E1. pose proof (Nat.div_mod (length l) 4 ltac:(lia)). lia.
    + rewrite dp_filter by exact Hl. cbn [ignoreInvalids default_opts]. fold l.
      rewrite dp_good; [reflexivity|]. unfold good. rewrite Hs, Hm. reflexivity.
    + rewrite repeat_length. lia.
  - intros Hn Hb.
    assert (Hg : good l = false).
    { destruct (good l) eqn:E; [|reflexivity]. elim Hb. unfold good in E. apply andb_true_iff in E. destruct E as [E1 E2].
      apply Nat.eqb_eq in E2. auto. }
    destruct (dp_bad sc default_opts l (sig_low _ _ _ Hl) (sig_sig _ _) Hg 0) as [w Hw].
    assert (Hw' : dpure sc default_opts (dcontent d) 0 [] 0 false = (w, Throw ExnRuntime)).
    { rewrite dp_filter by exact Hl. exact Hw. }
    assert (Hlen : length w <= n).
    { pose proof (lockstep sc default_opts (dcontent d) 0 [] 0 0 n ltac:(lia) eq_refl ltac:(lia)) as L.
      rewrite Hw' in L. cbn [fst] in L. specialize (L (count_lemma sc default_opts _ H7) Hn). lia. }
    exists w. split; [exact Hlen|]. destruct n as [|n'] eqn:En; [lia|].
    rewrite (decode_of_dpure sc default_opts (dcontent d) (repeat None (S n')) w (Throw ExnRuntime)); [|exact Hw'|rewrite repeat_length; exact Hlen].
    unfold set_data. cbn [dname desc dcls denc dcomp dcontent DeleteContentAsData]. f_equal. f_equal. f_equal. f_equal.
    apply skipn_repeat.
Qed.

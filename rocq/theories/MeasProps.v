(** Properties C16, C18-C25: measurements (C17 and C26 are in later files). *)
From Coq Require Import Reals.
From Flocq Require Import Core.
From Coq Require Import Floats.SpecFloat.
From Verif Require Import Base Str B64Spec B64Model B64Thm Dec XmlText MeasModel MeasFacts MeasFacts2 FloatFacts TolFacts.

(** C16 *)
Theorem C16_escape_total_and_lossless : forall s, exists e, ApplyEscapeSequences s = Ok e /\ unescape e = Some s.
Proof. intros s. exists (flat_map esc1 s). split; [apply escape_spec|apply unescape_escape]. Qed.
Print Assumptions C16_escape_total_and_lossless.
Theorem C16_no_markup : forall s e, ApplyEscapeSequences s = Ok e ->
  free "<" e /\ free ">" e /\
  forall a b, e = a ++ "&"%char :: b -> exists n r, b = n ++ r /\ In n [$"amp;"; $"lt;"; $"gt;"].
Proof.
  intros s e H. rewrite escape_spec in H. apply Ok_inj in H. subst e.
  destruct (escape_no_angle s). split; [assumption|]. split; [assumption|]. apply escape_amp.
Qed.
Print Assumptions C16_no_markup.
Theorem C16_injective : forall s t, ApplyEscapeSequences s = ApplyEscapeSequences t -> s = t.
Proof.
  intros s t H. rewrite !escape_spec in H. apply Ok_inj in H.
  pose proof (unescape_escape s) as A. rewrite H, unescape_escape in A. congruence.
Qed.
Print Assumptions C16_injective.
Theorem C16_identity_iff : forall s, ApplyEscapeSequences s = Ok s <-> free "&" s /\ free "<" s /\ free ">" s.
Proof.
  intros s. rewrite escape_spec. split.
  - intros H. apply Ok_inj in H. destruct (escape_no_angle s) as [A B]. rewrite H in A, B. split; [|auto].
    assert (L : forall u, length u <= length (flat_map esc1 u) /\ (In "&"%char u -> length u < length (flat_map esc1 u))).
    { induction u as [|c u [IH1 IH2]]; [cbn; split; [lia|tauto]|]. cbn [flat_map]. rewrite app_length. cbn [length In].
      assert (1 <= length (esc1 c)) by (unfold esc1; destruct (eqc c "&"), (eqc c "<"), (eqc c ">"); cbn; lia).
      split; [lia|]. intros [->|Hi]; [|specialize (IH2 Hi); lia]. change (length (esc1 "&")) with 5. lia. }
    intros Hi. destruct (L s) as [_ L2]. specialize (L2 Hi). rewrite H in L2. lia.
  - intros (A & B & C). f_equal. apply esc_plain. apply forallb_forall. intros c Hc. unfold plainc, special.
    assert (eqc c "&" = false) by (apply eqc_false; intros ->; auto).
    assert (eqc c "<" = false) by (apply eqc_false; intros ->; auto).
    assert (eqc c ">" = false) by (apply eqc_false; intros ->; auto).
    rewrite H, H0, H1. reflexivity.
Qed.
Print Assumptions C16_identity_iff.
Example C16_case : ApplyEscapeSequences ($"a<b && c>d") = Ok ($"a&lt;b &amp;&amp; c&gt;d").
Proof. vm_compute. reflexivity. Qed.

(** C18 *)
Theorem C18_factory : forall t c, CreateDataMeasurement t = Some c <-> t = type_of c.
Proof. exact create_some. Qed.
Print Assumptions C18_factory.
Theorem C18_unknown : forall t, CreateDataMeasurement t = None <-> forall c, t <> type_of c.
Proof. exact create_none. Qed.
Print Assumptions C18_unknown.
Theorem C18_types_distinct : forall a b, type_of a = type_of b -> a = b.
Proof. exact type_of_inj. Qed.
Print Assumptions C18_types_distinct.
(** loading a file: class by type, plain text for any other type, name kept *)
Theorem C18_load : forall fs f bytes, fs (cstr (ffile f)) = Bytes bytes ->
  exists d, Load fs f = Ok d /\ dname d = fname f /\ ddata d = Some (map Some bytes) /\ denc d = $"none" /\
    (forall c, ftype f = type_of c -> dcls d = c) /\
    ((forall c, ftype f <> type_of c) -> dcls d = CPlain).
Proof.
  intros fs f bytes H. exists (loaded f bytes). rewrite load_spec, H.
  split; [reflexivity|]. split; [reflexivity|]. split; [reflexivity|]. split; [reflexivity|]. cbn [dcls loaded]. split.
  - intros c E. apply create_some in E. rewrite E. reflexivity.
  - intros E. apply create_none in E. rewrite E. reflexivity.
Qed.
Print Assumptions C18_load.
Example C18_case : CreateDataMeasurement ($"numeric/double") = Some CDouble /\ CreateDataMeasurement ($"image/png") = None.
Proof. vm_compute. auto. Qed.

(** C19 *)
Theorem C19_set_data_without_encoding : forall sc d bytes, denc d = $"none" -> dcomp d = $"none" ->
  exists d', SetContentAsData d bytes = (d', Ok tt) /\
    GetContentAsData sc d' = (d', Ok (map Some bytes)) /\ GetContentAsDataSize sc d' = (d', Ok (length bytes)) /\
    dcontent d' = dcontent d /\ Print (MD d') = Print (MD d).
Proof.
  intros sc d bytes H1 H2. exists (set_data d (Some (map Some bytes))). rewrite set_none by assumption.
  split; [reflexivity|]. split; [reflexivity|]. split; [|split; reflexivity].
  unfold GetContentAsDataSize, ensure_data, data_view. cbn [ddata set_data bind]. rewrite map_length. reflexivity.
Qed.
Print Assumptions C19_set_data_without_encoding.
(** the header: "Based on the current attributes the data is converted to/from the string based contents" *)
Theorem C19_conversion_refuted : exists d bytes d', SetContentAsData d bytes = (d', Ok tt) /\
  denc d' = $"none" /\ bytes <> [] /\ dcontent d' = [].
Proof. exists (new_dm CPlain), ($"abc"). eexists. split; [vm_compute; reflexivity|]. split; [reflexivity|]. split; [discriminate|reflexivity]. Qed.
Print Assumptions C19_conversion_refuted.
Theorem C19_copy_loses_data : forall sc d bytes d', denc d = $"none" -> dcomp d = $"none" ->
  SetContentAsData d bytes = (d', Ok tt) -> GetContentAsData sc (Copy d') = (Copy d', Ok (map Some (dcontent d))).
Proof.
  intros sc d bytes d' H1 H2 H. rewrite set_none in H by assumption. injection H as <-.
  destruct (ensure_direct sc (Copy (set_data d (Some (map Some bytes)))) (dcontent d)) as [E V].
  { right. split; [reflexivity|]. cbn [denc dcontent Copy DeleteContentAsData set_data]. rewrite H1.
    split; [vm_compute; discriminate|reflexivity]. }
  unfold GetContentAsData. rewrite E. cbn [bind]. rewrite V. reflexivity.
Qed.
Print Assumptions C19_copy_loses_data.
Theorem C19_set_data_with_compression : forall d bytes d' r, dcomp d <> $"none" ->
  SetContentAsData d bytes = (d', r) ->
  r = Ok tt /\ ddata d' = None /\ dcontent d' = if eqs (denc d) ($"base64") then [] else dcontent d.
Proof.
  intros d bytes d' r Hc H. unfold SetContentAsData in H. cbn [dcomp denc set_data DeleteContentAsData] in H.
  apply eqs_false in Hc. rewrite Hc in H. cbn [denc set_data DeleteContentAsData] in H.
  destruct (eqs_spec (denc d) ($"none")) as [E|E].
  - injection H as <- <-. rewrite E. auto.
  - destruct (eqs (denc d) ($"base64")).
    + change (Encode default_opts []) with (@Ok str []) in H. injection H as <- <-. auto.
    + injection H as <- <-. auto.
Qed.
Print Assumptions C19_set_data_with_compression.
Theorem C19_stale_after_encoding_change : forall sc d l e, ddata d = Some l ->
  GetContentAsData sc (SetAttributeEncoding d e) = (SetAttributeEncoding d e, Ok l).
Proof. intros sc d l e H. unfold GetContentAsData, ensure_data. cbn [ddata SetAttributeEncoding]. rewrite H. unfold data_view. cbn [bind ddata SetAttributeEncoding]. rewrite H. reflexivity. Qed.
Print Assumptions C19_stale_after_encoding_change.
Theorem C19_set_content_refreshes : forall sc d s, denc d <> $"base64" ->
  GetContentAsData sc (SetContent d s) = (SetContent d s, Ok (map Some s)).
Proof.
  intros sc d s H. destruct (ensure_direct sc (SetContent d s) s) as [E V].
  { right. split; [reflexivity|]. split; [exact H|reflexivity]. }
  unfold GetContentAsData. rewrite E. cbn [bind]. rewrite V. reflexivity.
Qed.
Print Assumptions C19_set_content_refreshes.
Example C19_case : exists d', SetContentAsData (SetContent (new_dm CPlain) ($"old")) ($"new!") = (d', Ok tt) /\ dcontent d' = $"old".
Proof. eexists. split; [vm_compute; reflexivity|reflexivity]. Qed.

(** C20 *)
Theorem C20_base64_data : forall sc d, ddata d = None -> denc d = $"base64" -> seven_bit (dcontent d) ->
  let l := sig false (dcontent d) in
  let n := symbol_count false (dcontent d) in
  (* not base64: the text itself *)
  (n = 0 -> GetContentAsData sc d = (d, Ok (map Some (dcontent d)))) /\
  (* unpadded: the decoded bytes followed by a third as many indeterminate ones *)
  (0 < n -> forallb is_symbol l = true -> length l mod 4 = 0 ->
     length (decoded l) = 3 * (length l / 4) /\
     exists d', GetContentAsData sc d = (d', Ok (map Some (decoded l) ++ repeat None (length l / 4)))) /\
  (* padded: the first access throws, later ones return an indeterminate tail *)
  (0 < n -> ~ (forallb is_symbol l = true /\ length l mod 4 = 0) ->
     exists d' w, GetContentAsData sc d = (d', Throw ExnRuntime) /\
       GetContentAsData sc d' = (d', Ok (map Some w ++ repeat None (n - length w)))).
Proof.
  intros sc d Hd He H7 l n. destruct (update_b64 sc d He H7) as (A & B & C). fold l n in A, B, C.
  unfold GetContentAsData, ensure_data. rewrite Hd. split; [|split].
  - intros H0. rewrite A by exact H0. rewrite delete_none by exact Hd. unfold data_view. rewrite Hd. reflexivity.
  - intros Hn Hs Hm. split.
    { destruct (language_lemma sc default_opts (dcontent d) (repeat None (length (dcontent d))) H7) as [L _].
      { rewrite repeat_length. apply Nat.le_refl. } apply L. auto. }
    rewrite B by assumption. eexists. reflexivity.
  - intros Hn Hb. destruct (C Hn Hb) as (w & _ & E). rewrite E. eexists. exists w. split; reflexivity.
Qed.
Print Assumptions C20_base64_data.
(** Comparing two equal, properly decoded base64 measurements always reads indeterminate bytes. *)
Theorem C20_base64_comparison_undefined : forall sc d, ddata d = None -> denc d = $"base64" -> seven_bit (dcontent d) ->
  0 < symbol_count false (dcontent d) -> forallb is_symbol (sig false (dcontent d)) = true ->
  length (sig false (dcontent d)) mod 4 = 0 ->
  snd (data_IsEqual sc d d) = UB.
Proof.
  intros sc d Hd He H7 Hn Hs Hm. destruct (update_b64 sc d He H7) as (_ & B & _).
  specialize (B Hn Hs Hm). unfold data_IsEqual. rewrite !eqs_refl. cbn [andb].
  unfold GetContentAsDataSize, GetContentAsData, ensure_data. rewrite Hd, B. cbn [bind ddata set_data]. 
  rewrite Nat.eqb_refl. cbn [bind ddata set_data snd]. unfold data_view. cbn [ddata set_data].
  apply memeq_none; [|reflexivity|apply Nat.le_refl].
  rewrite firstn_all. apply in_or_app. right.
  pose proof (good_count false (dcontent d) Hs Hm) as Hc. rewrite Hc in Hn.
  set (k := length (sig false (dcontent d))) in *.
  assert (1 <= k / 4) by (pose proof (Nat.div_mod k 4 ltac:(discriminate)); lia).
  destruct (k / 4); [exfalso; revert H; apply Nat.nle_succ_0|left; reflexivity].
Qed.
Print Assumptions C20_base64_comparison_undefined.
(** Set, then get: what the cache holds after storing bytes as base64. *)
Theorem C20_base64_set_get : forall sc d bytes d', denc d = $"base64" -> dcomp d = $"none" ->
  SetContentAsData d bytes = (d', Ok tt) ->
  Encode default_opts bytes = Ok (dcontent d') /\ ddata d' = None /\ denc d' = $"base64" /\
  (0 < length bytes < 108 -> length bytes mod 3 = 0 ->
     exists d'', GetContentAsData sc d' = (d'', Ok (map Some bytes ++ repeat None (length bytes / 3)))).
Proof.
  intros sc d bytes d' He Hc H. unfold SetContentAsData in H. cbn [dcomp denc set_data DeleteContentAsData] in H.
  rewrite Hc in H. change (eqs ($"none") ($"none")) with true in H. cbv iota beta in H. cbn [denc set_data DeleteContentAsData] in H.
  rewrite He in H. change (eqs ($"base64") ($"none")) with false in H. change (eqs ($"base64") ($"base64")) with true in H. cbv iota in H.
  destruct (Encode default_opts bytes) as [t| | | |] eqn:E; try discriminate H. injection H as <-.
  cbn [dcontent SetContent DeleteContentAsData ddata denc set_data]. rewrite He.
  split; [reflexivity|]. split; [reflexivity|]. split; [reflexivity|].
  intros Hlen Hm.
  destruct (B64Dec2.sig_encode default_opts false bytes t E) as [Hs Hlow].
  assert (Hn0 : B64Dec2.nuls default_opts bytes = 0).
  { apply B64Dec2.nuls_zero; [exact Hm|]. right. apply Hlen. }
  rewrite Hn0 in Hs. cbn [repeat] in Hs. change (sig false []) with (@nil ascii) in Hs. rewrite app_nil_r in Hs.
  assert (H7 : seven_bit t).
  { intros c Hi. destruct (Hlow true c Hi) as [Hf|Hf]; [discriminate|exact Hf]. }
  set (d1 := SetContent (set_data (DeleteContentAsData d) (Some (map Some bytes))) t).
  assert (Hd1 : ddata d1 = None) by reflexivity. assert (He1 : denc d1 = $"base64") by exact He.
  assert (Hc1 : dcontent d1 = t) by reflexivity.
  pose proof (rfc_good bytes Hm) as Hg.
  destruct Hg as (G1 & G2 & G3 & G4).
  destruct (C20_base64_data sc d1 Hd1 He1) as (_ & P & _); [rewrite Hc1; exact H7|].
  rewrite Hc1, Hs in P. destruct P as [_ [d'' P]]; auto.
  - rewrite good_count; rewrite ?Hs; auto. rewrite B64Facts.rfc_length.
    pose proof (Nat.div_mod (length bytes + 2) 3 ltac:(discriminate)). pose proof (Nat.mod_upper_bound (length bytes + 2) 3 ltac:(discriminate)). lia.
  - exists d''. rewrite G3, G4 in P. exact P.
Qed.
Print Assumptions C20_base64_set_get.
Example C20_case :
  let d := SetContent (SetAttributeEncoding (new_dm CPlain) ($"base64")) ($"bGlnaHQh") in
  snd (GetContentAsDataSize true d) = Ok 8 /\ snd (data_IsEqual true d d) = UB /\
  snd (GetContentAsData true (SetContent d ($"bGk="))) = Throw ExnRuntime.
Proof. vm_compute. auto. Qed.

(** C21 *)
Theorem C21_integer_value_kept : forall d v, in_int v ->
  int_GetValue (int_SetValue d v) = Ok v /\
  exists ds, ds <> [] /\ forallb is_digit ds = true /\ digits_value 0 ds = Z.abs v /\
    dcontent (int_SetValue d v) = if (v <? 0)%Z then "-"%char :: ds else ds.
Proof.
  intros d v H. split.
  - unfold int_GetValue, int_SetValue. cbn [dcontent SetContent DeleteContentAsData].
    pose proof (read_print INT_MIN INT_MAX v [] H I) as R. rewrite app_nil_r in R. exact R.
  - apply print_int_form.
Qed.
Print Assumptions C21_integer_value_kept.
Theorem C21_integer_text_injective : forall d e v w, dcontent (int_SetValue d v) = dcontent (int_SetValue e w) -> v = w.
Proof. intros d e v w H. apply print_int_inj. exact H. Qed.
Print Assumptions C21_integer_text_injective.
Theorem C21_boolean_value_kept : forall d v, bool_GetValue (bool_SetValue d v) = Ok v /\
  dcontent (bool_SetValue d v) = if v then $"1" else $"0".
Proof. intros d []; split; vm_compute; reflexivity. Qed.
Print Assumptions C21_boolean_value_kept.
(** A value is read from any content except blank ones, for which an uninitialised variable is returned. *)
Theorem C21_value_defined_iff : forall d,
  (int_GetValue d = UB <-> forallb is_wspace (dcontent d) = true) /\
  (forall v, int_GetValue d = Ok v -> in_int v).
Proof.
  intros d. unfold int_GetValue, read_int. generalize (dcontent d). intros s. split.
  - assert (E : forallb is_wspace s = true <-> skip_ws s = []).
    { induction s as [|c s IH]; [split; reflexivity|]. cbn [forallb skip_ws]. destruct (is_wspace c); [exact IH|split; discriminate]. }
    rewrite E. destruct (skip_ws s) as [|c r]; [split; reflexivity|]. split; [|discriminate].
    destruct (eqc c "-"); [destruct (digit_prefix r); discriminate|].
    destruct (eqc c "+"); [destruct (digit_prefix r)|destruct (digit_prefix (c :: r))]; discriminate.
  - intros v. assert (C : forall z, in_int (clamp INT_MIN INT_MAX z)).
    { intros z. unfold in_int, clamp, INT_MIN, INT_MAX. destruct (Z.ltb_spec z (-2147483648)); [lia|]. destruct (Z.ltb_spec 2147483647 z); lia. }
    assert (Z0 : in_int 0) by (unfold in_int, INT_MIN, INT_MAX; lia).
    destruct (skip_ws s) as [|c r]; [discriminate|].
    destruct (eqc c "-"); [destruct (digit_prefix r)|destruct (eqc c "+"); [destruct (digit_prefix r)|destruct (digit_prefix (c :: r))]];
      intros H; apply Ok_inj in H; subst v; auto.
Qed.
Print Assumptions C21_value_defined_iff.
(** The value read: after white space an optional sign and digits, whatever follows them; out of range, the nearest int.  A boolean is
    true for every number except 0.  Other text reads as 0. *)
Theorem C21_value_read : forall d ws sg ds rest, forallb is_wspace ws = true -> In sg [[]; $"+"; $"-"] -> forallb is_digit ds = true ->
  match rest with [] => True | c :: _ => is_digit c = false end -> dcontent d = ws ++ sg ++ ds ++ rest ->
  (ds <> [] ->
    let v := if eqs sg ($"-") then (- digits_value 0 ds)%Z else digits_value 0 ds in
    int_GetValue d = Ok (Z.max INT_MIN (Z.min INT_MAX v)) /\ bool_GetValue d = Ok (negb (v =? 0)%Z)) /\
  (ds = [] -> (sg = [] -> match rest with [] => False | c :: _ => is_wspace c = false /\ c <> "+"%char /\ c <> "-"%char end) ->
    int_GetValue d = Ok 0%Z /\ bool_GetValue d = Ok false).
Proof.
  intros d ws sg ds rest Hw Hs Hd Hr E.
  assert (K : forall t, skip_ws (ws ++ t) = skip_ws t).
  { intros t. clear - Hw. induction ws as [|c ws IH]; [reflexivity|]. cbn [forallb] in Hw. apply andb_true_iff in Hw. destruct Hw as [A B]. cbn [app skip_ws]. rewrite A. auto. }
  unfold int_GetValue, bool_GetValue. rewrite E. unfold read_int. rewrite K. clear K Hw.
  assert (CL : forall lo hi v, (lo <= hi)%Z -> clamp lo hi v = Z.max lo (Z.min hi v)) by (intros; unfold clamp; destruct (Z.ltb_spec v lo); [lia|]; destruct (Z.ltb_spec hi v); lia).
  assert (ZE : forall v, (negb (clamp LONG_MIN LONG_MAX v =? 0) = negb (v =? 0))%Z).
  { intros v. rewrite CL by (unfold LONG_MIN, LONG_MAX; lia). f_equal. destruct (Z.eqb_spec v 0); [subst; reflexivity|]. apply Z.eqb_neq. unfold LONG_MIN, LONG_MAX. lia. }
  assert (IL : (INT_MIN <= INT_MAX)%Z) by (unfold INT_MIN, INT_MAX; lia).
  split.
  - intros Hn. cbv zeta. destruct ds as [|c0 ds0] eqn:Eds; [contradiction|]. rewrite <- Eds in *.
    assert (P : digit_prefix (ds ++ rest) = ds) by (apply digit_prefix_all; assumption).
    assert (D0 : is_wspace c0 = false /\ eqc c0 "-" = false /\ eqc c0 "+" = false).
    { rewrite Eds in Hd. cbn [forallb] in Hd. apply andb_true_iff in Hd. destruct Hd as [A _]. pose proof (digit_not_space c0) as H. rewrite A in H. cbn [negb orb] in H.
      apply andb_true_iff in H. destruct H as [H H3]. apply andb_true_iff in H. destruct H as [H1 H2]. apply negb_true_iff in H1, H2, H3. auto. }
    destruct D0 as (D1 & D2 & D3).
    destruct Hs as [<-|[<-|[<-|[]]]]; cbn [app lit list_ascii_of_string skip_ws].
    + assert (Es : skip_ws (ds ++ rest) = ds ++ rest) by (rewrite Eds; cbn [app skip_ws]; rewrite D1; reflexivity). rewrite Es.
      assert (Ec : ds ++ rest = c0 :: ds0 ++ rest) by (rewrite Eds; reflexivity). rewrite Ec, D2, D3. rewrite <- Ec, P, Eds. rewrite <- Eds. cbn [bind].
      change (eqs [] ($"-")) with false. cbv iota. rewrite (CL _ _ _ IL), ZE. split; reflexivity.
    + change (is_wspace "+") with false. cbv iota. change (eqc "+" "-") with false. change (eqc "+" "+") with true. cbv iota. rewrite P, Eds. rewrite <- Eds. cbn [bind].
      change (eqs ["+"%char] ($"-")) with false. cbv iota. rewrite (CL _ _ _ IL), ZE. split; reflexivity.
    + change (is_wspace "-") with false. cbv iota. change (eqc "-" "-") with true. cbv iota. rewrite P, Eds. rewrite <- Eds. cbn [bind].
      change (eqs ["-"%char] ($"-")) with true. cbv iota. rewrite (CL _ _ _ IL), ZE. split; reflexivity.
  - intros -> Hn. cbn [app] in *.
    assert (P : digit_prefix rest = []) by (destruct rest as [|c r]; [reflexivity|cbn; rewrite Hr; reflexivity]).
    destruct Hs as [<-|[<-|[<-|[]]]]; cbn [app lit list_ascii_of_string skip_ws].
    + specialize (Hn eq_refl). destruct rest as [|c r]; [contradiction|]. destruct Hn as (A & B & C). cbn [skip_ws]. rewrite A.
      destruct (eqc_spec c "-") as [->|_]; [contradiction|]. destruct (eqc_spec c "+") as [->|_]; [contradiction|]. rewrite P. split; reflexivity.
    + change (is_wspace "+") with false. cbv iota. change (eqc "+" "-") with false. change (eqc "+" "+") with true. cbv iota. rewrite P. split; reflexivity.
    + change (is_wspace "-") with false. cbv iota. change (eqc "-" "-") with true. cbv iota. rewrite P. split; reflexivity.
Qed.
Print Assumptions C21_value_read.
Example C21_read_case : bool_GetValue (SetContent (new_dm CBool) ($" -2x")) = Ok true /\ bool_GetValue (SetContent (new_dm CBool) ($"true")) = Ok false /\
  int_GetValue (SetContent (new_dm CInt) ($"99999999999")) = Ok 2147483647%Z.
Proof. vm_compute. auto. Qed.
Example C21_case : dcontent (int_SetValue (new_dm CInt) (-2147483648)) = $"-2147483648" /\
  int_GetValue (SetContent (new_dm CInt) ($" +42x")) = Ok 42%Z /\ int_GetValue (SetContent (new_dm CInt) ($" ")) = UB.
Proof. vm_compute. auto. Qed.

(** C22: [rv] is the real value of a double, [rnd64] rounds a real to the nearest double. *)
Theorem C22_integer_tolerance : forall l r tol,
  valid_binary 53 1024 tol = true -> finite_sf tol = true -> in_int l -> in_int r -> int_ok l r ->
  exists b, tol_int l r tol = Ok b /\
   (b = true <-> (IZR (Z.abs (l - r)) <= rnd64 (Rabs (rv tol) * IZR (Z.abs l)))%R \/
                 (IZR (Z.abs (l - r)) <= rnd64 (Rabs (rv tol) * IZR (Z.abs r)))%R).
Proof.
  intros l r tol V F _ _ H. eexists. split; [apply tol_int_spec; assumption|].
  rewrite orb_true_iff, !rle_true. reflexivity.
Qed.
Print Assumptions C22_integer_tolerance.
(** in particular everything within the exact relative tolerance is accepted *)
Theorem C22_integer_within_tolerance : forall l r tol,
  valid_binary 53 1024 tol = true -> finite_sf tol = true -> int_ok l r ->
  (IZR (Z.abs (l - r)) <= Rabs (rv tol) * IZR (Z.abs l))%R \/ (IZR (Z.abs (l - r)) <= Rabs (rv tol) * IZR (Z.abs r))%R ->
  tol_int l r tol = Ok true.
Proof.
  intros l r tol V F H C. rewrite tol_int_spec by assumption. f_equal. apply orb_true_iff. rewrite !rle_true.
  assert (E : rnd64 (IZR (Z.abs (l - r))) = IZR (Z.abs (l - r))).
  { apply Z_exact. unfold int_ok, INT_MIN, INT_MAX in H. lia. }
  destruct C as [C|C]; [left|right]; rewrite <- E; apply rnd_mono; auto using p53.
Qed.
Print Assumptions C22_integer_within_tolerance.
Theorem C22_integer_undefined : forall l r tol, in_int l -> in_int r ->
  (tol_int l r tol = UB -> (l - r < INT_MIN \/ INT_MAX < l - r \/ l - r = INT_MIN \/ l = INT_MIN \/ r = INT_MIN)%Z) /\
  ((l - r < INT_MIN \/ INT_MAX < l - r \/ l - r = INT_MIN \/ l = INT_MIN)%Z -> tol_int l r tol = UB).
Proof.
  intros l r tol Hl Hr. destruct (tol_int_ub l r tol Hl Hr) as [A B]. split; [|exact B].
  intros H. specialize (A H). unfold int_ok in A. unfold in_int in *. lia.
Qed.
Print Assumptions C22_integer_undefined.
(** the tolerance is relative: values one apart differ near zero and agree far from it *)
Definition dbl (m e : Z) : spec_float := binary_normalize 53 1024 m e false.
Example C22_case : tol_int 100 101 (dbl 1 (-6)) = Ok true /\ tol_int 10 11 (dbl 1 (-6)) = Ok false /\
  int_ok 100 101 /\ valid_binary 53 1024 (dbl 1 (-6)) = true /\ tol_int 2000000000 (-2000000000) (dbl 1 0) = UB.
Proof. repeat split; vm_compute; try reflexivity; discriminate. Qed.

(** C23: both floating point classes; [prec, emax, w, tolf] is one of the two instances. *)
Theorem C23_symmetric : forall x y tol,
  (valid_binary 24 128 x = true -> valid_binary 24 128 y = true -> tol_float x y tol = tol_float y x tol) /\
  (valid_binary 53 1024 x = true -> valid_binary 53 1024 y = true -> tol_double x y tol = tol_double y x tol).
Proof.
  intros x y tol. split; intros Vx Vy; destruct (valid_B _ _ x Vx) as [bx <-], (valid_B _ _ y Vy) as [bx' <-].
  - apply (tol_sym 24 128 p24 p24max).
  - apply (tol_sym 53 1024 p53 p53max).
Qed.
Print Assumptions C23_symmetric.
Theorem C23_sign_of_tolerance_irrelevant : forall x y tol,
  tol_float x y (SFopp tol) = tol_float x y tol /\ tol_double x y (SFopp tol) = tol_double x y tol.
Proof. intros. split; apply tol_sign. Qed.
Print Assumptions C23_sign_of_tolerance_irrelevant.
Theorem C23_reflexive : forall x tol, finite_sf x = true -> valid_binary 53 1024 tol = true -> tol <> S754_nan ->
  (valid_binary 24 128 x = true -> tol_float x x tol = true) /\
  (valid_binary 53 1024 x = true -> tol_double x x tol = true).
Proof.
  intros x tol Fx Vt Nt. destruct (valid_B _ _ tol Vt) as [bt <-].
  assert (N : BinarySingleNaN.is_nan bt = false) by (destruct bt; try reflexivity; elim Nt; reflexivity).
  split; intros Vx; destruct (valid_B _ _ x Vx) as [bx <-]; rewrite finite_B in Fx.
  - apply (tol_refl 24 128 p24 p24max widen lossless32 heps32); assumption.
  - apply (tol_refl 53 1024 p53 p53max (fun x => x) lossless64 heps64); assumption.
Qed.
Print Assumptions C23_reflexive.
Theorem C23_nan_value : forall y tol,
  tol_float S754_nan y tol = false /\ tol_double S754_nan y tol = false.
Proof. intros. split; [apply (tol_nan 24 128 widen lossless32)|apply (tol_nan 53 1024 (fun x => x) lossless64)]. Qed.
Print Assumptions C23_nan_value.
(** with a NaN tolerance two finite values are equal iff both are smaller than the machine epsilon *)
Theorem C23_nan_tolerance : forall x y, finite_sf x = true -> finite_sf y = true ->
  (valid_binary 24 128 x = true -> valid_binary 24 128 y = true ->
     (tol_float x y S754_nan = true <-> (Rabs (rv x) < bpow radix2 (-23))%R /\ (Rabs (rv y) < bpow radix2 (-23))%R)) /\
  (valid_binary 53 1024 x = true -> valid_binary 53 1024 y = true ->
     (tol_double x y S754_nan = true <-> (Rabs (rv x) < bpow radix2 (-52))%R /\ (Rabs (rv y) < bpow radix2 (-52))%R)).
Proof.
  intros x y Fx Fy.
  assert (T : forall p r, tiny p r = true <-> (Rabs r < bpow radix2 (1 - p))%R).
  { intros p r. unfold tiny. case Rlt_bool_spec; intros; split; intros; try reflexivity; try discriminate; auto. exfalso. revert H0. apply Rle_not_lt. exact H. }
  split; intros Vx Vy; destruct (valid_B _ _ x Vx) as [bx <-], (valid_B _ _ y Vy) as [by' <-]; rewrite finite_B in Fx, Fy; rewrite !rv_B.
  - unfold tol_float. rewrite (tol_nan_tol 24 128 widen heps32) by assumption. rewrite andb_true_iff, !T. reflexivity.
  - unfold tol_double. rewrite (tol_nan_tol 53 1024 (fun x => x) heps64) by assumption. rewrite andb_true_iff, !T. reflexivity.
Qed.
Print Assumptions C23_nan_tolerance.
(** an infinity is different from itself but equal to every finite value and to the other infinity *)
Theorem C23_infinity : forall s y tol, valid_binary 53 1024 tol = true -> tol <> S754_nan -> SFeqb tol SFzero = false ->
  tol_float (S754_infinity s) (S754_infinity s) tol = false /\
  tol_double (S754_infinity s) (S754_infinity s) tol = false /\
  (valid_binary 24 128 y = true -> y <> S754_nan -> y <> S754_infinity s -> tol_float (S754_infinity s) y tol = true) /\
  (valid_binary 53 1024 y = true -> y <> S754_nan -> y <> S754_infinity s -> tol_double (S754_infinity s) y tol = true).
Proof.
  intros s y tol Vt Nt Zt. destruct (valid_B _ _ tol Vt) as [bt <-].
  assert (N : BinarySingleNaN.is_nan bt = false) by (destruct bt; try reflexivity; elim Nt; reflexivity).
  assert (Z : BinarySingleNaN.B2R bt <> 0%R \/ BinarySingleNaN.is_finite bt = false).
  { destruct bt as [st|st| |st m e h]; try discriminate; auto. left. cbn. intros E. apply eq_0_F2R in E. destruct st; discriminate. }
  split; [apply (inf_self 24 128 widen lossless32 heps32)|].
  split; [apply (inf_self 53 1024 (fun x => x) lossless64 heps64)|].
  split; intros Vy Ny Hy; destruct (valid_B _ _ y Vy) as [by' <-];
    (assert (Ny' : BinarySingleNaN.is_nan by' = false) by (destruct by'; try reflexivity; elim Ny; reflexivity)).
  - apply (inf_other 24 128 widen lossless32); assumption.
  - apply (inf_other 53 1024 (fun x => x) lossless64); assumption.
Qed.
Print Assumptions C23_infinity.
Theorem C23_monotone : forall x y t1 t2, finite_sf x = true -> finite_sf y = true ->
  valid_binary 53 1024 t1 = true -> valid_binary 53 1024 t2 = true -> finite_sf t1 = true -> t2 <> S754_nan ->
  (finite_sf t2 = true -> (Rabs (rv t1) <= Rabs (rv t2))%R) ->
  (valid_binary 24 128 x = true -> valid_binary 24 128 y = true -> tol_float x y t1 = true -> tol_float x y t2 = true) /\
  (valid_binary 53 1024 x = true -> valid_binary 53 1024 y = true -> tol_double x y t1 = true -> tol_double x y t2 = true).
Proof.
  intros x y t1 t2 Fx Fy V1 V2 F1 N2 H. destruct (valid_B _ _ t1 V1) as [b1 <-], (valid_B _ _ t2 V2) as [b2 <-].
  assert (N : BinarySingleNaN.is_nan b2 = false) by (destruct b2; try reflexivity; elim N2; reflexivity).
  rewrite !rv_B in H. rewrite finite_B in F1, H.
  split; intros Vx Vy; destruct (valid_B _ _ x Vx) as [bx <-], (valid_B _ _ y Vy) as [by' <-]; rewrite finite_B in Fx, Fy.
  - apply (tol_mono 24 128 p24 p24max widen lossless32 heps32); assumption.
  - apply (tol_mono 53 1024 p53 p53max (fun x => x) lossless64 heps64); assumption.
Qed.
Print Assumptions C23_monotone.
(** meaning in real arithmetic, when the difference does not overflow *)
Theorem C23_meaning : forall x y tol, finite_sf x = true -> finite_sf y = true -> finite_sf tol = true -> valid_binary 53 1024 tol = true ->
  (valid_binary 24 128 x = true -> valid_binary 24 128 y = true -> (Rabs (rnd32 (rv x - rv y)) < bpow radix2 128)%R ->
    (tol_float x y tol = true <->
       (Rabs (rnd32 (rv x - rv y)) <= rnd64 (Rabs (rv tol) * Rabs (rv x)))%R \/
       (Rabs (rnd32 (rv x - rv y)) <= rnd64 (Rabs (rv tol) * Rabs (rv y)))%R \/
       ((Rabs (rv x) < bpow radix2 (-23))%R /\ (Rabs (rv y) < bpow radix2 (-23))%R))) /\
  (valid_binary 53 1024 x = true -> valid_binary 53 1024 y = true -> (Rabs (rnd64 (rv x - rv y)) < bpow radix2 1024)%R ->
    (tol_double x y tol = true <->
       (Rabs (rnd64 (rv x - rv y)) <= rnd64 (Rabs (rv tol) * Rabs (rv x)))%R \/
       (Rabs (rnd64 (rv x - rv y)) <= rnd64 (Rabs (rv tol) * Rabs (rv y)))%R \/
       ((Rabs (rv x) < bpow radix2 (-52))%R /\ (Rabs (rv y) < bpow radix2 (-52))%R))).
Proof.
  intros x y tol Fx Fy Ft Vt. destruct (valid_B _ _ tol Vt) as [bt <-]. rewrite finite_B in Ft.
  assert (T : forall p r, tiny p r = true <-> (Rabs r < bpow radix2 (1 - p))%R).
  { intros p r. unfold tiny. case Rlt_bool_spec; intros; split; intros; try reflexivity; try discriminate; auto. exfalso. revert H0. apply Rle_not_lt. exact H. }
  split; intros Vx Vy; destruct (valid_B _ _ x Vx) as [bx <-], (valid_B _ _ y Vy) as [by' <-]; rewrite finite_B in Fx, Fy; rewrite !rv_B; intros Hov.
  - unfold tol_float. rewrite (tol_spec 24 128 p24 p24max widen lossless32 heps32) by assumption.
    rewrite !orb_true_iff, andb_true_iff, !rle_true, !T. fold rnd32. rewrite or_assoc. reflexivity.
  - unfold tol_double. rewrite (tol_spec 53 1024 p53 p53max (fun x => x) lossless64 heps64) by assumption.
    rewrite !orb_true_iff, andb_true_iff, !rle_true, !T. fold rnd64. rewrite or_assoc. reflexivity.
Qed.
Print Assumptions C23_meaning.
(** IEEE double: 1.0 and 1.0625 agree within 1/8 and differ within 1/32; infinity equals 1. *)
Example C23_case : tol_double (dbl 1 0) (dbl 17 (-4)) (dbl 1 (-3)) = true /\ tol_double (dbl 1 0) (dbl 17 (-4)) (dbl 1 (-5)) = false /\
  tol_double (S754_infinity false) (dbl 1 0) (dbl 1 (-5)) = true /\ valid_binary 53 1024 (dbl 17 (-4)) = true /\ finite_sf (dbl 17 (-4)) = true.
Proof. repeat split; vm_compute; reflexivity. Qed.

(** C24 *)
Theorem C24_in_memory_exact : forall sc fs io c a b,
  SFeqb (GetTolerance c) SFzero = true ->
  ddata a = None -> ddata b = None -> denc a <> $"base64" -> denc b <> $"base64" ->
  exists v, Compare sc fs io c (MD a) (MD b) = (MD a, MD b, Ok v) /\
    (v = true <-> dname a = dname b /\ dcls a = dcls b /\ dcontent a = dcontent b).
Proof.
  intros sc fs io c a b Ht Ha Hb Ea Eb.
  rewrite (compare_exact sc fs io c a b (dcontent a) (dcontent b) Ht); [|right; auto|right; auto].
  eexists. split; [reflexivity|]. rewrite !andb_true_iff, !eqs_true, cls_eqb_true. tauto.
Qed.
Print Assumptions C24_in_memory_exact.
(** the same when data was stored with SetContentAsData: the stored bytes count, not the content *)
Theorem C24_in_memory_data : forall sc fs io c a b x y,
  SFeqb (GetTolerance c) SFzero = true -> ddata a = Some (map Some x) -> ddata b = Some (map Some y) ->
  exists v, Compare sc fs io c (MD a) (MD b) = (MD a, MD b, Ok v) /\
    (v = true <-> dname a = dname b /\ dcls a = dcls b /\ x = y).
Proof.
  intros sc fs io c a b x y Ht Ha Hb.
  rewrite (compare_exact sc fs io c a b x y Ht); [|left; auto|left; auto].
  eexists. split; [reflexivity|]. rewrite !andb_true_iff, !eqs_true, cls_eqb_true. tauto.
Qed.
Print Assumptions C24_in_memory_data.
Theorem C24_default_is_exact : SFeqb (GetTolerance new_cmp) SFzero = true /\
  (forall c t, SFeqb t SFzero = true -> SFeqb (GetTolerance (SetTolerance c t)) SFzero = true) /\
  (forall c t, SFeqb t SFzero = false -> GetTolerance (SetTolerance c t) = t).
Proof.
  split; [reflexivity|]. split; [|exact tolerance_set_get].
  intros c t H. rewrite tolerance_zero by exact H. reflexivity.
Qed.
Print Assumptions C24_default_is_exact.
Theorem C24_tolerant : forall sc fs io c a b,
  SFeqb (GetTolerance c) SFzero = false -> is_numeric (dcls a) = true -> is_numeric (dcls b) = true ->
  exists v, Compare sc fs io c (MD a) (MD b) = (MD a, MD b, v) /\
   (dcls a <> dcls b -> v = Ok false) /\
   (dcls a = CInt -> dcls b = CInt -> v = (l <-- int_GetValue a ;; r <-- int_GetValue b ;; tol_int l r (GetTolerance c))) /\
   (dcls a = CFloat -> dcls b = CFloat -> v = (l <-- float_GetValue io a ;; r <-- float_GetValue io b ;; Ok (tol_float l r (GetTolerance c)))) /\
   (dcls a = CDouble -> dcls b = CDouble -> v = (l <-- double_GetValue io a ;; r <-- double_GetValue io b ;; Ok (tol_double l r (GetTolerance c)))) /\
   (dcls a = CBool -> dcls b = CBool -> v = (l <-- bool_GetValue a ;; r <-- bool_GetValue b ;; Ok (Bool.eqb l r))).
Proof.
  intros sc fs io c a b Ht Ha Hb. eexists. split; [apply compare_tolerant; assumption|].
  split; [apply tolerant_class|]. unfold IsEqualTolerant.
  repeat split; intros E1 E2; rewrite E1, E2; reflexivity.
Qed.
Print Assumptions C24_tolerant.
(** names are ignored in tolerant mode *)
Theorem C24_tolerant_ignores_names : forall sc fs io c a b n m,
  SFeqb (GetTolerance c) SFzero = false -> is_numeric (dcls a) = true -> is_numeric (dcls b) = true ->
  snd (Compare sc fs io c (MD (SetAttributeName a n)) (MD (SetAttributeName b m))) = snd (Compare sc fs io c (MD a) (MD b)).
Proof. intros sc fs io c a b n m Ht Ha Hb. rewrite !compare_tolerant by assumption. reflexivity. Qed.
Print Assumptions C24_tolerant_ignores_names.
Theorem C24_tolerant_names_refuted : exists io c a b,
  snd (Compare true (fun _ => Missing) io c (MD a) (MD b)) = Ok true /\ dname a <> dname b.
Proof.
  exists (NumIO (fun _ => []) (fun _ => UB) (fun _ => []) (fun _ => UB)), (SetTolerance new_cmp (dbl 1 (-6))),
    (SetAttributeName (int_SetValue (new_dm CInt) 100) ($"width")), (SetAttributeName (int_SetValue (new_dm CInt) 101) ($"height")).
  split; [vm_compute; reflexivity|vm_compute; discriminate].
Qed.
Print Assumptions C24_tolerant_names_refuted.
Example C24_case : forall io, snd (Compare true (fun _ => Missing) io new_cmp
    (MD (SetAttributeName (int_SetValue (new_dm CInt) 7) ($"n"))) (MD (SetAttributeName (int_SetValue (new_dm CInt) 7) ($"n")))) = Ok true.
Proof. intros. vm_compute. reflexivity. Qed.

(** C25 *)
Theorem C25_two_files : forall sc fs io c f g, ~ reads_dir fs f g -> exists v,
  Compare sc fs io c (MF f) (MF g) = (MF f, MF g, Ok v) /\
  (v = true <-> fname f = fname g /\ ftype f = ftype g /\ (exists c, ftype f = type_of c) /\
     file_bytes fs f = file_bytes fs g /\
     (missing fs f = true \/ missing fs g = true -> fname f = [] /\ ftype f = $"text/plain")).
Proof.
  intros sc fs io c f g Hu. destruct (file_file_spec sc fs f g Hu) as (r & E & H). exists r.
  unfold Compare, numeric_meas, IsEqual. rewrite E. auto.
Qed.
Print Assumptions C25_two_files.
(** A directory in place of one of the files: the comparison raises an exception.  The baseline [f] is always read; the test's file [g] is, if the type is
    one of the six and the baseline is not missing (or has the empty name and type text/plain). *)
Theorem C25_directory : forall sc fs io c f g, fname f = fname g -> ftype f = ftype g ->
  (unreadable fs f = true \/
   unreadable fs g = true /\ (exists c, ftype g = type_of c) /\ (missing fs f = true -> fname g = [] /\ ftype g = $"text/plain")) <->
  Compare sc fs io c (MF f) (MF g) = (MF f, MF g, Throw ExnRuntime).
Proof.
  intros sc fs io c f g N T. split.
  - intros U. unfold Compare, numeric_meas, IsEqual. rewrite file_file_dir; [reflexivity|]. split; [exact N|]. split; [exact T|exact U].
  - intros E. destruct (unreadable fs f) eqn:Uf; [left; reflexivity|]. right.
    destruct (unreadable fs g) eqn:Ug.
    + split; [reflexivity|].
      destruct (CreateDataMeasurement (ftype g)) as [k|] eqn:K.
      * apply create_some in K. split; [exists k; exact K|]. intros M.
        destruct (eqs_spec (fname g) []) as [N0|N0]; [destruct (eqs_spec (ftype g) ($"text/plain")) as [T0|T0]; [auto|]|];
          (exfalso; destruct (C25_two_files sc fs io c f g) as (v & E' & _); [|rewrite E' in E; discriminate E];
           intros (_ & _ & [X|(_ & _ & X)]); [congruence|]; destruct (X M); congruence).
      * exfalso. destruct (C25_two_files sc fs io c f g) as (v & E' & _); [|rewrite E' in E; discriminate E].
        intros (_ & _ & [X|(_ & (k & X) & _)]); [congruence|]. apply create_some in X. congruence.
    + exfalso. destruct (C25_two_files sc fs io c f g) as (v & E' & _); [|rewrite E' in E; discriminate E].
      intros (_ & _ & [X|(X & _)]); congruence.
Qed.
Print Assumptions C25_directory.
Theorem C25_images_never_equal : forall sc fs io c f g, (forall c, ftype f <> type_of c) ->
  snd (Compare sc fs io c (MF f) (MF g)) = if eqs (fname f) (fname g) && eqs (ftype f) (ftype g) && unreadable fs f then Throw ExnRuntime else Ok false.
Proof.
  intros sc fs io c f g H. destruct (eqs_spec (fname f) (fname g)) as [N|N]; [destruct (eqs_spec (ftype f) (ftype g)) as [T|T]; [destruct (unreadable fs f) eqn:U|]|]; cbn [andb].
  - apply (C25_directory sc fs io c f g N T) in U || (destruct (C25_directory sc fs io c f g N T) as [D _]; rewrite (D (or_introl U)); reflexivity).
  - destruct (C25_two_files sc fs io c f g) as (v & E & Hv); [intros (_ & _ & [X|(_ & (k & X) & _)]); [congruence|apply (H k); congruence]|].
    rewrite E. cbn [snd]. destruct v; [|reflexivity]. destruct Hv as [Hv _]. destruct (Hv eq_refl) as (_ & _ & (k & Hk) & _). elim (H k Hk).
  - destruct (C25_two_files sc fs io c f g) as (v & E & Hv); [intros (_ & X & _); congruence|].
    rewrite E. cbn [snd]. destruct v; [|reflexivity]. destruct Hv as [Hv _]. destruct (Hv eq_refl) as (_ & _ & (k & Hk) & _). elim (H k Hk).
  - destruct (C25_two_files sc fs io c f g) as (v & E & Hv); [intros (X & _); congruence|].
    rewrite E. cbn [snd]. destruct v; [|reflexivity]. destruct Hv as [Hv _]. destruct (Hv eq_refl) as (_ & _ & (k & Hk) & _). elim (H k Hk).
Qed.
Print Assumptions C25_images_never_equal.
(** a file against in-memory data (either way round), the data side not being base64 *)
Theorem C25_file_and_data : forall sc fs io c f d,
  ddata d = None -> denc d <> $"base64" ->
  (fname f = dname d -> ftype f = type_of (dcls d) -> unreadable fs f = true -> Compare sc fs io c (MD d) (MF f) = (MD d, MF f, Throw ExnRuntime)) /\
  (fname f <> dname d \/ ftype f <> type_of (dcls d) \/ unreadable fs f = false ->
   exists v, Compare sc fs io c (MD d) (MF f) = (MD d, MF f, Ok v) /\
     (v = true <-> fname f = dname d /\ ftype f = type_of (dcls d) /\ file_bytes fs f = dcontent d /\
        (missing fs f = true -> fname f = [] /\ ftype f = $"text/plain"))) /\
  (is_numeric (dcls d) = true -> Compare sc fs io c (MF f) (MD d) = (MF f, MD d, Ok false)) /\
  (is_numeric (dcls d) = false ->
     snd (Compare sc fs io c (MF f) (MD d)) = snd (Compare sc fs io c (MD d) (MF f))).
Proof.
  intros sc fs io c f d Hd He. split; [|split].
  - intros N T U. unfold Compare, numeric_meas, IsEqual. rewrite file_data_dir; [reflexivity|repeat split; assumption].
  - intros Hu. destruct (file_data_spec sc fs f d (dcontent d)) as (r & E & H); [right; auto| |].
    { intros (N & T & U). destruct Hu as [X|[X|X]]; congruence. }
    unfold Compare, numeric_meas, IsEqual. rewrite E. exists r; auto.
  - unfold Compare, numeric_meas, IsEqual. destruct (file_IsEqual_data sc fs f d) as [d' r]. 
    split; intros Hn; rewrite Hn; reflexivity.
Qed.
Print Assumptions C25_file_and_data.
Definition ex_fs (n : str) : source := if eqs n ($"a.txt") then Bytes ($"hello") else if eqs n ($"b.txt") then Bytes ($"hello") else if eqs n ($"dir/") then Unreadable else Missing.
Example C25_case : forall io,
  snd (Compare true ex_fs io new_cmp (MF (Mf ($"n") true ($"text/plain") ($"a.txt"))) (MF (Mf ($"n") true ($"text/plain") ($"b.txt")))) = Ok true /\
  snd (Compare true ex_fs io new_cmp (MF (Mf ($"n") true ($"image/png") ($"a.txt"))) (MF (Mf ($"n") true ($"image/png") ($"a.txt")))) = Ok false /\
  snd (Compare true ex_fs io new_cmp (MF (Mf ($"n") true ($"text/plain") ($"zz"))) (MF (Mf ($"n") true ($"text/plain") ($"zz")))) = Ok false /\
  snd (Compare true ex_fs io new_cmp (MF (Mf ($"n") true ($"image/png") ($"dir/"))) (MF (Mf ($"n") true ($"image/png") ($"a.txt")))) = Throw ExnRuntime /\
  snd (Compare true ex_fs io new_cmp (MF (Mf ($"n") true ($"image/png") ($"a.txt"))) (MF (Mf ($"n") true ($"image/png") ($"dir/")))) = Ok false /\
  snd (Compare true ex_fs io new_cmp (MF (Mf ($"n") true ($"text/plain") ($"a.txt"))) (MF (Mf ($"n") true ($"text/plain") ($"dir/")))) = Throw ExnRuntime.
Proof. intros. vm_compute. auto 10. Qed.

(** More facts about measurements: files, comparison. *)
From Coq Require Import Floats.SpecFloat.
From Verif Require Import Base Str B64Spec B64Model B64Facts B64Dec B64Dec2 Dec XmlText MeasModel MeasFacts.

(** the objects produced by [Load] *)
Definition loaded (f : mf) (bytes : str) : dm :=
  Dm (fname f) true (match CreateDataMeasurement (ftype f) with Some c => c | None => CPlain end)
     default_enc default_comp [] (Some (map Some bytes)).
Lemma load_spec fs f : Load fs f = match fs (cstr (ffile f)) with
                                    | Bytes bytes => Ok (loaded f bytes)
                                    | Missing => Ok (new_dm CPlain)
                                    | Unreadable => Throw ExnRuntime end.
Proof.
  unfold Load. destruct (fs (cstr (ffile f))) as [|bytes|]; reflexivity.
Qed.
Lemma loaded_direct f bytes : direct (loaded f bytes) bytes.
Proof. left. reflexivity. Qed.
Lemma new_direct c : direct (new_dm c) [].
Proof. right. split; [reflexivity|]. split; [|reflexivity]. vm_compute. discriminate. Qed.

(** the bytes of the file, or nothing *)
Definition file_bytes (fs : str -> source) (f : mf) : str :=
  match fs (cstr (ffile f)) with Bytes b => b | _ => [] end.
Definition missing (fs : str -> source) (f : mf) : bool :=
  match fs (cstr (ffile f)) with Missing => true | _ => false end.
(** the name is that of a directory *)
Definition unreadable (fs : str -> source) (f : mf) : bool :=
  match fs (cstr (ffile f)) with Unreadable => true | _ => false end.

(** comparing reads a directory *)
Definition reads_dir_data (fs : str -> source) (f : mf) (d : dm) : Prop :=
  fname f = dname d /\ ftype f = type_of (dcls d) /\ unreadable fs f = true.
Definition reads_dir (fs : str -> source) (f g : mf) : Prop :=
  fname f = fname g /\ ftype f = ftype g /\
  (unreadable fs f = true \/
   unreadable fs g = true /\ (exists c, ftype g = type_of c) /\ (missing fs f = true -> fname g = [] /\ ftype g = $"text/plain")).

Lemma file_data_dir sc fs f d : reads_dir_data fs f d -> file_IsEqual_data sc fs f d = (d, Throw ExnRuntime).
Proof.
  intros (N & T & U). unfold file_IsEqual_data. rewrite <- N, <- T, !eqs_refl. cbn [negb orb]. rewrite load_spec.
  unfold unreadable in U. destruct (fs (cstr (ffile f))); try discriminate U. reflexivity.
Qed.
Lemma file_data_spec sc fs f d x : direct d x -> ~ reads_dir_data fs f d ->
  exists r, file_IsEqual_data sc fs f d = (d, Ok r) /\
   (r = true <-> fname f = dname d /\ ftype f = type_of (dcls d) /\ file_bytes fs f = x /\
                 (missing fs f = true -> fname f = [] /\ ftype f = $"text/plain")).
Proof.
  intros Hd Hu. unfold reads_dir_data, unreadable in Hu. unfold file_IsEqual_data, file_bytes, missing.
  destruct (eqs_spec (fname f) (dname d)) as [En|En]; cbn [negb orb];
    [|exists false; split; [reflexivity|]; split; [discriminate|tauto]].
  destruct (eqs_spec (ftype f) (type_of (dcls d))) as [Et|Et]; cbn [negb orb];
    [|exists false; split; [reflexivity|]; split; [discriminate|tauto]].
  rewrite load_spec. destruct (fs (cstr (ffile f))) as [|bytes|]; [| |exfalso; apply Hu; auto].
  - rewrite (data_IsEqual_direct sc d _ x [] Hd (new_direct CPlain)).
    eexists. split; [reflexivity|]. cbn [dname dcls new_dm].
    rewrite andb_true_iff, andb_true_iff, !eqs_true, cls_eqb_true. split.
    + intros ((H1 & H2) & H3). rewrite H2 in *. cbn [type_of] in *. repeat split; congruence.
    + intros (_ & _ & <- & H). destruct (H eq_refl) as [H1 H2]. repeat split; [congruence|].
      apply type_of_inj. rewrite <- Et, H2. reflexivity.
  - rewrite (data_IsEqual_direct sc d _ x bytes Hd (loaded_direct f bytes)).
    eexists. split; [reflexivity|]. cbn [dname dcls loaded].
    apply create_some in Et. rewrite Et. rewrite <- En, eqs_refl. cbn [andb].
    replace (cls_eqb (dcls d) (dcls d)) with true by (symmetry; apply cls_eqb_true; reflexivity). cbn [andb].
    apply create_some in Et. rewrite eqs_true. split; [intros <-; repeat split; auto; discriminate|intuition auto].
Qed.

Lemma file_file_dir sc fs f g : reads_dir fs f g -> file_IsEqual_file sc fs f g = Throw ExnRuntime.
Proof.
  intros (N & T & U). unfold file_IsEqual_file. rewrite N, T, !eqs_refl. cbn [negb orb]. rewrite load_spec.
  unfold unreadable, missing in U. destruct (fs (cstr (ffile f))) as [|bytes|]; cbn [bind]; [| |reflexivity];
    (destruct U as [U|(U & (c & Hc) & M)]; [discriminate U|]).
  - destruct (M eq_refl) as [M1 M2]. rewrite file_data_dir; [reflexivity|]. split; [exact M1|]. split; [exact M2|exact U].
  - rewrite file_data_dir; [reflexivity|]. split; [symmetry; exact N|]. split; [|exact U]. cbn [loaded dcls].
    rewrite T, Hc. assert (K : type_of c = type_of c) by reflexivity. apply create_some in K. rewrite K. reflexivity.
Qed.
Lemma file_file_spec sc fs f g : ~ reads_dir fs f g ->
  exists r, file_IsEqual_file sc fs f g = Ok r /\
   (r = true <-> fname f = fname g /\ ftype f = ftype g /\ (exists c, ftype f = type_of c) /\
                 file_bytes fs f = file_bytes fs g /\
                 (missing fs f = true \/ missing fs g = true -> fname f = [] /\ ftype f = $"text/plain")).
Proof.
  intros Hu. unfold reads_dir in Hu. unfold file_IsEqual_file.
  destruct (eqs_spec (fname f) (fname g)) as [En|En]; cbn [negb orb];
    [|exists false; split; [reflexivity|]; split; [discriminate|tauto]].
  destruct (eqs_spec (ftype f) (ftype g)) as [Et|Et]; cbn [negb orb];
    [|exists false; split; [reflexivity|]; split; [discriminate|tauto]].
  rewrite load_spec. cbn [bind].
  unfold file_bytes at 1, missing at 1. unfold unreadable at 1, missing in Hu.
  destruct (fs (cstr (ffile f))) as [|bytes|]; cbn [bind]; [| |exfalso; apply Hu; auto].
  - destruct (file_data_spec sc fs g (new_dm CPlain) [] (new_direct CPlain)) as (r & -> & Hr).
    { intros (A & B & C). apply Hu. cbn [new_dm dname dcls type_of] in A, B. split; [auto|]. split; [auto|]. right. split; [exact C|]. split; [exists CPlain; exact B|auto]. }
    exists r. split; [reflexivity|]. rewrite Hr. cbn [new_dm dname dcls]. split.
    + intros (H1 & H2 & H3 & H4). cbn [type_of] in *. split; [auto|]. split; [auto|].
      split; [exists CPlain; cbn [type_of]; congruence|]. split; [auto|]. intros _. split; congruence.
    + intros (_ & _ & _ & H3 & H4). destruct (H4 (or_introl eq_refl)) as [H5 H6]. cbn [type_of].
      repeat split; try congruence; intros; congruence.
  - destruct (file_data_spec sc fs g (loaded f bytes) bytes (loaded_direct f bytes)) as (r & -> & Hr).
    { intros (A & B & C). apply Hu. split; [auto|]. split; [auto|]. right. split; [exact C|]. split; [eexists; exact B|discriminate]. }
    exists r. split; [reflexivity|]. rewrite Hr. cbn [loaded dname dcls]. split.
    + intros (H1 & H2 & H3 & H4). rewrite <- Et in H2, H4.
      split; [auto|]. split; [auto|]. split; [eexists; exact H2|]. split; [auto|].
      intros [H|H]; [discriminate|]. destruct (H4 H). split; congruence.
    + intros (_ & _ & (c & Hc) & H3 & H4). assert (Hc' := Hc). apply create_some in Hc'. rewrite Hc'.
      split; [auto|]. split; [congruence|]. split; [congruence|]. intros H. destruct (H4 (or_intror H)). split; congruence.
Qed.

(** * The compare visitor *)
Lemma compare_exact sc fs io c a b x y :
  SFeqb (GetTolerance c) SFzero = true -> direct a x -> direct b y ->
  Compare sc fs io c (MD a) (MD b) =
    (MD a, MD b, Ok (eqs (dname a) (dname b) && cls_eqb (dcls a) (dcls b) && eqs x y)).
Proof.
  intros Ht Ha Hb. unfold Compare, numeric_meas. rewrite Ht. cbn [negb].
  assert (E : IsEqual sc fs (MD a) (MD b) = (MD a, MD b, Ok (eqs (dname a) (dname b) && cls_eqb (dcls a) (dcls b) && eqs x y))).
  { unfold IsEqual. rewrite (data_IsEqual_direct sc a b x y Ha Hb). reflexivity. }
  destruct (is_numeric (dcls b)) eqn:Nb; [|exact E].
  destruct (is_numeric (dcls a)) eqn:Na; [exact E|].
  do 2 f_equal. destruct (cls_eqb (dcls a) (dcls b)) eqn:Ec.
  - apply cls_eqb_true in Ec. congruence.
  - rewrite andb_false_r. reflexivity.
Qed.

Lemma tolerance_set_get c t : SFeqb t SFzero = false -> GetTolerance (SetTolerance c t) = t.
Proof. intros H. unfold SetTolerance, GetTolerance. rewrite H. reflexivity. Qed.
Lemma tolerance_zero c t : SFeqb t SFzero = true -> GetTolerance (SetTolerance c t) = SFzero.
Proof. intros H. unfold SetTolerance, GetTolerance. rewrite H. reflexivity. Qed.

Lemma compare_tolerant sc fs io c a b :
  SFeqb (GetTolerance c) SFzero = false -> is_numeric (dcls a) = true -> is_numeric (dcls b) = true ->
  Compare sc fs io c (MD a) (MD b) = (MD a, MD b, IsEqualTolerant io a b (GetTolerance c)).
Proof. intros Ht Ha Hb. unfold Compare, numeric_meas. rewrite Ha, Hb, Ht. reflexivity. Qed.

Lemma tolerant_class io a b t : dcls a <> dcls b -> IsEqualTolerant io a b t = Ok false.
Proof.
  intros H. unfold IsEqualTolerant. destruct (cls_eqb (dcls a) (dcls b)) eqn:E; [|reflexivity].
  apply cls_eqb_true in E. contradiction.
Qed.

(** * base64 data: comparing is never defined *)
Lemma memeq_none n : forall a b, In None (firstn n a) -> length a = length b -> n <= length a -> memeq n a b = UB.
Proof.
  induction n as [|n IH]; intros a b H Hl Hn; [destruct H|].
  destruct a as [|x a]; [cbn in Hn; lia|]. destruct b as [|y b]; [discriminate|]. cbn [firstn In] in H.
  cbn [memeq]. destruct x as [x|]; [|reflexivity]. destruct y as [y|]; [|reflexivity].
  destruct H as [H|H]; [discriminate|]. rewrite IH; [reflexivity|exact H|cbn in Hl; lia|cbn in Hn; lia].
Qed.

Lemma rfc_good bytes : length bytes mod 3 = 0 ->
  forallb is_symbol (rfc4648 bytes) = true /\ length (rfc4648 bytes) mod 4 = 0 /\
  decoded (rfc4648 bytes) = bytes /\ length (rfc4648 bytes) / 4 = length bytes / 3.
Proof.
  intros Hm. assert (E : (length bytes + 2) / 3 = length bytes / 3).
  { pose proof (Nat.div_mod (length bytes) 3). pose proof (Nat.div_mod (length bytes + 2) 3).
    pose proof (Nat.mod_upper_bound (length bytes + 2) 3). lia. }
  rewrite rfc_length, E.
  rewrite Nat.mod_mul, Nat.div_mul by lia. split; [|split; [reflexivity|split; [|reflexivity]]].
  - revert Hm. clear. induction bytes as [|a|a b|a b c l IH] using list_ind3; intros Hm; try discriminate Hm; [reflexivity|].
    rewrite rfc_cons3, forallb_app, quad_syms. apply IH. cbn [length] in Hm.
    replace (S (S (S (length l)))) with (length l + 1 * 3) in Hm by lia. rewrite Nat.mod_add in Hm by lia. exact Hm.
  - revert Hm. clear. induction bytes as [|a|a b|a b c l IH] using list_ind3; intros Hm; try discriminate Hm; [reflexivity|].
    rewrite rfc_cons3. assert (Hl : decoded (rfc4648 l) = l).
    { apply IH. cbn [length] in Hm.
      replace (S (S (S (length l)))) with (length l + 1 * 3) in Hm by lia. rewrite Nat.mod_add in Hm by lia. exact Hm. }
    rewrite quad_eq. unfold decoded in *. cbn [app flat_map].
    rewrite !(fun s H => proj2 (symbol_ok s H)); try (destruct a, b, c; reflexivity).
    destruct a, b, c. cbn. rewrite Hl. reflexivity.
Qed.

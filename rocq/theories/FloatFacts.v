(** Link between Coq's executable IEEE-754 specification [SpecFloat], used by the models, and the
    real numbers, through Flocq. *)
From Coq Require Import Reals Psatz.
From Flocq Require Import Core BinarySingleNaN.
From Coq Require Import Floats.SpecFloat.
From Verif Require Import Base.
Local Open Scope Z_scope.

Section Link.
Variables prec emax : Z.
Context (Hprec : Prec_gt_0 prec) (Hmax : Prec_lt_emax prec emax).
Notation bf := (binary_float prec emax).

Lemma round_nearest_even_equiv s m l :
  round_nearest_even m l = choice_mode mode_NE s m l.
Proof. case l; [reflexivity|intro c]. case c; [ | reflexivity..]. now simpl; unfold Round.cond_incr; case Z.even. Qed.
Lemma binary_round_aux_equiv sx mx ex lx :
  SpecFloat.binary_round_aux prec emax sx mx ex lx = BinarySingleNaN.binary_round_aux prec emax mode_NE sx mx ex lx.
Proof.
  unfold SpecFloat.binary_round_aux, BinarySingleNaN.binary_round_aux.
  set (mrse' := shr_fexp _ _ _). case mrse'; intros mrs' e'; simpl. now rewrite (round_nearest_even_equiv sx).
Qed.
Lemma binary_round_equiv s m e :
  SpecFloat.binary_round prec emax s m e = BinarySingleNaN.binary_round prec emax mode_NE s m e.
Proof.
  unfold SpecFloat.binary_round, BinarySingleNaN.binary_round, shl_align_fexp.
  set (mez := shl_align _ _ _); case mez as [mz ez]. apply binary_round_aux_equiv.
Qed.
Lemma normalize_B m e szero :
  SpecFloat.binary_normalize prec emax m e szero
  = B2SF (BinarySingleNaN.binary_normalize prec emax Hprec Hmax mode_NE m e szero).
Proof.
  case m as [ | p | p].
  - now simpl.
  - simpl; rewrite B2SF_SF2B; apply binary_round_equiv.
  - simpl; rewrite B2SF_SF2B; apply binary_round_equiv.
Qed.
Lemma mul_B (x y : bf) : SFmul prec emax (B2SF x) (B2SF y) = B2SF (Bmult mode_NE x y).
Proof.
  case x as [sx|sx| |sx mx ex Bx]; case y as [sy|sy| |sy my ey By]; [now trivial.. | ].
  simpl. rewrite B2SF_SF2B. apply binary_round_aux_equiv.
Qed.
Lemma sub_B (x y : bf) : SFsub prec emax (B2SF x) (B2SF y) = B2SF (Bminus mode_NE x y).
Proof.
  case x as [sx|sx| |sx mx ex Bx]; case y as [sy|sy| |sy my ey By];
  [now (trivial || simpl; case Bool.eqb).. | ].
  simpl. unfold Zminus. rewrite <- cond_Zopp_negb. apply normalize_B.
Qed.
Lemma add_B (x y : bf) : SFadd prec emax (B2SF x) (B2SF y) = B2SF (Bplus mode_NE x y).
Proof.
  case x as [sx|sx| |sx mx ex Bx]; case y as [sy|sy| |sy my ey By];
  [now (trivial || simpl; case Bool.eqb).. | ].
  apply normalize_B.
Qed.
Lemma abs_B (x : bf) : SFabs (B2SF x) = B2SF (Babs x).
Proof. destruct x; reflexivity. Qed.

(** Every valid [spec_float] comes from Flocq's type. *)
Lemma valid_B (x : spec_float) : valid_binary prec emax x = true -> exists b : bf, B2SF b = x.
Proof. intros H. exists (SF2B x H). apply B2SF_SF2B. Qed.
Lemma B_valid (b : bf) : valid_binary prec emax (B2SF b) = true.
Proof. apply valid_binary_B2SF. Qed.

Definition rnd (r : R) : R := round radix2 (SpecFloat.fexp prec emax) ZnearestE r.

Lemma rnd_mono a b : (a <= b)%R -> (rnd a <= rnd b)%R.
Proof.
  intros H. unfold rnd. apply round_le; [|apply valid_rnd_N|exact H].
  apply fexp_correct. exact Hprec.
Qed.
Lemma rnd_0 : rnd 0 = 0%R.
Proof. apply round_0, valid_rnd_N. Qed.
Lemma rnd_nonneg r : (0 <= r)%R -> (0 <= rnd r)%R.
Proof. intros H. rewrite <- rnd_0. apply rnd_mono, H. Qed.
Lemma rnd_opp r : rnd (- r) = (- rnd r)%R.
Proof. unfold rnd. apply round_NE_opp. Qed.
Lemma rnd_abs r : rnd (Rabs r) = Rabs (rnd r).
Proof. 
  unfold rnd. apply round_NE_abs. apply fexp_correct. exact Hprec.
Qed.
Lemma rnd_B (x : bf) : rnd (B2R x) = B2R x.
Proof. unfold rnd. apply round_generic; [apply valid_rnd_N|apply generic_format_B2R]. Qed.

(** magnitude of a finite value *)
Lemma B_bound (x : bf) : (Rabs (B2R x) < bpow radix2 emax)%R.
Proof. apply abs_B2R_lt_emax. Qed.

(** comparison of a finite value with a product *)
Lemma le_mult (t x y : bf) : is_finite t = true -> is_finite x = true -> is_finite y = true ->
  (0 <= B2R t)%R -> (0 <= B2R x)%R -> (0 <= B2R y)%R -> Bsign x = false -> Bsign y = false ->
  SFleb (B2SF t) (SFmul prec emax (B2SF x) (B2SF y)) = Rle_bool (B2R t) (rnd (B2R x * B2R y)).
Proof.
  intros Ft Fx Fy Pt Px Py Sx Sy. rewrite mul_B.
  pose proof (Bmult_correct prec emax Hprec Hmax mode_NE x y) as H.
  change (round radix2 (SpecFloat.fexp prec emax) (round_mode mode_NE)) with rnd in H.
  revert H. case Rlt_bool_spec; intros Hb H.
  - destruct H as (Hr & Hf & _). rewrite Fx, Fy in Hf.
    change (SFleb (B2SF t) (B2SF (Bmult mode_NE x y))) with (Bleb t (Bmult mode_NE x y)).
    rewrite Bleb_correct by assumption. rewrite Hr. reflexivity.
  - rewrite H, Sx, Sy. cbn [xorb]. unfold binary_overflow. cbn.
    pose proof (B_bound t) as Bt. rewrite Rabs_pos_eq in Bt by exact Pt.
    rewrite Rabs_pos_eq in Hb by (apply rnd_nonneg, Rmult_le_pos; assumption).
    rewrite Rle_bool_true by lra.
    destruct t as [s|s| |s m e h]; try discriminate; reflexivity.
Qed.
End Link.

Global Instance p53 : Prec_gt_0 53. Proof. reflexivity. Qed.
Global Instance p53max : Prec_lt_emax 53 1024. Proof. reflexivity. Qed.
Global Instance p24 : Prec_gt_0 24. Proof. reflexivity. Qed.
Global Instance p24max : Prec_lt_emax 24 128. Proof. reflexivity. Qed.

Definition b64 := binary_float 53 1024.
Definition b32 := binary_float 24 128.
Definition rnd64 := rnd 53 1024.
Definition rnd32 := rnd 24 128.

(** the real value of a [spec_float] (0 for infinities and NaN) *)
Definition rv (x : spec_float) : R := SF2R radix2 x.
Lemma rv_B prec emax (b : binary_float prec emax) : rv (B2SF b) = B2R b.
Proof. unfold rv. apply SF2R_B2SF. Qed.

Definition finite_sf (x : spec_float) : bool := match x with S754_zero _ | S754_finite _ _ _ => true | _ => false end.
Lemma finite_B prec emax (b : binary_float prec emax) : finite_sf (B2SF b) = is_finite b.
Proof. destruct b; reflexivity. Qed.

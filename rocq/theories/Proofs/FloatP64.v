(** The model's binary64 operations are correctly rounded real operations. *)
From Coq Require Import Reals ZArith Bool Lia Lra Floats.SpecFloat.
From Flocq Require Import Core.Core IEEE754.BinarySingleNaN.
From Flocq Require Relative.
From Verif Require Import Model.F64 Spec.FloatS.

Local Instance Hprec64 : FLX.Prec_gt_0 53 := eq_refl _.
Local Instance Hmax64 : Prec_lt_emax 53 1024 := eq_refl _.

Notation B64 := (binary_float 53 1024).
Definition valid64 (x : f64) : Prop := valid_binary 53 1024 x = true.
Definition rnd64 (r : R) : R := round radix2 (FLT_exp (-1074) 53) ZnearestE r.
Definition limit64 : R := bpow radix2 1024.

Lemma round_nearest_even_equiv s m l :
  round_nearest_even m l = choice_mode mode_NE s m l.
Proof.
case l; [reflexivity|intro c].
case c; [ | reflexivity..].
now simpl; unfold Round.cond_incr; case Z.even.
Qed.

Lemma binary_round_aux_equiv sx mx ex lx :
  SpecFloat.binary_round_aux 53 1024 sx mx ex lx
  = binary_round_aux 53 1024 mode_NE sx mx ex lx.
Proof.
unfold SpecFloat.binary_round_aux, binary_round_aux.
set (mrse' := shr_fexp _ _ _).
case mrse'; intros mrs' e'; simpl.
now rewrite (round_nearest_even_equiv sx).
Qed.

Lemma binary_round_equiv s m e :
  SpecFloat.binary_round 53 1024 s m e =
  binary_round 53 1024 mode_NE s m e.
Proof.
unfold SpecFloat.binary_round, binary_round, shl_align_fexp.
set (mez := shl_align _ _ _); case mez as [mz ez].
apply binary_round_aux_equiv.
Qed.

Lemma binary_normalize_equiv m e szero :
  SpecFloat.binary_normalize 53 1024 m e szero
  = B2SF (binary_normalize 53 1024 Hprec64 Hmax64 mode_NE m e szero).
Proof.
case m as [ | p | p].
- now simpl.
- simpl; rewrite B2SF_SF2B; apply binary_round_equiv.
- simpl; rewrite B2SF_SF2B; apply binary_round_equiv.
Qed.

Lemma mul_B64 (x y : B64) : f64_mul (B2SF x) (B2SF y) = B2SF (Bmult mode_NE x y).
Proof.
  unfold f64_mul. destruct x as [sx|sx| |sx mx ex Bx], y as [sy|sy| |sy my ey By]; [now trivial.. | ].
  simpl. rewrite B2SF_SF2B. apply binary_round_aux_equiv.
Qed.

Lemma valid_ex64 x : valid64 x -> exists b : B64, x = B2SF b.
Proof. intro H. exists (SF2B x H). now rewrite B2SF_SF2B. Qed.
Lemma valid_B64 (b : B64) : valid64 (B2SF b).
Proof. apply valid_binary_B2SF. Qed.
Lemma valid_of_Z64 n : valid64 (f64_of_Z n).
Proof. unfold f64_of_Z. rewrite binary_normalize_equiv. apply valid_B64. Qed.
Lemma val_B64 (b : B64) : val (B2SF b) = B2R b.
Proof. apply SF2R_B2SF. Qed.
Lemma finite_B64 (b : B64) : finite (B2SF b) <-> is_finite b = true.
Proof. unfold finite. now rewrite is_finite_SF_B2SF. Qed.

Lemma lt_limit64 r : (Rabs (rnd64 r) < limit64)%R ->
  Rlt_bool (Rabs (round radix2 (SpecFloat.fexp 53 1024) (round_mode mode_NE) r)) (bpow radix2 1024) = true.
Proof. intro H. apply Rlt_bool_true. exact H. Qed.

Lemma mul_ok64 x y : valid64 x -> valid64 y -> finite x -> finite y ->
  (Rabs (rnd64 (val x * val y)) < limit64)%R ->
  finite (f64_mul x y) /\ val (f64_mul x y) = rnd64 (val x * val y).
Proof.
  intros Hx Hy Fx Fy. destruct (valid_ex64 x Hx) as [bx ->], (valid_ex64 y Hy) as [b_y ->].
  rewrite finite_B64 in Fx, Fy. rewrite mul_B64, finite_B64, !val_B64. intro H.
  generalize (Bmult_correct 53 1024 Hprec64 Hmax64 mode_NE bx b_y). rewrite (lt_limit64 _ H), Fx, Fy.
  intros (A & C & _). split; assumption.
Qed.

Lemma of_Z_ok64 n : (Rabs (rnd64 (IZR n)) < limit64)%R ->
  finite (f64_of_Z n) /\ val (f64_of_Z n) = rnd64 (IZR n).
Proof.
  intros H. unfold f64_of_Z. rewrite binary_normalize_equiv, finite_B64, val_B64.
  generalize (binary_normalize_correct 53 1024 Hprec64 Hmax64 mode_NE n 0 false).
  assert (E : F2R (Float radix2 n 0) = IZR n) by (unfold F2R; simpl; apply Rmult_1_r).
  cbv zeta. rewrite E, (lt_limit64 _ H). intros (A & C & _). split; assumption.
Qed.

Lemma rnd64_int n : (Z.abs n <= 2 ^ 53)%Z -> rnd64 (IZR n) = IZR n.
Proof.
  intro H. apply round_generic; [typeclasses eauto|].
  destruct (Z.eq_dec (Z.abs n) (2 ^ 53)) as [E|E].
  - assert (n = 2 ^ 53 \/ n = - 2 ^ 53)%Z as [->| ->] by lia.
    + change (IZR (2 ^ 53)) with (bpow radix2 53). apply generic_format_bpow. cbn. lia.
    + rewrite Ropp_Ropp_IZR. apply generic_format_opp. change (IZR (2 ^ 53)) with (bpow radix2 53). apply generic_format_bpow. cbn. lia.
  - apply generic_format_FLT. exists (Float radix2 n 0); cbn; try lia.
    unfold F2R. cbn. ring.
Qed.

Lemma exact_int64 n : (Z.abs n <= 2 ^ 53)%Z -> finite (f64_of_Z n) /\ val (f64_of_Z n) = IZR n.
Proof.
  intro H. rewrite <- (rnd64_int n H). apply of_Z_ok64. rewrite rnd64_int by assumption. rewrite <- abs_IZR.
  apply Rle_lt_trans with (IZR (2 ^ 53)); [apply IZR_le, H|]. change (IZR (2 ^ 53)) with (bpow radix2 53). apply bpow_lt. lia.
Qed.

Lemma rnd64_error x : (bpow radix2 (-1022) <= Rabs x)%R -> (Rabs (rnd64 x - x) <= bpow radix2 (-53) * Rabs x)%R.
Proof.
  intro H. pose proof (Relative.relative_error_N_FLT radix2 (-1074) 53 Hprec64 (fun n => negb (Z.even n)) x H) as E.
  replace (bpow radix2 (-53)) with (/ 2 * bpow radix2 (-53 + 1))%R; [exact E|].
  rewrite bpow_plus. change (bpow radix2 1) with 2%R. field.
Qed.

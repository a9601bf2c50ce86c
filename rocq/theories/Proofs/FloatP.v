(** The model's binary32 operations are correctly rounded real operations. *)
From Coq Require Import Reals ZArith Bool Lia Lra Floats.SpecFloat.
From Flocq Require Import Core.Core IEEE754.BinarySingleNaN.
From Verif Require Import Model.F32 Spec.FloatS.

Local Instance Hprec : FLX.Prec_gt_0 24 := eq_refl _.
Local Instance Hmax : Prec_lt_emax 24 128 := eq_refl _.

Notation B := (binary_float 24 128).
Definition valid (x : f32) : Prop := valid_binary 24 128 x = true.

Lemma round_nearest_even_equiv s m l :
  round_nearest_even m l = choice_mode mode_NE s m l.
Proof.
case l; [reflexivity|intro c].
case c; [ | reflexivity..].
now simpl; unfold Round.cond_incr; case Z.even.
Qed.

Lemma binary_round_aux_equiv sx mx ex lx :
  SpecFloat.binary_round_aux 24 128 sx mx ex lx
  = binary_round_aux 24 128 mode_NE sx mx ex lx.
Proof.
unfold SpecFloat.binary_round_aux, binary_round_aux.
set (mrse' := shr_fexp _ _ _).
case mrse'; intros mrs' e'; simpl.
now rewrite (round_nearest_even_equiv sx).
Qed.

Lemma binary_round_equiv s m e :
  SpecFloat.binary_round 24 128 s m e =
  binary_round 24 128 mode_NE s m e.
Proof.
unfold SpecFloat.binary_round, binary_round, shl_align_fexp.
set (mez := shl_align _ _ _); case mez as [mz ez].
apply binary_round_aux_equiv.
Qed.

Lemma binary_normalize_equiv m e szero :
  SpecFloat.binary_normalize 24 128 m e szero
  = B2SF (binary_normalize 24 128 Hprec Hmax mode_NE m e szero).
Proof.
case m as [ | p | p].
- now simpl.
- simpl; rewrite B2SF_SF2B; apply binary_round_equiv.
- simpl; rewrite B2SF_SF2B; apply binary_round_equiv.
Qed.

Lemma mul_B (x y : B) : f32_mul (B2SF x) (B2SF y) = B2SF (Bmult mode_NE x y).
Proof.
  unfold f32_mul. destruct x as [sx|sx| |sx mx ex Bx], y as [sy|sy| |sy my ey By]; [now trivial.. | ].
  simpl. rewrite B2SF_SF2B. apply binary_round_aux_equiv.
Qed.

Lemma add_B (x y : B) : f32_add (B2SF x) (B2SF y) = B2SF (Bplus mode_NE x y).
Proof.
  unfold f32_add. destruct x as [sx|sx| |sx mx ex Bx], y as [sy|sy| |sy my ey By];
  [now (trivial || simpl; case Bool.eqb).. | ].
  apply binary_normalize_equiv.
Qed.

Lemma div_B (x y : B) : f32_div (B2SF x) (B2SF y) = B2SF (Bdiv mode_NE x y).
Proof.
  unfold f32_div. destruct x as [sx|sx| |sx mx ex Bx], y as [sy|sy| |sy my ey By];
  [now (trivial || simpl; case Bool.eqb).. | ].
  simpl. rewrite B2SF_SF2B.
  set (melz := SFdiv_core_binary _ _ _ _ _ _). case melz as [[mz ez] lz].
  apply binary_round_aux_equiv.
Qed.

Lemma valid_ex x : valid x -> exists b : B, x = B2SF b.
Proof. intro H. exists (SF2B x H). now rewrite B2SF_SF2B. Qed.

Lemma valid_B (b : B) : valid (B2SF b).
Proof. apply valid_binary_B2SF. Qed.

Lemma valid_mul x y : valid x -> valid y -> valid (f32_mul x y).
Proof. intros Hx Hy. destruct (valid_ex x Hx) as [bx ->], (valid_ex y Hy) as [b_y ->]. rewrite mul_B. apply valid_B. Qed.
Lemma valid_add x y : valid x -> valid y -> valid (f32_add x y).
Proof. intros Hx Hy. destruct (valid_ex x Hx) as [bx ->], (valid_ex y Hy) as [b_y ->]. rewrite add_B. apply valid_B. Qed.
Lemma valid_div x y : valid x -> valid y -> valid (f32_div x y).
Proof. intros Hx Hy. destruct (valid_ex x Hx) as [bx ->], (valid_ex y Hy) as [b_y ->]. rewrite div_B. apply valid_B. Qed.
Lemma valid_of_Z n : valid (f32_of_Z n).
Proof. unfold f32_of_Z. rewrite binary_normalize_equiv. apply valid_B. Qed.

Lemma val_B (b : B) : val (B2SF b) = B2R b.
Proof. apply SF2R_B2SF. Qed.
Lemma finite_B (b : B) : finite (B2SF b) <-> is_finite b = true.
Proof. unfold finite. now rewrite is_finite_SF_B2SF. Qed.
Lemma not_nan_B (b : B) : not_nan (B2SF b) <-> is_nan b = false.
Proof. unfold not_nan. now rewrite is_nan_SF_B2SF. Qed.

Lemma lt_limit r : (Rabs (rnd32 r) < limit32)%R ->
  Rlt_bool (Rabs (round radix2 (SpecFloat.fexp 24 128) (round_mode mode_NE) r)) (bpow radix2 128) = true.
Proof. intro H. apply Rlt_bool_true. exact H. Qed.
Lemma ge_limit r : (limit32 <= Rabs (rnd32 r))%R ->
  Rlt_bool (Rabs (round radix2 (SpecFloat.fexp 24 128) (round_mode mode_NE) r)) (bpow radix2 128) = false.
Proof. intro H. apply Rlt_bool_false. exact H. Qed.

(** Correct rounding of the four operations when there is no overflow. *)
Lemma mul_ok x y : valid x -> valid y -> finite x -> finite y ->
  (Rabs (rnd32 (val x * val y)) < limit32)%R ->
  finite (f32_mul x y) /\ val (f32_mul x y) = rnd32 (val x * val y).
Proof.
  intros Hx Hy Fx Fy. destruct (valid_ex x Hx) as [bx ->], (valid_ex y Hy) as [b_y ->].
  rewrite finite_B in Fx, Fy. rewrite mul_B, finite_B, !val_B. intro H.
  generalize (Bmult_correct 24 128 Hprec Hmax mode_NE bx b_y). rewrite (lt_limit _ H), Fx, Fy.
  intros (A & C & _). split; assumption.
Qed.

Lemma add_ok x y : valid x -> valid y -> finite x -> finite y ->
  (Rabs (rnd32 (val x + val y)) < limit32)%R ->
  finite (f32_add x y) /\ val (f32_add x y) = rnd32 (val x + val y).
Proof.
  intros Hx Hy Fx Fy. destruct (valid_ex x Hx) as [bx ->], (valid_ex y Hy) as [b_y ->].
  rewrite finite_B in Fx, Fy. rewrite add_B, finite_B, !val_B. intro H.
  generalize (Bplus_correct 24 128 Hprec Hmax mode_NE bx b_y Fx Fy). rewrite (lt_limit _ H).
  intros (A & C & _). split; assumption.
Qed.

Lemma div_ok x y : valid x -> valid y -> finite x -> val y <> 0%R ->
  (Rabs (rnd32 (val x / val y)) < limit32)%R ->
  finite (f32_div x y) /\ val (f32_div x y) = rnd32 (val x / val y).
Proof.
  intros Hx Hy Fx. destruct (valid_ex x Hx) as [bx ->], (valid_ex y Hy) as [b_y ->].
  rewrite finite_B in Fx. rewrite div_B, finite_B, !val_B. intros N H.
  generalize (Bdiv_correct 24 128 Hprec Hmax mode_NE bx b_y N). rewrite (lt_limit _ H).
  intros (A & C & _). split; [rewrite C; assumption|exact A].
Qed.

Lemma of_Z_ok n : (Rabs (rnd32 (IZR n)) < limit32)%R ->
  finite (f32_of_Z n) /\ val (f32_of_Z n) = rnd32 (IZR n).
Proof.
  intros H. unfold f32_of_Z. rewrite binary_normalize_equiv, finite_B, val_B.
  generalize (binary_normalize_correct 24 128 Hprec Hmax mode_NE n 0 false).
  assert (E : F2R (Float radix2 n 0) = IZR n).
  { unfold F2R. simpl. apply Rmult_1_r. }
  cbv zeta. rewrite E, (lt_limit _ H). intros (A & C & _). split; assumption.
Qed.

(** Rounding facts. *)
Lemma rnd32_le x y : (x <= y -> rnd32 x <= rnd32 y)%R.
Proof. apply round_le; typeclasses eauto. Qed.
Lemma rnd32_0 : rnd32 0 = 0%R.
Proof. apply round_0; typeclasses eauto. Qed.
Lemma rnd32_id x : generic_format radix2 (FLT_exp (-149) 24) x -> rnd32 x = x.
Proof. apply round_generic; typeclasses eauto. Qed.
Lemma val_format x : valid x -> generic_format radix2 (FLT_exp (-149) 24) (val x).
Proof.
  intro Hx. destruct (valid_ex x Hx) as [b ->]. rewrite val_B.
  exact (generic_format_B2R 24 128 b).
Qed.
Lemma rnd32_val x : valid x -> rnd32 (val x) = val x.
Proof. intro. apply rnd32_id, val_format. assumption. Qed.
Lemma val_lt_limit x : valid x -> (Rabs (val x) < limit32)%R.
Proof. intro Hx. destruct (valid_ex x Hx) as [b ->]. rewrite val_B. apply abs_B2R_lt_emax. Qed.

(** Bit patterns denote valid floats. *)
Lemma digits2_le : forall p k, (Zpos p < 2 ^ k -> 0 <= k -> Zpos (digits2_pos p) <= k)%Z.
Proof.
  intros p k H Hk. change (digits2_pos p) with (Digits.digits2_pos p).
  rewrite Zpos_digits2_pos. apply Zdigits_le_Zpower. exact H.
Qed.
Lemma digits2_gt : forall p k, (2 ^ k <= Zpos p -> k < Zpos (digits2_pos p))%Z.
Proof.
  intros p k H. change (digits2_pos p) with (Digits.digits2_pos p).
  rewrite Zpos_digits2_pos. apply Zdigits_gt_Zpower. exact H.
Qed.

Lemma bounded_bits p e : (Zpos p < 2 ^ 24)%Z ->
  (e = -149 \/ (2 ^ 23 <= Zpos p /\ -149 <= e <= 104))%Z -> bounded 24 128 p e = true.
Proof.
  intros Hp He. unfold bounded, canonical_mantissa, SpecFloat.fexp, SpecFloat.emin.
  pose proof (digits2_le p 24 Hp ltac:(lia)).
  destruct He as [-> | [H2 H3]].
  - rewrite andb_true_iff; split; [apply Zeq_bool_true|apply Zle_bool_true]; lia.
  - pose proof (digits2_gt p 23 H2).
    rewrite andb_true_iff; split; [apply Zeq_bool_true|apply Zle_bool_true]; lia.
Qed.

Lemma valid_of_bits w : (0 <= w < 2 ^ 32)%Z -> valid (f32_of_bits w).
Proof.
  intro Hw. unfold f32_of_bits, valid.
  pose proof (Z.mod_pos_bound (w / 2 ^ 23) 256 eq_refl) as He.
  pose proof (Z.mod_pos_bound w (2 ^ 23) eq_refl) as Hf.
  set (e := ((w / 2 ^ 23) mod 256)%Z) in *. set (f := (w mod 2 ^ 23)%Z) in *.
  destruct (Z.eqb_spec e 255). { destruct (f =? 0)%Z; reflexivity. }
  destruct (Z.eqb_spec e 0).
  - destruct f as [|p|p] eqn:E; try reflexivity. cbn [valid_binary].
    apply bounded_bits; [lia|left; reflexivity].
  - destruct (f + 2 ^ 23)%Z as [|p|p] eqn:E; try reflexivity. cbn [valid_binary].
    apply bounded_bits; [lia|right; lia].
Qed.

(** ** Monotonicity, infinities included *)

Lemma fle_finite x y : valid x -> valid y -> finite x -> finite y -> (fle x y <-> (val x <= val y)%R).
Proof.
  intros Hx Hy. destruct (valid_ex x Hx) as [bx ->], (valid_ex y Hy) as [b_y ->].
  rewrite !finite_B, !val_B. intros Fx Fy. unfold fle.
  change (SFleb (B2SF bx) (B2SF b_y)) with (Bleb bx b_y). rewrite (Bleb_correct _ _ bx b_y Fx Fy).
  split; intro H.
  - destruct (Rle_bool_spec (B2R bx) (B2R b_y)); [assumption|discriminate].
  - apply Rle_bool_true, H.
Qed.

Lemma fle_inf x : not_nan x -> fle x (S754_infinity false).
Proof. destruct x as [[]|[]| |[]]; intro H; try discriminate; reflexivity. Qed.
Lemma fle_ninf x : not_nan x -> fle (S754_infinity true) x.
Proof. destruct x as [[]|[]| |[]]; intro H; try discriminate; reflexivity. Qed.
Lemma finite_not_nan x : finite x -> not_nan x.
Proof. destruct x; easy. Qed.
Lemma fle_refl x : not_nan x -> valid x -> fle x x.
Proof.
  intros N V. destruct x as [[]|[]| |s m e]; try reflexivity; try discriminate.
  apply fle_finite; try assumption; try reflexivity. apply Rle_refl.
Qed.

(** [v] is the IEEE result of an operation whose exact value is [r]. *)
Definition rounds (r : R) (v : f32) : Prop :=
  valid v /\
  ((finite v /\ val v = rnd32 r /\ (Rabs (rnd32 r) < limit32)%R)
   \/ ((limit32 <= Rabs (rnd32 r))%R /\ v = S754_infinity (Rlt_bool r 0))).

Lemma rounds_not_nan r v : rounds r v -> not_nan v.
Proof. intros (V & [(F & _)|(_ & ->)]); [apply finite_not_nan; assumption|reflexivity]. Qed.

Lemma rnd32_pos r : (0 <= r -> 0 <= rnd32 r)%R.
Proof. intro H. rewrite <- rnd32_0. apply rnd32_le, H. Qed.
Lemma rnd32_neg r : (r <= 0 -> rnd32 r <= 0)%R.
Proof. intro H. rewrite <- rnd32_0. apply rnd32_le, H. Qed.

Lemma limit_pos : (0 < limit32)%R. Proof. apply bpow_gt_0. Qed.

Lemma rounds_fle r r' v v' : rounds r v -> rounds r' v' -> (r <= r')%R -> fle v v'.
Proof.
  intros H H' L. pose proof (rounds_not_nan _ _ H) as N. pose proof (rounds_not_nan _ _ H') as N'.
  destruct H as (V & [(F & E & B1)|(G & ->)]), H' as (V' & [(F' & E' & B1')|(G' & ->)]).
  - apply fle_finite; try assumption. rewrite E, E'. apply rnd32_le, L.
  - destruct (Rlt_bool_spec r' 0) as [Z|Z]; [|apply fle_inf, N].
    exfalso. pose proof (rnd32_neg r' ltac:(lra)). pose proof (rnd32_le _ _ L).
    rewrite (Rabs_left1 (rnd32 r')) in G' by lra. rewrite (Rabs_left1 (rnd32 r)) in B1 by lra. lra.
  - destruct (Rlt_bool_spec r 0) as [Z|Z]; [apply fle_ninf, N'|].
    exfalso. pose proof (rnd32_pos r ltac:(lra)). pose proof (rnd32_le _ _ L).
    rewrite (Rabs_pos_eq (rnd32 r')) in B1' by lra. rewrite (Rabs_pos_eq (rnd32 r)) in G by lra. lra.
  - destruct (Rlt_bool_spec r 0), (Rlt_bool_spec r' 0); try reflexivity. lra.
Qed.

Lemma overflow_inf s : binary_overflow 24 128 mode_NE s = S754_infinity s.
Proof. destruct s; reflexivity. Qed.

Lemma Bsign_neg (b : B) : is_finite b = true -> (B2R b < 0)%R -> Bsign b = true.
Proof.
  destruct b as [s|s| |s m e H]; cbn; try easy; try lra. intros _.
  destruct s; [reflexivity|]. intro L. exfalso.
  assert (0 < F2R (Float radix2 (Zpos m) e))%R by (apply F2R_gt_0; reflexivity). unfold B2R in L. cbn in L. lra.
Qed.
Lemma Bsign_pos (b : B) : is_finite b = true -> (0 < B2R b)%R -> Bsign b = false.
Proof.
  destruct b as [s|s| |s m e H]; cbn; try easy; try lra. intros _.
  destruct s; [|reflexivity]. intro L. exfalso.
  assert (F2R (Float radix2 (Zneg m) e) < 0)%R by (apply F2R_lt_0; reflexivity). unfold B2R in L. cbn in L. lra.
Qed.

Lemma ge_limit_nonzero r : (limit32 <= Rabs (rnd32 r))%R -> (r < 0 \/ 0 < r)%R.
Proof.
  intro H. pose proof limit_pos. destruct (Rtotal_order r 0) as [|[->|]]; [left; assumption| |right; assumption].
  rewrite rnd32_0, Rabs_R0 in H. lra.
Qed.

Lemma add_rounds x y : valid x -> valid y -> finite x -> finite y -> rounds (val x + val y) (f32_add x y).
Proof.
  intros Hx Hy Fx Fy. split; [apply valid_add; assumption|].
  destruct (Rlt_or_le (Rabs (rnd32 (val x + val y))) limit32) as [H|H].
  - left. destruct (add_ok x y) as [A C]; try assumption. auto.
  - right. split; [assumption|].
    pose proof (ge_limit_nonzero _ H) as NZ.
    destruct (valid_ex x Hx) as [bx ->], (valid_ex y Hy) as [b_y ->].
    rewrite finite_B in Fx, Fy. rewrite !val_B in *. rewrite add_B.
    generalize (Bplus_correct 24 128 Hprec Hmax mode_NE bx b_y Fx Fy). rewrite (ge_limit _ H).
    intros (A & C). rewrite overflow_inf in A. rewrite A. f_equal.
    destruct (Rlt_bool_spec (B2R bx + B2R b_y) 0) as [L|L].
    + destruct (Rlt_or_le (B2R bx) 0) as [L1|L1]; [apply Bsign_neg; assumption|].
      rewrite C. apply Bsign_neg; [assumption|lra].
    + destruct (Rlt_or_le 0 (B2R bx)) as [L1|L1]; [apply Bsign_pos; assumption|].
      rewrite C. apply Bsign_pos; [assumption|lra].
Qed.

Lemma mul_rounds x y : valid x -> valid y -> finite x -> finite y -> rounds (val x * val y) (f32_mul x y).
Proof.
  intros Hx Hy Fx Fy. split; [apply valid_mul; assumption|].
  destruct (Rlt_or_le (Rabs (rnd32 (val x * val y))) limit32) as [H|H].
  - left. destruct (mul_ok x y) as [A C]; try assumption. auto.
  - right. split; [assumption|].
    pose proof (ge_limit_nonzero _ H) as NZ.
    destruct (valid_ex x Hx) as [bx ->], (valid_ex y Hy) as [b_y ->].
    rewrite finite_B in Fx, Fy. rewrite !val_B in *. rewrite mul_B.
    generalize (Bmult_correct 24 128 Hprec Hmax mode_NE bx b_y). rewrite (ge_limit _ H).
    intros A. rewrite overflow_inf in A. rewrite A. f_equal.
    destruct (Rtotal_order (B2R bx) 0) as [L1|[L1|L1]]; [|rewrite L1, Rmult_0_l in NZ; lra|];
    (destruct (Rtotal_order (B2R b_y) 0) as [L2|[L2|L2]]; [|rewrite L2, Rmult_0_r in NZ; lra|]);
    rewrite ?(Bsign_neg bx), ?(Bsign_neg b_y), ?(Bsign_pos bx), ?(Bsign_pos b_y) by assumption;
    cbn [xorb]; symmetry.
    + apply Rlt_bool_false. nra.
    + apply Rlt_bool_true. nra.
    + apply Rlt_bool_true. nra.
    + apply Rlt_bool_false. nra.
Qed.

Lemma of_Z_rounds n : rounds (IZR n) (f32_of_Z n).
Proof.
  split; [apply valid_of_Z|].
  destruct (Rlt_or_le (Rabs (rnd32 (IZR n))) limit32) as [H|H].
  - left. destruct (of_Z_ok n H). auto.
  - right. split; [assumption|]. unfold f32_of_Z. rewrite binary_normalize_equiv.
    generalize (binary_normalize_correct 24 128 Hprec Hmax mode_NE n 0 false).
    assert (E : F2R (Float radix2 n 0) = IZR n) by (unfold F2R; simpl; apply Rmult_1_r).
    cbv zeta. rewrite E, (ge_limit _ H). intros A. rewrite overflow_inf in A. exact A.
Qed.

(** Monotone operations. *)
Lemma not_nan_cases x : not_nan x -> finite x \/ x = S754_infinity true \/ x = S754_infinity false.
Proof. destruct x as [|[]| |]; intro; try discriminate; auto; left; reflexivity. Qed.

Lemma add_mono r x y : valid r -> finite r -> valid x -> valid y -> not_nan x -> not_nan y ->
  fle x y -> fle (f32_add r x) (f32_add r y) /\ not_nan (f32_add r x).
Proof.
  intros Vr Fr Vx Vy Nx Ny L.
  assert (NN : forall z, valid z -> not_nan z -> not_nan (f32_add r z)).
  { intros z Vz Nz. destruct (not_nan_cases z Nz) as [F|[->| ->]].
    - eapply rounds_not_nan. apply add_rounds; assumption.
    - destruct r; try discriminate; reflexivity.
    - destruct r; try discriminate; reflexivity. }
  split; [|apply NN; assumption].
  assert (Ei : forall s, f32_add r (S754_infinity s) = S754_infinity s).
  { intro s. destruct r; try discriminate; reflexivity. }
  destruct (not_nan_cases x Nx) as [F|[->| ->]].
  - destruct (not_nan_cases y Ny) as [F'|[->| ->]].
    + eapply rounds_fle; [apply add_rounds; assumption..|]. apply fle_finite in L; try assumption. lra.
    + destruct x; discriminate.
    + rewrite Ei. apply fle_inf, NN; assumption.
  - rewrite Ei. apply fle_ninf, NN; assumption.
  - destruct y as [|[]| |[]]; try discriminate. rewrite !Ei. reflexivity.
Qed.

Lemma mul_mono c x y : valid c -> finite c -> (0 < val c)%R -> valid x -> valid y -> not_nan x -> not_nan y ->
  fle x y -> fle (f32_mul x c) (f32_mul y c) /\ not_nan (f32_mul x c).
Proof.
  intros Vr Fr P Vx Vy Nx Ny L.
  assert (Ei : forall s, f32_mul (S754_infinity s) c = S754_infinity s).
  { intro s. destruct c as [| | |[] mm ee]; try discriminate.
    - cbn in P. lra.
    - exfalso. unfold val, SF2R in P. cbn in P.
      assert (F2R (Float radix2 (Zneg mm) ee) < 0)%R by (apply F2R_lt_0; reflexivity). lra.
    - destruct s; reflexivity. }
  assert (NN : forall z, valid z -> not_nan z -> not_nan (f32_mul z c)).
  { intros z Vz Nz. destruct (not_nan_cases z Nz) as [F|[->| ->]].
    - eapply rounds_not_nan. apply mul_rounds; assumption.
    - rewrite Ei. reflexivity.
    - rewrite Ei. reflexivity. }
  split; [|apply NN; assumption].
  destruct (not_nan_cases x Nx) as [F|[->| ->]].
  - destruct (not_nan_cases y Ny) as [F'|[->| ->]].
    + eapply rounds_fle; [apply mul_rounds; assumption..|]. apply fle_finite in L; try assumption. nra.
    + destruct x; discriminate.
    + rewrite Ei. apply fle_inf, NN; assumption.
  - rewrite Ei. apply fle_ninf, NN; assumption.
  - destruct y as [|[]| |[]]; try discriminate. rewrite !Ei. reflexivity.
Qed.

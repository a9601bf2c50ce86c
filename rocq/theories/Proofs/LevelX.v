(** C12: the values of levels. *)
From Coq Require Import Reals ZArith Bool Lia Lra ZifyBool ZifyNat.
From Coq Require Floats.SpecFloat.
From Flocq Require Import Core.Core IEEE754.BinarySingleNaN.
From Verif Require Import Model.Base Model.F32 Model.RunLength.
From Verif Require Import Spec.FloatS Spec.SimpleS Spec.RunLengthS.
From Verif Require Import Proofs.BaseLemmas Proofs.FloatP Proofs.SimpleP Proofs.AccuracyP Proofs.ToolsF.
Import Floats.SpecFloat(spec_float, S754_zero, S754_infinity, S754_nan, S754_finite).
Open Scope Z_scope.

Definition gone (s : Z) : bool := match f32_powi (f32_of_Z 10) (- s) with S754_zero false => true | _ => false end.
Lemma gone_all s : 39 <= s <= 255 -> f32_powi (f32_of_Z 10) (- s) = S754_zero false.
Proof.
  intro H. assert (G : gone s = true) by (apply (sweep gone 39 217); [vm_compute; reflexivity|lia]).
  unfold gone in G. destruct (f32_powi (f32_of_Z 10) (- s)) as [[]| | |]; congruence.
Qed.

Lemma small_exact x : 0 <= x < 2 ^ 16 -> finite (f32_of_Z x) /\ val (f32_of_Z x) = IZR x.
Proof.
  intros H. assert (F : rnd32 (IZR x) = IZR x). { apply rnd32_id. apply generic_format_FLT. exists (Float radix2 x 0); [unfold F2R; cbn; ring|cbn; lia|cbn; lia]. }
  destruct (of_Z_ok x) as [A B].
  - rewrite F, Rabs_pos_eq by (apply IZR_le; lia). apply Rlt_le_trans with (IZR (2 ^ 16)); [apply IZR_lt; lia|]. unfold limit32. change (IZR (2 ^ 16)) with (bpow radix2 16). apply bpow_le. lia.
  - split; [exact A|congruence].
Qed.

Lemma level_accurate scale x : 0 <= scale <= 38 -> 0 <= x < 2 ^ 16 ->
  let v := f32_mul (f32_of_Z x) (f32_powi (f32_of_Z 10) (- scale)) in
  finite v /\ (Rabs (val v - IZR x * powerRZ 10 (- scale)) <= bpow radix2 (-20) * (IZR x * powerRZ 10 (- scale)))%R.
Proof.
  intros Hs Hx v. destruct (small_exact x Hx) as [Fx Vx]. destruct (powi10_close (- scale) ltac:(lia)) as [Ff Cf].
  set (f := f32_powi (f32_of_Z 10) (- scale)) in *. set (T := powerRZ 10 (- scale)) in *.
  assert (T0 : (0 < T)%R) by apply pow_T.
  assert (T1 : (T <= 1)%R). { unfold T. rewrite powerRZ_neg', powerRZ_IZR by lia. rewrite <- Rinv_1. apply Rinv_le; [lra|]. apply IZR_le. pose proof (Z.pow_pos_nonneg 10 scale). lia. }
  assert (TL : (bpow radix2 (-127) <= T)%R).
  { unfold T. rewrite powerRZ_neg', powerRZ_IZR by lia. change (bpow radix2 (-127)) with (/ IZR (2 ^ 127))%R. apply Rinv_le.
    - apply IZR_lt, Z.pow_pos_nonneg; lia.
    - apply IZR_le. apply Z.le_trans with (10 ^ 38); [apply Z.pow_le_mono_r; lia|vm_compute; discriminate]. }
  assert (E : (eta <= / 8388608 * T)%R).
  { unfold eta. change (-150) with (-23 + -127). rewrite bpow_plus. change (bpow radix2 (-23)) with (/ 8388608)%R. apply Rmult_le_compat_l; [lra|exact TL]. }
  apply Rabs_le_inv in Cf. unfold u21 in Cf.
  pose proof (IZR_le 0 x ltac:(lia)) as X0. assert (X1 : (IZR x <= 65535)%R) by (apply IZR_le; lia).
  assert (Rp : (0 <= IZR x * val f <= 2 * 65535)%R).
  { split; [apply Rmult_le_pos; lra|]. apply Rle_trans with (65535 * 2)%R; [|lra]. apply Rmult_le_compat; lra. }
  destruct (mul_ok (f32_of_Z x) f) as [A B]; try assumption; [apply valid_of_Z|apply valid_powi, valid_of_Z| |].
  { rewrite Vx. apply small_lt. rewrite Rabs_pos_eq by lra. apply Rle_trans with (bpow radix2 17); [|apply bpow_le; lia]. change (bpow radix2 17) with 131072%R. lra. }
  split; [exact A|]. fold v in B. rewrite B, Vx. change (bpow radix2 (-20)) with (/ 1048576)%R.
  destruct (Z.eq_dec x 0) as [->|N].
  - rewrite !Rmult_0_l, rnd32_0, Rminus_0_r, Rabs_R0. lra.
  - pose proof (IZR_le 1 x ltac:(lia)) as X2. pose proof (rnd32_err (IZR x * val f)) as R. rewrite (Rabs_pos_eq (IZR x * val f)) in R by lra. unfold u24 in R.
    apply Rabs_le_inv in R. apply Rabs_le.
    assert (U : (IZR x * val f <= IZR x * (T + / 2097152 * T))%R) by (apply Rmult_le_compat_l; lra).
    assert (L : (IZR x * (T - / 2097152 * T) <= IZR x * val f)%R) by (apply Rmult_le_compat_l; lra).
    assert (M : (T <= IZR x * T)%R) by (rewrite <- (Rmult_1_l T) at 1; apply Rmult_le_compat_r; lra).
    assert (X3 : (IZR x * (T + / 2097152 * T) = (1 + / 2097152) * (IZR x * T))%R) by ring.
    assert (X4 : (IZR x * (T - / 2097152 * T) = (1 - / 2097152) * (IZR x * T))%R) by ring.
    set (P := (IZR x * T)%R) in *. lra.
Qed.

Lemma level_real : forall scale levels l, 0 <= scale < 256 -> Forall (fun x => 0 <= x < 2 ^ 16) levels -> 0 <= l <= zlen levels ->
  let v := level_value scale levels l in let x := IZR (nth (Z.to_nat (l - 1)) levels 0) in
  (l = 0 -> v = f32_nan) /\
  (1 <= l -> scale <= 38 -> finite v /\ (Rabs (val v - x * powerRZ 10 (- scale)) <= bpow radix2 (-20) * (x * powerRZ 10 (- scale)))%R) /\
  (1 <= l -> 39 <= scale -> v = S754_zero false).
Proof.
  intros scale levels l Hs Hl Hr v x. subst v x. unfold level_value. split; [intros ->; reflexivity|].
  assert (B : 1 <= l -> 0 <= nth (Z.to_nat (l - 1)) levels 0 < 2 ^ 16).
  { intros H1. rewrite Forall_forall in Hl. apply Hl. apply nth_In. unfold zlen in Hr. lia. }
  split; intros H1 H2; replace (l =? 0) with false by lia.
  - apply level_accurate; [lia|auto].
  - rewrite (gone_all scale) by lia. specialize (B H1). destruct (small_exact _ B) as [F _].
    pose proof (valid_of_Z (nth (Z.to_nat (l - 1)) levels 0)) as V.
    destruct (small_exact _ B) as [_ Vx]. destruct (f32_of_Z (nth (Z.to_nat (l - 1)) levels 0)) as [s| | |s p e] eqn:Ez; try discriminate F; try contradiction.
    + destruct (Z.eq_dec (nth (Z.to_nat (l - 1)) levels 0) 0) as [E0|N]; [rewrite E0 in Ez; vm_compute in Ez; injection Ez as <-; reflexivity|].
      exfalso. cbn in Vx. symmetry in Vx. apply (eq_IZR _ 0) in Vx. contradiction.
    + destruct s; [|reflexivity]. exfalso. rewrite val_finite in Vx. cbn in Vx. pose proof (bpow_gt_0 radix2 e). pose proof (IZR_lt _ _ (Pos2Z.neg_is_neg p)). pose proof (IZR_le _ _ (proj1 B)). nra.
Qed.

(** C15: how far the decoded value is from (R + x * 2^E) * 10^-D. *)
From Coq Require Import Reals ZArith Bool Lia Lra Psatz ZifyBool ZifyNat.
From Coq Require Floats.SpecFloat.
From Flocq Require Import Core.Core IEEE754.BinarySingleNaN Relative.
From Verif Require Import Model.Base Model.Helpers Model.Errors Model.F32 Model.Stream Model.Diff Model.Complex Model.Simple.
From Verif Require Import Spec.Bits Spec.ComplexS Spec.FloatS Spec.SimpleS.
From Verif Require Import Proofs.BaseLemmas Proofs.HelpersP Proofs.StreamP Proofs.Bits2 Proofs.Fields Proofs.ComplexP Proofs.FloatP Proofs.SimpleP.
Import Floats.SpecFloat(spec_float, S754_zero, S754_infinity, S754_nan, S754_finite).
Open Scope Z_scope.
Local Instance Hprec : FLX.Prec_gt_0 24 := eq_refl _.

(** Powers of ten: relative error at most 2^-21. *)
Definition close10 (d : Z) : bool :=
  match f32_powi (f32_of_Z 10) d with
  | S754_finite false m e =>
      if 0 <=? d then
        if 0 <=? e then Z.abs (Zpos m * 2 ^ e - 10 ^ d) * 2 ^ 21 <=? 10 ^ d
        else Z.abs (Zpos m - 10 ^ d * 2 ^ (- e)) * 2 ^ 21 <=? 10 ^ d * 2 ^ (- e)
      else (e <=? 0) && (Z.abs (Zpos m * 10 ^ (- d) - 2 ^ (- e)) * 2 ^ 21 <=? 2 ^ (- e))
  | _ => false
  end.
Lemma close10_all d : -38 <= d <= 38 -> close10 d = true.
Proof. intro H. apply (sweep close10 (-38) 77); [vm_compute; reflexivity|lia]. Qed.

Definition u21 : R := (/ 2097152)%R.
Lemma abs_scaled_Z a b : 0 <= b -> Z.abs a * 2 ^ 21 <= b -> (Rabs (IZR a) <= u21 * IZR b)%R.
Proof.
  intros Hb H. rewrite <- abs_IZR. apply IZR_le in H. rewrite mult_IZR in H. change (IZR (2 ^ 21)) with 2097152%R in H.
  unfold u21. lra.
Qed.
Lemma bpow_neg_inv e : e <= 0 -> (bpow radix2 e * IZR (2 ^ (- e)) = 1)%R.
Proof.
  intro H. replace (IZR (2 ^ (- e))) with (bpow radix2 (- e)) by (rewrite <- IZR_Zpower by lia; reflexivity).
  rewrite <- bpow_plus. replace (e + - e) with 0 by lia. reflexivity.
Qed.
Lemma powi10_close d : -38 <= d <= 38 ->
  finite (f32_powi (f32_of_Z 10) d) /\ (Rabs (val (f32_powi (f32_of_Z 10) d) - powerRZ 10 d) <= u21 * powerRZ 10 d)%R.
Proof.
  intro H. pose proof (close10_all d H) as C. unfold close10 in C.
  destruct (f32_powi (f32_of_Z 10) d) as [| | |[] m e]; try discriminate. split; [reflexivity|]. rewrite val_finite.
  destruct (Z.leb_spec 0 d) as [Hd|Hd].
  - rewrite powerRZ_IZR by exact Hd.
    assert (P : 0 < 10 ^ d) by (apply Z.pow_pos_nonneg; lia).
    destruct (Z.leb_spec 0 e) as [He|He].
    + replace (IZR (Z.pos m) * bpow radix2 e - IZR (10 ^ d))%R with (IZR (Zpos m * 2 ^ e - 10 ^ d)).
      * apply abs_scaled_Z; lia.
      * rewrite minus_IZR, mult_IZR. f_equal. f_equal. rewrite <- IZR_Zpower by exact He. reflexivity.
    + pose proof (bpow_neg_inv e ltac:(lia)) as I. pose proof (bpow_gt_0 radix2 e) as B.
      assert (G : (Rabs (IZR (Zpos m - 10 ^ d * 2 ^ (- e))) <= u21 * IZR (10 ^ d * 2 ^ (- e)))%R) by (apply abs_scaled_Z; [|lia]; apply Z.mul_nonneg_nonneg; [lia|apply Z.pow_nonneg; lia]).
      replace (IZR (Z.pos m) * bpow radix2 e - IZR (10 ^ d))%R with (bpow radix2 e * IZR (Zpos m - 10 ^ d * 2 ^ (- e)))%R.
      2:{ rewrite minus_IZR, mult_IZR, Rmult_minus_distr_l. rewrite (Rmult_comm (IZR (10 ^ d))), <- Rmult_assoc, I. ring. }
      rewrite Rabs_mult, (Rabs_pos_eq (bpow radix2 e)) by lra.
      replace (u21 * IZR (10 ^ d))%R with (bpow radix2 e * (u21 * IZR (10 ^ d * 2 ^ (- e))))%R.
      2:{ rewrite mult_IZR. replace (bpow radix2 e * (u21 * (IZR (10 ^ d) * IZR (2 ^ (- e)))))%R with (u21 * IZR (10 ^ d) * (bpow radix2 e * IZR (2 ^ (- e))))%R by ring. rewrite I. ring. }
      apply Rmult_le_compat_l; [lra|exact G].
  - apply andb_prop in C. destruct C as [He C]. apply Z.leb_le in He, C.
    pose proof (bpow_neg_inv e He) as I. pose proof (bpow_gt_0 radix2 e) as B.
    assert (E : (powerRZ 10 d = / IZR (10 ^ (- d)))%R).
    { replace d with (- (- d)) at 1 by lia. rewrite powerRZ_neg', powerRZ_IZR by lia. reflexivity. }
    assert (P : (0 < IZR (10 ^ (- d)))%R) by (apply IZR_lt, Z.pow_pos_nonneg; lia).
    assert (P2 : (0 < / IZR (10 ^ (- d)))%R) by (apply Rinv_0_lt_compat; exact P).
    assert (G : (Rabs (IZR (Zpos m * 10 ^ (- d) - 2 ^ (- e))) <= u21 * IZR (2 ^ (- e)))%R) by (apply abs_scaled_Z; [apply Z.pow_nonneg; lia|exact C]).
    rewrite E.
    replace (IZR (Z.pos m) * bpow radix2 e - / IZR (10 ^ - d))%R with (bpow radix2 e * / IZR (10 ^ (- d)) * IZR (Zpos m * 10 ^ (- d) - 2 ^ (- e)))%R.
    2:{ rewrite minus_IZR, mult_IZR.
        replace (bpow radix2 e * / IZR (10 ^ - d) * (IZR (Z.pos m) * IZR (10 ^ - d) - IZR (2 ^ - e)))%R
          with (IZR (Z.pos m) * bpow radix2 e * (/ IZR (10 ^ - d) * IZR (10 ^ - d)) - / IZR (10 ^ - d) * (bpow radix2 e * IZR (2 ^ - e)))%R by ring.
        rewrite I, Rinv_l by lra. ring. }
    rewrite Rabs_mult, (Rabs_pos_eq (bpow radix2 e * _)) by (apply Rmult_le_pos; lra).
    replace (u21 * / IZR (10 ^ - d))%R with (bpow radix2 e * / IZR (10 ^ (- d)) * (u21 * IZR (2 ^ (- e))))%R.
    2:{ replace (bpow radix2 e * / IZR (10 ^ - d) * (u21 * IZR (2 ^ - e)))%R with (u21 * / IZR (10 ^ - d) * (bpow radix2 e * IZR (2 ^ - e)))%R by ring. rewrite I. ring. }
    apply Rmult_le_compat_l; [apply Rmult_le_pos; lra|exact G].
Qed.

(** ** One rounding. *)
Definition u24 : R := (/ 16777216)%R.
Definition eta : R := bpow radix2 (-150).
Lemma rnd32_err r : (Rabs (rnd32 r - r) <= u24 * Rabs r + eta)%R.
Proof.
  destruct (Rle_or_lt (bpow radix2 (-126)) (Rabs r)) as [H|H].
  - pose proof (relative_error_N_FLT radix2 (-149) 24 Hprec (fun z => negb (Z.even z)) r H) as G.
    change (rnd32 r) with (round radix2 (FLT_exp (-149) 24) (Znearest (fun z => negb (Z.even z))) r).
    replace u24 with (/ 2 * bpow radix2 (- (24) + 1))%R by (unfold u24; cbn; lra).
    pose proof (bpow_ge_0 radix2 (-150)) as E. fold eta in E. lra.
  - assert (G : (Rabs (rnd32 r - r) <= / 2 * ulp radix2 (FLT_exp (-149) 24) r)%R) by (apply error_le_half_ulp; typeclasses eauto).
    rewrite ulp_FLT_small in G; [|exact Hprec|eapply Rlt_le_trans; [exact H|apply bpow_le; lia]].
    replace (/ 2 * bpow radix2 (-149))%R with eta in G.
    2:{ unfold eta. replace (-149) with (1 + -150) by reflexivity. rewrite bpow_plus. change (bpow radix2 1) with 2%R. field. }
    assert (0 <= u24 * Rabs r)%R by (apply Rmult_le_pos; [unfold u24; lra|apply Rabs_pos]). lra.
Qed.
Lemma rnd32_Z_err x : (Rabs (rnd32 (IZR x) - IZR x) <= u24 * Rabs (IZR x))%R.
Proof.
  destruct (Z.eq_dec x 0) as [->|N].
  - rewrite rnd32_0, Rminus_0_r, Rabs_R0. lra.
  - pose proof (relative_error_N_FLT radix2 (-149) 24 Hprec (fun z => negb (Z.even z)) (IZR x)) as G.
    change (rnd32 (IZR x)) with (round radix2 (FLT_exp (-149) 24) (Znearest (fun z => negb (Z.even z))) (IZR x)).
    replace u24 with (/ 2 * bpow radix2 (- (24) + 1))%R by (unfold u24; cbn; lra). apply G.
    apply Rle_trans with 1%R; [change 1%R with (bpow radix2 0); apply bpow_le; lia|].
    rewrite <- abs_IZR. apply (IZR_le 1). lia.
Qed.

(** ** The chain of roundings, over abstract reals. *)
Lemma chain_error (r x b t T x' p s v : R) :
  (0 <= b -> 0 < T ->
   Rabs (x' - x) <= u24 * Rabs x ->
   Rabs (p - x' * b) <= u24 * Rabs (x' * b) + eta ->
   Rabs (s - (r + p)) <= u24 * Rabs (r + p) + eta ->
   Rabs (t - T) <= u21 * T ->
   Rabs (v - s * t) <= u24 * Rabs (s * t) + eta ->
   let M := Rabs r + Rabs x * b in
   Rabs (x' * b) <= 2 * M /\ Rabs (r + p) <= (3 / 2) * M + eta * 2 /\ Rabs (s * t) <= (3 / 2) * (M * T) + eta * 4 * T
   /\ Rabs (v - (r + x * b) * T) <= 16 * u24 * (M * T) + 4 * eta * (1 + T))%R.
Proof.
  intros Hb HT Hx Hp Hs Ht Hv M.
  assert (E0 : (0 < eta)%R) by apply bpow_gt_0.
  set (X := (Rabs x * b)%R).
  assert (HX : (0 <= X)%R) by (apply Rmult_le_pos; [apply Rabs_pos|exact Hb]).
  assert (HR : (0 <= Rabs r)%R) by apply Rabs_pos.
  assert (HM : (0 <= M)%R) by (unfold M; fold X; lra).
  assert (HXM : (X <= M)%R) by (unfold M; fold X; lra).
  (* x' b *)
  assert (A1 : (Rabs (x' * b - x * b) <= u24 * X)%R).
  { replace (x' * b - x * b)%R with ((x' - x) * b)%R by ring. rewrite Rabs_mult, (Rabs_pos_eq b) by exact Hb.
    unfold X. rewrite <- Rmult_assoc. apply Rmult_le_compat_r; assumption. }
  assert (A2 : (Rabs (x * b) = X)%R) by (unfold X; rewrite Rabs_mult, (Rabs_pos_eq b) by exact Hb; reflexivity).
  assert (A3 : (Rabs (x' * b) <= (1 + u24) * X)%R).
  { replace (x' * b)%R with ((x' * b - x * b) + x * b)%R by ring. eapply Rle_trans; [apply Rabs_triang|]. lra. }
  (* p *)
  assert (B1 : (Rabs (p - x * b) <= (2 * u24 + u24 * u24) * X + eta)%R).
  { replace (p - x * b)%R with ((p - x' * b) + (x' * b - x * b))%R by ring. eapply Rle_trans; [apply Rabs_triang|].
    assert (u24 * Rabs (x' * b) <= u24 * ((1 + u24) * X))%R by (apply Rmult_le_compat_l; [unfold u24; lra|exact A3]). lra. }
  assert (B2 : (Rabs (r + p) <= (1 + (2 * u24 + u24 * u24)) * M + eta)%R).
  { replace (r + p)%R with (r + ((p - x * b) + x * b))%R by ring. eapply Rle_trans; [apply Rabs_triang|].
    pose proof (Rabs_triang (p - x * b) (x * b)) as G.
    assert (2 * u24 + u24 * u24 >= 0)%R by (unfold u24; lra).
    assert ((2 * u24 + u24 * u24) * X <= (2 * u24 + u24 * u24) * M)%R by (apply Rmult_le_compat_l; lra).
    assert (EM : M = (Rabs r + X)%R) by reflexivity. lra. }
  (* s *)
  assert (C1 : (Rabs (s - (r + x * b)) <= (31 / 10 * u24) * M + 21 / 10 * eta)%R).
  { replace (s - (r + x * b))%R with ((s - (r + p)) + (p - x * b))%R by ring. eapply Rle_trans; [apply Rabs_triang|].
    assert (u24 * Rabs (r + p) <= u24 * ((1 + (2 * u24 + u24 * u24)) * M + eta))%R by (apply Rmult_le_compat_l; [unfold u24; lra|exact B2]).
    assert ((2 * u24 + u24 * u24) * X <= (2 * u24 + u24 * u24) * M)%R by (apply Rmult_le_compat_l; [unfold u24; lra|lra]).
    unfold u24 in *. lra. }
  assert (C2 : (Rabs (r + x * b) <= M)%R) by (eapply Rle_trans; [apply Rabs_triang|]; rewrite A2; unfold M; fold X; lra).
  assert (C3 : (Rabs s <= (1 + 31 / 10 * u24) * M + 21 / 10 * eta)%R).
  { replace s with ((s - (r + x * b)) + (r + x * b))%R by ring. eapply Rle_trans; [apply Rabs_triang|]. lra. }
  assert (D1 : (Rabs t <= (1 + u21) * T)%R).
  { replace t with ((t - T) + T)%R by ring. eapply Rle_trans; [apply Rabs_triang|]. rewrite (Rabs_pos_eq T) by lra. lra. }
  assert (MT : (0 <= M * T)%R) by (apply Rmult_le_pos; lra).
  assert (ET : (0 < eta * T)%R) by (apply Rmult_lt_0_compat; lra).
  assert (F1 : (Rabs (s * t) <= (1 + 12 * u24) * (M * T) + 22 / 10 * (eta * T))%R).
  { rewrite Rabs_mult. eapply Rle_trans; [apply Rmult_le_compat; [apply Rabs_pos|apply Rabs_pos|exact C3|exact D1]|].
    replace (((1 + 31 / 10 * u24) * M + 21 / 10 * eta) * ((1 + u21) * T))%R
      with ((1 + 31 / 10 * u24) * (1 + u21) * (M * T) + 21 / 10 * (1 + u21) * (eta * T))%R by ring.
    unfold u24, u21. lra. }
  assert (F2 : (Rabs (s * t - (r + x * b) * T) <= (112 / 10 * u24) * (M * T) + 22 / 10 * (eta * T))%R).
  { replace (s * t - (r + x * b) * T)%R with ((s - (r + x * b)) * t + (r + x * b) * (t - T))%R by ring.
    eapply Rle_trans; [apply Rabs_triang|]. rewrite !Rabs_mult.
    assert (G1 : (Rabs (s - (r + x * b)) * Rabs t <= (31 / 10 * u24 * M + 21 / 10 * eta) * ((1 + u21) * T))%R)
      by (apply Rmult_le_compat; [apply Rabs_pos|apply Rabs_pos|exact C1|exact D1]).
    assert (G2 : (Rabs (r + x * b) * Rabs (t - T) <= M * (u21 * T))%R)
      by (apply Rmult_le_compat; [apply Rabs_pos|apply Rabs_pos|exact C2|exact Ht]).
    replace ((31 / 10 * u24 * M + 21 / 10 * eta) * ((1 + u21) * T))%R
      with (31 / 10 * u24 * (1 + u21) * (M * T) + 21 / 10 * (1 + u21) * (eta * T))%R in G1 by ring.
    replace (M * (u21 * T))%R with (u21 * (M * T))%R in G2 by ring.
    unfold u24, u21 in *. lra. }
  split; [unfold u24 in *; lra|]. split; [unfold u24 in *; lra|]. split; [unfold u24 in *; lra|].
  replace (v - (r + x * b) * T)%R with ((v - s * t) + (s * t - (r + x * b) * T))%R by ring.
  eapply Rle_trans; [apply Rabs_triang|].
  assert (u24 * Rabs (s * t) <= u24 * ((1 + 12 * u24) * (M * T) + 22 / 10 * (eta * T)))%R by (apply Rmult_le_compat_l; [unfold u24; lra|exact F1]).
  replace (4 * eta * (1 + T))%R with (4 * eta + 4 * (eta * T))%R by ring.
  unfold u24, u21 in *. lra.
Qed.
(** ** Values *)
Lemma pow_T d : (0 < powerRZ 10 d)%R.
Proof. apply powerRZ_lt. lra. Qed.
Lemma pow_T_big d : d <= 38 -> (powerRZ 10 d <= bpow radix2 127)%R.
Proof.
  intro H. apply Rle_trans with (powerRZ 10 38).
  - destruct (Z_le_gt_dec d 0) as [L|L].
    + apply Rle_trans with 1%R.
      * replace d with (- (- d)) by lia. rewrite powerRZ_neg', powerRZ_IZR by lia.
        assert (1 <= IZR (10 ^ (- d)))%R by (apply IZR_le; pose proof (Z.pow_pos_nonneg 10 (- d)); lia).
        rewrite <- Rinv_1. apply Rinv_le_contravar; lra.
      * rewrite powerRZ_IZR by lia. apply IZR_le. vm_compute. discriminate.
    + rewrite !powerRZ_IZR by lia. apply IZR_le, Z.pow_le_mono_r; lia.
  - rewrite powerRZ_IZR by lia. rewrite <- IZR_Zpower by lia. apply IZR_le. vm_compute. discriminate.
Qed.
Lemma eta_T d : d <= 38 -> (eta * powerRZ 10 d <= 1)%R.
Proof.
  intro H. pose proof (pow_T_big d H) as B. pose proof (pow_T d).
  apply Rle_trans with (eta * bpow radix2 127)%R; [apply Rmult_le_compat_l; [apply bpow_ge_0|exact B]|].
  unfold eta. rewrite <- bpow_plus. change 1%R with (bpow radix2 0). apply bpow_le. lia.
Qed.
Lemma eta_small : (eta <= 1)%R.
Proof. change 1%R with (bpow radix2 0). apply bpow_le. lia. Qed.
Lemma p127 : bpow radix2 127 = (2 * bpow radix2 126)%R.
Proof. replace 127 with (1 + 126) by reflexivity. rewrite bpow_plus. reflexivity. Qed.
Lemma p126 : (64 <= bpow radix2 126)%R.
Proof. change 64%R with (bpow radix2 6). apply bpow_le. lia. Qed.
Lemma small_lt r : (Rabs r <= bpow radix2 127)%R -> (Rabs (rnd32 r) < limit32)%R.
Proof. intro H. apply (rnd32_abs_lt_limit _ 127); [exact H|lia]. Qed.
Lemma u20 : bpow radix2 (-20) = (16 * u24)%R.
Proof. unfold u24. cbn. lra. Qed.
Lemma eta4 : bpow radix2 (-148) = (4 * eta)%R.
Proof. unfold eta. replace (-148) with (2 + -150) by reflexivity. rewrite bpow_plus. reflexivity. Qed.

Lemma simple_value_accurate r e d nbit x :
  valid r -> finite r -> -127 <= e <= 127 -> -38 <= d <= 37 -> Z.abs x <= 2 ^ 127 ->
  in_reach (val r) e d x ->
  accurate (val r) e d x (simple_value (SimpleParam r e d nbit) (f32_of_Z x)).
Proof.
  intros Vr Fr He Hd Hx (O1 & O2). unfold simple_value, accurate. cbn [sp_ref sp_exp sp_dig].
  rewrite powi2 by assumption.
  assert (Vp : valid (pow2_float e)) by (rewrite <- powi2 by assumption; apply valid_powi2).
  destruct (val_pow2_float e) as [Fp Ep].
  destruct (of_Z_small x Hx) as [Fx Ex].
  assert (Vx := valid_of_Z x).
  destruct (powi10_close (- d) ltac:(lia)) as [Fd Ed].
  assert (Vd : valid (f32_powi (f32_of_Z 10) (- d))) by (apply valid_powi, valid_of_Z).
  set (t := val (f32_powi (f32_of_Z 10) (- d))) in *. set (T := powerRZ 10 (- d)) in *.
  set (b := bpow radix2 e) in *.
  set (x' := rnd32 (IZR x)). set (p := rnd32 (x' * b)). set (s := rnd32 (val r + p)). set (v := rnd32 (s * t)).
  assert (Hb : (0 <= b)%R) by apply bpow_ge_0.
  assert (HT : (0 < T)%R) by apply pow_T.
  destruct (chain_error (val r) (IZR x) b t T x' p s v Hb HT (rnd32_Z_err x) (rnd32_err _) (rnd32_err _) Ed (rnd32_err _))
    as (L1 & L2 & L3 & L4).
  pose proof eta_small as S1. pose proof (eta_T (- d) ltac:(lia)) as S2. fold T in S2.
  pose proof p127 as P1. pose proof p126 as P2.
  unfold magnitude in *. fold b in O1, O2 |- *. fold T in O2.
  destruct (mul_ok (f32_of_Z x) (pow2_float e)) as [F1 E1]; try assumption.
  { rewrite Ex, Ep. apply small_lt. fold x' b. lra. }
  rewrite Ex, Ep in E1. fold x' b p in E1.
  assert (V1 : valid (f32_mul (f32_of_Z x) (pow2_float e))) by (apply valid_mul; assumption).
  destruct (add_ok r (f32_mul (f32_of_Z x) (pow2_float e))) as [F2 E2]; try assumption.
  { rewrite E1. apply small_lt. 
    assert (L2' : (Rabs (val r + p) <= (3 / 2) * (Rabs (val r) + Rabs (IZR x) * b) + eta * 2)%R) by exact L2.
    lra. }
  rewrite E1 in E2. fold s in E2.
  destruct (mul_ok (f32_add r (f32_mul (f32_of_Z x) (pow2_float e))) (f32_powi (f32_of_Z 10) (- d))) as [F3 E3]; try assumption.
  { apply valid_add; assumption. }
  { rewrite E2. fold t. apply small_lt. replace (eta * 4 * T)%R with (4 * (eta * T))%R in L3 by ring. lra. }
  rewrite E2 in E3. fold t v in E3. split; [exact F3|]. rewrite E3. unfold ideal. fold b T.
  rewrite u20, eta4. exact L4.
Qed.

Lemma simple_iter_dv refbits e d nbit it pts :
  0 <= refbits < 2 ^ 32 -> ieee_finite refbits -> -127 <= e <= 127 -> -38 <= d <= 37 ->
  Run it pts End -> Forall (fun pt => match pt with Normal x => - 2 ^ 31 <= x < 2 ^ 31 | _ => True end) pts ->
  exists vs, Run (simple_iter dv_to_f32 (SimpleParam (f32_of_bits refbits) e d nbit) it) vs End
    /\ Forall2 (point_value refbits e d) pts vs.
Proof.
  intros Hr Hf He Hd HR HF.
  exists (map (fun pt => simple_value (params refbits e d nbit) (dv_to_f32 pt)) pts). split.
  - unfold simple_iter. apply (Run_imap_total _ _ (fun pt => simple_value (params refbits e d nbit) (dv_to_f32 pt))). exact HR.
  - clear HR. destruct (of_bits_value refbits Hr Hf) as [Fb Eb].
    induction HF as [|pt pts Hp HF IH]; constructor; [|exact IH].
    destruct pt as [x| |]; cbn [dv_to_f32 point_value]; [|apply simple_value_nan..].
    assert (2 ^ 31 <= 2 ^ 127) by (apply Z.pow_le_mono_r; lia).
    rewrite <- Eb. split; [intros Hd' O; apply simple_value_ok|intro O; apply simple_value_accurate];
    try assumption; try (apply valid_of_bits, Hr); lia.
Qed.

Lemma group_points_i32 mvm zmin nbit wref wnbit gs : Forall (group_ok mvm zmin nbit wref wnbit) gs ->
  Forall (fun pt => match pt with Normal x => - 2 ^ 31 <= x < 2 ^ 31 | _ => True end)
    (flat_map (group_points mvm (Z.of_nat nbit) zmin) gs).
Proof.
  intro H. induction H as [|g gs Hg H IH]; [constructor|]. cbn [flat_map]. apply Forall_app. split; [|exact IH].
  destruct Hg as (_ & _ & _ & _ & _ & Hg). unfold group_points. apply Forall_map.
  eapply Forall_impl; [|exact Hg]. intros x [_ Hx]. destruct (point mvm (Z.of_nat nbit) zmin g x); tauto.
Qed.

Lemma decode_7_2_values m np refbits e d nbit mvm miss1 miss2 wref wnbit lnbit lref linc llast slens gs trailing :
  0 <= refbits < 2 ^ 32 -> ieee_finite refbits -> -127 <= e <= 127 -> -38 <= d <= 37 ->
  encodable mvm 0 nbit wref wnbit lnbit lref linc llast slens gs ->
  exists it vs,
    decode_7_2 m
      (sect5_complex np 2 refbits e d (Z.of_nat nbit) mvm miss1 miss2 (zlen gs) (Z.of_nat wref) (Z.of_nat wnbit)
         lref linc llast (Z.of_nat lnbit) [])
      (layout nbit wref wnbit lnbit slens gs ++ trailing) = Ret (Ok it)
    /\ Run it vs End
    /\ Forall2 (point_value refbits e d) (flat_map (group_points mvm (Z.of_nat nbit) 0) gs) vs.
Proof.
  intros Hr Hf He Hd Henc.
  destruct (decode_7_2_ok m np refbits e d nbit mvm miss1 miss2 wref wnbit lnbit lref linc llast slens gs trailing)
    as (it & E & HR); try assumption; try lia.
  unfold decode_7_2. rewrite E. cbn [bind].
  destruct (simple_iter_dv refbits e d (Z.of_nat nbit) it _ Hr Hf He Hd HR) as (vs & HR' & HF).
  { eapply group_points_i32. apply Henc. }
  eexists; exists vs. split; [reflexivity|]. split; assumption.
Qed.

Lemma normals_i32 fld : Forall is_i32 (normals fld) ->
  Forall (fun pt => match pt with Normal x => - 2 ^ 31 <= x < 2 ^ 31 | _ => True end) fld.
Proof.
  induction fld as [|[v| |] fld IH]; intro H; constructor; try exact I.
  - inversion H; assumption.
  - apply IH. inversion H; assumption.
  - apply IH, H.
  - apply IH, H.
Qed.

Lemma decode_7_3_first_values m np refbits e d nbit mvm miss1 miss2 wref wnbit lnbit lref linc llast slens gs trailing
    (k : nat) zmin fld dummy d0 :
  0 <= refbits < 2 ^ 32 -> ieee_finite refbits -> -127 <= e <= 127 -> -38 <= d <= 37 -> (1 <= k <= 4)%nat ->
  Forall (fun v => Z.abs v < 2 ^ (8 * Z.of_nat k - 1)) [zmin; hd d0 (normals fld)] ->
  encodable mvm zmin nbit wref wnbit lnbit lref linc llast slens gs ->
  Forall is_i32 (normals fld) ->
  flat_map (group_points mvm (Z.of_nat nbit) zmin) gs = differences1 dummy None fld ->
  exists it vs,
    decode_7_3 m
      (sect5_complex np 3 refbits e d (Z.of_nat nbit) mvm miss1 miss2 (zlen gs) (Z.of_nat wref) (Z.of_nat wnbit)
         lref linc llast (Z.of_nat lnbit) (be_bytes 1 1 ++ be_bytes 1 (Z.of_nat k)))
      (sm_bytes k (hd d0 (normals fld)) ++ sm_bytes k zmin ++ layout nbit wref wnbit lnbit slens gs ++ trailing)
    = Ret (Ok it)
    /\ Run it vs End /\ Forall2 (point_value refbits e d) fld vs.
Proof.
  intros Hr Hf He Hd Hk HFk Henc Hi Hdiff.
  destruct (decode_7_3_first m np refbits e d nbit mvm miss1 miss2 wref wnbit lnbit lref linc llast slens gs trailing
     k zmin fld dummy d0) as (it & E & HR); try assumption; try lia.
  unfold decode_7_3. rewrite E. cbn [bind].
  destruct (simple_iter_dv refbits e d (Z.of_nat nbit) it _ Hr Hf He Hd HR (normals_i32 _ Hi)) as (vs & HR' & HF).
  eexists; exists vs. split; [reflexivity|]. split; assumption.
Qed.

Lemma decode_7_3_second_values m np refbits e d nbit mvm miss1 miss2 wref wnbit lnbit lref linc llast slens gs trailing
    (k : nat) zmin fld dummy1 dummy2 d0 d1 :
  0 <= refbits < 2 ^ 32 -> ieee_finite refbits -> -127 <= e <= 127 -> -38 <= d <= 37 -> (1 <= k <= 4)%nat ->
  Forall (fun v => Z.abs v < 2 ^ (8 * Z.of_nat k - 1)) [zmin; nth 0 (normals fld) d0; nth 1 (normals fld) d1] ->
  encodable mvm zmin nbit wref wnbit lnbit lref linc llast slens gs ->
  Forall is_i32 (normals fld) -> (m = Checked -> sums_fit (normals fld)) ->
  flat_map (group_points mvm (Z.of_nat nbit) zmin) gs = differences2 dummy1 dummy2 None None fld ->
  exists it vs,
    decode_7_3 m
      (sect5_complex np 3 refbits e d (Z.of_nat nbit) mvm miss1 miss2 (zlen gs) (Z.of_nat wref) (Z.of_nat wnbit)
         lref linc llast (Z.of_nat lnbit) (be_bytes 1 2 ++ be_bytes 1 (Z.of_nat k)))
      (sm_bytes k (nth 0 (normals fld) d0) ++ sm_bytes k (nth 1 (normals fld) d1) ++ sm_bytes k zmin
       ++ layout nbit wref wnbit lnbit slens gs ++ trailing)
    = Ret (Ok it)
    /\ Run it vs End /\ Forall2 (point_value refbits e d) fld vs.
Proof.
  intros Hr Hf He Hd Hk HFk Henc Hi Hs Hdiff.
  destruct (decode_7_3_second m np refbits e d nbit mvm miss1 miss2 wref wnbit lnbit lref linc llast slens gs trailing
     k zmin fld dummy1 dummy2 d0 d1) as (it & E & HR); try assumption; try lia.
  unfold decode_7_3. rewrite E. cbn [bind].
  destruct (simple_iter_dv refbits e d (Z.of_nat nbit) it _ Hr Hf He Hd HR (normals_i32 _ Hi)) as (vs & HR' & HF).
  eexists; exists vs. split; [reflexivity|]. split; assumption.
Qed.

Lemma simple_packing_accurate m np npe refbits e d (n : nat) xs :
  0 <= refbits < 2 ^ 32 -> ieee_finite refbits -> -127 <= e <= 127 -> -38 <= d <= 37 -> (1 <= n <= 32)%nat ->
  Forall (fun x => 0 <= x < 2 ^ Z.of_nat n /\ in_reach (ieee_value refbits) e d x) xs ->
  exists it vs padding,
    simple_decode m (sect5_simple np refbits e d (Z.of_nat n)) (pack n xs) npe = Ret (Ok it)
    /\ Run it (vs ++ padding) End
    /\ Forall2 (accurate (ieee_value refbits) e d) xs vs
    /\ (length padding * n < 8)%nat.
Proof.
  intros Hr Hf He Hd Hn HF.
  assert (HF1 : Forall (fun x => 0 <= x < 2 ^ Z.of_nat n) xs).
  { eapply Forall_impl; [|exact HF]. cbn. tauto. }
  destruct (simple_decode_run m np npe refbits e d n xs) as (it & extra & Hx & E & HR); try assumption; try lia.
  rewrite map_app in HR. eexists; eexists; eexists. split; [exact E|]. split; [exact HR|].
  split; [|rewrite map_length, repeat_length; exact Hx].
  destruct (of_bits_value refbits Hr Hf) as [Fb Eb].
  clear HR E HF1. induction HF as [|x xs [Hx1 Hx2] HF IH]; constructor; [|exact IH].
  rewrite <- Eb in Hx2 |- *. apply simple_value_accurate; try assumption.
  - apply valid_of_bits, Hr.
  - pose proof (Z.pow_le_mono_r 2 (Z.of_nat n) 127 ltac:(lia) ltac:(lia)). lia.
Qed.

(** Ordinary fields are in reach. *)
Lemma ordinary_in_reach refv e d x :
  (Rabs refv <= bpow radix2 64)%R -> -64 <= e <= 32 -> -10 <= d <= 10 -> Z.abs x <= 2 ^ 32 -> in_reach refv e d x.
Proof.
  intros Hr He Hd Hx.
  assert (A : (Rabs (IZR x) * bpow radix2 e <= bpow radix2 64)%R).
  { replace 64 with (32 + 32) by reflexivity. rewrite bpow_plus. apply Rmult_le_compat; [apply Rabs_pos|apply bpow_ge_0| |apply bpow_le; lia].
    rewrite <- abs_IZR. change (bpow radix2 32) with (IZR (2 ^ 32)). apply IZR_le. exact Hx. }
  assert (B : (magnitude refv e x <= bpow radix2 65)%R).
  { unfold magnitude. replace (bpow radix2 65) with (2 * bpow radix2 64)%R; [lra|].
    replace 65 with (1 + 64) by reflexivity. rewrite bpow_plus. reflexivity. }
  assert (C : (powerRZ 10 (- d) <= bpow radix2 34)%R).
  { destruct (Z_le_gt_dec 0 (- d)) as [H|H].
    - rewrite powerRZ_IZR by exact H. rewrite <- IZR_Zpower by lia. apply IZR_le.
      apply Z.le_trans with (10 ^ 10); [apply Z.pow_le_mono_r; lia|vm_compute; discriminate].
    - apply Rle_trans with 1%R.
      + rewrite powerRZ_neg', powerRZ_IZR by lia.
        assert (1 <= IZR (10 ^ d))%R by (apply IZR_le; pose proof (Z.pow_pos_nonneg 10 d); lia).
        rewrite <- Rinv_1. apply Rinv_le_contravar; lra.
      + change 1%R with (bpow radix2 0). apply bpow_le. lia. }
  split.
  - eapply Rle_trans; [exact B|apply bpow_le; lia].
  - apply Rle_trans with (bpow radix2 65 * bpow radix2 34)%R.
    + apply Rmult_le_compat; try assumption; [|apply Rlt_le, pow_T].
      unfold magnitude. apply Rplus_le_le_0_compat; [apply Rabs_pos|apply Rmult_le_pos; [apply Rabs_pos|apply bpow_ge_0]].
    + rewrite <- bpow_plus. apply bpow_le. lia.
Qed.

(** Constant fields. *)
Lemma zero_bit_accurate r e d nbit :
  valid r -> finite r -> -38 <= d <= 37 -> in_reach (val r) e d 0 ->
  accurate (val r) e d 0 (zero_bit_reference_value (SimpleParam r e d nbit)).
Proof.
  intros Vr Fr Hd (O1 & O2). unfold zero_bit_reference_value, accurate. cbn [sp_ref sp_dig].
  destruct (powi10_close (- d) ltac:(lia)) as [Fd Ed].
  assert (Vd : valid (f32_powi (f32_of_Z 10) (- d))) by (apply valid_powi, valid_of_Z).
  set (t := val (f32_powi (f32_of_Z 10) (- d))) in *. set (T := powerRZ 10 (- d)) in *.
  assert (HT : (0 < T)%R) by apply pow_T.
  assert (H0 : forall r, (Rabs (r - r) <= u24 * Rabs r)%R).
  { intro. rewrite Rminus_eq_0, Rabs_R0. apply Rmult_le_pos; [unfold u24; lra|apply Rabs_pos]. }
  assert (H0' : forall r, (Rabs (r - r) <= u24 * Rabs r + eta)%R).
  { intro r0. pose proof (H0 r0). pose proof (bpow_ge_0 radix2 (-150)) as E. fold eta in E. lra. }
  destruct (chain_error (val r) 0 1 t T 0 (0 * 1) (val r + 0 * 1) (rnd32 ((val r + 0 * 1) * t)) ltac:(lra) HT (H0 _) (H0' _) (H0' _) Ed (rnd32_err _))
    as (L1 & L2 & L3 & L4).
  rewrite !Rmult_0_l, !Rplus_0_r in L3, L4. rewrite Rabs_R0, !Rmult_0_l, !Rplus_0_r in L3, L4.
  pose proof (eta_T (- d) ltac:(lia)) as S2. fold T in S2.
  pose proof p127 as P1. pose proof p126 as P2.
  unfold magnitude, ideal in *. rewrite Rabs_R0, !Rmult_0_l, !Rplus_0_r in O1, O2. rewrite Rabs_R0, !Rmult_0_l, !Rplus_0_r. fold T in O2 |- *.
  destruct (mul_ok r (f32_powi (f32_of_Z 10) (- d))) as [F3 E3]; try assumption.
  { fold t. apply small_lt. replace (eta * 4 * T)%R with (4 * (eta * T))%R in L3 by ring. lra. }
  split; [exact F3|]. rewrite E3. fold t. rewrite u20, eta4. exact L4.
Qed.

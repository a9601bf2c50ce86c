(** Simple packing: parameters, values, monotonicity. *)
From Coq Require Import Reals ZArith Bool Lia Lra ZifyBool ZifyNat.
From Coq Require Floats.SpecFloat.
From Flocq Require Import Core.Core IEEE754.BinarySingleNaN.
From Verif Require Import Model.Base Model.Helpers Model.Errors Model.F32 Model.Stream Model.Diff Model.Complex Model.Simple.
From Verif Require Import Spec.Bits Spec.ComplexS Spec.FloatS Spec.SimpleS.
From Verif Require Import Proofs.BaseLemmas Proofs.HelpersP Proofs.StreamP Proofs.Bits2 Proofs.Fields Proofs.ComplexP Proofs.FloatP.
Import Floats.SpecFloat(spec_float, S754_zero, S754_infinity, S754_nan, S754_finite).
Open Scope Z_scope.
Local Instance Hprec : FLX.Prec_gt_0 24 := eq_refl _.

(** ** Exactly computed floats *)
Definition exact_Z (v : f32) (z : Z) : bool :=
  match v with
  | S754_finite false m e => if 0 <=? e then Zpos m * 2 ^ e =? z else Zpos m =? z * 2 ^ (- e)
  | _ => false
  end.

Lemma val_finite s m e : val (S754_finite s m e) = (IZR (if s then Zneg m else Zpos m) * bpow radix2 e)%R.
Proof. destruct s; reflexivity. Qed.

Lemma exact_Z_val v z : exact_Z v z = true -> finite v /\ val v = IZR z.
Proof.
  destruct v as [| | |[] mm e]; try discriminate. cbn [exact_Z]. intro H.
  split; [reflexivity|]. rewrite val_finite. destruct (0 <=? e) eqn:E.
  - apply Z.eqb_eq in H. rewrite <- H, mult_IZR. f_equal. 
    change 2 with (radix_val radix2). rewrite IZR_Zpower by lia. reflexivity.
  - apply Z.eqb_eq in H. rewrite H, mult_IZR. change 2 with (radix_val radix2).
    rewrite IZR_Zpower by lia. rewrite Rmult_assoc, <- bpow_plus.
    replace (- e + e) with 0 by lia. apply Rmult_1_r.
Qed.

Fixpoint zseq (lo : Z) (n : nat) : list Z :=
  match n with O => [] | S n' => lo :: zseq (lo + 1) n' end.
Lemma zseq_In lo n z : lo <= z < lo + Z.of_nat n -> In z (zseq lo n).
Proof.
  revert lo; induction n as [|n IH]; intros lo H; [lia|]. cbn [zseq In].
  destruct (Z.eq_dec lo z); [left; assumption|right; apply IH; lia].
Qed.
Lemma sweep (P : Z -> bool) lo n : forallb P (zseq lo n) = true -> forall z, lo <= z < lo + Z.of_nat n -> P z = true.
Proof. intros H z Hz. rewrite forallb_forall in H. apply H, zseq_In, Hz. Qed.

(** ** Powers *)
Definition pow2_float (e : Z) : f32 :=
  if e =? -127 then S754_finite false 4194304 (-149) else S754_finite false 8388608 (e - 23).
Definition sf_eqb (x y : f32) : bool :=
  match x, y with
  | S754_zero a, S754_zero b => Bool.eqb a b
  | S754_infinity a, S754_infinity b => Bool.eqb a b
  | S754_nan, S754_nan => true
  | S754_finite a p e, S754_finite b q f => Bool.eqb a b && (Pos.eqb p q) && (e =? f)
  | _, _ => false
  end.
Lemma sf_eqb_eq x y : sf_eqb x y = true -> x = y.
Proof.
  destruct x, y; cbn; try discriminate; intro H.
  - apply Bool.eqb_prop in H. congruence.
  - apply Bool.eqb_prop in H. congruence.
  - reflexivity.
  - apply andb_prop in H. destruct H as [H H3]. apply andb_prop in H. destruct H as [H1 H2].
    apply Bool.eqb_prop in H1. apply Pos.eqb_eq in H2. apply Z.eqb_eq in H3. congruence.
Qed.

Lemma powi2 e : -127 <= e <= 127 -> f32_powi (f32_of_Z 2) e = pow2_float e.
Proof.
  intro H. apply sf_eqb_eq.
  apply (sweep (fun e => sf_eqb (f32_powi (f32_of_Z 2) e) (pow2_float e)) (-127) 255); [vm_compute; reflexivity|lia].
Qed.

Lemma val_pow2_float e : finite (pow2_float e) /\ val (pow2_float e) = bpow radix2 e.
Proof.
  unfold pow2_float. destruct (Z.eqb_spec e (-127)) as [->|N]; (split; [reflexivity|]).
  - rewrite val_finite. replace (-127) with (22 + -149) by reflexivity. rewrite bpow_plus. f_equal.
  - rewrite val_finite. replace e with (23 + (e - 23)) at 2 by lia. rewrite bpow_plus. f_equal.
Qed.

Lemma valid_powi2 e : valid (f32_powi (f32_of_Z 2) e).
Proof.
  assert (L : forall p a r, valid a -> valid r -> valid (powi_loop a r p)).
  { induction p; intros; cbn [powi_loop]; auto using valid_mul. }
  destruct e; cbn [f32_powi]; auto using valid_of_Z, valid_div.
Qed.
Lemma valid_powi a e : valid a -> valid (f32_powi a e).
Proof.
  assert (L : forall p a r, valid a -> valid r -> valid (powi_loop a r p)).
  { induction p; intros; cbn [powi_loop]; auto using valid_mul. }
  intro Ha. destruct e; cbn [f32_powi]; auto using valid_of_Z, valid_div.
Qed.

Lemma powi2_low e : -32767 <= e < -127 -> f32_powi (f32_of_Z 2) e = S754_zero false.
Proof.
  intro H. apply sf_eqb_eq.
  apply (sweep (fun e => sf_eqb (f32_powi (f32_of_Z 2) e) (S754_zero false)) (-32767) (Z.to_nat 32640)); [vm_compute; reflexivity|rewrite Z2Nat.id; lia].
Qed.

(** 10^n is exact for n <= 10. *)
Lemma powi10_nonneg n : 0 <= n <= 10 -> finite (f32_powi (f32_of_Z 10) n) /\ val (f32_powi (f32_of_Z 10) n) = IZR (10 ^ n).
Proof.
  intro H. apply exact_Z_val.
  apply (sweep (fun n => exact_Z (f32_powi (f32_of_Z 10) n) (10 ^ n)) 0 11); [vm_compute; reflexivity|lia].
Qed.

Lemma powerRZ_IZR n : 0 <= n -> powerRZ 10 n = IZR (10 ^ n).
Proof.
  intro H. rewrite <- (Z2Nat.id n) by assumption. generalize (Z.to_nat n); intro k.
  rewrite <- pow_powerRZ. rewrite pow_IZR. reflexivity.
Qed.

Lemma rnd32_abs_le r k : (Rabs r <= bpow radix2 k)%R -> -149 <= k -> (Rabs (rnd32 r) <= bpow radix2 k)%R.
Proof.
  intros H Hk. unfold rnd32. apply abs_round_le_generic; try typeclasses eauto.
  - apply generic_format_bpow. unfold FLT_exp. lia.
  - assumption.
Qed.
Lemma rnd32_abs_lt_limit r k : (Rabs r <= bpow radix2 k)%R -> -149 <= k < 128 -> (Rabs (rnd32 r) < limit32)%R.
Proof.
  intros H Hk. eapply Rle_lt_trans; [apply (rnd32_abs_le r k); [assumption|lia]|].
  apply bpow_lt. lia.
Qed.

Lemma powi10 n : -10 <= n <= 10 ->
  finite (f32_powi (f32_of_Z 10) n) /\ val (f32_powi (f32_of_Z 10) n) = rnd32 (powerRZ 10 n).
Proof.
  intro H. destruct (Z_le_gt_dec 0 n) as [Hn|Hn].
  - destruct (powi10_nonneg n ltac:(lia)) as [F V]. split; [assumption|].
    rewrite powerRZ_IZR by assumption. rewrite <- V. symmetry. apply rnd32_val, valid_powi, valid_of_Z.
  - destruct n as [|p|p]; try lia. cbn [f32_powi].
    destruct (powi10_nonneg (Zpos p) ltac:(lia)) as [F V]. cbn [f32_powi] in F, V.
    assert (V1 : finite (f32_of_Z 1) /\ val (f32_of_Z 1) = IZR 1) by (apply exact_Z_val; vm_compute; reflexivity).
    destruct V1 as [F1 V1].
    assert (P1 : (1 <= IZR (10 ^ Zpos p))%R) by (apply IZR_le; lia).
    assert (E : powerRZ 10 (Zneg p) = (1 / IZR (10 ^ Zpos p))%R).
    { rewrite <- powerRZ_IZR by lia. change (Zneg p) with (- Zpos p). rewrite powerRZ_neg'.
      unfold Rdiv. rewrite Rmult_1_l. reflexivity. }
    assert (Vd : valid (powi_loop (f32_of_Z 10) (f32_of_Z 1) p)).
    { apply (valid_powi (f32_of_Z 10) (Zpos p)), valid_of_Z. }
    rewrite E, <- V, <- V1. apply div_ok; try apply valid_of_Z; try assumption; [rewrite V; lra|].
    rewrite V, V1. apply (rnd32_abs_lt_limit _ 0); [|lia].
    rewrite Rabs_pos_eq; [|apply Rmult_le_pos; [lra|left; apply Rinv_0_lt_compat; lra]].
    change (bpow radix2 0) with 1%R. unfold Rdiv. rewrite Rmult_1_l.
    rewrite <- Rinv_1. apply Rinv_le; lra.
Qed.

(** ** The value of one packed integer *)
Lemma rnd32_small x k : Z.abs x <= 2 ^ k -> 0 <= k < 128 -> (Rabs (rnd32 (IZR x)) < limit32)%R.
Proof.
  intros H Hk. apply (rnd32_abs_lt_limit _ k); [|lia].
  rewrite <- abs_IZR, <- IZR_Zpower by lia. apply IZR_le. exact H.
Qed.

Lemma of_Z_small x : Z.abs x <= 2 ^ 127 -> finite (f32_of_Z x) /\ val (f32_of_Z x) = rnd32 (IZR x).
Proof. intro H. apply of_Z_ok, (rnd32_small x 127); [exact H|lia]. Qed.

Lemma simple_value_ok r e d nbit x :
  valid r -> finite r -> -127 <= e <= 127 -> -10 <= d <= 10 -> Z.abs x <= 2 ^ 127 ->
  no_overflow (val r) e d x ->
  finite (simple_value (SimpleParam r e d nbit) (f32_of_Z x))
  /\ val (simple_value (SimpleParam r e d nbit) (f32_of_Z x)) = unpacked (val r) e d x.
Proof.
  intros Vr Fr He Hd Hx (O1 & O2 & O3). unfold simple_value. cbn [sp_ref sp_exp sp_dig].
  rewrite powi2 by assumption.
  assert (Vp : valid (pow2_float e)) by (rewrite <- powi2 by assumption; apply valid_powi2).
  destruct (val_pow2_float e) as [Fp Ep].
  destruct (of_Z_small x Hx) as [Fx Ex].
  assert (Vx := valid_of_Z x).
  destruct (powi10 (- d) ltac:(lia)) as [Fd Ed].
  assert (Vd : valid (f32_powi (f32_of_Z 10) (- d))) by (apply valid_powi, valid_of_Z).
  destruct (mul_ok (f32_of_Z x) (pow2_float e)) as [F1 E1]; try assumption.
  { rewrite Ex, Ep. exact O1. }
  rewrite Ex, Ep in E1. fold (scaled e x) in E1.
  assert (V1 : valid (f32_mul (f32_of_Z x) (pow2_float e))) by (apply valid_mul; assumption).
  destruct (add_ok r (f32_mul (f32_of_Z x) (pow2_float e))) as [F2 E2]; try assumption.
  { rewrite E1. exact O2. }
  rewrite E1 in E2. fold (shifted (val r) e x) in E2.
  destruct (mul_ok (f32_add r (f32_mul (f32_of_Z x) (pow2_float e))) (f32_powi (f32_of_Z 10) (- d))) as [F3 E3]; try assumption.
  { apply valid_add; assumption. }
  { rewrite E2, Ed. exact O3. }
  rewrite E2, Ed in E3. split; assumption.
Qed.

(** ** Reading the reference value *)
Lemma of_bits_value w : 0 <= w < 2 ^ 32 -> ieee_finite w ->
  finite (f32_of_bits w) /\ val (f32_of_bits w) = ieee_value w.
Proof.
  intros Hw Hf. unfold ieee_finite, ieee_exponent in Hf. unfold f32_of_bits, ieee_value, ieee_exponent, ieee_fraction, ieee_sign.
  change (2 ^ 8) with 256 in *.
  assert (Es : (2 ^ 31 <=? w) = Z.testbit w 31).
  { rewrite Z.testbit_odd, Z.shiftr_div_pow2 by lia. destruct (Z.leb_spec (2 ^ 31) w).
    - replace (w / 2 ^ 31) with 1; [reflexivity|]. apply Z.div_unique with (w - 2 ^ 31); lia.
    - rewrite Z.div_small by lia. reflexivity. }
  rewrite Es. set (s := Z.testbit w 31). clearbody s. clear Es.
  set (ex := (w / 2 ^ 23) mod 256) in *.
  pose proof (Z.mod_pos_bound w (2 ^ 23) eq_refl) as Hm. set (f := w mod 2 ^ 23) in *.
  destruct (Z.eqb_spec ex 255); [lia|].
  destruct (ex =? 0) eqn:E0.
  - destruct f as [|p|p] eqn:Ef; try lia.
    + split; [reflexivity|]. unfold val. cbn [BinarySingleNaN.SF2R]. rewrite Rmult_0_l. symmetry. apply Rmult_0_r.
    + split; [reflexivity|]. rewrite val_finite. destruct s.
      * rewrite <- Rmult_assoc. f_equal. change (Zneg p) with (- (Zpos p)). rewrite opp_IZR. lra.
      * rewrite Rmult_1_l. reflexivity.
  - rewrite (Z.add_comm f). destruct (2 ^ 23 + f) as [|p|p] eqn:Ef; try lia.
    split; [reflexivity|]. rewrite val_finite. destruct s.
    + rewrite <- Rmult_assoc. f_equal. change (Zneg p) with (- (Zpos p)). rewrite opp_IZR. lra.
    + rewrite Rmult_1_l. reflexivity.
Qed.

Lemma sect5_simple_slice np refbits e d nbit :
  slice (sect5_simple np refbits e d nbit) 6 16
  = Ret (be_bytes 4 refbits ++ sm_bytes 2 e ++ sm_bytes 2 d ++ be_bytes 1 nbit ++ be_bytes 1 0).
Proof.
  unfold sect5_simple. rewrite app_assoc.
  set (b := be_bytes 4 refbits ++ sm_bytes 2 e ++ sm_bytes 2 d ++ be_bytes 1 nbit ++ be_bytes 1 0).
  rewrite <- (app_nil_r b) at 1. rewrite <- app_assoc.
  replace (be_bytes 4 np ++ be_bytes 2 0 ++ b ++ []) with ((be_bytes 4 np ++ be_bytes 2 0) ++ b ++ [])
    by (rewrite <- app_assoc; reflexivity).
  apply slice_split.
  - rewrite zlen_app, !zlen_be_bytes. reflexivity.
  - unfold b, sm_bytes. rewrite !zlen_app, !zlen_be_bytes. reflexivity.
Qed.

Definition params refbits e d nbit := SimpleParam (f32_of_bits refbits) e d nbit.

Lemma simple_decode_run m np npe refbits e d (n : nat) xs :
  0 <= refbits < 2 ^ 32 -> Z.abs e < 2 ^ 15 -> Z.abs d < 2 ^ 15 -> (1 <= n <= 32)%nat ->
  Forall (fun x => 0 <= x < 2 ^ Z.of_nat n) xs ->
  exists it extra, (extra * n < 8)%nat
    /\ simple_decode m (sect5_simple np refbits e d (Z.of_nat n)) (pack n xs) npe = Ret (Ok it)
    /\ Run it (map (fun x => simple_value (params refbits e d (Z.of_nat n)) (f32_of_Z x)) (xs ++ repeat 0 extra)) End.
Proof.
  intros Hr He Hd Hn HF. unfold simple_decode. rewrite sect5_simple_slice. cbn [bind].
  rewrite simple_params_read by (try assumption; lia). cbn [bind]. cbn [sp_nbit].
  replace (Z.of_nat n =? 0) with false by lia.
  destruct (pack_unpack m n xs Hn HF) as (extra & Hx & HR).
  eexists; exists extra. split; [exact Hx|]. split; [reflexivity|].
  unfold simple_iter. apply (Run_imap_total _ _ (fun x => simple_value (params refbits e d (Z.of_nat n)) (f32_of_Z x))).
  unfold bit_stream in HR. replace (Z.of_nat n =? 0) with false in HR by lia. exact HR.
Qed.

Lemma simple_packing_ok m np npe refbits e d (n : nat) xs :
  0 <= refbits < 2 ^ 32 -> ieee_finite refbits -> -127 <= e <= 127 -> -10 <= d <= 10 -> (1 <= n <= 32)%nat ->
  Forall (fun x => 0 <= x < 2 ^ Z.of_nat n /\ no_overflow (ieee_value refbits) e d x) xs ->
  exists it vs padding, 
    simple_decode m (sect5_simple np refbits e d (Z.of_nat n)) (pack n xs) npe = Ret (Ok it)
    /\ Run it (vs ++ padding) End
    /\ Forall2 (fun x v => finite v /\ val v = unpacked (ieee_value refbits) e d x) xs vs
    /\ (length padding * n < 8)%nat.
Proof.
  intros Hr Hf He Hd Hn HF.
  assert (HF1 : Forall (fun x => 0 <= x < 2 ^ Z.of_nat n) xs).
  { eapply Forall_impl; [|exact HF]. cbn. tauto. }
  destruct (simple_decode_run m np npe refbits e d n xs) as (it & extra & Hx & E & HR); try assumption; try lia.
  rewrite map_app in HR. eexists; eexists; eexists. split; [exact E|]. split; [exact HR|].
  split; [|rewrite map_length, repeat_length; exact Hx].
  destruct (of_bits_value refbits Hr Hf) as [Fb Eb].
  clear HR E HF1. induction HF as [|x xs [Hx1 Hx2] HF IH]; constructor; [|exact IH].
  rewrite <- Eb in Hx2 |- *. apply simple_value_ok; try assumption.
  - apply valid_of_bits, Hr.
  - pose proof (Z.pow_le_mono_r 2 (Z.of_nat n) 127 ltac:(lia) ltac:(lia)). lia.
Qed.

(** ** x = 0 and D = 0 *)
Lemma inj_val x y : valid x -> valid y -> finite x -> finite y -> val x = val y -> val y <> 0%R -> x = y.
Proof.
  intros Vx Vy. destruct (valid_ex x Vx) as [bx ->], (valid_ex y Vy) as [b_y ->].
  rewrite !finite_B, !val_B. intros Fx Fy E N. f_equal. apply B2R_inj; [..|exact E].
  - apply is_finite_strict_B2R. rewrite E. exact N.
  - apply is_finite_strict_B2R. exact N.
Qed.

Lemma val_nonzero s p e : val (S754_finite s p e) <> 0%R.
Proof.
  rewrite val_finite. apply Rmult_integral_contrapositive. split.
  - destruct s; apply IZR_neq; lia.
  - apply Rgt_not_eq, bpow_gt_0.
Qed.

Lemma mul_zero_powi2 e : Z.abs e < 2 ^ 15 -> e <= 127 -> f32_mul (f32_of_Z 0) (f32_powi (f32_of_Z 2) e) = S754_zero false.
Proof.
  intros H H1. destruct (Z_lt_le_dec e (-127)).
  - rewrite powi2_low by lia. reflexivity.
  - rewrite powi2 by lia. unfold pow2_float. destruct (e =? -127); reflexivity.
Qed.

Lemma add_zero_r r : valid r -> r <> S754_zero true -> f32_add r (S754_zero false) = r.
Proof. intros V N. destruct r as [[]|s| |s p e]; try reflexivity. congruence. Qed.

Lemma mul_one r : valid r -> f32_mul r (f32_of_Z 1) = r.
Proof.
  intros V. assert (E1 : finite (f32_of_Z 1) /\ val (f32_of_Z 1) = IZR 1) by (apply exact_Z_val; vm_compute; reflexivity).
  destruct E1 as [F1 E1].
  destruct r as [[]|[]| |s p e]; try reflexivity.
  assert (E2 : (val (S754_finite s p e) * val (f32_of_Z 1) = val (S754_finite s p e))%R) by (rewrite E1; apply Rmult_1_r).
  destruct (mul_ok (S754_finite s p e) (f32_of_Z 1)) as [F E]; try assumption; try apply valid_of_Z; try reflexivity.
  { rewrite E2, rnd32_val by exact V. apply val_lt_limit, V. }
  rewrite E2, rnd32_val in E by exact V.
  apply inj_val; try assumption; try reflexivity; [apply valid_mul; [exact V|apply valid_of_Z]|apply val_nonzero].
Qed.

Lemma simple_value_zero r e nbit : valid r -> Z.abs e < 2 ^ 15 -> e <= 127 -> r <> S754_zero true ->
  simple_value (SimpleParam r e 0 nbit) (f32_of_Z 0) = r.
Proof.
  intros V He H1 N. unfold simple_value. cbn [sp_ref sp_exp sp_dig].
  rewrite mul_zero_powi2 by assumption. rewrite add_zero_r by assumption.
  change (f32_powi (f32_of_Z 10) (- 0)) with (f32_of_Z 1). apply mul_one. exact V.
Qed.

(** ** Monotonicity *)
Lemma powi10_pos d : -38 <= d <= 38 -> finite (f32_powi (f32_of_Z 10) d) /\ (0 < val (f32_powi (f32_of_Z 10) d))%R.
Proof.
  intro H.
  assert (E : (match f32_powi (f32_of_Z 10) d with S754_finite false _ _ => true | _ => false end) = true).
  { apply (sweep (fun d => match f32_powi (f32_of_Z 10) d with S754_finite false _ _ => true | _ => false end) (-38) 77);
    [vm_compute; reflexivity|lia]. }
  destruct (f32_powi (f32_of_Z 10) d) as [| | |[] p e]; try discriminate.
  split; [reflexivity|]. rewrite val_finite. apply Rmult_lt_0_compat; [apply IZR_lt; lia|apply bpow_gt_0].
Qed.

Lemma of_Z_fle x y : x <= y -> fle (f32_of_Z x) (f32_of_Z y).
Proof. intro H. eapply rounds_fle; [apply of_Z_rounds..|]. apply IZR_le, H. Qed.

Lemma simple_value_mono r e d nbit x y :
  valid r -> finite r -> Z.abs e < 2 ^ 15 -> e <= 127 -> -38 <= d <= 38 -> Z.abs x <= 2 ^ 127 -> Z.abs y <= 2 ^ 127 -> x <= y ->
  fle (simple_value (SimpleParam r e d nbit) (f32_of_Z x)) (simple_value (SimpleParam r e d nbit) (f32_of_Z y)).
Proof.
  intros Vr Fr He He' Hd Hx Hy L. unfold simple_value. cbn [sp_ref sp_exp sp_dig].
  destruct (powi10_pos (- d) ltac:(lia)) as [Fd Pd].
  assert (Vd : valid (f32_powi (f32_of_Z 10) (- d))) by (apply valid_powi, valid_of_Z).
  destruct (of_Z_small x Hx) as [Fx _]. destruct (of_Z_small y Hy) as [Fy _].
  pose proof (of_Z_fle x y L) as Lxy.
  assert (D : fle (f32_mul (f32_of_Z x) (f32_powi (f32_of_Z 2) e)) (f32_mul (f32_of_Z y) (f32_powi (f32_of_Z 2) e))
    /\ not_nan (f32_mul (f32_of_Z x) (f32_powi (f32_of_Z 2) e)) /\ not_nan (f32_mul (f32_of_Z y) (f32_powi (f32_of_Z 2) e))).
  { destruct (Z_lt_le_dec e (-127)) as [H|H].
    - rewrite powi2_low by lia. 
      assert (Z0 : forall z, finite z -> exists s, f32_mul z (S754_zero false) = S754_zero s).
      { intros z Fz. destruct z as [s|s| |s p q]; try discriminate; exists (xorb s false); reflexivity. }
      destruct (Z0 _ Fx) as [s ->], (Z0 _ Fy) as [s' ->]. repeat split; reflexivity.
    - rewrite powi2 by lia. destruct (val_pow2_float e) as [Fp Ep].
      assert (Vp : valid (pow2_float e)) by (rewrite <- powi2 by lia; apply valid_powi2).
      destruct (mul_mono (pow2_float e) (f32_of_Z x) (f32_of_Z y)) as [A1 A2];
        try assumption; try apply valid_of_Z; try (apply finite_not_nan; assumption).
      { rewrite Ep. apply bpow_gt_0. }
      repeat split; try assumption. eapply rounds_not_nan. apply mul_rounds; try assumption. apply valid_of_Z. }
  destruct D as (D1 & D2 & D3).
  assert (V2 := valid_powi2 e).
  assert (Va := valid_mul _ _ (valid_of_Z x) V2). assert (Vb := valid_mul _ _ (valid_of_Z y) V2).
  destruct (add_mono r _ _ Vr Fr Va Vb D2 D3 D1) as [A1 A2].
  destruct (add_mono r _ _ Vr Fr Vb Vb D3 D3 (fle_refl _ D3 Vb)) as [_ A3].
  apply mul_mono; try assumption; apply valid_add; assumption.
Qed.

Lemma simple_monotone m np npe refbits e d (n : nat) xs :
  0 <= refbits < 2 ^ 32 -> ieee_finite refbits -> - 2 ^ 15 < e <= 127 -> -38 <= d <= 38 -> (1 <= n <= 32)%nat ->
  Forall (fun x => 0 <= x < 2 ^ Z.of_nat n) xs ->
  exists it vs padding,
    simple_decode m (sect5_simple np refbits e d (Z.of_nat n)) (pack n xs) npe = Ret (Ok it)
    /\ Run it (vs ++ padding) End /\ length vs = length xs /\ (length padding * n < 8)%nat
    /\ forall i j x y v w,
         nth_error xs i = Some x -> nth_error xs j = Some y ->
         nth_error vs i = Some v -> nth_error vs j = Some w ->
         x <= y -> fle v w.
Proof.
  intros Hr Hf He Hd Hn HF.
  destruct (simple_decode_run m np npe refbits e d n xs) as (it & extra & Hx & E & HR); try assumption; try lia.
  rewrite map_app in HR. eexists; eexists; eexists. split; [exact E|]. split; [exact HR|].
  split; [apply map_length|]. split; [rewrite map_length, repeat_length; exact Hx|].
  intros i j x y v w Hi Hj Hv Hw L.
  rewrite nth_error_map, Hi in Hv. rewrite nth_error_map, Hj in Hw. cbn [option_map] in Hv, Hw.
  injection Hv as <-. injection Hw as <-.
  destruct (of_bits_value refbits Hr Hf) as [Fb Eb].
  rewrite Forall_forall in HF. pose proof (HF x (nth_error_In _ _ Hi)). pose proof (HF y (nth_error_In _ _ Hj)).
  pose proof (Z.pow_le_mono_r 2 (Z.of_nat n) 127 ltac:(lia) ltac:(lia)).
  apply simple_value_mono; try assumption; try lia. apply valid_of_bits, Hr.
Qed.

(** ** Zero bits *)
Lemma simple_constant m np refbits e d sect7 npe :
  0 <= refbits < 2 ^ 32 -> Z.abs e < 2 ^ 15 -> Z.abs d < 2 ^ 15 -> 0 <= npe ->
  exists it v, simple_decode m (sect5_simple np refbits e d 0) sect7 npe = Ret (Ok it)
    /\ Run it (repeat v (Z.to_nat npe)) End
    /\ (ieee_finite refbits -> -10 <= d <= 10 ->
        (Rabs (rnd32 (ieee_value refbits * rnd32 (powerRZ 10 (- d)))) < limit32)%R ->
        finite v /\ val v = rnd32 (ieee_value refbits * rnd32 (powerRZ 10 (- d)))).
Proof.
  intros Hr He Hd Hn. unfold simple_decode. rewrite sect5_simple_slice. cbn [bind].
  rewrite simple_params_read by (try assumption; lia). cbn [bind sp_nbit]. change (0 =? 0) with true. cbv iota.
  eexists; exists (zero_bit_reference_value (params refbits e d 0)). split; [reflexivity|]. split.
  - rewrite <- (Z2Nat.id npe) at 1 by assumption. apply Run_fixed.
  - intros Hf Hd' O. unfold zero_bit_reference_value, params. cbn [sp_ref sp_dig].
    destruct (of_bits_value refbits Hr Hf) as [Fb Eb]. destruct (powi10 (- d) ltac:(lia)) as [Fp Ep].
    rewrite <- Eb, <- Ep in O |- *. apply mul_ok; try assumption; [apply valid_of_bits, Hr|apply valid_powi, valid_of_Z].
Qed.

(** ** Complex packing down to floats *)
Lemma simple_value_nan p : simple_value p f32_nan = f32_nan.
Proof.
  unfold simple_value. change (f32_mul f32_nan (f32_powi (f32_of_Z 2) (sp_exp p))) with f32_nan.
  assert (E : f32_add (sp_ref p) f32_nan = f32_nan) by (destruct (sp_ref p) as [| | |]; reflexivity).
  rewrite E. reflexivity.
Qed.

Lemma zero_is_reference refbits e nbit :
  0 <= refbits < 2 ^ 32 -> refbits <> 2 ^ 31 -> - 2 ^ 15 < e <= 127 ->
  simple_value (SimpleParam (f32_of_bits refbits) e 0 nbit) (f32_of_Z 0) = f32_of_bits refbits.
Proof.
  intros Hr Hn He. apply simple_value_zero; try lia; [apply valid_of_bits, Hr|].
  unfold f32_of_bits. 
  pose proof (Z.mod_pos_bound refbits (2 ^ 23) eq_refl) as Hm.
  destruct (Z.eqb_spec ((refbits / 2 ^ 23) mod 256) 255). { destruct (refbits mod 2 ^ 23 =? 0); discriminate. }
  destruct (Z.eqb_spec ((refbits / 2 ^ 23) mod 256) 0) as [E|E].
  - destruct (refbits mod 2 ^ 23) as [|p|p] eqn:Em; try discriminate; try lia.
    intro C. injection C as C. apply Hn. 
    assert (refbits / 2 ^ 23 < 512) by (apply Z.div_lt_upper_bound; lia).
    assert (Q : 2 ^ 31 / 2 ^ 23 <= refbits / 2 ^ 23) by (apply Z.div_le_mono; lia). change (2 ^ 31 / 2 ^ 23) with 256 in Q.
    assert (refbits / 2 ^ 23 = 256).
    { pose proof (Z.div_mod (refbits / 2 ^ 23) 256 ltac:(lia)) as DM. rewrite E in DM. lia. }
    pose proof (Z.div_mod refbits (2 ^ 23) ltac:(lia)). rewrite Em in *. lia.
  - destruct (refbits mod 2 ^ 23 + 2 ^ 23) as [|p|p] eqn:Em; try discriminate; lia.
Qed.

Lemma extreme_scale :
  (forall refbits d nbit, 0 <= refbits < 2 ^ 32 ->
     simple_value (SimpleParam (f32_of_bits refbits) 128 d nbit) (f32_of_Z 0) = f32_nan)
  /\ simple_value (SimpleParam (f32_of_bits 0) (-128) 0 21) (f32_of_Z (2 ^ 20)) = f32_of_bits 0
  /\ finite (f32_of_bits 0x09800000) /\ val (f32_of_bits 0x09800000) = bpow radix2 (-108).
Proof.
  split; [|split; [vm_compute; reflexivity|split; [reflexivity|]]].
  - intros refbits d nbit H. unfold simple_value. cbn [sp_ref sp_exp sp_dig].
    assert (E : f32_mul (f32_of_Z 0) (f32_powi (f32_of_Z 2) 128) = f32_nan) by (vm_compute; reflexivity).
    rewrite E.
    assert (E2 : f32_add (f32_of_bits refbits) f32_nan = f32_nan) by (destruct (f32_of_bits refbits); reflexivity).
    rewrite E2. reflexivity.
  - change (f32_of_bits 0x09800000) with (S754_finite false 8388608 (-131)).
    rewrite val_finite. replace (-108) with (23 + -131) by reflexivity. rewrite bpow_plus. f_equal.
Qed.

Lemma simple_no_overflow refv e d x :
  (Rabs refv <= bpow radix2 64)%R -> -64 <= e <= 32 -> -10 <= d <= 10 -> Z.abs x <= 2 ^ 32 -> no_overflow refv e d x.
Proof.
  intros Hr He Hd Hx.
  assert (Bx : (Rabs (rnd32 (IZR x)) <= bpow radix2 32)%R).
  { apply rnd32_abs_le; [|lia]. rewrite <- abs_IZR. change (bpow radix2 32) with (IZR (2 ^ 32)). apply IZR_le. exact Hx. }
  assert (Bs : (Rabs (scaled e x) <= bpow radix2 64)%R).
  { unfold scaled. apply rnd32_abs_le; [|lia]. rewrite Rabs_mult. rewrite (Rabs_pos_eq (bpow radix2 e)) by apply bpow_ge_0.
    replace 64 with (32 + 32) by reflexivity. rewrite bpow_plus.
    apply Rmult_le_compat; [apply Rabs_pos|apply bpow_ge_0|assumption|apply bpow_le; lia]. }
  assert (Bh : (Rabs (shifted refv e x) <= bpow radix2 65)%R).
  { unfold shifted. apply rnd32_abs_le; [|lia]. eapply Rle_trans; [apply Rabs_triang|].
    replace 65 with (64 + 1) by reflexivity. rewrite bpow_plus. change (bpow radix2 1) with 2%R. lra. }
  assert (Bd : (Rabs (rnd32 (powerRZ 10 (- d))) <= bpow radix2 34)%R).
  { apply rnd32_abs_le; [|lia]. rewrite Rabs_pos_eq by (apply powerRZ_le; lra).
    destruct (Z_le_gt_dec 0 (- d)).
    - rewrite powerRZ_IZR by lia. change (bpow radix2 34) with (IZR (2 ^ 34)). apply IZR_le.
      apply Z.le_trans with (10 ^ 10); [apply Z.pow_le_mono_r; lia|vm_compute; discriminate].
    - rewrite powerRZ_neg'. rewrite powerRZ_IZR by lia.
      assert (1 <= IZR (10 ^ d))%R by (apply IZR_le; pose proof (Z.pow_pos_nonneg 10 d ltac:(lia) ltac:(lia)); lia).
      apply Rle_trans with 1%R; [rewrite <- Rinv_1; apply Rinv_le; lra|].
      change 1%R with (bpow radix2 0). apply bpow_le. lia. }
  assert (L : (bpow radix2 64 < limit32 /\ bpow radix2 65 < limit32)%R) by (split; apply bpow_lt; lia).
  split; [lra|]. split; [lra|]. unfold unpacked. apply (rnd32_abs_lt_limit _ 99); [|lia].
  rewrite Rabs_mult. replace 99 with (65 + 34) by reflexivity. rewrite bpow_plus.
  apply Rmult_le_compat; try apply Rabs_pos; assumption.
Qed.

Lemma ex_no_overflow : Forall (fun x => 0 <= x < 2 ^ Z.of_nat 5 /\ no_overflow (ieee_value 0x43889333) (-2) 1 x) [0; 9; 31].
Proof.
  assert (R0 : (Rabs (ieee_value 0x43889333) <= bpow radix2 64)%R).
  { assert (E : ieee_value 0x43889333 = (8950579 * bpow radix2 (-15))%R) by (unfold ieee_value, ieee_sign; cbn; lra).
    rewrite E, Rabs_mult, (Rabs_pos_eq (bpow radix2 (-15))) by apply bpow_ge_0.
    replace 64 with (79 + -15) by reflexivity. rewrite bpow_plus. apply Rmult_le_compat_r; [apply bpow_ge_0|].
    rewrite Rabs_pos_eq by lra. change (bpow radix2 79) with (IZR (2 ^ 79)). apply IZR_le. vm_compute. discriminate. }
  assert (H : forall x, 0 <= x < 32 -> 0 <= x < 2 ^ Z.of_nat 5 /\ no_overflow (ieee_value 0x43889333) (-2) 1 x).
  { intros x Hx. split; [exact Hx|]. apply simple_no_overflow; [exact R0|lia|lia|].
    assert (2 ^ 32 = 4294967296) by reflexivity. lia. }
  repeat (apply Forall_cons; [apply H; lia|]). apply Forall_nil.
Qed.

Lemma zero_is_reference_octets m np npe refbits e (n : nat) xs :
  0 <= refbits < 2 ^ 32 -> refbits <> 2 ^ 31 -> - 2 ^ 15 < e <= 127 -> (1 <= n <= 32)%nat ->
  Forall (fun x => 0 <= x < 2 ^ Z.of_nat n) xs ->
  exists it vs padding,
    simple_decode m (sect5_simple np refbits e 0 (Z.of_nat n)) (pack n xs) npe = Ret (Ok it)
    /\ Run it (vs ++ padding) End /\ length vs = length xs /\ (length padding * n < 8)%nat
    /\ forall i, nth_error xs i = Some 0 -> nth_error vs i = Some (f32_of_bits refbits).
Proof.
  intros Hr Hnz He Hn HF.
  destruct (simple_decode_run m np npe refbits e 0 n xs) as (it & extra & Hx & E & HR); try assumption; try lia.
  rewrite map_app in HR. eexists; eexists; eexists. split; [exact E|]. split; [exact HR|].
  split; [apply map_length|]. split; [rewrite map_length, repeat_length; exact Hx|].
  intros i Hi. rewrite nth_error_map, Hi. cbn [option_map]. f_equal. apply zero_is_reference; assumption.
Qed.

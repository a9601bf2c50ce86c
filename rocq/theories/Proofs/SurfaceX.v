(** Fixed surfaces, units, parameters, calendar. *)
From Coq Require Import Reals Lia Lra ZifyBool ZifyNat Floats.SpecFloat.
From Flocq Require Import Core.Core IEEE754.BinarySingleNaN.
From Verif Require Import Model.Base Model.Helpers Model.Errors Model.Sections Model.F64 Model.Product.
From Verif Require Import Spec.Bits Spec.FieldsS Spec.ProductS Spec.FloatS Proofs.BaseLemmas Proofs.FieldsP Proofs.ProductX Proofs.FloatP64.
Local Open Scope Z_scope.
Ltac Zify.zify_post_hook ::= Z.div_mod_to_equations.

(** ** C41 *)
Lemma missing_bits : forall p a,
  (scale_factor_is_nan (surface_at p a) = true <-> field p (a + 1) (a + 1) = 2 ^ 8 - 1) /\
  (value_is_nan (surface_at p a) = true <-> field p (a + 2) (a + 5) = 2 ^ 32 - 1).
Proof.
  intros p a. unfold scale_factor_is_nan, value_is_nan, surface_at, sfield. cbn [scale_factor scaled_value].
  pose proof (field_range p (a + 1) (a + 1) ltac:(lia)) as R1. pose proof (field_range p (a + 2) (a + 5) ltac:(lia)) as R2.
  replace (a + 1 - (a + 1) + 1) with 1 in * by lia. replace (a + 5 - (a + 2) + 1) with 4 in * by lia.
  unfold sign_magnitude. change (2 ^ (8 * 1 - 1)) with 128. change (2 ^ (8 * 4 - 1)) with 2147483648.
  change (256 ^ 1) with 256 in *. change (256 ^ 4) with 4294967296 in *. change (2 ^ 8) with 256. change (2 ^ 32) with 4294967296. change (2 ^ 7) with 128. change (2 ^ 31) with 2147483648.
  destruct (field p (a + 1) (a + 1) <? 128) eqn:E1, (field p (a + 2) (a + 5) <? 2147483648) eqn:E2; lia.
Qed.

Definition factor_ok (s : Z) : bool :=
  match f64_powi (f64_of_Z 10) (- s) with
  | S754_finite false mt e =>
      let num := Zpos mt * 2 ^ Z.max e 0 * 10 ^ Z.max s 0 in
      let den := 2 ^ Z.max (- e) 0 * 10 ^ Z.max (- s) 0 in
      (2 ^ 48 * Z.abs (num - den) <=? den) && valid_binary 53 1024 (S754_finite false mt e)
  | _ => false
  end.
Definition all_scales : list Z := map (fun k => Z.of_nat k - 127) (seq 0 255).
Lemma factors_ok : forallb factor_ok all_scales = true.
Proof. vm_compute. reflexivity. Qed.

Lemma IZR_pow_max : forall e b, (0 < b)%Z -> (IZR (b ^ Z.max e 0) / IZR (b ^ Z.max (- e) 0))%R = powerRZ (IZR b) e.
Proof.
  intros e b Hb. assert (NZ : IZR b <> 0%R) by (apply IZR_neq; lia).
  destruct e as [|q|q].
  - cbn. field.
  - rewrite (Z.max_l (Zpos q) 0), (Z.max_r (- Zpos q) 0) by lia. rewrite Z.pow_0_r. unfold powerRZ.
    rewrite <- (positive_nat_Z q). rewrite <- pow_IZR. field.
  - rewrite (Z.max_r (Zneg q) 0), (Z.max_l (- Zneg q) 0) by lia. rewrite Z.pow_0_r. unfold powerRZ. change (- Zneg q) with (Zpos q).
    rewrite <- (positive_nat_Z q). rewrite <- pow_IZR. field. apply pow_nonzero. exact NZ.
Qed.

Lemma bpow_powerRZ : forall e, bpow radix2 e = powerRZ 2 e.
Proof. intros. rewrite bpow_powerRZ. reflexivity. Qed.

Lemma factor_spec : forall s, -127 <= s <= 127 ->
  let f := f64_powi (f64_of_Z 10) (- s) in
  valid64 f /\ finite f /\ (Rabs (val f - powerRZ 10 (- s)) <= bpow radix2 (-48) * powerRZ 10 (- s))%R.
Proof.
  intros s Hs. cbn zeta.
  assert (F : factor_ok s = true).
  { pose proof factors_ok as A. rewrite forallb_forall in A. apply A. unfold all_scales. apply in_map_iff. exists (Z.to_nat (s + 127)). split; [lia|]. apply in_seq. lia. }
  unfold factor_ok in F. destruct (f64_powi (f64_of_Z 10) (- s)) as [| | |[] mt e]; try discriminate.
  apply andb_true_iff in F. destruct F as (F & V). split; [exact V|]. split; [reflexivity|].
  apply Z.leb_le in F. set (num := Zpos mt * 2 ^ Z.max e 0 * 10 ^ Z.max s 0) in F. set (den := 2 ^ Z.max (- e) 0 * 10 ^ Z.max (- s) 0) in F.
  assert (Hden : 0 < den) by (unfold den; apply Z.mul_pos_pos; apply Z.pow_pos_nonneg; lia).
  assert (Ev : val (S754_finite false mt e) = (IZR num / IZR den * powerRZ 10 (- s))%R).
  { unfold val, SF2R, F2R. cbn [cond_Zopp Fnum Fexp]. rewrite bpow_powerRZ. unfold num, den. rewrite !mult_IZR.
    rewrite <- (IZR_pow_max e 2) by lia. rewrite <- (IZR_pow_max (- s) 10) by lia. rewrite Z.opp_involutive.
    assert (forall b k, 0 < b -> 0 <= k -> IZR (b ^ k) <> 0%R) as NZ.
    { intros b k Hb Hk. apply IZR_neq. pose proof (Z.pow_pos_nonneg b k Hb Hk). lia. }
    field. repeat split; apply NZ; lia. }
  rewrite Ev. assert (P10 : (0 < powerRZ 10 (- s))%R) by (apply powerRZ_lt; lra).
  replace (IZR num / IZR den * powerRZ 10 (- s) - powerRZ 10 (- s))%R with (IZR (num - den) / IZR den * powerRZ 10 (- s))%R
    by (rewrite minus_IZR; field; apply IZR_neq; lia).
  rewrite Rabs_mult, (Rabs_pos_eq (powerRZ 10 (- s))) by lra. apply Rmult_le_compat_r; [lra|].
  unfold Rdiv. rewrite Rabs_mult, Rabs_inv, <- !abs_IZR. rewrite (Z.abs_eq den) by lia.
  apply Rmult_le_reg_r with (IZR den); [apply IZR_lt; lia|]. rewrite Rmult_assoc, Rinv_l, Rmult_1_r by (apply IZR_neq; lia).
  apply Rmult_le_reg_l with (IZR (2 ^ 48)); [apply IZR_lt; lia|]. rewrite <- mult_IZR.
  rewrite <- Rmult_assoc. change (IZR (2 ^ 48)) with (bpow radix2 48). rewrite <- bpow_plus. cbn [Z.add Z.pos_sub Pos.pred_double]. change (bpow radix2 0) with 1%R. rewrite Rmult_1_l.
  apply IZR_le. exact F.
Qed.

Lemma surface_value_spec : forall x, -127 <= scale_factor x <= 127 -> Z.abs (scaled_value x) < 2 ^ 31 ->
  scaled_value x <> - (2 ^ 31 - 1) ->
  finite (surface_value x) /\
  (Rabs (val (surface_value x) - IZR (scaled_value x) * powerRZ 10 (- scale_factor x))
   <= bpow radix2 (-47) * Rabs (IZR (scaled_value x) * powerRZ 10 (- scale_factor x)))%R.
Proof.
  intros x Hs Hv Hn. unfold surface_value, value_is_nan. replace (scaled_value x =? - 2 ^ 31 + 1) with false by lia.
  destruct (factor_spec _ Hs) as (Vf & Ff & Ef). set (f := f64_powi (f64_of_Z 10) (- scale_factor x)) in *.
  set (v := scaled_value x) in *. set (s := scale_factor x) in *. clearbody f.
  destruct (exact_int64 v ltac:(lia)) as (Fv & Ev).
  assert (P10 : (0 < powerRZ 10 (- s))%R) by (apply powerRZ_lt; lra).
  assert (Eps : (bpow radix2 (-48) <= / 2)%R) by (change (/2)%R with (bpow radix2 (-1)); apply bpow_le; lia).
  apply Rabs_le_inv in Ef.
  assert (Fl : (powerRZ 10 (- s) / 2 <= val f <= 2 * powerRZ 10 (- s))%R) by nra.
  assert (Hi : (powerRZ 10 (- s) <= powerRZ 10 127)%R).
  { rewrite <- !(bpow_powerRZ) || idtac. change 10%R with (IZR (Zaux.radix_val (Build_radix 10 eq_refl))). rewrite <- !Raux.bpow_powerRZ. apply bpow_le. lia. }
  assert (Lo : (powerRZ 10 (-127) <= powerRZ 10 (- s))%R).
  { change 10%R with (IZR (Zaux.radix_val (Build_radix 10 eq_refl))). rewrite <- !Raux.bpow_powerRZ. apply bpow_le. lia. }
  destruct (Z.eq_dec v 0) as [Z0|NZ].
  { assert (E0 : f64_mul (f64_of_Z v) f = S754_zero false \/ f64_mul (f64_of_Z v) f = S754_zero true).
    { rewrite Z0. change (f64_of_Z 0) with (S754_zero false). destruct f as [s0|s0| |s0 m0 e0]; try discriminate Ff; cbn; destruct s0; auto. }
    destruct E0 as [-> | ->]; (split; [reflexivity|]); rewrite Z0; unfold val, SF2R; rewrite Rmult_0_l, Rminus_0_r, Rabs_R0; lra. }
  assert (Hv1 : (1 <= Rabs (IZR v))%R) by (rewrite <- abs_IZR; apply IZR_le; lia).
  assert (Hv2 : (Rabs (IZR v) <= bpow radix2 31)%R) by (rewrite <- abs_IZR; change (bpow radix2 31) with (IZR (2 ^ 31)); apply IZR_le; lia).
  assert (Big : (powerRZ 10 127 <= bpow radix2 900)%R).
  { rewrite <- (IZR_pow_max 127 10) by lia. cbn [Z.max Z.opp Z.compare]. change (IZR (10 ^ 0)) with 1%R. unfold Rdiv. rewrite Rinv_1, Rmult_1_r. change (bpow radix2 900) with (IZR (2 ^ 900)). apply IZR_le. vm_compute. discriminate. }
  assert (Small : (bpow radix2 (-900) <= powerRZ 10 (-127))%R).
  { rewrite <- (IZR_pow_max (-127) 10) by lia. cbn [Z.max Z.opp Z.compare]. change (IZR (10 ^ 0)) with 1%R. unfold Rdiv. rewrite Rmult_1_l.
    change (bpow radix2 (-900)) with (/ IZR (2 ^ 900))%R. apply Rinv_le; [apply IZR_lt; reflexivity|]. apply IZR_le. vm_compute. discriminate. }
  assert (Bp : (0 < bpow radix2 900)%R) by apply bpow_gt_0.
  set (r := (IZR v * val f)%R).
  assert (Fp : (0 < val f)%R) by lra.
  assert (Ar : Rabs r = (Rabs (IZR v) * val f)%R) by (unfold r; rewrite Rabs_mult, (Rabs_pos_eq (val f)) by lra; reflexivity).
  assert (Rlo : (bpow radix2 (-1022) <= Rabs r)%R).
  { rewrite Ar. apply Rle_trans with (1 * (powerRZ 10 (- s) / 2))%R; [|apply Rmult_le_compat; lra].
    apply Rle_trans with (bpow radix2 (-901)); [apply bpow_le; lia|]. change (-901) with (-900 + -1). rewrite bpow_plus. change (bpow radix2 (-1)) with (/2)%R. lra. }
  assert (Rhi : (Rabs r <= bpow radix2 1000)%R).
  { rewrite Ar. apply Rle_trans with (bpow radix2 31 * (2 * bpow radix2 900))%R; [apply Rmult_le_compat; lra|].
    change 2%R with (bpow radix2 1). rewrite <- !bpow_plus. apply bpow_le. lia. }
  pose proof (rnd64_error r Rlo) as Er.
  assert (E53 : (bpow radix2 (-53) <= / 2)%R) by (change (/2)%R with (bpow radix2 (-1)); apply bpow_le; lia).
  assert (Lim : (Rabs (rnd64 r) < limit64)%R).
  { replace (rnd64 r) with ((rnd64 r - r) + r)%R by ring. eapply Rle_lt_trans; [apply Rabs_triang|].
    apply Rle_lt_trans with (2 * bpow radix2 1000)%R; [pose proof (Rabs_pos r); nra|].
    change 2%R with (bpow radix2 1). rewrite <- bpow_plus. apply bpow_lt. lia. }
  unfold r in Lim. rewrite <- Ev in Lim.
  destruct (mul_ok64 _ _ (valid_of_Z64 v) Vf Fv Ff Lim) as (Fm & Em). split; [exact Fm|]. rewrite Em, Ev. fold r.
  (* total error *)
  set (t := (IZR v * powerRZ 10 (- s))%R).
  assert (At : Rabs t = (Rabs (IZR v) * powerRZ 10 (- s))%R) by (unfold t; rewrite Rabs_mult, (Rabs_pos_eq (powerRZ 10 (-s))) by lra; reflexivity).
  assert (E1 : (Rabs (r - t) <= bpow radix2 (-48) * Rabs t)%R).
  { rewrite At. unfold r, t. rewrite <- Rmult_minus_distr_l, Rabs_mult.
    assert (Rabs (val f - powerRZ 10 (- s)) <= bpow radix2 (-48) * powerRZ 10 (- s))%R by (apply Rabs_le; lra).
    pose proof (Rabs_pos (IZR v)). nra. }
  assert (E2 : (Rabs r <= 2 * Rabs t)%R).
  { replace r with ((r - t) + t)%R by ring. eapply Rle_trans; [apply Rabs_triang|]. pose proof (Rabs_pos t). nra. }
  replace (rnd64 r - t)%R with ((rnd64 r - r) + (r - t))%R by ring. eapply Rle_trans; [apply Rabs_triang|].
  assert (E3 : (2 * bpow radix2 (-53) <= bpow radix2 (-48))%R) by (change 2%R with (bpow radix2 1); rewrite <- bpow_plus; apply bpow_le; lia).
  assert (E4 : (bpow radix2 (-47) = 2 * bpow radix2 (-48))%R) by (change 2%R with (bpow radix2 1); rewrite <- bpow_plus; reflexivity).
  pose proof (Rabs_pos t). pose proof (bpow_gt_0 radix2 (-53)). nra.
Qed.

Lemma missing_value : forall x, value_is_nan x = true -> surface_value x = S754_nan.
Proof. intros x H. unfold surface_value. rewrite H. reflexivity. Qed.

(** The conversions of angles and lengths are accurate. *)
From Coq Require Import Reals ZArith Bool Lia Lra Floats.SpecFloat.
From Flocq Require Import Core.Core IEEE754.BinarySingleNaN.
From Flocq Require Relative.
From Verif Require Import Model.Base Model.F32 Model.F64 Model.Proj Spec.FloatS.
From Verif Require Import Proofs.FloatP64 Proofs.PiP.
From Verif Require Proofs.FloatP.
Local Open Scope R_scope.

Lemma rnd64_any x : Rabs (rnd64 x - x) <= bpow radix2 (-53) * Rabs x + bpow radix2 (-1075).
Proof.
  destruct (Relative.error_N_FLT radix2 (-1074) 53 Hprec64 (fun n => negb (Z.even n)) x) as (eps & eta & He & Ht & _ & E).
  unfold rnd64. rewrite E. replace (x * (1 + eps) + eta - x) with (x * eps + eta) by ring.
  eapply Rle_trans; [apply Rabs_triang|]. rewrite Rabs_mult.
  apply Rplus_le_compat.
  - rewrite Rmult_comm. apply Rmult_le_compat_r; [apply Rabs_pos|]. eapply Rle_trans; [exact He|]. right.
    change (/ 2 * bpow radix2 (1 + -53) = bpow radix2 (-53)). rewrite bpow_plus. change (bpow radix2 1) with 2. lra.
  - eapply Rle_trans; [exact Ht|]. right. change (/ 2 * bpow radix2 (1 + -1075) = bpow radix2 (-1075)). rewrite bpow_plus. change (bpow radix2 1) with 2. lra.
Qed.
Lemma rnd32_any x : Rabs (rnd32 x - x) <= bpow radix2 (-24) * Rabs x + bpow radix2 (-150).
Proof.
  destruct (Relative.error_N_FLT radix2 (-149) 24 FloatP.Hprec (fun n => negb (Z.even n)) x) as (eps & eta & He & Ht & _ & E).
  unfold rnd32. rewrite E. replace (x * (1 + eps) + eta - x) with (x * eps + eta) by ring.
  eapply Rle_trans; [apply Rabs_triang|]. rewrite Rabs_mult.
  apply Rplus_le_compat.
  - rewrite Rmult_comm. apply Rmult_le_compat_r; [apply Rabs_pos|]. eapply Rle_trans; [exact He|]. right.
    change (/ 2 * bpow radix2 (1 + -24) = bpow radix2 (-24)). rewrite bpow_plus. change (bpow radix2 1) with 2. lra.
  - eapply Rle_trans; [exact Ht|]. right. change (/ 2 * bpow radix2 (1 + -150) = bpow radix2 (-150)). rewrite bpow_plus. change (bpow radix2 1) with 2. lra.
Qed.

(** [as f32] rounds to nearest. *)
Lemma to_f32_ok x : finite x -> Rabs (rnd32 (val x)) < limit32 ->
  finite (f64_to_f32 x) /\ val (f64_to_f32 x) = rnd32 (val x).
Proof.
  intros F H. destruct x as [s|s| |s m e]; try discriminate F.
  - split; [reflexivity|]. cbn [f64_to_f32 val SF2R]. unfold val. cbn [SF2R]. unfold rnd32. rewrite round_0; [reflexivity|typeclasses eauto].
  - unfold f64_to_f32. change SpecFloat.cond_Zopp with cond_Zopp in *. rewrite FloatP.binary_normalize_equiv, FloatP.finite_B, FloatP.val_B.
    generalize (binary_normalize_correct 24 128 FloatP.Hprec FloatP.Hmax mode_NE (cond_Zopp s (Z.pos m)) e s).
    assert (E : F2R (Float radix2 (cond_Zopp s (Z.pos m)) e) = val (S754_finite s m e)) by reflexivity.
    cbv zeta. rewrite E, (FloatP.lt_limit _ H). intros (A & C & _). split; assumption.
Qed.

Lemma bpow_le_pow a b : (a <= b)%Z -> bpow radix2 a <= bpow radix2 b.
Proof. apply bpow_le. Qed.
Lemma bpow_plus' a b c : (c = a + b)%Z -> bpow radix2 c = bpow radix2 a * bpow radix2 b.
Proof. intros ->. apply bpow_plus. Qed.

Lemma to_f32_close x : finite x -> Rabs (val x) <= bpow radix2 126 ->
  finite (f64_to_f32 x) /\ Rabs (val (f64_to_f32 x) - val x) <= bpow radix2 (-24) * Rabs (val x) + bpow radix2 (-150).
Proof.
  intros F H. pose proof (rnd32_any (val x)) as E.
  destruct (to_f32_ok x F) as (F' & ->); [|split; [exact F'|exact E]].
  assert (Rabs (rnd32 (val x)) <= Rabs (val x) + Rabs (rnd32 (val x) - val x)).
  { replace (rnd32 (val x)) with (val x + (rnd32 (val x) - val x)) at 1 by ring. apply Rabs_triang. }
  unfold limit32. rewrite (bpow_plus' 126 2 128) by reflexivity. change (bpow radix2 2) with 4.
  assert (bpow radix2 (-24) <= 1) by (change 1 with (bpow radix2 0); apply bpow_le; lia).
  assert (bpow radix2 (-150) <= bpow radix2 126) by (apply bpow_le; lia).
  pose proof (bpow_gt_0 radix2 126). pose proof (Rabs_pos (val x)). pose proof (bpow_gt_0 radix2 (-24)). nra.
Qed.

(** A factor [c] near [r] (relative error 2^-52): multiplication by it. *)
Lemma mul_close x c r : valid64 x -> finite x -> valid64 c -> finite c -> Rabs (val c - r) <= bpow radix2 (-52) * Rabs r ->
  Rabs (val x) * Rabs (val c) <= bpow radix2 1020 ->
  finite (f64_mul x c) /\ Rabs (val (f64_mul x c) - val x * r) <= bpow radix2 (-51) * Rabs (val x * r) + bpow radix2 (-1075).
Proof.
  intros Vx Fx Vc Fc Hc Hx. pose proof (rnd64_any (val x * val c)) as E. rewrite Rabs_mult in E.
  set (t := bpow radix2 (-53)) in *. assert (T : 0 < t) by apply bpow_gt_0.
  assert (T1 : t <= / 1024). { unfold t. replace (/ 1024) with (bpow radix2 (-10)) by reflexivity. apply bpow_le. lia. }
  replace (bpow radix2 (-52)) with (2 * t) in Hc by (unfold t; change (-52)%Z with (1 + -53)%Z; rewrite bpow_plus; reflexivity).
  replace (bpow radix2 (-51)) with (4 * t) by (unfold t; change (-51)%Z with (2 + -53)%Z; rewrite bpow_plus; reflexivity).
  assert (S : bpow radix2 (-1075) <= 1) by (change 1 with (bpow radix2 0); apply bpow_le; lia).
  set (z := bpow radix2 (-1075)) in *. assert (Z0 : 0 < z) by apply bpow_gt_0.
  assert (L : 1 <= bpow radix2 1020) by (change 1 with (bpow radix2 0); apply bpow_le; lia).
  destruct (mul_ok64 x c Vx Vc Fx Fc) as (F & V).
  { assert (Rabs (rnd64 (val x * val c)) <= Rabs (val x * val c) + Rabs (rnd64 (val x * val c) - val x * val c)).
    { replace (rnd64 (val x * val c)) with (val x * val c + (rnd64 (val x * val c) - val x * val c)) at 1 by ring. apply Rabs_triang. }
    rewrite Rabs_mult in H. unfold limit64. rewrite (bpow_plus' 1020 4 1024) by reflexivity. change (bpow radix2 4) with 16.
    pose proof (Rabs_pos (val x)). pose proof (Rabs_pos (val c)). assert (0 <= Rabs (val x) * Rabs (val c)) by nra. nra. }
  split; [exact F|]. rewrite V.
  replace (rnd64 (val x * val c) - val x * r) with ((rnd64 (val x * val c) - val x * val c) + val x * (val c - r)) by ring.
  eapply Rle_trans; [apply Rabs_triang|]. rewrite !Rabs_mult.
  assert (C : Rabs (val c) <= Rabs r + 2 * t * Rabs r).
  { replace (val c) with (r + (val c - r)) by ring. eapply Rle_trans; [apply Rabs_triang|]. lra. }
  pose proof (Rabs_pos (val x)) as Px. pose proof (Rabs_pos r) as Pr.
  assert (A1 : Rabs (val x) * Rabs (val c - r) <= Rabs (val x) * (2 * t * Rabs r)) by (apply Rmult_le_compat_l; assumption).
  assert (A2 : t * (Rabs (val x) * Rabs (val c)) <= t * (Rabs (val x) * (Rabs r + 2 * t * Rabs r))).
  { apply Rmult_le_compat_l; [lra|]. apply Rmult_le_compat_l; assumption. }
  assert (A3 : 0 <= Rabs (val x) * Rabs r) by nra. set (w := Rabs (val x) * Rabs r) in *.
  replace (Rabs (val x) * (2 * t * Rabs r)) with (2 * t * w) in A1 by (unfold w; ring).
  replace (t * (Rabs (val x) * (Rabs r + 2 * t * Rabs r))) with (t * w + 2 * t * t * w) in A2 by (unfold w; ring).
  assert (t * t * w <= / 1024 * t * w). { apply Rmult_le_compat_r; [exact A3|]. apply Rmult_le_compat_r; lra. }
  assert (0 <= t * w) by nra. lra.
Qed.

(** 180 / PI. *)
Definition deg_lit : f64 := Eval vm_compute in f64_div (f64_of_Z 180) f64_pi.
Definition rad_lit : f64 := Eval vm_compute in f64_div f64_pi (f64_of_Z 180).
Lemma deg_eq : f64_div (f64_of_Z 180) f64_pi = deg_lit. Proof. vm_compute. reflexivity. Qed.
Lemma rad_eq : f64_div f64_pi (f64_of_Z 180) = rad_lit. Proof. vm_compute. reflexivity. Qed.

Lemma pi_bounds : 3.14159265358979 < PI < 3.14159265358980.
Proof.
  pose proof pi_close as H. rewrite val_pi in H. unfold pi_lo, Q2R in H. cbn [QArith_base.Qnum QArith_base.Qden] in H.
  apply Rabs_le_inv in H. change (bpow radix2 (-52)) with (/ 4503599627370496) in H. change (2 ^ 51)%positive with 2251799813685248%positive in H. lra.
Qed.

Lemma pi_lit : Rabs (7074237752028440 / 2251799813685248 - PI) <= / 4503599627370496.
Proof.
  pose proof pi_close as H. rewrite val_pi in H. unfold pi_lo, Q2R in H. cbn [QArith_base.Qnum QArith_base.Qden] in H.
  change (bpow radix2 (-52)) with (/ 4503599627370496) in H. change (2 ^ 51)%positive with 2251799813685248%positive in H. exact H.
Qed.

Lemma deg_close : valid64 deg_lit /\ finite deg_lit /\ Rabs (val deg_lit - 180 / PI) <= bpow radix2 (-52) * Rabs (180 / PI) /\ Rabs (val deg_lit) <= 64.
Proof.
  split; [reflexivity|]. split; [reflexivity|].
  assert (V : exists a b, val deg_lit = IZR a / IZR (Z.pos b) /\ Rabs (IZR a / IZR (Z.pos b) * PI - 180) <= 180 * / 4503599627370496 /\ IZR a / IZR (Z.pos b) <= 64 /\ 0 <= IZR a / IZR (Z.pos b)).
  { unfold deg_lit, val, SF2R, F2R. cbn [cond_Zopp Fnum Fexp]. eexists _, _. split; [cbn [bpow]; reflexivity|].
    pose proof pi_lit as P. apply Rabs_le_inv in P. cbn. split; [|lra]. apply Rabs_le. lra. }
  destruct V as (a & b & -> & V & U & L). set (c := IZR a / IZR (Z.pos b)) in *.
  pose proof pi_bounds as PB. split.
  - replace (c - 180 / PI) with ((c * PI - 180) / PI) by (field; lra). unfold Rdiv. rewrite !Rabs_mult.
    rewrite <- Rmult_assoc. apply Rmult_le_compat_r; [apply Rabs_pos|]. rewrite (Rabs_pos_eq 180) by lra.
    change (bpow radix2 (-52)) with (/ 4503599627370496). lra.
  - rewrite Rabs_pos_eq; lra.
Qed.

Lemma rad_close : valid64 rad_lit /\ finite rad_lit /\ Rabs (val rad_lit - PI / 180) <= bpow radix2 (-52) * Rabs (PI / 180) /\ Rabs (val rad_lit) <= 1.
Proof.
  split; [reflexivity|]. split; [reflexivity|].
  assert (V : exists a b, val rad_lit = IZR a / IZR (Z.pos b) /\ Rabs (IZR a / IZR (Z.pos b) * 180 - PI) <= 3 * / 4503599627370496 /\ IZR a / IZR (Z.pos b) <= 1 /\ 0 <= IZR a / IZR (Z.pos b)).
  { unfold rad_lit, val, SF2R, F2R. cbn [cond_Zopp Fnum Fexp]. eexists _, _. split; [cbn [bpow]; reflexivity|].
    pose proof pi_lit as P. apply Rabs_le_inv in P. cbn. split; [|lra]. apply Rabs_le. lra. }
  destruct V as (a & b & -> & V & U & L). set (c := IZR a / IZR (Z.pos b)) in *.
  pose proof pi_bounds as PB. split.
  - replace (c - PI / 180) with ((c * 180 - PI) / 180) by field. unfold Rdiv. rewrite !Rabs_mult.
    rewrite <- Rmult_assoc. apply Rmult_le_compat_r; [apply Rabs_pos|]. rewrite (Rabs_pos_eq PI) by lra.
    change (bpow radix2 (-52)) with (/ 4503599627370496). lra.
  - rewrite Rabs_pos_eq; lra.
Qed.

Lemma to_degrees_close : forall x, valid64 x -> finite x -> Rabs (val x) <= bpow radix2 1000 ->
  finite (f64_to_degrees x) /\ Rabs (val (f64_to_degrees x) - val x * (180 / PI)) <= bpow radix2 (-51) * Rabs (val x * (180 / PI)) + bpow radix2 (-1075).
Proof.
  intros x V F H. unfold f64_to_degrees. rewrite deg_eq. destruct deg_close as (Vc & Fc & C & U). apply mul_close; try assumption.
  rewrite (bpow_plus' 1000 20 1020) by reflexivity. apply Rmult_le_compat; try apply Rabs_pos; [exact H|].
  eapply Rle_trans; [exact U|]. change 64 with (bpow radix2 6). apply bpow_le. lia.
Qed.
Lemma to_radians_close : forall x, valid64 x -> finite x -> Rabs (val x) <= bpow radix2 1000 ->
  finite (f64_to_radians x) /\ Rabs (val (f64_to_radians x) - val x * (PI / 180)) <= bpow radix2 (-51) * Rabs (val x * (PI / 180)) + bpow radix2 (-1075).
Proof.
  intros x V F H. unfold f64_to_radians. rewrite rad_eq. destruct rad_close as (Vc & Fc & C & U). apply mul_close; try assumption.
  rewrite (bpow_plus' 1000 20 1020) by reflexivity. apply Rmult_le_compat; try apply Rabs_pos; [exact H|].
  eapply Rle_trans; [exact U|]. change 1 with (bpow radix2 0). apply bpow_le. lia.
Qed.

(** From radians to the coordinates that are returned. *)
Lemma degrees_close : forall x, valid64 x -> finite x -> Rabs (val x) <= bpow radix2 100 ->
  let y := f64_to_f32 (f64_to_degrees x) in
  finite y /\ Rabs (val y - val x * 180 / PI) <= bpow radix2 (-23) * Rabs (val x * 180 / PI) + bpow radix2 (-149).
Proof.
  intros x V F H y. destruct (to_degrees_close x V F) as (F1 & E1); [eapply Rle_trans; [exact H|apply bpow_le; lia]|].
  pose proof pi_bounds as PB.
  assert (D : 0 < 180 / PI < 64).
  { split; [apply Rdiv_lt_0_compat; lra|]. apply Rmult_lt_reg_r with PI; [lra|]. unfold Rdiv. rewrite Rmult_assoc, Rinv_l by lra. lra. }
  replace (val x * 180 / PI) with (val x * (180 / PI)) by (unfold Rdiv; ring). set (w := val x * (180 / PI)) in *.
  set (t := bpow radix2 (-51)) in *. assert (T : 0 < t) by apply bpow_gt_0.
  set (u := bpow radix2 (-24)) in *.
  assert (TU : t <= / 4 * u). { unfold t, u. replace (/ 4) with (bpow radix2 (-2)) by reflexivity. rewrite <- bpow_plus. apply bpow_le. lia. }
  assert (U1 : u <= / 4). { unfold u. replace (/ 4) with (bpow radix2 (-2)) by reflexivity. apply bpow_le. lia. }
  assert (Z1 : bpow radix2 (-1075) <= / 4 * bpow radix2 (-149)). { replace (/ 4) with (bpow radix2 (-2)) by reflexivity. rewrite <- bpow_plus. apply bpow_le. lia. }
  set (z := bpow radix2 (-1075)) in *. assert (Z0 : 0 < z) by apply bpow_gt_0.
  assert (Z2 : bpow radix2 (-150) = / 2 * bpow radix2 (-149)) by (change (-150)%Z with (-1 + -149)%Z; rewrite bpow_plus; reflexivity).
  assert (Z3 : bpow radix2 (-149) <= 1) by (change 1 with (bpow radix2 0); apply bpow_le; lia).
  replace (bpow radix2 (-23)) with (2 * u) by (unfold u; change (-23)%Z with (1 + -24)%Z; rewrite bpow_plus; reflexivity).
  set (dg := val (f64_to_degrees x)) in *.
  assert (G : Rabs dg <= Rabs w + t * Rabs w + z).
  { replace dg with (w + (dg - w)) by ring. eapply Rle_trans; [apply Rabs_triang|]. lra. }
  pose proof (Rabs_pos w) as Pw.
  assert (W : Rabs w <= 64 * bpow radix2 100).
  { unfold w. rewrite Rabs_mult, (Rabs_pos_eq (180 / PI)) by lra. rewrite Rmult_comm. apply Rmult_le_compat; try lra. apply Rabs_pos. }
  assert (B : 1 <= bpow radix2 100) by (change 1 with (bpow radix2 0); apply bpow_le; lia).
  destruct (to_f32_close (f64_to_degrees x) F1) as (F2 & E2).
  { fold dg. rewrite (bpow_plus' 100 26 126) by reflexivity. assert (128 <= bpow radix2 26) by (change 128 with (bpow radix2 7); apply bpow_le; lia).
    assert (bpow radix2 100 * 128 <= bpow radix2 100 * bpow radix2 26) by (apply Rmult_le_compat_l; lra).
    assert (t * Rabs w <= / 16 * Rabs w) by (apply Rmult_le_compat_r; lra). lra. }
  fold dg u in E2. split; [exact F2|]. fold y in E2, F2.
  replace (val y - w) with ((val y - dg) + (dg - w)) by ring. eapply Rle_trans; [apply Rabs_triang|].
  assert (t * Rabs w <= / 4 * u * Rabs w) by (apply Rmult_le_compat_r; lra).
  assert (u * Rabs dg <= u * (Rabs w + t * Rabs w + z)) by (apply Rmult_le_compat_l; [lra|exact G]).
  assert (u * (t * Rabs w) <= / 4 * (t * Rabs w)) by (apply Rmult_le_compat_r; nra).
  assert (u * z <= / 4 * z) by (apply Rmult_le_compat_r; lra). assert (0 <= u * Rabs w) by nra. lra.
Qed.

(** Angles are given in 10^-6 degrees, lengths in 10^-3 metres. *)
Lemma q_close n d (D : R) : Rabs (val (q n d) - / D) <= bpow radix2 (-53) * Rabs (/ D) -> valid64 (q n d) -> finite (q n d) -> Rabs (val (q n d)) <= 1 -> Rabs (val (q n d)) >= / 2 ^ 30 ->
  forall x, (Z.abs x <= 2 ^ 32)%Z ->
  finite (f64_mul (f64_of_Z x) (q n d)) /\
  Rabs (val (f64_mul (f64_of_Z x) (q n d)) - IZR x / D) <= bpow radix2 (-51) * Rabs (IZR x / D).
Proof.
  intros HD Vq Fq Uq Lq x Hx. destruct (exact_int64 x) as (Fx & Ex); [lia|]. pose proof (valid_of_Z64 x) as Vx.
  assert (B : Rabs (IZR x) <= bpow radix2 32). { rewrite <- abs_IZR. change (bpow radix2 32) with (IZR (2 ^ 32)). apply IZR_le, Hx. }
  destruct (Z.eq_dec x 0) as [->|N].
  - destruct (mul_ok64 (f64_of_Z 0) (q n d) Vx Vq Fx Fq) as (F & V).
    { rewrite Ex, Rmult_0_l. unfold rnd64. rewrite round_0 by typeclasses eauto. rewrite Rabs_R0. apply bpow_gt_0. }
    split; [exact F|]. rewrite V, Ex, Rmult_0_l. unfold rnd64. rewrite round_0 by typeclasses eauto. unfold Rdiv. rewrite Rmult_0_l, Rminus_0_r, Rabs_R0. lra.
  - assert (X1 : 1 <= Rabs (IZR x)). { rewrite <- abs_IZR. apply (IZR_le 1). lia. }
    set (c := val (q n d)) in *. pose proof (Rabs_pos c) as Pc.
    assert (Hn : bpow radix2 (-1022) <= Rabs (IZR x * c)).
    { rewrite Rabs_mult. apply Rle_trans with (1 * / 2 ^ 30); [|apply Rmult_le_compat; try lra].
      replace (1 * / 2 ^ 30) with (bpow radix2 (-30)) by (cbn; lra). apply bpow_le. lia. }
    pose proof (rnd64_error (IZR x * c) Hn) as E. set (t := bpow radix2 (-53)) in *. assert (T : 0 < t) by apply bpow_gt_0.
    assert (T1 : t <= / 1024). { unfold t. replace (/ 1024) with (bpow radix2 (-10)) by reflexivity. apply bpow_le. lia. }
    replace (bpow radix2 (-51)) with (4 * t) by (unfold t; change (-51)%Z with (2 + -53)%Z; rewrite bpow_plus; reflexivity).
    destruct (mul_ok64 (f64_of_Z x) (q n d) Vx Vq Fx Fq) as (F & V).
    { fold c. rewrite Ex. assert (Rabs (rnd64 (IZR x * c)) <= Rabs (IZR x * c) + Rabs (rnd64 (IZR x * c) - IZR x * c)).
      { replace (rnd64 (IZR x * c)) with (IZR x * c + (rnd64 (IZR x * c) - IZR x * c)) at 1 by ring. apply Rabs_triang. }
      assert (Rabs (IZR x * c) <= bpow radix2 32). { rewrite Rabs_mult. rewrite <- (Rmult_1_r (bpow radix2 32)). apply Rmult_le_compat; try assumption; apply Rabs_pos. }
      unfold limit64. assert (4 * bpow radix2 32 <= bpow radix2 1024). { change 4 with (bpow radix2 2). rewrite <- bpow_plus. apply bpow_le. lia. }
      pose proof (bpow_gt_0 radix2 32). pose proof (Rabs_pos (IZR x * c)). nra. }
    split; [exact F|]. rewrite V, Ex. fold c.
    replace (rnd64 (IZR x * c) - IZR x / D) with ((rnd64 (IZR x * c) - IZR x * c) + IZR x * (c - / D)) by (unfold Rdiv; ring).
    eapply Rle_trans; [apply Rabs_triang|]. unfold Rdiv. rewrite !Rabs_mult.
    set (D' := Rabs (/ D)) in *. assert (PD : 0 <= D') by apply Rabs_pos.
    assert (Cc : Rabs c <= D' + t * D'). { replace c with (/ D + (c - / D)) by ring. eapply Rle_trans; [apply Rabs_triang|]. fold D'. lra. }
    rewrite Rabs_mult in E. set (a := Rabs (IZR x)) in *.
    assert (a * Rabs (c - / D) <= a * (t * D')) by (apply Rmult_le_compat_l; lra).
    assert (t * (a * Rabs c) <= t * (a * (D' + t * D'))). { apply Rmult_le_compat_l; [lra|]. apply Rmult_le_compat_l; lra. }
    assert (0 <= a * D') by nra.
    assert (t * t * (a * D') <= / 1024 * t * (a * D')). { apply Rmult_le_compat_r; [assumption|]. apply Rmult_le_compat_r; lra. }
    assert (0 <= t * (a * D')) by nra.
    replace (t * (a * (D' + t * D'))) with (t * (a * D') + t * t * (a * D')) in H0 by ring.
    replace (a * (t * D')) with (t * (a * D')) in H by ring. lra.
Qed.

Definition micro_lit : f64 := Eval vm_compute in q 1 1000000.
Definition milli_lit : f64 := Eval vm_compute in q 1 1000.
Lemma micro_close : forall x, (Z.abs x <= 2 ^ 32)%Z ->
  finite (micro x) /\ Rabs (val (micro x) - IZR x / 1000000) <= bpow radix2 (-51) * Rabs (IZR x / 1000000).
Proof.
  intros x Hx. unfold micro.
  assert (V : exists a b, val (q 1 1000000) = IZR (Z.pos a) / IZR (Z.pos b) /\ 1000000 * IZR (Z.pos a) * 9007199254740992 <= IZR (Z.pos b) * 9007199254740993 /\ IZR (Z.pos b) * 9007199254740991 <= 1000000 * IZR (Z.pos a) * 9007199254740992).
  { replace (q 1 1000000) with micro_lit by (vm_compute; reflexivity). unfold micro_lit.
    unfold val, SF2R, F2R. cbn [cond_Zopp Fnum Fexp]. eexists _, _. split; [cbn [bpow]; reflexivity|]. cbn. lra. }
  destruct V as (a & b & V & V1 & V2).
  assert (B0 : 0 < IZR (Z.pos b)) by (apply IZR_lt; lia).
  assert (C : Rabs (val (q 1 1000000) - / 1000000) <= bpow radix2 (-53) * Rabs (/ 1000000)).
  { rewrite V. rewrite (Rabs_pos_eq (/ 1000000)) by lra. change (bpow radix2 (-53)) with (/ 9007199254740992).
    set (r := IZR (Z.pos a) / IZR (Z.pos b)). assert (E : IZR (Z.pos a) = r * IZR (Z.pos b)) by (unfold r; field; lra).
    rewrite E in V1, V2. apply Rabs_le. nra. }
  apply q_close; try reflexivity; try assumption.
  - apply Rabs_le_inv in C. rewrite (Rabs_pos_eq (/ 1000000)) in C by lra. change (bpow radix2 (-53)) with (/ 9007199254740992) in C. apply Rabs_le. lra.
  - apply Rabs_le_inv in C. rewrite (Rabs_pos_eq (/ 1000000)) in C by lra. change (bpow radix2 (-53)) with (/ 9007199254740992) in C. rewrite Rabs_pos_eq; lra.
Qed.
Lemma milli_close : forall x, (Z.abs x <= 2 ^ 32)%Z ->
  finite (milli x) /\ Rabs (val (milli x) - IZR x / 1000) <= bpow radix2 (-51) * Rabs (IZR x / 1000).
Proof.
  intros x Hx. unfold milli.
  assert (V : exists a b, val (q 1 1000) = IZR (Z.pos a) / IZR (Z.pos b) /\ 1000 * IZR (Z.pos a) * 9007199254740992 <= IZR (Z.pos b) * 9007199254740993 /\ IZR (Z.pos b) * 9007199254740991 <= 1000 * IZR (Z.pos a) * 9007199254740992).
  { replace (q 1 1000) with milli_lit by (vm_compute; reflexivity). unfold milli_lit.
    unfold val, SF2R, F2R. cbn [cond_Zopp Fnum Fexp]. eexists _, _. split; [cbn [bpow]; reflexivity|]. cbn. lra. }
  destruct V as (a & b & V & V1 & V2).
  assert (B0 : 0 < IZR (Z.pos b)) by (apply IZR_lt; lia).
  assert (C : Rabs (val (q 1 1000) - / 1000) <= bpow radix2 (-53) * Rabs (/ 1000)).
  { rewrite V. rewrite (Rabs_pos_eq (/ 1000)) by lra. change (bpow radix2 (-53)) with (/ 9007199254740992).
    set (r := IZR (Z.pos a) / IZR (Z.pos b)). assert (E : IZR (Z.pos a) = r * IZR (Z.pos b)) by (unfold r; field; lra).
    rewrite E in V1, V2. apply Rabs_le. nra. }
  apply q_close; try reflexivity; try assumption.
  - apply Rabs_le_inv in C. rewrite (Rabs_pos_eq (/ 1000)) in C by lra. change (bpow radix2 (-53)) with (/ 9007199254740992) in C. apply Rabs_le. lra.
  - apply Rabs_le_inv in C. rewrite (Rabs_pos_eq (/ 1000)) in C by lra. change (bpow radix2 (-53)) with (/ 9007199254740992) in C. rewrite Rabs_pos_eq; lra.
Qed.

(** Property theorems C15-C17: simple packing. *)
From Coq Require Import Reals ZArith Lra Lia.
From Flocq Require Import Core.Core.
From Verif Require Import Model.Base Model.Errors Model.F32 Model.Diff Model.Complex Model.Simple.
From Verif Require Import Spec.Bits Spec.ComplexS Spec.FloatS Spec.SimpleS.
From Verif Require Proofs.FloatP Proofs.SimpleP Proofs.AccuracyP.
Open Scope Z_scope.

(** C15: from the octets of sections 5 and 7 to real numbers: every packed integer
    decodes to (R + x * 2^E) * 10^-D with one rounding per operation. *)
Theorem C15_simple_packing : forall m np npe refbits e d (n : nat) xs,
  0 <= refbits < 2 ^ 32 -> ieee_finite refbits -> -127 <= e <= 127 -> -10 <= d <= 10 -> (1 <= n <= 32)%nat ->
  Forall (fun x => 0 <= x < 2 ^ Z.of_nat n /\ no_overflow (ieee_value refbits) e d x) xs ->
  exists it vs padding,
    simple_decode m (sect5_simple np refbits e d (Z.of_nat n)) (pack n xs) npe = Ret (Ok it)
    /\ Run it (vs ++ padding) End
    /\ Forall2 (fun x v => finite v /\ val v = unpacked (ieee_value refbits) e d x) xs vs
    /\ (length padding * n < 8)%nat.
Proof. exact SimpleP.simple_packing_ok. Qed.
Print Assumptions C15_simple_packing.
(** R = 273.15 (0x43889333), E = -2, D = 1, 5-bit values 0, 9, 31: 27.315, 27.54, 28.09. *)
Example C15_simple_packing_ex :
  ieee_finite 0x43889333
  /\ ieee_value 0x43889333 = (8950579 * bpow radix2 (-15))%R
  /\ pack 5 [0; 9; 31] = [x02; x7e]
  /\ Forall (fun x => 0 <= x < 2 ^ Z.of_nat 5 /\ no_overflow (ieee_value 0x43889333) (-2) 1 x) [0; 9; 31].
Proof.
  split; [vm_compute; discriminate|].
  split; [unfold ieee_value, ieee_sign; cbn; lra|].
  split; [vm_compute; reflexivity|].
  exact SimpleP.ex_no_overflow.
Qed.

(** C15: and that value is accurate: whatever the scale factors (-127 <= E <= 127,
    -38 <= D <= 37), as long as |R| + x * 2^E and its product with 10^-D stay below
    2^126, the decoded value is finite and differs from (R + x * 2^E) * 10^-D by at most
    2^-20 of (|R| + x * 2^E) * 10^-D, plus 2^-148 * (1 + 10^-D). *)
Theorem C15_accuracy : forall m np npe refbits e d (n : nat) xs,
  0 <= refbits < 2 ^ 32 -> ieee_finite refbits -> -127 <= e <= 127 -> -38 <= d <= 37 -> (1 <= n <= 32)%nat ->
  Forall (fun x => 0 <= x < 2 ^ Z.of_nat n /\ in_reach (ieee_value refbits) e d x) xs ->
  exists it vs padding,
    simple_decode m (sect5_simple np refbits e d (Z.of_nat n)) (pack n xs) npe = Ret (Ok it)
    /\ Run it (vs ++ padding) End
    /\ Forall2 (accurate (ieee_value refbits) e d) xs vs
    /\ (length padding * n < 8)%nat.
Proof. exact AccuracyP.simple_packing_accurate. Qed.
Print Assumptions C15_accuracy.
(** In particular, ordinary fields are in reach. *)
Theorem C15_ordinary_in_reach : forall refv e d x,
  (Rabs refv <= bpow radix2 64)%R -> -64 <= e <= 32 -> -10 <= d <= 10 -> Z.abs x <= 2 ^ 32 -> in_reach refv e d x.
Proof. exact AccuracyP.ordinary_in_reach. Qed.
Print Assumptions C15_ordinary_in_reach.
Example C15_accuracy_ex :
  Forall (fun x => 0 <= x < 2 ^ Z.of_nat 5 /\ in_reach (8950579 * bpow radix2 (-15)) (-2) 1 x) [0; 9; 31].
Proof.
  assert (H : (Rabs (8950579 * bpow radix2 (-15)) <= bpow radix2 64)%R).
  { rewrite Rabs_pos_eq; [|apply Rmult_le_pos; [lra|apply bpow_ge_0]].
    replace (bpow radix2 64) with (IZR (2 ^ 79) * bpow radix2 (-15))%R.
    - apply Rmult_le_compat_r; [apply bpow_ge_0|apply IZR_le; vm_compute; discriminate].
    - change (IZR (2 ^ 79)) with (bpow radix2 79). rewrite <- bpow_plus. reflexivity. }
  assert (G : forall x, 0 <= x < 32 -> in_reach (8950579 * bpow radix2 (-15)) (-2) 1 x).
  { intros x Hx. apply C15_ordinary_in_reach; try exact H; lia. }
  apply Forall_forall. intros x [<-|[<-|[<-|[]]]]; (split; [vm_compute; split; congruence|apply G; lia]).
Qed.

(** C15: packed integer 0 and D = 0 give the reference value bit for bit (minus zero
    becomes plus zero). *)
Theorem C15_zero_is_reference : forall m np npe refbits e (n : nat) xs,
  0 <= refbits < 2 ^ 32 -> refbits <> 2 ^ 31 -> - 2 ^ 15 < e <= 127 -> (1 <= n <= 32)%nat ->
  Forall (fun x => 0 <= x < 2 ^ Z.of_nat n) xs ->
  exists it vs padding,
    simple_decode m (sect5_simple np refbits e 0 (Z.of_nat n)) (pack n xs) npe = Ret (Ok it)
    /\ Run it (vs ++ padding) End /\ length vs = length xs /\ (length padding * n < 8)%nat
    /\ forall i, nth_error xs i = Some 0 -> nth_error vs i = Some (f32_of_bits refbits).
Proof. exact SimpleP.zero_is_reference_octets. Qed.
Print Assumptions C15_zero_is_reference.
Example C15_zero_is_reference_ex :
  f32_to_bits (simple_value (SimpleParam (f32_of_bits 0x43889333) (-2) 0 5) (f32_of_Z 0)) = 0x43889333.
Proof. vm_compute; reflexivity. Qed.

(** C15: the same formula for template 5.2 (complex packing); missing points are NaN.
    [point_value] contains both the exact formula and the accuracy bound. *)
Theorem C15_complex_values : forall m np refbits e d nbit mvm miss1 miss2 wref wnbit lnbit lref linc llast slens gs trailing,
  0 <= refbits < 2 ^ 32 -> ieee_finite refbits -> -127 <= e <= 127 -> -38 <= d <= 37 ->
  encodable mvm 0 nbit wref wnbit lnbit lref linc llast slens gs ->
  exists it vs,
    decode_7_2 m
      (sect5_complex np 2 refbits e d (Z.of_nat nbit) mvm miss1 miss2 (zlen gs) (Z.of_nat wref) (Z.of_nat wnbit)
         lref linc llast (Z.of_nat lnbit) [])
      (layout nbit wref wnbit lnbit slens gs ++ trailing) = Ret (Ok it)
    /\ Run it vs End
    /\ Forall2 (point_value refbits e d) (flat_map (group_points mvm (Z.of_nat nbit) 0) gs) vs.
Proof. exact AccuracyP.decode_7_2_values. Qed.
Print Assumptions C15_complex_values.
Example C15_complex_values_ex :
  point_value 0x43889333 (-2) 1 Missing1 f32_nan /\
  simple_value (SimpleParam (f32_of_bits 0x43889333) (-2) 1 5) (dv_to_f32 Missing1) = f32_nan.
Proof. split; [reflexivity|vm_compute; reflexivity]. Qed.

(** C15: and for template 5.3 with first-order differences. *)
Theorem C15_first_order_values : forall m np refbits e d nbit mvm miss1 miss2 wref wnbit lnbit lref linc llast slens gs trailing
    (k : nat) zmin fld dummy d0,
  0 <= refbits < 2 ^ 32 -> ieee_finite refbits -> -127 <= e <= 127 -> -38 <= d <= 37 -> (1 <= k <= 4)%nat ->
  Forall (fun v => Z.abs v < 2 ^ (8 * Z.of_nat k - 1)) [zmin; hd d0 (normals fld)] ->
  encodable mvm zmin nbit wref wnbit lnbit lref linc llast slens gs ->
  Forall is_i32 (normals fld) ->
  flat_map (group_points mvm (Z.of_nat nbit) zmin) gs = differences1 dummy None fld ->
  exists it vs,
    decode_7_3 m
      (sect5_complex np 3 refbits e d (Z.of_nat nbit) mvm miss1 miss2 (zlen gs) (Z.of_nat wref) (Z.of_nat wnbit)
         lref linc llast (Z.of_nat lnbit) (be_bytes 1 1 ++ be_bytes 1 (Z.of_nat k)))
      (sm_bytes k (hd d0 (normals fld)) ++ sm_bytes k zmin ++ layout nbit wref wnbit lnbit slens gs ++ trailing)
    = Ret (Ok it)
    /\ Run it vs End /\ Forall2 (point_value refbits e d) fld vs.
Proof. exact AccuracyP.decode_7_3_first_values. Qed.
Print Assumptions C15_first_order_values.

(** C15: and with second-order differences. *)
Theorem C15_second_order_values : forall m np refbits e d nbit mvm miss1 miss2 wref wnbit lnbit lref linc llast slens gs trailing
    (k : nat) zmin fld dummy1 dummy2 d0 d1,
  0 <= refbits < 2 ^ 32 -> ieee_finite refbits -> -127 <= e <= 127 -> -38 <= d <= 37 -> (1 <= k <= 4)%nat ->
  Forall (fun v => Z.abs v < 2 ^ (8 * Z.of_nat k - 1)) [zmin; nth 0 (normals fld) d0; nth 1 (normals fld) d1] ->
  encodable mvm zmin nbit wref wnbit lnbit lref linc llast slens gs ->
  Forall is_i32 (normals fld) -> (m = Checked -> sums_fit (normals fld)) ->
  flat_map (group_points mvm (Z.of_nat nbit) zmin) gs = differences2 dummy1 dummy2 None None fld ->
  exists it vs,
    decode_7_3 m
      (sect5_complex np 3 refbits e d (Z.of_nat nbit) mvm miss1 miss2 (zlen gs) (Z.of_nat wref) (Z.of_nat wnbit)
         lref linc llast (Z.of_nat lnbit) (be_bytes 1 2 ++ be_bytes 1 (Z.of_nat k)))
      (sm_bytes k (nth 0 (normals fld) d0) ++ sm_bytes k (nth 1 (normals fld) d1) ++ sm_bytes k zmin
       ++ layout nbit wref wnbit lnbit slens gs ++ trailing)
    = Ret (Ok it)
    /\ Run it vs End /\ Forall2 (point_value refbits e d) fld vs.
Proof. exact AccuracyP.decode_7_3_second_values. Qed.
Print Assumptions C15_second_order_values.

(** C15, binary scale factors outside -127..127: with E = 128 the packed
    integer 0 decodes to NaN instead of R; with E = -128 every packed integer decodes
    to R, although 2^-128 is a binary32 value (R = 0, x = 2^20 should give 2^-108). *)
Theorem C15_extreme_scale :
  (forall refbits d nbit, 0 <= refbits < 2 ^ 32 ->
     simple_value (SimpleParam (f32_of_bits refbits) 128 d nbit) (f32_of_Z 0) = f32_nan)
  /\ simple_value (SimpleParam (f32_of_bits 0) (-128) 0 21) (f32_of_Z (2 ^ 20)) = f32_of_bits 0
  /\ finite (f32_of_bits 0x09800000) /\ val (f32_of_bits 0x09800000) = bpow radix2 (-108).
Proof. exact SimpleP.extreme_scale. Qed.
Print Assumptions C15_extreme_scale.

(** C16: a larger packed integer never decodes to a smaller value, overflow to infinity
    included. *)
Theorem C16_simple_monotone : forall m np npe refbits e d (n : nat) xs,
  0 <= refbits < 2 ^ 32 -> ieee_finite refbits -> - 2 ^ 15 < e <= 127 -> -38 <= d <= 38 -> (1 <= n <= 32)%nat ->
  Forall (fun x => 0 <= x < 2 ^ Z.of_nat n) xs ->
  exists it vs padding,
    simple_decode m (sect5_simple np refbits e d (Z.of_nat n)) (pack n xs) npe = Ret (Ok it)
    /\ Run it (vs ++ padding) End /\ length vs = length xs /\ (length padding * n < 8)%nat
    /\ forall i j x y v w,
         nth_error xs i = Some x -> nth_error xs j = Some y ->
         nth_error vs i = Some v -> nth_error vs j = Some w ->
         x <= y -> fle v w.
Proof. exact SimpleP.simple_monotone. Qed.
Print Assumptions C16_simple_monotone.
Example C16_simple_monotone_ex :
  ieee_finite 0xff7fffff /\ Forall (fun x => 0 <= x < 2 ^ Z.of_nat 9) [0; 500; 3]
  /\ fle (simple_value (SimpleParam (f32_of_bits 0xff7fffff) 127 (-38) 9) (f32_of_Z 3))
         (simple_value (SimpleParam (f32_of_bits 0xff7fffff) 127 (-38) 9) (f32_of_Z 500)).
Proof.
  split; [vm_compute; discriminate|]. split; [repeat constructor; vm_compute; congruence|vm_compute; reflexivity].
Qed.

(** C17: bit width 0 is a constant field of exactly the declared number of points. *)
Theorem C17_constant_field : forall m np refbits e d sect7 npe,
  0 <= refbits < 2 ^ 32 -> Z.abs e < 2 ^ 15 -> Z.abs d < 2 ^ 15 -> 0 <= npe ->
  exists it v, simple_decode m (sect5_simple np refbits e d 0) sect7 npe = Ret (Ok it)
    /\ Run it (repeat v (Z.to_nat npe)) End
    /\ (ieee_finite refbits -> -10 <= d <= 10 ->
        (Rabs (rnd32 (ieee_value refbits * rnd32 (powerRZ 10 (- d)))) < limit32)%R ->
        finite v /\ val v = rnd32 (ieee_value refbits * rnd32 (powerRZ 10 (- d)))).
Proof. exact SimpleP.simple_constant. Qed.
Print Assumptions C17_constant_field.
Example C17_constant_field_ex :
  exists it, simple_decode Checked (sect5_simple 3 0x43889333 (-2) 0 0) [xff] 3 = Ret (Ok it)
    /\ collect 9 it = Ret (repeat (f32_of_bits 0x43889333) 3).
Proof. eexists. split; [vm_compute; reflexivity|vm_compute; reflexivity]. Qed.

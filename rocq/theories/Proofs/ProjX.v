(** Projected grids; the figure of the Earth; empty rows through the API. *)
From Coq Require Import Reals Lia Lra ZifyBool ZifyNat Floats.SpecFloat.
From Flocq Require Import Core.Core IEEE754.BinarySingleNaN.
From Verif Require Import Model.Base Model.Helpers Model.Errors Model.F32 Model.F64 Model.Grid Model.Gaussian Model.Proj.
From Verif Require Import Spec.ReaderS Spec.FloatS Spec.FieldsS Spec.GridS Spec.ProjS.
From Verif Require Import Proofs.FloatP64 Proofs.BaseLemmas Proofs.ReaderP Proofs.Progress Proofs.FieldsP Proofs.FieldsX Proofs.GridP Proofs.PointsP.
Ltac Zify.zify_post_hook ::= Z.div_mod_to_equations.

Local Existing Instance Hprec64.
Local Existing Instance Hmax64.
Lemma q_milli : exists mant e, q 1 1000 = S754_finite false mant e /\ valid64 (q 1 1000) /\ (/ 2000 <= val (q 1 1000) <= 1)%R.
Proof.
  assert (E : exists mant e, q 1 1000 = S754_finite false mant e /\ (/ 2000 <= F2R (Float radix2 (Zpos mant) e) <= 1)%R).
  { eexists _, _. split; [vm_compute; reflexivity|]. unfold F2R. cbn. split; lra. }
  destruct E as (mm & ee & E & R). exists mm, ee. split; [exact E|]. split; [vm_compute; reflexivity|]. rewrite E. exact R.
Qed.

Lemma milli_pos : forall x, 0 < x < 2 ^ 32 -> f64_ltb (f64_of_Z 0) (milli x) = true.
Proof.
  intros x Hx. destruct q_milli as (mq & eq & Eq & Vq & Rq). unfold milli.
  destruct (exact_int64 x ltac:(lia)) as (Fx & Vx).
  assert (B : (1 <= IZR x <= 4294967296)%R) by (split; apply IZR_le; lia).
  assert (P : (/ 2000 <= IZR x * val (q 1 1000) <= 4294967296)%R) by (split; nra).
  assert (L1 : (rnd64 (/ 2048) <= rnd64 (IZR x * val (q 1 1000)))%R) by (apply round_le; [typeclasses eauto..|]; lra).
  assert (L2 : (rnd64 (IZR x * val (q 1 1000)) <= rnd64 4294967296)%R) by (apply round_le; [typeclasses eauto..|]; lra).
  rewrite rnd64_int in L2 by lia.
  assert (L3 : rnd64 (/ 2048) = (/ 2048)%R).
  { replace (/ 2048)%R with (bpow radix2 (-11)) by (cbn; lra). apply round_generic; [typeclasses eauto|]. apply generic_format_bpow. cbn. lia. }
  rewrite L3 in L1.
  destruct (mul_ok64 (f64_of_Z x) (q 1 1000)) as (F & V).
  - apply valid_of_Z64.
  - exact Vq.
  - exact Fx.
  - rewrite Eq. reflexivity.
  - rewrite Vx. apply Rabs_lt. unfold limit64. assert (4294967296 < bpow radix2 1024)%R. { change 4294967296%R with (bpow radix2 32). apply bpow_lt. lia. } lra.
  - rewrite Vx in V. set (r := rnd64 (IZR x * val (q 1 1000))) in *. clearbody r. revert F V. generalize (f64_mul (f64_of_Z x) (q 1 1000)). intros s F V.
    change (f64_of_Z 0) with (S754_zero false). destruct s as [b|b| |b mm ee]; try discriminate F.
    + cbn in V. lra.
    + destruct b; [|reflexivity]. exfalso. change (val (S754_finite true mm ee)) with (F2R (Float radix2 (Z.neg mm) ee)) in V.
      assert (N : (F2R (Float radix2 (Z.neg mm) ee) < 0)%R) by (apply F2R_lt_0; reflexivity). lra.
Qed.

Lemma step_spec : forall forward x, 0 <= x < 2 ^ 32 -> signed_step forward x = grid_step forward x.
Proof.
  intros f x Hx. unfold signed_step, grid_step. destruct f; cbn [negb andb]; [reflexivity|].
  destruct (x =? 0) eqn:E.
  - replace x with 0 by lia. reflexivity.
  - rewrite milli_pos by lia. reflexivity.
Qed.

Lemma Run_collect_more : forall A (it : iter A) l, Run it l End -> forall fuel, (length l < fuel)%nat -> collect fuel it = Ret l.
Proof.
  intros A it l H. remember End as e eqn:Ee.
  induction H as [it it' Hn|it Hn|it it' a l e Hn HR IH]; try discriminate; intros [|fuel] Hf; try (cbn in Hf; lia); cbn [collect]; rewrite Hn; cbn [bind]; [reflexivity|].
  rewrite (IH Ee) by (cbn in Hf; lia). reflexivity.
Qed.
Lemma all_ij_ok : forall m fuel ni nj mode, 0 <= ni < 2 ^ 32 -> 0 <= nj < 2 ^ 32 -> 0 < row_len ni nj mode -> ni * nj < Z.of_nat fuel ->
  all_ij m fuel (gpi_new ni nj mode) = Ret (map (fun k => scan_ij ni nj mode (Z.of_nat k)) (seq 0 (Z.to_nat (ni * nj)))).
Proof.
  intros m fuel ni nj mode Hi Hj Hw Hf. unfold all_ij. apply Run_collect_more.
  - apply gpi_run; assumption.
  - rewrite map_length, seq_length. lia.
Qed.

(** The points of a projected grid. *)
Lemma project_points : forall pl def lat lon dx dy ni nj mode x0 y0 (ll : Z -> f64 * f64),
  0 <= ni -> 0 <= nj -> pointwise pl def ->
  project pl def (f64_to_radians lon, f64_to_radians lat) false = Some (x0, y0) ->
  (forall k, 0 <= k < ni * nj -> project pl def (plane x0 y0 dx dy (scan_ij ni nj mode k)) true = Some (ll k)) ->
  exists r, latlons_from_projection pl def lat lon dx dy (map (fun k => scan_ij ni nj mode (Z.of_nat k)) (seq 0 (Z.to_nat (ni * nj)))) = Ok r /\
    zlen r = ni * nj /\ forall k, 0 <= k < ni * nj -> nth_error r (Z.to_nat k) = Some (in_degrees (ll k)).
Proof.
  intros pl def lat lon dx dy ni nj mode x0 y0 ll Hi Hj Hp H0 Hk. unfold latlons_from_projection. rewrite H0.
  rewrite map_map.
  rewrite (map_ext _ (fun k => plane x0 y0 dx dy (scan_ij ni nj mode (Z.of_nat k)))) by (intro a; destruct (scan_ij ni nj mode (Z.of_nat a)); reflexivity).
  rewrite (Hp _ (map (fun k => ll (Z.of_nat k)) (seq 0 (Z.to_nat (ni * nj))))).
  - eexists. split; [reflexivity|]. split; [unfold zlen; rewrite !map_length, seq_length; nia|].
    intros k Hr. rewrite map_map, nth_error_map. rewrite (nth_error_nth' _ O) by (rewrite seq_length; lia). rewrite seq_nth by lia. cbn [option_map Nat.add]. rewrite Z2Nat.id by lia.
    unfold in_degrees. destruct (ll k); reflexivity.
  - intro k. rewrite map_map, !nth_error_map. destruct (nth_error (seq 0 (Z.to_nat (ni * nj))) k) as [x|] eqn:E; [|reflexivity].
    cbn [option_map]. f_equal. apply nth_error_In in E. apply in_seq in E. apply Hk. lia.
Qed.

Lemma lambert_points : forall m lm pl fuel d a b x0 y0 (ll : Z -> f64 * f64),
  0 <= la_ni d < 2 ^ 32 -> 0 <= la_nj d < 2 ^ 32 -> 0 < row_len (la_ni d) (la_nj d) (la_mode d) -> la_ni d * la_nj d < Z.of_nat fuel ->
  0 <= la_dx d < 2 ^ 32 -> 0 <= la_dy d < 2 ^ 32 ->
  radii lm (la_earth d) = Some (a, b) -> ~ low_flag (la_mode d) ->
  let def := Lcc a b (micro (la_lad d)) (micro (la_lov d)) (micro (la_latin1 d)) (micro (la_latin2 d)) in
  pointwise pl def ->
  project pl def (f64_to_radians (micro (la_lon1 d)), f64_to_radians (micro (la_lat1 d))) false = Some (x0, y0) ->
  (forall k, 0 <= k < la_ni d * la_nj d ->
    project pl def (plane x0 y0 (grid_step (negb (flag 1 (la_mode d))) (la_dx d)) (grid_step (flag 2 (la_mode d)) (la_dy d))
      (scan_ij (la_ni d) (la_nj d) (la_mode d) k)) true = Some (ll k)) ->
  exists r, lambert_latlons m lm pl fuel d = Ret (Ok r) /\ zlen r = la_ni d * la_nj d /\
    forall k, 0 <= k < la_ni d * la_nj d -> nth_error r (Z.to_nat k) = Some (in_degrees (ll k)).
Proof.
  intros m lm pl fuel d a b x0 y0 ll Hi Hj Hw Hfu Hx Hy Hr Hf def Hp H0 Hk. unfold lambert_latlons. rewrite Hr. fold def.
  rewrite supported_flag by assumption. rewrite all_ij_ok by assumption. cbn [bind]. rewrite flag1, flag2, !step_spec by assumption.
  destruct (project_points pl def _ _ _ _ (la_ni d) (la_nj d) (la_mode d) x0 y0 ll (proj1 Hi) (proj1 Hj) Hp H0 Hk) as (r & -> & L & N).
  exists r. auto.
Qed.

Lemma polar_points : forall m lm pl fuel d a b x0 y0 (ll : Z -> f64 * f64),
  0 <= po_ni d < 2 ^ 32 -> 0 <= po_nj d < 2 ^ 32 -> 0 < row_len (po_ni d) (po_nj d) (po_mode d) -> po_ni d * po_nj d < Z.of_nat fuel ->
  0 <= po_dx d < 2 ^ 32 -> 0 <= po_dy d < 2 ^ 32 ->
  radii lm (po_earth d) = Some (a, b) -> ~ low_flag (po_mode d) -> po_centre d = 0 \/ po_centre d = 128 ->
  let def := Stere a b (micro (po_lad d)) (f64_of_Z (if po_centre d =? 0 then 90 else -90)) (micro (po_lov d)) in
  pointwise pl def ->
  project pl def (f64_to_radians (micro (po_lon1 d)), f64_to_radians (micro (po_lat1 d))) false = Some (x0, y0) ->
  (forall k, 0 <= k < po_ni d * po_nj d ->
    project pl def (plane x0 y0 (grid_step (negb (flag 1 (po_mode d))) (po_dx d)) (grid_step (flag 2 (po_mode d)) (po_dy d))
      (scan_ij (po_ni d) (po_nj d) (po_mode d) k)) true = Some (ll k)) ->
  exists r, polar_latlons m lm pl fuel d = Ret (Ok r) /\ zlen r = po_ni d * po_nj d /\
    forall k, 0 <= k < po_ni d * po_nj d -> nth_error r (Z.to_nat k) = Some (in_degrees (ll k)).
Proof.
  intros m lm pl fuel d a b x0 y0 ll Hi Hj Hw Hfu Hx Hy Hr Hf Hc def Hp H0 Hk. unfold polar_latlons. rewrite Hr.
  replace (centre_has_unsupported_flags (po_centre d)) with false by (destruct Hc as [-> | ->]; reflexivity).
  replace (if contains_north_pole (po_centre d) then f64_of_Z 90 else f64_of_Z (-90)) with (f64_of_Z (if po_centre d =? 0 then 90 else -90))
    by (destruct Hc as [-> | ->]; reflexivity). fold def.
  rewrite supported_flag by assumption. rewrite all_ij_ok by assumption. cbn [bind]. rewrite flag1, flag2, !step_spec by assumption.
  destruct (project_points pl def _ _ _ _ (po_ni d) (po_nj d) (po_mode d) x0 y0 ll (proj1 Hi) (proj1 Hj) Hp H0 Hk) as (r & -> & L & N).
  exists r. auto.
Qed.

(** Refusals. *)
Lemma centre_flags : forall c, 0 <= c < 256 -> centre_has_unsupported_flags c = negb ((c =? 0) || (c =? 64) || (c =? 128) || (c =? 192)).
Proof.
  intros c Hc. assert (C : forallb (fun n => eqb (centre_has_unsupported_flags (Z.of_nat n)) (negb ((Z.of_nat n =? 0) || (Z.of_nat n =? 64) || (Z.of_nat n =? 128) || (Z.of_nat n =? 192)))) (seq 0 256) = true) by (vm_compute; reflexivity).
  rewrite forallb_forall in C. specialize (C (Z.to_nat c)). rewrite in_seq in C. specialize (C ltac:(lia)). rewrite Z2Nat.id in C by lia. apply eqb_prop in C. exact C.
Qed.
Lemma projected_refused : forall m lm pl fuel,
  (forall d, 9 <= shape (la_earth d) -> lambert_latlons m lm pl fuel d = Ret (Err NotSupported)) /\
  (forall d, 9 <= shape (po_earth d) -> polar_latlons m lm pl fuel d = Ret (Err NotSupported)) /\
  (forall d, 0 <= po_centre d < 256 -> po_centre d mod 64 <> 0 -> polar_latlons m lm pl fuel d = Ret (Err NotSupported)) /\
  (forall d, low_flag (la_mode d) -> lambert_latlons m lm pl fuel d = Ret (Err NotSupported)) /\
  (forall d, low_flag (po_mode d) -> polar_latlons m lm pl fuel d = Ret (Err NotSupported)).
Proof.
  intros m lm pl fuel.
  assert (N : forall e, 9 <= shape e -> radii lm e = None).
  { intros e He. unfold radii. destruct (shape e) as [|p|p]; try lia. do 4 (try (destruct p as [p|p|]; try reflexivity)); lia. }
  unfold lambert_latlons, polar_latlons. split; [|split; [|split; [|split]]]; intros d H.
  - rewrite N by assumption. reflexivity.
  - rewrite N by assumption. reflexivity.
  - intro H2. destruct (radii lm (po_earth d)) as [(a, b)|]; [|reflexivity]. rewrite centre_flags by assumption.
    replace (negb _) with true by lia. reflexivity.
  - destruct (radii lm (la_earth d)) as [(a, b)|]; [|reflexivity]. apply (unsupported_flag (la_ni d) (la_nj d)) in H. rewrite H. reflexivity.
  - destruct (radii lm (po_earth d)) as [(a, b)|]; [|reflexivity]. destruct (centre_has_unsupported_flags (po_centre d)); [reflexivity|].
    apply (unsupported_flag (po_ni d) (po_nj d)) in H. rewrite H. reflexivity.
Qed.

(** ** The Earth *)
Lemma earth_shapes : forall lm e a b, wmo_earth (shape e) = Some (a, b) ->
  exists x y, radii lm e = Some (x, y) /\ finite x /\ finite y /\ val x = a /\ (Rabs (val y - b) <= 1 / 1000000000)%R.
Proof.
  intros lm e a b H. unfold wmo_earth in H. unfold radii.
  assert (I : forall n, (0 <= n <= 10000000)%Z -> finite (f64_of_Z n) /\ val (f64_of_Z n) = IZR n) by (intros n Hn; apply exact_int64; lia).
  assert (Z0 : forall r : R, (Rabs (r - r) <= 1 / 1000000000)%R) by (intro r; rewrite Rminus_diag_eq, Rabs_R0 by reflexivity; lra).
  assert (Q : forall n d mm ee, q n d = S754_finite false mm ee -> forall r, (Rabs (F2R (Float radix2 (Zpos mm) ee) - r) <= 1 / 1000000000)%R -> finite (q n d) /\ (Rabs (val (q n d) - r) <= 1 / 1000000000)%R).
  { intros n d mm ee E r Hr. rewrite E. split; [reflexivity|exact Hr]. }
  destruct (shape e) as [|p|p]; try discriminate H.
  - injection H as <- <-. destruct (I 6367470 ltac:(lia)) as (F & V). eexists _, _. split; [reflexivity|]. rewrite V. auto.
  - do 4 (try (destruct p as [p|p|]; try discriminate H)).
    + injection H as <- <-. destruct (I 6378137 ltac:(lia)) as (F & V). eexists _, _. split; [reflexivity|]. rewrite V.
      assert (E : exists mm ee, q 63567523142 10000 = S754_finite false mm ee /\ (Rabs (F2R (Float radix2 (Zpos mm) ee) - 63567523142 / 10000) <= 1 / 1000000000)%R).
      { eexists _, _. split; [vm_compute; reflexivity|]. unfold F2R. cbn. apply Rabs_le. split; lra. }
      destruct E as (mm & ee & E1 & E2). destruct (Q _ _ _ _ E1 _ E2). auto.
    + injection H as <- <-. destruct (I 6371229 ltac:(lia)) as (F & V). eexists _, _. split; [reflexivity|]. rewrite V. auto.
    + injection H as <- <-. destruct (I 6371200 ltac:(lia)) as (F & V). eexists _, _. split; [reflexivity|]. rewrite V. auto.
    + injection H as <- <-. destruct (I 6378137 ltac:(lia)) as (F & V). eexists _, _. split; [reflexivity|]. rewrite V.
      assert (E : exists mm ee, q 6356752314 1000 = S754_finite false mm ee /\ (Rabs (F2R (Float radix2 (Zpos mm) ee) - 6356752314 / 1000) <= 1 / 1000000000)%R).
      { eexists _, _. split; [vm_compute; reflexivity|]. unfold F2R. cbn. apply Rabs_le. split; lra. }
      destruct E as (mm & ee & E1 & E2). destruct (Q _ _ _ _ E1 _ E2). auto.
    + injection H as <- <-. destruct (I 6378160 ltac:(lia)) as (F & V). destruct (I 6356775 ltac:(lia)) as (F' & V'). eexists _, _. split; [reflexivity|]. rewrite V, V'. auto.
Qed.

Lemma mul_one : forall v, 0 <= v < 2 ^ 32 -> finite (f64_mul (f64_of_Z v) (f64_of_Z 1)) /\ val (f64_mul (f64_of_Z v) (f64_of_Z 1)) = IZR v.
Proof.
  intros v Hv. destruct (exact_int64 v ltac:(lia)) as (F & V). destruct (exact_int64 1 ltac:(lia)) as (F1 & V1).
  assert (E : rnd64 (val (f64_of_Z v) * val (f64_of_Z 1)) = IZR v) by (rewrite V, V1, Rmult_1_r; apply rnd64_int; lia).
  rewrite <- E. apply mul_ok64; auto using valid_of_Z64. rewrite E, <- abs_IZR. unfold limit64.
  apply Rlt_trans with (bpow radix2 32); [change (bpow radix2 32) with (IZR (2 ^ 32)); apply IZR_lt; lia|apply bpow_lt; lia].
Qed.

Lemma earth_unscaled : forall lm e, powf lm (f64_of_Z 10) (f64_of_Z 0) = f64_of_Z 1 -> shape e = 1 -> radius_scale e = 0 -> 0 <= radius_value e < 2 ^ 32 ->
  exists x, radii lm e = Some (x, x) /\ finite x /\ val x = scaled_value (radius_value e) (radius_scale e).
Proof.
  intros lm e Hp Hs H0 Hv. unfold radii. rewrite Hs. eexists. split; [reflexivity|]. unfold scaled. rewrite H0, Hp.
  destruct (mul_one _ Hv) as (F & V). split; [exact F|]. rewrite V. unfold scaled_value. cbn. field.
Qed.
Lemma earth_axes_unscaled : forall lm e, powf lm (f64_of_Z 10) (f64_of_Z 0) = f64_of_Z 1 -> shape e = 7 -> major_scale e = 0 -> minor_scale e = 0 ->
  0 <= major_value e < 2 ^ 32 -> 0 <= minor_value e < 2 ^ 32 ->
  exists x y, radii lm e = Some (x, y) /\ finite x /\ finite y /\ val x = scaled_value (major_value e) 0 /\ val y = scaled_value (minor_value e) 0.
Proof.
  intros lm e Hp Hs H0 H1 Hv Hw. unfold radii. rewrite Hs. eexists _, _. split; [reflexivity|]. unfold scaled. rewrite H0, H1, Hp. cbn [fst snd].
  destruct (mul_one _ Hv) as (F & V). destruct (mul_one _ Hw) as (F' & V'). rewrite V, V'. unfold scaled_value. cbn. repeat split; auto; field.
Qed.

(** A radius given in decimetres is taken for one hundred times its length. *)
Lemma earth_scaled : forall lm, powf lm (f64_of_Z 10) (f64_of_Z 1) = f64_of_Z 10 ->
  exists x, radii lm (MkEarth 1 1 63712290 0 0 0 0) = Some (x, x) /\ scaled_value 63712290 1 = 6371229%R /\ val x = (6371229 * 100)%R.
Proof.
  intros lm H. eexists. split; [reflexivity|]. split; [unfold scaled_value; change (powerRZ 10 1) with (10 * 1)%R; rewrite Rmult_1_r; lra|].
  unfold scaled. cbn [radius_value radius_scale]. rewrite H.
  assert (E : exists mm ee, f64_mul (f64_of_Z 63712290) (f64_of_Z 10) = S754_finite false mm ee /\ F2R (Float radix2 (Zpos mm) ee) = (6371229 * 100)%R).
  { eexists _, _. split; [vm_compute; reflexivity|]. unfold F2R. cbn. lra. }
  destruct E as (mm & ee & -> & E). exact E.
Qed.

(** ** C33 through the API *)
Lemma empty_rows : forall m p g, reaches p 10 -> grid_of_payload m p = Ret (Ok g) -> ~ low_flag (grid_mode g) ->
  row_len (fst (grid_shape g)) (snd (grid_shape g)) (grid_mode g) = 0 -> 0 < rows (fst (grid_shape g)) (snd (grid_shape g)) (grid_mode g) -> field p 7 10 = 0 ->
  exists it, sub_ij m p = Ret (Ok it) /\ gpi_size m it = Ret 0 /\
    forall n, Z.of_nat n < 2 ^ 64 -> exists it', SSteps (gpi_next m) it (map (fun k => bogus (grid_mode g) (Z.of_nat k)) (seq 0 n)) it'.
Proof.
  intros m p g Hp Hg Hf H0 H1 Hn. pose proof (sub_ij_spec m p g Hp Hg) as S. pose proof (grid_dims _ _ _ Hg) as D.
  destruct (grid_shape g) as (ni, nj). cbn [fst snd] in *. destruct S as (_ & _ & S).
  assert (P0 : ni * nj = 0) by (unfold row_len in H0; destruct (flag 3 (grid_mode g)); nia).
  eexists. split; [apply S; [assumption|lia]|]. split; [rewrite new_size by lia; f_equal; exact P0|].
  intros n H. apply endless; assumption.
Qed.

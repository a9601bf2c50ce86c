(** Coordinates of latitude/longitude grids. *)
From Coq Require Import Reals Lia Lra ZifyBool ZifyNat Floats.SpecFloat.
From Flocq Require Import Core.Core IEEE754.BinarySingleNaN.
From Verif Require Import Model.Base Model.Errors Model.F32 Model.Grid Spec.FloatS Spec.GridS Spec.CoordsS.
From Verif Require Import Proofs.FloatP Proofs.SpacingP Proofs.BaseLemmas Proofs.ReaderP Proofs.Progress Proofs.GridP Proofs.PointsP.
Ltac Zify.zify_post_hook ::= Z.div_mod_to_equations.
Local Existing Instance Hprec.
Local Existing Instance Hmax.

Lemma degrees_length : forall s e n, (0 <= n)%Z -> zlen (evenly_spaced_degrees s e n) = (n + 1)%Z.
Proof. intros. unfold evenly_spaced_degrees, zlen. rewrite map_length, seq_length. lia. Qed.
Lemma degrees_nth : forall s e n k, (0 <= k <= n)%Z ->
  nth (Z.to_nat k) (evenly_spaced_degrees s e n) f32_nan =
  f32_div (f32_add s (f32_mul (f32_of_Z k) (f32_div (f32_sub e s) (f32_of_Z n)))) (f32_of_Z 1000000).
Proof.
  intros s e n k H. unfold evenly_spaced_degrees.
  set (f := fun x : nat => f32_div (f32_add s (f32_mul (f32_of_Z (Z.of_nat x)) (f32_div (f32_sub e s) (f32_of_Z n)))) (f32_of_Z 1000000)).
  rewrite (nth_indep _ f32_nan (f O)) by (rewrite map_length, seq_length; lia).
  rewrite map_nth, seq_nth by lia. unfold f. cbn [Nat.add]. rewrite Z2Nat.id by lia. reflexivity.
Qed.

Local Open Scope R_scope.

Lemma abs_Z n a : (Z.abs n <= a)%Z -> Rabs (IZR n) <= IZR a.
Proof. intro H. rewrite <- abs_IZR. apply IZR_le, H. Qed.
Lemma near_Z n a : (Z.abs n <= a)%Z -> (1 <= a <= 1000000000)%Z -> near (f32_of_Z n) (IZR n) (3 / 2 * u * IZR a).
Proof.
  intros H Ha. assert (1 <= IZR a <= 1000000000) by (split; apply IZR_le; lia).
  destruct (near_of_Z n (IZR a)) as (V & F & E); [apply abs_Z, H|assert (1000000000000 <= big) by (apply IZR_le; vm_compute; discriminate); lra|].
  split; [exact V|]. split; [exact F|]. rewrite u_val, w_val in *. lra.
Qed.

(** The plain case. *)
Lemma plain_even : forall a b n k A, (Z.abs a <= A)%Z -> (Z.abs b <= A)%Z -> (1 <= A <= 1000000000)%Z -> (1 <= n < 2 ^ 32)%Z -> (0 <= k <= n)%Z ->
  near (f32_div (f32_add (f32_of_Z a) (f32_mul (f32_of_Z k) (f32_div (f32_sub (f32_of_Z b) (f32_of_Z a)) (f32_of_Z n)))) (f32_of_Z 1000000))
    (even a b n k) (18 * u * (IZR A / 1000000)).
Proof.
  intros a b n k A Ha Hb HA Hn Hk.
  assert (1 <= IZR A <= 1000000000) by (split; apply IZR_le; lia).
  destruct (spaced_one (f32_of_Z a) (f32_of_Z b) (IZR a) (IZR b) (IZR A) (3 / 2) n k) as (V & F & E);
    try assumption; try (apply near_Z; assumption); try (apply abs_Z; assumption); try lra.
  split; [exact V|]. split; [exact F|]. unfold even. rewrite u_val in *. lra.
Qed.

Lemma ltb_val x y : valid x -> valid y -> finite x -> finite y -> f32_ltb x y = Rlt_bool (val x) (val y).
Proof.
  intros Hx Hy. destruct (valid_ex x Hx) as [bx ->], (valid_ex y Hy) as [b_y ->]. rewrite !finite_B, !val_B. intros Fx Fy.
  unfold f32_ltb. change (SFltb (B2SF bx) (B2SF b_y)) with (Bltb bx b_y). apply Bltb_correct; assumption.
Qed.
Lemma val_360 : val (f32_of_Z 360) = 360 /\ val (f32_of_Z 360000000) = 360000000.
Proof. split; vm_compute; lra. Qed.

(** 360 degrees more. *)
Lemma near_360 n : (Z.abs n <= 360000000)%Z -> near (f32_add (f32_of_Z n) (f32_of_Z 360000000)) (IZR (n + 360000000)) (2 * u * 720000000).
Proof.
  intro H. destruct (near_Z n 360000000 H ltac:(lia)) as (V & F & E). pose proof (abs_Z _ _ H) as HR.
  assert (Hv : Rabs (val (f32_of_Z n)) <= 360000100).
  { replace (val (f32_of_Z n)) with ((val (f32_of_Z n) - IZR n) + IZR n) by ring. eapply Rle_trans; [apply tri; [exact E|exact HR]|]. rewrite u_val. lra. }
  assert (Hs : Rabs (val (f32_of_Z n) + 360000000) <= 720000100) by (apply rle_abs; apply rle_abs in Hv; lra).
  destruct (near_add (f32_of_Z n) (f32_of_Z 360000000) (val (f32_of_Z n) + 360000000)) as (V2 & F2 & E2); try assumption; try reflexivity.
  { rewrite (proj2 val_360). reflexivity. }
  { assert (1000000000000 <= big) by (apply IZR_le; vm_compute; discriminate). lra. }
  split; [exact V2|]. split; [exact F2|]. rewrite plus_IZR.
  replace (val (f32_add (f32_of_Z n) (f32_of_Z 360000000)) - (IZR n + 360000000)) with
    ((val (f32_add (f32_of_Z n) (f32_of_Z 360000000)) - (val (f32_of_Z n) + 360000000)) + (val (f32_of_Z n) - IZR n)) by ring.
  eapply Rle_trans; [apply tri; [exact E2|exact E]|].
  (* the sharper bound for the conversion *)
  clear E E2. rewrite u_val, w_val in *. lra.
Qed.

Lemma half_near n : (Z.abs n <= 360000000)%Z -> near (f32_of_Z n) (IZR n) (2 * u * 720000000).
Proof.
  intro H. destruct (near_Z n 360000000 H ltac:(lia)) as (V & F & E). split; [exact V|]. split; [exact F|]. rewrite u_val in *. lra.
Qed.

Lemma wrapped_even : forall s e a b n k, near s (IZR a) (2 * u * 720000000) -> near e (IZR b) (2 * u * 720000000) ->
  (Z.abs a <= 720000000)%Z -> (Z.abs b <= 720000000)%Z -> (1 <= n < 2 ^ 32)%Z -> (0 <= k <= n)%Z ->
  near (f32_div (f32_add s (f32_mul (f32_of_Z k) (f32_div (f32_sub e s) (f32_of_Z n)))) (f32_of_Z 1000000))
    (even a b n k) (19 * u * 720).
Proof.
  intros s e a b n k Hs He Ha Hb Hn Hk.
  destruct (spaced_one s e (IZR a) (IZR b) 720000000 2 n k) as (V & F & E);
    try assumption; try (apply abs_Z; assumption); try lra.
  split; [exact V|]. split; [exact F|]. unfold even. rewrite u_val in *. lra.
Qed.
Lemma even_range a b n k A : (Z.abs a <= A)%Z -> (Z.abs b <= A)%Z -> (1 <= n)%Z -> (0 <= k <= n)%Z -> Rabs (even a b n k) <= IZR A / 1000000.
Proof.
  intros Ha Hb Hn Hk. apply abs_Z in Ha, Hb. unfold even, Rdiv. rewrite Rabs_mult, (Rabs_pos_eq (/ 1000000)) by lra.
  apply Rmult_le_compat_r; [lra|].
  assert (1 <= IZR n) by (apply IZR_le; lia). assert (0 <= IZR k <= IZR n) by (split; apply IZR_le; lia).
  assert (Hq : 0 <= IZR k * / IZR n <= 1).
  { split; [apply Rmult_le_pos; [lra|left; apply Rinv_0_lt_compat; lra]|]. apply (Rmult_le_reg_r (IZR n)); [lra|]. rewrite Rmult_assoc, Rinv_l by lra. lra. }
  set (q := IZR k * / IZR n) in *. apply rle_abs in Ha, Hb. apply rle_abs. replace (IZR a + q * (IZR b - IZR a)) with ((1 - q) * IZR a + q * IZR b) by ring. nra.
Qed.

Definition unwrap (x : f32) : f32 := if f32_ltb x (f32_of_Z 360) then x else f32_sub x (f32_of_Z 360).
Lemma unwrap_ok : forall x r, near x r (19 * u * 720) -> Rabs r <= 720 ->
  (close (unwrap x) r (1 / 1000) /\ val (unwrap x) < 360) \/ (close (unwrap x) (r - 360) (1 / 1000) /\ 0 <= val (unwrap x)).
Proof.
  intros x r (V & F & E) Hr. pose proof (proj1 val_360) as V360. unfold unwrap. rewrite ltb_val; try assumption; try reflexivity.
  rewrite V360. pose proof u_val as Hu. pose proof w_val as Hw.
  destruct (Rlt_bool_spec (val x) 360) as [L|L].
  - left. split; [|exact L]. split; [exact F|]. rewrite Hu in E. lra.
  - right. assert (Hx : Rabs (val x) <= 721). { replace (val x) with ((val x - r) + r) by ring. eapply Rle_trans; [apply tri; [exact E|exact Hr]|]. rewrite Hu. lra. }
    assert (Hy : Rabs (val x - 360) <= 361) by (apply rle_abs; apply rle_abs in Hx; lra).
    destruct (near_sub x (f32_of_Z 360) (val x - 360)) as ((V2 & F2 & E2) & E3); try assumption; try reflexivity.
    { rewrite V360. reflexivity. }
    { assert (1000000000000 <= big) by (apply IZR_le; vm_compute; discriminate). lra. }
    split; [split; [exact F2|]|rewrite E3; apply rnd32_pos; lra].
    replace (val (f32_sub x (f32_of_Z 360)) - (r - 360)) with ((val (f32_sub x (f32_of_Z 360)) - (val x - 360)) + (val x - r)) by ring.
    eapply Rle_trans; [apply tri; [exact E2|exact E]|]. rewrite Hu, Hw. lra.
Qed.

Local Close Scope R_scope.
Local Open Scope Z_scope.

Lemma longitudes : forall m a b n mode, Z.abs a <= 360000000 -> Z.abs b <= 360000000 -> 1 <= n < 2 ^ 32 ->
  exists l, evenly_spaced_longitudes m a b n mode = Ret l /\ zlen l = n + 1 /\
  forall k, 0 <= k <= n -> lon_ok a b n mode k (nth (Z.to_nat k) l f32_nan).
Proof.
  intros m a b n mode Ha Hb Hn. unfold evenly_spaced_longitudes.
  rewrite arith_ok by mlia. cbn [bind]. rewrite flag1.
  assert (EC : negb (xorb (0 <? b - a) (negb (flag 1 mode))) = negb (crosses a b mode)).
  { unfold crosses. replace (0 <? b - a) with (a <? b) by lia. destruct (a <? b), (flag 1 mode); reflexivity. }
  rewrite EC. unfold lon_ok, unwrapped. destruct (crosses a b mode) eqn:C; cbn [negb].
  - destruct (b <? a) eqn:L.
    + eexists. split; [reflexivity|]. split; [unfold zlen; rewrite map_length; apply degrees_length; lia|].
      intros k Hk. cbn [fst snd].
      assert (D : 0 <= k < zlen (evenly_spaced_degrees (f32_of_Z a) (f32_add (f32_of_Z b) (f32_of_Z 360000000)) n)) by (rewrite degrees_length; lia).
      change (fun x => if f32_ltb x (f32_of_Z 360) then x else f32_sub x (f32_of_Z 360)) with unwrap.
      rewrite (nth_indep _ f32_nan (unwrap f32_nan)) by (rewrite map_length; unfold zlen in D; lia). rewrite map_nth, degrees_nth by lia.
      apply unwrap_ok; [apply wrapped_even; try lia; [apply half_near; lia|apply near_360; lia]|].
      eapply Rle_trans; [apply (even_range _ _ _ _ 720000000); lia|lra].
    + eexists. split; [reflexivity|]. split; [unfold zlen; rewrite map_length; apply degrees_length; lia|].
      intros k Hk. cbn [fst snd].
      assert (D : 0 <= k < zlen (evenly_spaced_degrees (f32_add (f32_of_Z a) (f32_of_Z 360000000)) (f32_of_Z b) n)) by (rewrite degrees_length; lia).
      change (fun x => if f32_ltb x (f32_of_Z 360) then x else f32_sub x (f32_of_Z 360)) with unwrap.
      rewrite (nth_indep _ f32_nan (unwrap f32_nan)) by (rewrite map_length; unfold zlen in D; lia). rewrite map_nth, degrees_nth by lia.
      apply unwrap_ok; [apply wrapped_even; try lia; [apply near_360; lia|apply half_near; lia]|].
      eapply Rle_trans; [apply (even_range _ _ _ _ 720000000); lia|lra].
  - eexists. split; [reflexivity|]. split; [apply degrees_length; lia|].
    intros k Hk. cbn [fst snd]. rewrite degrees_nth by lia.
    destruct (plain_even a b n k 360000000) as (_ & F & E); try lia. split; [exact F|]. rewrite u_val in E. lra.
Qed.

Lemma consistent_j : forall m a b mode, Z.abs a <= 360000000 -> Z.abs b <= 360000000 ->
  is_consistent_for_j m a b mode = Ret (eqb (a <? b) (flag 2 mode)).
Proof.
  intros m a b mode Ha Hb. unfold is_consistent_for_j. rewrite arith_ok by mlia. cbn [bind]. rewrite flag2.
  replace (0 <? b - a) with (a <? b) by lia. destruct (a <? b), (flag 2 mode); reflexivity.
Qed.

(** C35 *)
Lemma latlon_points : forall m d, 2 <= ll_ni d < 2 ^ 32 -> 2 <= ll_nj d < 2 ^ 32 ->
  Z.abs (ll_lat1 d) <= 90000000 -> Z.abs (ll_lat2 d) <= 90000000 -> Z.abs (ll_lon1 d) <= 360000000 -> Z.abs (ll_lon2 d) <= 360000000 ->
  ~ low_flag (ll_mode d) ->
  if eqb (ll_lat1 d <? ll_lat2 d) (flag 2 (ll_mode d)) then
    exists r l, latlon_latlons m d = Ret (Ok r) /\ Run (regular_iter m r) l End /\ zlen l = ll_ni d * ll_nj d /\
    forall k, 0 <= k < ll_ni d * ll_nj d -> exists lat lon,
      nth_error l (Z.to_nat k) = Some (lat, lon) /\
      let '(i, j) := scan_ij (ll_ni d) (ll_nj d) (ll_mode d) k in
      close lat (even (ll_lat1 d) (ll_lat2 d) (ll_nj d - 1) j) (1 / 10000) /\
      lon_ok (ll_lon1 d) (ll_lon2 d) (ll_ni d - 1) (ll_mode d) i lon
  else latlon_latlons m d = Ret (Err InvalidValueError).
Proof.
  intros m d Hi Hj A1 A2 O1 O2 Hf. unfold latlon_latlons. rewrite consistent_j by lia. cbn [bind].
  destruct (eqb (ll_lat1 d <? ll_lat2 d) (flag 2 (ll_mode d))); cbn [negb]; [|reflexivity].
  rewrite supported_flag by assumption. rewrite arith_ok by mlia. cbn [bind]. rewrite arith_ok by mlia. cbn [bind].
  destruct (longitudes m (ll_lon1 d) (ll_lon2 d) (ll_ni d - 1) (ll_mode d) O1 O2 ltac:(lia)) as (lon & -> & Hl & Hlon). cbn [bind].
  eexists _, _. split; [reflexivity|].
  assert (Hlat : zlen (evenly_spaced_degrees (f32_of_Z (ll_lat1 d)) (f32_of_Z (ll_lat2 d)) (ll_nj d - 1)) = ll_nj d) by (rewrite degrees_length; lia).
  split. { apply regular_run; try lia. unfold row_len. destruct (flag 3 (ll_mode d)); lia. }
  split. { unfold zlen. rewrite map_length, seq_length. nia. }
  intros k Hk. eexists _, _. split.
  { rewrite nth_error_map. rewrite (nth_error_nth' _ O) by (rewrite seq_length; lia). rewrite seq_nth by lia. cbn [option_map Nat.add]. rewrite Z2Nat.id by lia. reflexivity. }
  pose proof (scan_ij_range (ll_ni d) (ll_nj d) (ll_mode d) k ltac:(lia) ltac:(lia) ltac:(lia)) as R.
  destruct (scan_ij (ll_ni d) (ll_nj d) (ll_mode d) k) as (i, j). cbn [fst snd] in *. split; [|apply Hlon; lia].
  rewrite degrees_nth by lia. destruct (plain_even (ll_lat1 d) (ll_lat2 d) (ll_nj d - 1) j 90000000) as (_ & F & E); try lia.
  split; [exact F|]. rewrite u_val in E. lra.
Qed.

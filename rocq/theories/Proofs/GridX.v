(** Regular grids with one row or column, Gaussian grids. *)
From Coq Require Import Reals Lia Lra ZifyBool ZifyNat Floats.SpecFloat.
From Flocq Require Import Core.Core IEEE754.BinarySingleNaN.
From Verif Require Import Model.Base Model.Errors Model.F32 Model.F64 Model.Grid Model.Gaussian Spec.FloatS Spec.GridS Spec.CoordsS Spec.GaussS.
From Verif Require Import Proofs.FloatP Proofs.SpacingP Proofs.BaseLemmas Proofs.ReaderP Proofs.Progress Proofs.GridP Proofs.PointsP Proofs.LatlonX Proofs.GaussP.
Ltac Zify.zify_post_hook ::= Z.div_mod_to_equations.
Local Existing Instance Hprec.
Local Existing Instance Hmax.
Local Open Scope Z_scope.

Lemma one_degree : forall s e, evenly_spaced_degrees s e 0 = [S754_nan].
Proof.
  intros s e. set (z := S754_zero false).
  change (evenly_spaced_degrees s e 0) with [f32_div (f32_add s (f32_mul z (f32_div (f32_sub e s) z))) (f32_of_Z 1000000)].
  assert (N : f32_mul z (f32_div (f32_sub e s) z) = S754_nan).
  { destruct (f32_sub e s) as [b|b| |b p q]; reflexivity. }
  rewrite N. assert (A : f32_add s S754_nan = S754_nan) by (destruct s as [[]|[]| |]; reflexivity). rewrite A. reflexivity.
Qed.

Lemma latitudes_any : forall a b n, Z.abs a <= 90000000 -> Z.abs b <= 90000000 -> 1 <= n < 2 ^ 32 ->
  let l := evenly_spaced_degrees (f32_of_Z a) (f32_of_Z b) (n - 1) in
  zlen l = n /\ forall j, 0 <= j < n -> lat_any a b n j (nth (Z.to_nat j) l f32_nan).
Proof.
  intros a b n Ha Hb Hn. split; [rewrite degrees_length; lia|]. intros j Hj. unfold lat_any. destruct (n =? 1) eqn:E.
  - replace (n - 1) with 0 by lia. rewrite one_degree. replace (Z.to_nat j) with O by lia. reflexivity.
  - rewrite degrees_nth by lia. destruct (plain_even a b (n - 1) j 90000000) as (_ & F & E'); try lia.
    split; [exact F|]. rewrite u_val in E'. lra.
Qed.

Lemma longitudes_any : forall m a b n mode, Z.abs a <= 360000000 -> Z.abs b <= 360000000 -> 1 <= n < 2 ^ 32 ->
  exists l, evenly_spaced_longitudes m a b (n - 1) mode = Ret l /\ zlen l = n /\
  forall i, 0 <= i < n -> lon_any a b n mode i (nth (Z.to_nat i) l f32_nan).
Proof.
  intros m a b n mode Ha Hb Hn. unfold lon_any. destruct (n =? 1) eqn:E.
  - replace (n - 1) with 0 by lia. unfold evenly_spaced_longitudes. rewrite arith_ok by mlia. cbn [bind].
    destruct (negb (xorb (0 <? b - a) (scans_positively_for_i mode))); [|destruct (b <? a)]; rewrite one_degree; (eexists; split; [reflexivity|]).
    all: split; [cbn; lia|]; intros i Hi; replace (Z.to_nat i) with O by lia; reflexivity.
  - destruct (longitudes m a b (n - 1) mode Ha Hb ltac:(lia)) as (l & -> & Hl & Hk). exists l. split; [reflexivity|]. split; [lia|].
    intros i Hi. apply Hk. lia.
Qed.

(** C36 *)
Lemma latlon_points_any : forall m d, 1 <= ll_ni d < 2 ^ 32 -> 1 <= ll_nj d < 2 ^ 32 ->
  Z.abs (ll_lat1 d) <= 90000000 -> Z.abs (ll_lat2 d) <= 90000000 -> Z.abs (ll_lon1 d) <= 360000000 -> Z.abs (ll_lon2 d) <= 360000000 ->
  ~ low_flag (ll_mode d) ->
  if eqb (ll_lat1 d <? ll_lat2 d) (flag 2 (ll_mode d)) then
    exists r l, latlon_latlons m d = Ret (Ok r) /\ Run (regular_iter m r) l End /\ zlen l = ll_ni d * ll_nj d /\
    forall k, 0 <= k < ll_ni d * ll_nj d -> exists lat lon,
      nth_error l (Z.to_nat k) = Some (lat, lon) /\
      let '(i, j) := scan_ij (ll_ni d) (ll_nj d) (ll_mode d) k in
      lat_any (ll_lat1 d) (ll_lat2 d) (ll_nj d) j lat /\
      lon_any (ll_lon1 d) (ll_lon2 d) (ll_ni d) (ll_mode d) i lon
  else latlon_latlons m d = Ret (Err InvalidValueError).
Proof.
  intros m d Hi Hj A1 A2 O1 O2 Hf. unfold latlon_latlons. rewrite consistent_j by lia. cbn [bind].
  destruct (eqb (ll_lat1 d <? ll_lat2 d) (flag 2 (ll_mode d))); cbn [negb]; [|reflexivity].
  rewrite supported_flag by assumption. rewrite arith_ok by mlia. cbn [bind]. rewrite arith_ok by mlia. cbn [bind].
  destruct (longitudes_any m (ll_lon1 d) (ll_lon2 d) (ll_ni d) (ll_mode d) O1 O2 ltac:(lia)) as (lon & -> & Hl & Hlon). cbn [bind].
  destruct (latitudes_any (ll_lat1 d) (ll_lat2 d) (ll_nj d) A1 A2 Hj) as (Hlat & Hlats).
  eexists _, _. split; [reflexivity|].
  split. { apply regular_run; try lia. unfold row_len. destruct (flag 3 (ll_mode d)); lia. }
  split. { unfold zlen. rewrite map_length, seq_length. nia. }
  intros k Hk. eexists _, _. split.
  { rewrite nth_error_map. rewrite (nth_error_nth' _ O) by (rewrite seq_length; lia). rewrite seq_nth by lia. cbn [option_map Nat.add]. rewrite Z2Nat.id by lia. reflexivity. }
  pose proof (scan_ij_range (ll_ni d) (ll_nj d) (ll_mode d) k ltac:(lia) ltac:(lia) ltac:(lia)) as R.
  destruct (scan_ij (ll_ni d) (ll_nj d) (ll_mode d) k) as (i, j). cbn [fst snd] in *. split; [apply Hlats|apply Hlon]; lia.
Qed.


Lemma arith_U32_neg : arith Checked U32 (0 - 1) = Panic.
Proof. reflexivity. Qed.
Lemma latlon_empty : forall d, 0 <= ll_ni d < 2 ^ 32 -> 0 <= ll_nj d < 2 ^ 32 -> ll_ni d * ll_nj d = 0 ->
  Z.abs (ll_lat1 d) <= 90000000 -> Z.abs (ll_lat2 d) <= 90000000 -> ~ low_flag (ll_mode d) ->
  (ll_lat1 d < ll_lat2 d <-> flag 2 (ll_mode d) = true) ->
  latlon_latlons Checked d = Panic.
Proof.
  intros d Hi Hj H0 A1 A2 Hf Hc. unfold latlon_latlons. rewrite consistent_j by lia. cbn [bind].
  replace (eqb (ll_lat1 d <? ll_lat2 d) (flag 2 (ll_mode d))) with true by (destruct (ll_lat1 d <? ll_lat2 d) eqn:E, (flag 2 (ll_mode d)); try reflexivity; lia).
  cbn [negb]. rewrite supported_flag by assumption.
  destruct (Z.eq_dec (ll_nj d) 0) as [->|N]; [reflexivity|]. rewrite arith_ok by mlia. cbn [bind].
  replace (ll_ni d) with 0 by nia. reflexivity.
Qed.
Lemma latlon_overflow : forall d, ~ - 2 ^ 31 <= ll_lat2 d - ll_lat1 d < 2 ^ 31 -> latlon_latlons Checked d = Panic.
Proof.
  intros d H. unfold latlon_latlons, is_consistent_for_j.
  assert (E : arith Checked I32 (ll_lat2 d - ll_lat1 d) = Panic).
  { unfold arith. replace (in_range I32 (ll_lat2 d - ll_lat1 d)) with false; [reflexivity|]. symmetry. apply not_true_is_false. intro T. apply H. revert T. unfold in_range. change (min_of I32) with (- 2 ^ 31). change (max_of I32) with (2 ^ 31 - 1). lia. }
  rewrite E. reflexivity.
Qed.

(** ** Gaussian grids *)
Lemma gaussian_points : forall m lm d, 1 <= ga_ni d < 2 ^ 32 -> 1 <= ga_nj d <= cube_limit ->
  Z.abs (ga_lat1 d) <= 90000000 -> Z.abs (ga_lat2 d) <= 90000000 -> Z.abs (ga_lon1 d) <= 360000000 -> Z.abs (ga_lon2 d) <= 360000000 ->
  ~ low_flag (ga_mode d) ->
  let step := newton_step (Z.to_nat (ga_nj d)) in
  let guess := first_guess lm (ga_nj d) in
  if eqb (ga_lat1 d <? ga_lat2 d) (flag 2 (ga_mode d)) then
    (exists r l, gaussian_latlons m lm d = Ret (Ok r) /\ Run (regular_iter m r) l End /\ zlen l = ga_ni d * ga_nj d /\
      forall k, 0 <= k < ga_ni d * ga_nj d -> exists x lon,
        let '(i, j) := scan_ij (ga_ni d) (ga_nj d) (ga_mode d) k in
        nth_error l (Z.to_nat k) = Some (f64_to_f32 (f64_to_degrees (asin lm x)), lon) /\
        root_found step (guess (gauss_row (ga_nj d) (ga_mode d) j)) x /\
        lon_any (ga_lon1 d) (ga_lon2 d) (ga_ni d) (ga_mode d) i lon) \/
    (gaussian_latlons m lm d = Ret (Err Unknown) /\ exists j, 0 <= j < ga_nj d /\ root_missed step (guess j))
  else gaussian_latlons m lm d = Ret (Err InvalidValueError).
Proof.
  intros m lm d Hi Hj A1 A2 O1 O2 Hf step guess. unfold gaussian_latlons. rewrite consistent_j by lia. cbn [bind].
  destruct (eqb (ga_lat1 d <? ga_lat2 d) (flag 2 (ga_mode d))); cbn [negb]; [|reflexivity].
  rewrite supported_flag by assumption. unfold gaussian_degrees.
  destruct (latitudes_count m lm (ga_nj d) ltac:(lia)) as (l0 & E0 & L0).
  pose proof (latitudes_values m lm (ga_nj d) l0 ltac:(lia) E0) as V0. rewrite E0. cbn [bind].
  pose proof (all_some_spec _ (map (option_map f64_to_degrees) l0)) as AS.
  destruct (all_some (map (option_map f64_to_degrees) l0)) as [r|].
  - left. assert (Lr : zlen r = ga_nj d). { apply (f_equal (@length _)) in AS. rewrite !map_length in AS. unfold zlen in *. lia. }
    assert (C : cube_limit < 2 ^ 32) by reflexivity. unfold cube_limit in C, Hj.
    rewrite arith_ok by mlia. cbn [bind].
    destruct (longitudes_any m (ga_lon1 d) (ga_lon2 d) (ga_ni d) (ga_mode d) O1 O2 ltac:(lia)) as (lon & -> & Hl & Hlon). cbn [bind].
    set (lat := map f64_to_f32 (if scans_positively_for_j (ga_mode d) then rev r else r)).
    assert (Hlat : zlen lat = ga_nj d). { unfold lat, zlen. rewrite map_length. destruct (scans_positively_for_j _); rewrite ?rev_length; exact Lr. }
    assert (Rx : forall i, 0 <= i < ga_nj d -> exists x, root_found step (guess i) x /\ nth_error r (Z.to_nat i) = Some (f64_to_degrees (asin lm x))).
    { intros i Hi'. specialize (V0 i Hi'). pose proof (root_search step (guess i)) as RS. fold guess step in V0.
      assert (N : nth_error (map (option_map f64_to_degrees) l0) (Z.to_nat i) = nth_error (map Some r) (Z.to_nat i)) by (rewrite AS; reflexivity).
      rewrite !nth_error_map, V0 in N. cbn [option_map] in N. destruct (find_root (guess i) step) as [x|]; cbn [option_map] in N.
      - exists x. split; [exact RS|]. destruct (nth_error r (Z.to_nat i)) as [y|]; [|discriminate]. cbn in N. congruence.
      - destruct (nth_error r (Z.to_nat i)) as [y|]; discriminate. }
    eexists _, _. split; [reflexivity|].
    split. { apply regular_run; try lia. unfold row_len. destruct (flag 3 (ga_mode d)); lia. }
    split. { unfold zlen. rewrite map_length, seq_length. nia. }
    intros k Hk.
    pose proof (scan_ij_range (ga_ni d) (ga_nj d) (ga_mode d) k ltac:(lia) ltac:(lia) ltac:(lia)) as R.
    destruct (scan_ij (ga_ni d) (ga_nj d) (ga_mode d) k) as (i, j) eqn:Eij. cbn [fst snd] in *.
    assert (Hrow : 0 <= gauss_row (ga_nj d) (ga_mode d) j < ga_nj d) by (unfold gauss_row; destruct (flag 2 (ga_mode d)); lia).
    destruct (Rx _ Hrow) as (x & Hx & Nx).
    exists x, (nth (Z.to_nat i) lon f32_nan). split; [|split; [exact Hx|apply Hlon; lia]].
    rewrite nth_error_map. rewrite (nth_error_nth' _ O) by (rewrite seq_length; lia). rewrite seq_nth by lia. cbn [option_map Nat.add]. rewrite Z2Nat.id by lia.
    rewrite Eij. unfold pair_at. cbn [fst snd]. do 2 f_equal. unfold lat. apply nth_error_nth. rewrite nth_error_map.
    rewrite flag2. unfold gauss_row in Nx. destruct (flag 2 (ga_mode d)).
    + rewrite (nth_error_nth' _ S754_nan) by (rewrite rev_length; unfold zlen in Lr; lia).
      rewrite rev_nth by (unfold zlen in Lr; lia). cbn [option_map]. apply nth_error_nth with (d := S754_nan) in Nx.
      replace (Z.to_nat (ga_nj d - 1 - j)) with (length r - S (Z.to_nat j))%nat in Nx by (unfold zlen in Lr; lia). rewrite Nx. reflexivity.
    + rewrite Nx. reflexivity.
  - right. split; [reflexivity|]. apply In_nth_error in AS. destruct AS as (n & Hn).
    assert (Hlt : (n < length l0)%nat). { assert (N : nth_error (map (option_map f64_to_degrees) l0) n <> None) by congruence. apply nth_error_Some in N. rewrite map_length in N. exact N. }
    exists (Z.of_nat n). assert (0 <= Z.of_nat n < ga_nj d) by (unfold zlen in L0; lia). split; [assumption|].
    specialize (V0 (Z.of_nat n) ltac:(assumption)). rewrite Nat2Z.id in V0. rewrite nth_error_map, V0 in Hn. cbn [option_map] in Hn.
    pose proof (root_search step (guess (Z.of_nat n))) as RS. fold guess step in Hn. destruct (find_root (guess (Z.of_nat n)) step); [discriminate Hn|exact RS].
Qed.

(** The latitudes of the definition and its number of parallels are not used beyond their order. *)
Lemma gaussian_ignores : forall m lm d lat1 lat2 inc n,
  Z.abs (ga_lat1 d) <= 90000000 -> Z.abs (ga_lat2 d) <= 90000000 -> Z.abs lat1 <= 90000000 -> Z.abs lat2 <= 90000000 ->
  (ga_lat1 d <? ga_lat2 d) = (lat1 <? lat2) ->
  gaussian_latlons m lm d = gaussian_latlons m lm (MkGaussian (ga_ni d) (ga_nj d) lat1 (ga_lon1 d) lat2 (ga_lon2 d) inc n (ga_mode d)).
Proof.
  intros m lm d lat1 lat2 inc n H1 H2 H3 H4 E. unfold gaussian_latlons. cbn [ga_lat1 ga_lat2 ga_mode ga_ni ga_nj ga_lon1 ga_lon2].
  rewrite !consistent_j by lia. rewrite E. reflexivity.
Qed.

(** C37 for coordinates *)
Lemma regular_flags : forall m lm,
  (forall d, Z.abs (ll_lat1 d) <= 90000000 -> Z.abs (ll_lat2 d) <= 90000000 -> (ll_lat1 d < ll_lat2 d <-> flag 2 (ll_mode d) = true) ->
    (latlon_latlons m d = Ret (Err NotSupported) <-> low_flag (ll_mode d))) /\
  (forall d, Z.abs (ga_lat1 d) <= 90000000 -> Z.abs (ga_lat2 d) <= 90000000 -> (ga_lat1 d < ga_lat2 d <-> flag 2 (ga_mode d) = true) ->
    (gaussian_latlons m lm d = Ret (Err NotSupported) <-> low_flag (ga_mode d))).
Proof.
  intros m lm. split; intros d A1 A2 Hc.
  - unfold latlon_latlons. rewrite consistent_j by lia. cbn [bind].
    replace (eqb (ll_lat1 d <? ll_lat2 d) (flag 2 (ll_mode d))) with true by (destruct (ll_lat1 d <? ll_lat2 d) eqn:E, (flag 2 (ll_mode d)); try reflexivity; lia).
    cbn [negb]. rewrite <- (unsupported_flag (ll_ni d) (ll_nj d)). unfold ij_of. destruct (has_unsupported_flags (ll_mode d)); [tauto|]. split; [|discriminate].
    intro H. destruct (arith m U32 (ll_nj d - 1)); cbn [bind] in H; try discriminate H.
    destruct (arith m U32 (ll_ni d - 1)); cbn [bind] in H; try discriminate H.
    destruct (evenly_spaced_longitudes _ _ _ _ _); discriminate H.
  - unfold gaussian_latlons. rewrite consistent_j by lia. cbn [bind].
    replace (eqb (ga_lat1 d <? ga_lat2 d) (flag 2 (ga_mode d))) with true by (destruct (ga_lat1 d <? ga_lat2 d) eqn:E, (flag 2 (ga_mode d)); try reflexivity; lia).
    cbn [negb]. rewrite <- (unsupported_flag (ga_ni d) (ga_nj d)). unfold ij_of. destruct (has_unsupported_flags (ga_mode d)); [tauto|]. split; [|discriminate].
    intro H. destruct (gaussian_degrees m lm (ga_nj d)) as [[l|]| |]; cbn [bind] in H; try discriminate H.
    destruct (arith m U32 (ga_ni d - 1)); cbn [bind] in H; try discriminate H.
    destruct (evenly_spaced_longitudes _ _ _ _ _); discriminate H.
Qed.

(** C53 *)
Lemma latitude_values : forall m lm n l, 0 <= n <= cube_limit -> compute_gaussian_latitudes m lm n = Ret l ->
  forall i, 0 <= i < n -> exists o, nth_error l (Z.to_nat i) = Some o /\
    match o with
    | Some y => exists x, root_found (newton_step (Z.to_nat n)) (first_guess lm n i) x /\ y = asin lm x
    | None => root_missed (newton_step (Z.to_nat n)) (first_guess lm n i)
    end.
Proof.
  intros m lm n l Hn Hl i Hi. eexists. split; [apply (latitudes_values m lm n l Hn Hl i Hi)|].
  pose proof (root_search (newton_step (Z.to_nat n)) (first_guess lm n i)) as R.
  destruct (find_root _ _) as [x|]; cbn [option_map]; [exists x; auto|exact R].
Qed.

(** Property theorems C32-C37, C53, C55-C57: grid points. *)
From Coq Require Import Lia Reals Floats.SpecFloat.
From Flocq Require Import Core.Core IEEE754.BinarySingleNaN.
From Verif Require Import Model.Base Model.Errors Model.F32 Model.F64 Model.Grid Model.Gaussian Model.Proj.
From Verif Require Import Spec.ReaderS Spec.FloatS Spec.FieldsS Spec.GridS Spec.CoordsS Spec.GaussS Spec.LegendreS Spec.ProjS.
From Verif Require Proofs.GridP Proofs.PointsP Proofs.LatlonX Proofs.GaussP Proofs.GridX Proofs.ProjX Proofs.ShapeX Proofs.RunX Proofs.DegreesX Proofs.LegendreX.
Open Scope Z_scope.

Definition bytes (l : list Z) : list byte := map zb l.

(** C32: the index iterator visits every point of the grid once, in the order of the
    scanning mode, and ends. *)
Theorem C32_indices : forall m ni nj mode, 0 <= ni < 2 ^ 32 -> 0 <= nj < 2 ^ 32 -> 0 < row_len ni nj mode ->
  exists l, Run (gpi_iter m (gpi_new ni nj mode)) l End /\ zlen l = ni * nj /\
    (forall k, 0 <= k < ni * nj -> nth_error l (Z.to_nat k) = Some (scan_ij ni nj mode k)) /\
    NoDup l /\ (forall i j, In (i, j) l <-> 0 <= i < ni /\ 0 <= j < nj).
Proof. exact GridP.indices. Qed.
Print Assumptions C32_indices.

(** C32: at every moment, [size_hint] is the number of points still to come. *)
Theorem C32_size_hint : forall m ni nj mode l g', 0 <= ni < 2 ^ 32 -> 0 <= nj < 2 ^ 32 -> 0 < row_len ni nj mode ->
  SSteps (gpi_next m) (gpi_new ni nj mode) l g' -> gpi_size m g' = Ret (ni * nj - zlen l).
Proof. exact GridP.indices_size. Qed.
Print Assumptions C32_size_hint.

Example C32_ex :
  collect 7 (gpi_iter Checked (gpi_new 3 2 0)) = Ret [(0, 0); (1, 0); (2, 0); (0, 1); (1, 1); (2, 1)] /\
  collect 7 (gpi_iter Checked (gpi_new 3 2 0x30)) = Ret [(0, 0); (0, 1); (1, 1); (1, 0); (2, 0); (2, 1)] /\
  map (scan_ij 3 2 0x30) [0; 1; 2; 3; 4; 5] = [(0, 0); (0, 1); (1, 1); (1, 0); (2, 0); (2, 1)] /\
  map (scan_ij 3 2 0x10) [0; 1; 2; 3; 4; 5] = [(0, 0); (1, 0); (2, 0); (2, 1); (1, 1); (0, 1)].
Proof. vm_compute. repeat split. Qed.

(** C33: without rows there is no point. *)
Theorem C33_no_rows : forall m ni nj mode, rows ni nj mode = 0 -> Run (gpi_iter m (gpi_new ni nj mode)) [] End.
Proof. exact GridP.no_rows. Qed.
Print Assumptions C33_no_rows.

(** C33: with empty rows the claim is false.  [ij] accepts such a grid (of zero points),
    announces zero points and yields 2^64 - 1 points, all outside the grid. *)
Theorem C33_empty_rows : forall m p g, reaches p 10 -> grid_of_payload m p = Ret (Ok g) -> ~ low_flag (grid_mode g) ->
  row_len (fst (grid_shape g)) (snd (grid_shape g)) (grid_mode g) = 0 -> 0 < rows (fst (grid_shape g)) (snd (grid_shape g)) (grid_mode g) -> field p 7 10 = 0 ->
  exists it, sub_ij m p = Ret (Ok it) /\ gpi_size m it = Ret 0 /\
    forall n, Z.of_nat n < 2 ^ 64 -> exists it', SSteps (gpi_next m) it (map (fun k => bogus (grid_mode g) (Z.of_nat k)) (seq 0 n)) it'.
Proof. exact ProjX.empty_rows. Qed.
Print Assumptions C33_empty_rows.

(** A latitude/longitude grid of [ni] x [nj] points that declares [n] points. *)
Definition ex_grid (n ni nj mode : Z) : list byte := bytes
  ([0; 0; 0; 0; n; 0; 0; 0; 0] ++ repeat 0 16 ++ [0; 0; 0; ni; 0; 0; 0; nj] ++ repeat 0 8 ++
   [3; 147; 135; 0; 20; 220; 147; 128] ++ [48] ++ [131; 147; 135; 0; 0; 152; 150; 128] ++ repeat 0 8 ++ [mode]).
Example C33_ex : exists g, reaches (ex_grid 0 0 2 0) 10 /\ grid_of_payload Checked (ex_grid 0 0 2 0) = Ret (Ok g) /\ grid_shape g = (0, 2) /\ grid_mode g = 0.
Proof. eexists. split; [vm_compute; congruence|]. split; [vm_compute; reflexivity|]. vm_compute. auto. Qed.

(** C34, C37: the decision of [ij] for a grid definition that was understood. *)
Theorem C34_ij : forall m p g, reaches p 10 -> grid_of_payload m p = Ret (Ok g) ->
  let '(ni, nj) := grid_shape g in
  (low_flag (grid_mode g) -> sub_ij m p = Ret (Err NotSupported)) /\
  (~ low_flag (grid_mode g) -> field p 7 10 <> ni * nj -> sub_ij m p = Ret (Err InvalidValueError)) /\
  (~ low_flag (grid_mode g) -> field p 7 10 = ni * nj -> sub_ij m p = Ret (Ok (gpi_new ni nj (grid_mode g)))).
Proof. exact PointsP.sub_ij_spec. Qed.
Print Assumptions C34_ij.

(** C34, C37: the same in terms of the octets of section 3. *)
Theorem C34_ij_octets : forall m p, grid_complete p ->
  let ni := field p 31 34 in let nj := field p 35 38 in
  let mode := field p (mode_octet (grid_template p)) (mode_octet (grid_template p)) in
  (low_flag mode -> sub_ij m p = Ret (Err NotSupported)) /\
  (~ low_flag mode -> field p 7 10 <> ni * nj -> sub_ij m p = Ret (Err InvalidValueError)) /\
  (~ low_flag mode -> field p 7 10 = ni * nj -> sub_ij m p = Ret (Ok (gpi_new ni nj mode))).
Proof. exact ShapeX.ij_octets. Qed.
Print Assumptions C34_ij_octets.
(** 3 x 2 points of templates 3.0 (mode 0), 3.20 (mode 0x40) and 3.30 (mode 0x40). *)
Definition ex_proj (t : Z) : list byte := bytes
  ([0; 0; 0; 0; 6; 0; 0; 0; t] ++ repeat 0 16 ++ [0; 0; 0; 3; 0; 0; 0; 2] ++ repeat 0 26 ++ [64] ++ repeat 0 8).
Example C34_octets_ex : grid_complete (ex_grid 6 3 2 0) /\ grid_complete (ex_proj 20) /\ grid_complete (ex_proj 30) /\
  field (ex_proj 20) (mode_octet 20) (mode_octet 20) = 64 /\ field (ex_proj 20) 31 34 = 3 /\ field (ex_proj 20) 35 38 = 2.
Proof. unfold grid_complete, reaches. vm_compute. repeat split; intuition congruence. Qed.

Theorem C34_ij_errors : forall m p, reaches p 10 ->
  (forall e, grid_of_payload m p = Ret (Err e) -> sub_ij m p = Ret (Err e)).
Proof. exact PointsP.sub_ij_errors. Qed.
Print Assumptions C34_ij_errors.

(** C34: coordinates are only returned if there are as many as declared. *)
Theorem C34_latlons : forall m lm pl fuel p it, reaches p 10 ->
  sub_latlons m lm pl fuel p = Ret (Ok it) -> points_size m it = Ret (field p 7 10).
Proof. exact PointsP.sub_latlons_count. Qed.
Print Assumptions C34_latlons.

Theorem C34_latlons_mismatch : forall m lm pl fuel p g it n, reaches p 10 -> grid_of_payload m p = Ret (Ok g) ->
  grid_latlons m lm pl fuel g = Ret (Ok it) -> points_size m it = Ret n -> n <> field p 7 10 ->
  sub_latlons m lm pl fuel p = Ret (Err InvalidValueError).
Proof. exact PointsP.sub_latlons_mismatch. Qed.
Print Assumptions C34_latlons_mismatch.

(** C34: the coordinates are then all delivered, without a panic. *)
Theorem C34_points : forall m lm pl fuel p it, reaches p 10 -> sub_latlons m lm pl fuel p = Ret (Ok it) -> 0 < field p 7 10 ->
  exists ps, Run (points_iter m it) ps End /\ zlen ps = field p 7 10.
Proof. exact RunX.latlons_total. Qed.
Print Assumptions C34_points.

Definition lm0 : libm := MkLibm
  (fun y => if f64_ltb y (f64_div f64_pi (f64_of_Z 2)) then q 5878 10000 else q (-5878) 10000)
  (fun x => x) (fun _ _ => f64_of_Z 1).
Example C34_ex :
  (match sub_ij Checked (ex_grid 6 3 2 0) with Ret (Ok it) => collect 7 (gpi_iter Checked it) | _ => Panic end) =
    Ret [(0, 0); (1, 0); (2, 0); (0, 1); (1, 1); (2, 1)] /\
  sub_ij Checked (ex_grid 7 3 2 0) = Ret (Err InvalidValueError) /\
  sub_ij Checked (ex_grid 6 3 2 1) = Ret (Err NotSupported) /\
  (match sub_latlons Checked lm0 None 9 (ex_grid 6 3 2 0) with Ret (Ok it) => points_size Checked it | _ => Panic end) = Ret 6 /\
  sub_latlons Checked lm0 None 9 (ex_grid 5 3 2 0) = Ret (Err InvalidValueError).
Proof. vm_compute. repeat split. Qed.

(** C35: latitude/longitude grids. *)
Theorem C35_latlons : forall m d, 2 <= ll_ni d < 2 ^ 32 -> 2 <= ll_nj d < 2 ^ 32 ->
  Z.abs (ll_lat1 d) <= 90000000 -> Z.abs (ll_lat2 d) <= 90000000 -> Z.abs (ll_lon1 d) <= 360000000 -> Z.abs (ll_lon2 d) <= 360000000 ->
  ~ low_flag (ll_mode d) ->
  if eqb (ll_lat1 d <? ll_lat2 d) (flag 2 (ll_mode d)) then
    exists r l, latlon_latlons m d = Ret (Ok r) /\ Run (regular_iter m r) l End /\ zlen l = ll_ni d * ll_nj d /\
    forall k, 0 <= k < ll_ni d * ll_nj d -> exists lat lon,
      nth_error l (Z.to_nat k) = Some (lat, lon) /\
      let '(i, j) := scan_ij (ll_ni d) (ll_nj d) (ll_mode d) k in
      close lat (even (ll_lat1 d) (ll_lat2 d) (ll_nj d - 1) j) (1 / 10000) /\
      lon_ok (ll_lon1 d) (ll_lon2 d) (ll_ni d - 1) (ll_mode d) i lon
  else latlon_latlons m d = Ret (Err InvalidValueError).
Proof. exact LatlonX.latlon_points. Qed.
Print Assumptions C35_latlons.

(** The grid above, from 60 N 350 E to 60 S 10 E. *)
Definition ex_d (ni nj lat1 lat2 mode : Z) : latlon := MkLatlon ni nj lat1 350000000 lat2 10000000 mode.
Example C35_ex : grid_of_payload Checked (ex_grid 6 3 2 0) = Ret (Ok (Template0 (ex_d 3 2 60000000 (-60000000) 0))) /\
  (match latlon_latlons Checked (ex_d 3 2 60000000 (-60000000) 0) with
   | Ret (Ok r) => collect 7 (regular_iter Checked r) | _ => Panic end) =
  Ret (map (fun '(a, b) => (f32_of_Z a, f32_of_Z b)) [(60, 350); (60, 0); (60, 10); (-60, 350); (-60, 0); (-60, 10)]) /\
  latlon_latlons Checked (ex_d 3 2 60000000 (-60000000) 0x40) = Ret (Err InvalidValueError).
Proof. vm_compute. repeat split. Qed.

(** C36: with one row the latitudes, with one column the longitudes are NaN; a single
    row whose two latitudes agree is refused if flag 2 is on. *)
Theorem C36_single : forall m d, 1 <= ll_ni d < 2 ^ 32 -> 1 <= ll_nj d < 2 ^ 32 ->
  Z.abs (ll_lat1 d) <= 90000000 -> Z.abs (ll_lat2 d) <= 90000000 -> Z.abs (ll_lon1 d) <= 360000000 -> Z.abs (ll_lon2 d) <= 360000000 ->
  ~ low_flag (ll_mode d) ->
  if eqb (ll_lat1 d <? ll_lat2 d) (flag 2 (ll_mode d)) then
    exists r l, latlon_latlons m d = Ret (Ok r) /\ Run (regular_iter m r) l End /\ zlen l = ll_ni d * ll_nj d /\
    forall k, 0 <= k < ll_ni d * ll_nj d -> exists lat lon,
      nth_error l (Z.to_nat k) = Some (lat, lon) /\
      let '(i, j) := scan_ij (ll_ni d) (ll_nj d) (ll_mode d) k in
      lat_any (ll_lat1 d) (ll_lat2 d) (ll_nj d) j lat /\
      lon_any (ll_lon1 d) (ll_lon2 d) (ll_ni d) (ll_mode d) i lon
  else latlon_latlons m d = Ret (Err InvalidValueError).
Proof. exact GridX.latlon_points_any. Qed.
Print Assumptions C36_single.

(** C36: grids without points and latitudes that differ by 2^31 or more panic in a build
    with overflow checks. *)
Theorem C36_empty_panics : forall d, 0 <= ll_ni d < 2 ^ 32 -> 0 <= ll_nj d < 2 ^ 32 -> ll_ni d * ll_nj d = 0 ->
  Z.abs (ll_lat1 d) <= 90000000 -> Z.abs (ll_lat2 d) <= 90000000 -> ~ low_flag (ll_mode d) ->
  (ll_lat1 d < ll_lat2 d <-> flag 2 (ll_mode d) = true) ->
  latlon_latlons Checked d = Panic.
Proof. exact GridX.latlon_empty. Qed.
Print Assumptions C36_empty_panics.
Theorem C36_overflow_panics : forall d, ~ - 2 ^ 31 <= ll_lat2 d - ll_lat1 d < 2 ^ 31 -> latlon_latlons Checked d = Panic.
Proof. exact GridX.latlon_overflow. Qed.
Print Assumptions C36_overflow_panics.

Example C36_ex :
  (match latlon_latlons Checked (ex_d 1 2 60000000 (-60000000) 0) with
   | Ret (Ok r) => collect 7 (regular_iter Checked r) | _ => Panic end) =
    Ret [(f32_of_Z 60, S754_nan); (f32_of_Z (-60), S754_nan)] /\
  (match latlon_latlons Checked (ex_d 2 1 60000000 60000000 0) with
   | Ret (Ok r) => collect 7 (regular_iter Checked r) | _ => Panic end) =
    Ret [(S754_nan, f32_of_Z 350); (S754_nan, f32_of_Z 10)] /\
  latlon_latlons Checked (ex_d 2 1 60000000 60000000 0x40) = Ret (Err InvalidValueError) /\
  latlon_latlons Checked (ex_d 0 2 60000000 0 0) = Panic /\
  latlon_latlons Checked (MkLatlon 2 2 (- 2 ^ 31 + 1) 0 (2 ^ 31 - 1) 0 0) = Panic.
Proof. vm_compute. repeat split. Qed.

(** C37: the four low bits of the scanning mode. *)
Theorem C37_ij : forall ni nj mode, ij_of ni nj mode = Err NotSupported <-> low_flag mode.
Proof. exact PointsP.unsupported_flag. Qed.
Print Assumptions C37_ij.
Theorem C37_regular : forall m lm,
  (forall d, Z.abs (ll_lat1 d) <= 90000000 -> Z.abs (ll_lat2 d) <= 90000000 -> (ll_lat1 d < ll_lat2 d <-> flag 2 (ll_mode d) = true) ->
    (latlon_latlons m d = Ret (Err NotSupported) <-> low_flag (ll_mode d))) /\
  (forall d, Z.abs (ga_lat1 d) <= 90000000 -> Z.abs (ga_lat2 d) <= 90000000 -> (ga_lat1 d < ga_lat2 d <-> flag 2 (ga_mode d) = true) ->
    (gaussian_latlons m lm d = Ret (Err NotSupported) <-> low_flag (ga_mode d))).
Proof. exact GridX.regular_flags. Qed.
Print Assumptions C37_regular.
Theorem C37_projected : forall m lm pl fuel,
  (forall d, 9 <= shape (la_earth d) -> lambert_latlons m lm pl fuel d = Ret (Err NotSupported)) /\
  (forall d, 9 <= shape (po_earth d) -> polar_latlons m lm pl fuel d = Ret (Err NotSupported)) /\
  (forall d, 0 <= po_centre d < 256 -> po_centre d mod 64 <> 0 -> polar_latlons m lm pl fuel d = Ret (Err NotSupported)) /\
  (forall d, low_flag (la_mode d) -> lambert_latlons m lm pl fuel d = Ret (Err NotSupported)) /\
  (forall d, low_flag (po_mode d) -> polar_latlons m lm pl fuel d = Ret (Err NotSupported)).
Proof. exact ProjX.projected_refused. Qed.
Print Assumptions C37_projected.
Example C37_ex : low_flag 0x41 /\ low_flag 8 /\ ~ low_flag 0xf0 /\
  latlon_latlons Checked (ex_d 3 2 60000000 0 1) = Ret (Err NotSupported).
Proof.
  split; [right; right; right; reflexivity|]. split; [left; reflexivity|]. split; [|reflexivity].
  intros [H|[H|[H|H]]]; discriminate H.
Qed.

(** C53: the root search evaluates its function at most eleven times; it returns the
    iterate after the first small step, or nothing. *)
Theorem C53_root_search : forall f x,
  match find_root x f with Some y => root_found f x y | None => root_missed f x end.
Proof. exact GaussP.root_search. Qed.
Print Assumptions C53_root_search.

(** C53: one latitude for each row, up to 1321122 rows: the arc sine of the root of the
    Legendre polynomial that Newton's method finds from the first guess. *)
Theorem C53_count : forall m lm n, 0 <= n <= cube_limit -> exists l, compute_gaussian_latitudes m lm n = Ret l /\ zlen l = n.
Proof. exact GaussP.latitudes_count. Qed.
Print Assumptions C53_count.
Theorem C53_values : forall m lm n l, 0 <= n <= cube_limit -> compute_gaussian_latitudes m lm n = Ret l ->
  forall i, 0 <= i < n -> exists o, nth_error l (Z.to_nat i) = Some o /\
    match o with
    | Some y => exists x, root_found (newton_step (Z.to_nat n)) (first_guess lm n i) x /\ y = asin lm x
    | None => root_missed (newton_step (Z.to_nat n)) (first_guess lm n i)
    end.
Proof. exact GridX.latitude_values. Qed.
Print Assumptions C53_values.
(** C53: without rounding, the step is that of Newton's method for the Legendre polynomial:
    its value divided by its derivative. *)
Theorem C53_newton : forall n x, (1 <= n)%nat ->
  legendre_polynomial exact_ops (Z.of_nat n) x = (P (n - 1) x, P n x) /\
  (Rabs x < 1 -> exists d, derivable_pt_lim (P n) x d /\ legendre_step exact_ops (Z.of_nat n) x = P n x / d)%R.
Proof. exact LegendreX.exact_newton. Qed.
Print Assumptions C53_newton.
(** The root of P_2 (x) = (3 x^2 - 1) / 2, about which the latitudes of two rows are found. *)
Example C53_newton_ex : (forall x, P 2 x = (3 * x * x - 1) / 2)%R.
Proof. intros x. cbn. field. Qed.

(** C53: more rows than that panic in a build with overflow checks. *)
Theorem C53_overflow : forall lm n, cube_limit < n < 2 ^ 60 -> compute_gaussian_latitudes Checked lm n = Panic.
Proof. exact GaussP.latitudes_overflow. Qed.
Print Assumptions C53_overflow.

(** The two roots of the Legendre polynomial of degree 2 are 3^(-1/2) and its opposite. *)
Example C53_ex : compute_gaussian_latitudes Checked lm0 2 =
  Ret [Some (S754_finite false 5200308914369308 (-53)); Some (S754_finite true 5200308914369308 (-53))] /\
  8 * cube_limit ^ 3 < 2 ^ 64 <= 8 * (cube_limit + 1) ^ 3.
Proof. split; [vm_compute; reflexivity|]. unfold cube_limit. lia. Qed.

(** C55: the points of a Gaussian grid. *)
Theorem C55_points : forall m lm d, 1 <= ga_ni d < 2 ^ 32 -> 1 <= ga_nj d <= cube_limit ->
  Z.abs (ga_lat1 d) <= 90000000 -> Z.abs (ga_lat2 d) <= 90000000 -> Z.abs (ga_lon1 d) <= 360000000 -> Z.abs (ga_lon2 d) <= 360000000 ->
  ~ low_flag (ga_mode d) ->
  let step := newton_step (Z.to_nat (ga_nj d)) in
  let guess := first_guess lm (ga_nj d) in
  if eqb (ga_lat1 d <? ga_lat2 d) (flag 2 (ga_mode d)) then
    (exists r l, gaussian_latlons m lm d = Ret (Ok r) /\ Run (regular_iter m r) l End /\ zlen l = ga_ni d * ga_nj d /\
      forall k, 0 <= k < ga_ni d * ga_nj d -> exists x lon,
        let '(i, j) := scan_ij (ga_ni d) (ga_nj d) (ga_mode d) k in
        nth_error l (Z.to_nat k) = Some (f64_to_f32 (f64_to_degrees (asin lm x)), lon) /\
        root_found step (guess (gauss_row (ga_nj d) (ga_mode d) j)) x /\
        lon_any (ga_lon1 d) (ga_lon2 d) (ga_ni d) (ga_mode d) i lon) \/
    (gaussian_latlons m lm d = Ret (Err Unknown) /\ exists j, 0 <= j < ga_nj d /\ root_missed step (guess j))
  else gaussian_latlons m lm d = Ret (Err InvalidValueError).
Proof. exact GridX.gaussian_points. Qed.
Print Assumptions C55_points.

(** C55, C56: from radians to the degrees that are returned: relative error at most 2^-23. *)
Theorem C55_degrees : forall x, valid_binary 53 1024 x = true -> finite x -> (Rabs (val x) <= bpow radix2 100)%R ->
  let y := f64_to_f32 (f64_to_degrees x) in
  finite y /\ (Rabs (val y - val x * 180 / PI) <= bpow radix2 (-23) * Rabs (val x * 180 / PI) + bpow radix2 (-149))%R.
Proof. exact DegreesX.degrees_close. Qed.
Print Assumptions C55_degrees.
Example C55_degrees_ex : valid_binary 53 1024 (S754_finite true 5200308914369308 (-53)) = true /\ finite (S754_finite true 5200308914369308 (-53)).
Proof. split; reflexivity. Qed.

(** C55: where the first and last latitude lie and how many parallels there are between
    the pole and the equator has no influence: a part of a global grid gets the
    latitudes of a global grid with as many rows. *)
Theorem C55_ignores_latitudes : forall m lm d lat1 lat2 inc n,
  Z.abs (ga_lat1 d) <= 90000000 -> Z.abs (ga_lat2 d) <= 90000000 -> Z.abs lat1 <= 90000000 -> Z.abs lat2 <= 90000000 ->
  (ga_lat1 d <? ga_lat2 d) = (lat1 <? lat2) ->
  gaussian_latlons m lm d = gaussian_latlons m lm (MkGaussian (ga_ni d) (ga_nj d) lat1 (ga_lon1 d) lat2 (ga_lon2 d) inc n (ga_mode d)).
Proof. exact GridX.gaussian_ignores. Qed.
Print Assumptions C55_ignores_latitudes.

Definition ex_ga (mode lat1 lat2 : Z) : gaussian := MkGaussian 2 2 lat1 0 lat2 90000000 90000000 1 mode.
Example C55_ex :
  (match gaussian_latlons Checked lm0 (ex_ga 0 35000000 (-35000000)) with
   | Ret (Ok r) => collect 7 (regular_iter Checked r) | _ => Panic end) =
  (let a := f64_to_f32 (f64_to_degrees (S754_finite false 5200308914369308 (-53))) in
   let b := f64_to_f32 (f64_to_degrees (S754_finite true 5200308914369308 (-53))) in
   Ret [(a, f32_of_Z 0); (a, f32_of_Z 90); (b, f32_of_Z 0); (b, f32_of_Z 90)]) /\
  gaussian_latlons Checked lm0 (ex_ga 0x40 35000000 (-35000000)) = Ret (Err InvalidValueError) /\
  gaussian_latlons Checked (MkLibm (fun _ => S754_nan) (fun x => x) (fun x _ => x)) (ex_ga 0x40 (-35000000) 35000000) = Ret (Err Unknown).
Proof. vm_compute. repeat split. Qed.

(** C56: the units.  Angles are given in 10^-6 degrees, lengths in 10^-3 metres, and the
    projection works with radians. *)
Theorem C56_units :
  (forall x, Z.abs x <= 2 ^ 32 -> finite (micro x) /\ (Rabs (val (micro x) - IZR x / 1000000) <= bpow radix2 (-51) * Rabs (IZR x / 1000000))%R) /\
  (forall x, Z.abs x <= 2 ^ 32 -> finite (milli x) /\ (Rabs (val (milli x) - IZR x / 1000) <= bpow radix2 (-51) * Rabs (IZR x / 1000))%R) /\
  (forall x, valid_binary 53 1024 x = true -> finite x -> (Rabs (val x) <= bpow radix2 1000)%R ->
    finite (f64_to_radians x) /\
    (Rabs (val (f64_to_radians x) - val x * (PI / 180)) <= bpow radix2 (-51) * Rabs (val x * (PI / 180)) + bpow radix2 (-1075))%R).
Proof. exact (conj DegreesX.micro_close (conj DegreesX.milli_close DegreesX.to_radians_close)). Qed.
Print Assumptions C56_units.
Example C56_units_ex : milli 2500000 = f64_of_Z 2500 /\ micro 90000000 = f64_of_Z 90.
Proof. vm_compute. split; reflexivity. Qed.

(** C56: the points of projected grids, in scan order: the inverse projection of the
    regular grid on the plane that starts at the projection of the first point. *)
Theorem C56_lambert : forall m lm pl fuel d a b x0 y0 (ll : Z -> f64 * f64),
  0 <= la_ni d < 2 ^ 32 -> 0 <= la_nj d < 2 ^ 32 -> 0 < row_len (la_ni d) (la_nj d) (la_mode d) -> la_ni d * la_nj d < Z.of_nat fuel ->
  0 <= la_dx d < 2 ^ 32 -> 0 <= la_dy d < 2 ^ 32 ->
  radii lm (la_earth d) = Some (a, b) -> ~ low_flag (la_mode d) ->
  let def := Lcc a b (micro (la_lad d)) (micro (la_lov d)) (micro (la_latin1 d)) (micro (la_latin2 d)) in
  pointwise pl def ->
  project pl def (f64_to_radians (micro (la_lon1 d)), f64_to_radians (micro (la_lat1 d))) false = Some (x0, y0) ->
  (forall k, 0 <= k < la_ni d * la_nj d ->
    project pl def (plane x0 y0 (grid_step (negb (flag 1 (la_mode d))) (la_dx d)) (grid_step (flag 2 (la_mode d)) (la_dy d))
      (scan_ij (la_ni d) (la_nj d) (la_mode d) k)) true = Some (ll k)) ->
  exists r, lambert_latlons m lm pl fuel d = Ret (Ok r) /\ zlen r = la_ni d * la_nj d /\
    forall k, 0 <= k < la_ni d * la_nj d -> nth_error r (Z.to_nat k) = Some (in_degrees (ll k)).
Proof. exact ProjX.lambert_points. Qed.
Print Assumptions C56_lambert.

Theorem C56_polar_stereographic : forall m lm pl fuel d a b x0 y0 (ll : Z -> f64 * f64),
  0 <= po_ni d < 2 ^ 32 -> 0 <= po_nj d < 2 ^ 32 -> 0 < row_len (po_ni d) (po_nj d) (po_mode d) -> po_ni d * po_nj d < Z.of_nat fuel ->
  0 <= po_dx d < 2 ^ 32 -> 0 <= po_dy d < 2 ^ 32 ->
  radii lm (po_earth d) = Some (a, b) -> ~ low_flag (po_mode d) -> po_centre d = 0 \/ po_centre d = 128 ->
  let def := Stere a b (micro (po_lad d)) (f64_of_Z (if po_centre d =? 0 then 90 else -90)) (micro (po_lov d)) in
  pointwise pl def ->
  project pl def (f64_to_radians (micro (po_lon1 d)), f64_to_radians (micro (po_lat1 d))) false = Some (x0, y0) ->
  (forall k, 0 <= k < po_ni d * po_nj d ->
    project pl def (plane x0 y0 (grid_step (negb (flag 1 (po_mode d))) (po_dx d)) (grid_step (flag 2 (po_mode d)) (po_dy d))
      (scan_ij (po_ni d) (po_nj d) (po_mode d) k)) true = Some (ll k)) ->
  exists r, polar_latlons m lm pl fuel d = Ret (Ok r) /\ zlen r = po_ni d * po_nj d /\
    forall k, 0 <= k < po_ni d * po_nj d -> nth_error r (Z.to_nat k) = Some (in_degrees (ll k)).
Proof. exact ProjX.polar_points. Qed.
Print Assumptions C56_polar_stereographic.

(** A projection library for which the plane is the sphere. *)
Definition flat : proj_lib := MkProj (fun _ p _ => Some p) (fun _ l _ => Some l).
Example C56_ex_pointwise : forall def, pointwise flat def.
Proof.
  intros def l r H. cbn. f_equal. revert r H. induction l as [|a l IH]; intros [|b r] H; [reflexivity|specialize (H O); discriminate H..|].
  pose proof (H O) as H0. cbn in H0. injection H0 as ->. f_equal. apply IH. intro k. exact (H (S k)).
Qed.
Definition ex_la : lambert := MkLambert (MkEarth 6 0 0 0 0 0 0) 2 2 0 0 0 0 1000 2000 0 30000000 60000000.
Example C56_ex :
  match lambert_latlons Checked lm0 flat 9 ex_la with
  | Ret (Ok l) => l = map in_degrees (map (fun '(a, b) => (f64_of_Z a, f64_of_Z b)) [(0, 0); (1, 0); (0, -2); (1, -2)])
  | _ => False
  end.
Proof. vm_compute. reflexivity. Qed.

(** C57: the figures of the Earth that the shape alone determines. *)
Theorem C57_shapes : forall lm e a b, wmo_earth (shape e) = Some (a, b) ->
  exists x y, radii lm e = Some (x, y) /\ finite x /\ finite y /\ val x = a /\ (Rabs (val y - b) <= 1 / 1000000000)%R.
Proof. exact ProjX.earth_shapes. Qed.
Print Assumptions C57_shapes.
(** C57: lengths given with the scale factor 0. *)
Theorem C57_unscaled_radius : forall lm e, powf lm (f64_of_Z 10) (f64_of_Z 0) = f64_of_Z 1 -> shape e = 1 -> radius_scale e = 0 -> 0 <= radius_value e < 2 ^ 32 ->
  exists x, radii lm e = Some (x, x) /\ finite x /\ val x = scaled_value (radius_value e) (radius_scale e).
Proof. exact ProjX.earth_unscaled. Qed.
Print Assumptions C57_unscaled_radius.
Theorem C57_unscaled_axes : forall lm e, powf lm (f64_of_Z 10) (f64_of_Z 0) = f64_of_Z 1 -> shape e = 7 -> major_scale e = 0 -> minor_scale e = 0 ->
  0 <= major_value e < 2 ^ 32 -> 0 <= minor_value e < 2 ^ 32 ->
  exists x y, radii lm e = Some (x, y) /\ finite x /\ finite y /\ val x = scaled_value (major_value e) 0 /\ val y = scaled_value (minor_value e) 0.
Proof. exact ProjX.earth_axes_unscaled. Qed.
Print Assumptions C57_unscaled_axes.
(** C57: other scale factors are applied with the wrong sign: a radius of 6371229 m given
    in decimetres becomes 637122900 m. *)
Theorem C57_scaled_wrong : forall lm, powf lm (f64_of_Z 10) (f64_of_Z 1) = f64_of_Z 10 ->
  exists x, radii lm (MkEarth 1 1 63712290 0 0 0 0) = Some (x, x) /\ scaled_value 63712290 1 = 6371229%R /\ val x = (6371229 * 100)%R.
Proof. exact ProjX.earth_scaled. Qed.
Print Assumptions C57_scaled_wrong.
Example C57_ex : wmo_earth 6 = Some (6371229, 6371229)%R /\
  (exists lm, powf lm (f64_of_Z 10) (f64_of_Z 0) = f64_of_Z 1 /\ powf lm (f64_of_Z 10) (f64_of_Z 1) = f64_of_Z 10).
Proof.
  split; [reflexivity|]. exists (MkLibm (fun x => x) (fun x => x) (fun x y => match y with S754_zero _ => f64_of_Z 1 | _ => x end)).
  vm_compute. split; reflexivity.
Qed.

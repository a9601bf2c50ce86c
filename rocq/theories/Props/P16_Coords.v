(** Property theorem C76: coordinates from the octets of section 3. *)
From Coq Require Import Lia Floats.SpecFloat.
From Verif Require Import Model.Base Model.Errors Model.F32 Model.F64 Model.Grid Model.Gaussian Model.Proj.
From Verif Require Import Spec.ReaderS Spec.FloatS Spec.FieldsS Spec.GridS Spec.CoordsS Spec.GaussS Spec.ProjS.
From Verif Require Proofs.CoordsX.
From Verif Require Props.P09_Grid.
Open Scope Z_scope.

(** C76: a section 3 with a latitude/longitude grid of as many points as it declares: the
    coordinates, in scanning order (NaN along a direction with a single point, C36). *)
Theorem C76_latlon : forall m lm pl fuel p, grid_complete p -> grid_template p = 0 ->
  let d := latlon_fields p in
  field p 7 10 = ll_ni d * ll_nj d -> 0 < field p 7 10 ->
  Z.abs (ll_lat1 d) <= 90000000 -> Z.abs (ll_lat2 d) <= 90000000 -> Z.abs (ll_lon1 d) <= 360000000 -> Z.abs (ll_lon2 d) <= 360000000 ->
  ~ low_flag (ll_mode d) ->
  if eqb (ll_lat1 d <? ll_lat2 d) (flag 2 (ll_mode d)) then
    exists it l, sub_latlons m lm pl fuel p = Ret (Ok it) /\ Run (points_iter m it) l End /\ zlen l = field p 7 10 /\
    forall k, 0 <= k < field p 7 10 -> exists lat lon,
      nth_error l (Z.to_nat k) = Some (lat, lon) /\
      let '(i, j) := scan_ij (ll_ni d) (ll_nj d) (ll_mode d) k in
      lat_any (ll_lat1 d) (ll_lat2 d) (ll_nj d) j lat /\
      lon_any (ll_lon1 d) (ll_lon2 d) (ll_ni d) (ll_mode d) i lon
  else sub_latlons m lm pl fuel p = Ret (Err InvalidValueError).
Proof. exact CoordsX.latlon_octets. Qed.
Print Assumptions C76_latlon.
(** Five columns, two rows, from 43 N 140 E. *)
Definition ex_0 (mode : Z) : list byte := P09_Grid.bytes
  ([0; 0; 0; 0; 10; 0; 0; 0; 0] ++ repeat 0 16 ++ [0; 0; 0; 5; 0; 0; 0; 2] ++ repeat 0 8 ++ [2; 144; 32; 192; 8; 88; 59; 0; 0; 2; 142; 154; 32; 8; 103; 125; 64] ++ repeat 0 8 ++ [mode]).
Example C76_latlon_ex : grid_complete (ex_0 0) /\ grid_template (ex_0 0) = 0 /\
  latlon_fields (ex_0 0) = MkLatlon 5 2 43000000 140000000 42900000 141000000 0 /\ field (ex_0 0) 7 10 = 10 /\
  sub_latlons Checked P09_Grid.lm0 None 9 (ex_0 64) = Ret (Err InvalidValueError).
Proof. unfold grid_complete, reaches. vm_compute. repeat split; intuition congruence. Qed.

(** C76: a Gaussian grid. *)
Theorem C76_gaussian : forall m lm pl fuel p, grid_complete p -> grid_template p = 40 ->
  let d := gaussian_fields p in
  field p 7 10 = ga_ni d * ga_nj d -> 0 < field p 7 10 -> ga_nj d <= cube_limit ->
  Z.abs (ga_lat1 d) <= 90000000 -> Z.abs (ga_lat2 d) <= 90000000 -> Z.abs (ga_lon1 d) <= 360000000 -> Z.abs (ga_lon2 d) <= 360000000 ->
  ~ low_flag (ga_mode d) ->
  let step := newton_step (Z.to_nat (ga_nj d)) in
  let guess := first_guess lm (ga_nj d) in
  if eqb (ga_lat1 d <? ga_lat2 d) (flag 2 (ga_mode d)) then
    (exists it l, sub_latlons m lm pl fuel p = Ret (Ok it) /\ Run (points_iter m it) l End /\ zlen l = field p 7 10 /\
      forall k, 0 <= k < field p 7 10 -> exists x lon,
        let '(i, j) := scan_ij (ga_ni d) (ga_nj d) (ga_mode d) k in
        nth_error l (Z.to_nat k) = Some (f64_to_f32 (f64_to_degrees (asin lm x)), lon) /\
        root_found step (guess (gauss_row (ga_nj d) (ga_mode d) j)) x /\
        lon_any (ga_lon1 d) (ga_lon2 d) (ga_ni d) (ga_mode d) i lon) \/
    (sub_latlons m lm pl fuel p = Ret (Err Unknown) /\ exists j, 0 <= j < ga_nj d /\ root_missed step (guess j))
  else sub_latlons m lm pl fuel p = Ret (Err InvalidValueError).
Proof. exact CoordsX.gaussian_octets. Qed.
Print Assumptions C76_gaussian.
Definition ex_40 : list byte := P09_Grid.bytes
  ([0; 0; 0; 0; 4; 0; 0; 0; 40] ++ repeat 0 16 ++ [0; 0; 0; 2; 0; 0; 0; 2] ++ repeat 0 8 ++ [2; 22; 14; 192; 0; 0; 0; 0; 0; 130; 22; 14; 192; 5; 93; 74; 128] ++ repeat 0 8 ++ [0]).
Example C76_gaussian_ex : grid_complete ex_40 /\ grid_template ex_40 = 40 /\
  gaussian_fields ex_40 = MkGaussian 2 2 35000000 0 (-35000000) 90000000 0 0 0 /\ field ex_40 7 10 = 4 /\
  match sub_latlons Checked P09_Grid.lm0 None 9 ex_40 with Ret (Ok it) => match collect 9 (points_iter Checked it) with Ret l => zlen l = 4 | _ => False end | _ => False end.
Proof. unfold grid_complete, reaches. vm_compute. repeat split; intuition congruence. Qed.

(** C76: projected grids. *)
Theorem C76_lambert : forall m lm pl fuel p a b x0 y0 (ll : Z -> f64 * f64), grid_complete p -> grid_template p = 30 ->
  let d := lambert_fields p in let n := la_ni d * la_nj d in
  field p 7 10 = n -> 0 < n < Z.of_nat fuel ->
  radii lm (la_earth d) = Some (a, b) -> ~ low_flag (la_mode d) ->
  let def := Lcc a b (micro (la_lad d)) (micro (la_lov d)) (micro (la_latin1 d)) (micro (la_latin2 d)) in
  pointwise pl def ->
  project pl def (f64_to_radians (micro (la_lon1 d)), f64_to_radians (micro (la_lat1 d))) false = Some (x0, y0) ->
  (forall k, 0 <= k < n ->
    project pl def (plane x0 y0 (grid_step (negb (flag 1 (la_mode d))) (la_dx d)) (grid_step (flag 2 (la_mode d)) (la_dy d))
      (scan_ij (la_ni d) (la_nj d) (la_mode d) k)) true = Some (ll k)) ->
  exists it l, sub_latlons m lm (Some pl) fuel p = Ret (Ok it) /\ Run (points_iter m it) l End /\ zlen l = n /\
    forall k, 0 <= k < n -> nth_error l (Z.to_nat k) = Some (in_degrees (ll k)).
Proof. exact CoordsX.lambert_octets. Qed.
Print Assumptions C76_lambert.
Theorem C76_polar_stereographic : forall m lm pl fuel p a b x0 y0 (ll : Z -> f64 * f64), grid_complete p -> grid_template p = 20 ->
  let d := polar_fields p in let n := po_ni d * po_nj d in
  field p 7 10 = n -> 0 < n < Z.of_nat fuel ->
  radii lm (po_earth d) = Some (a, b) -> ~ low_flag (po_mode d) -> po_centre d = 0 \/ po_centre d = 128 ->
  let def := Stere a b (micro (po_lad d)) (f64_of_Z (if po_centre d =? 0 then 90 else -90)) (micro (po_lov d)) in
  pointwise pl def ->
  project pl def (f64_to_radians (micro (po_lon1 d)), f64_to_radians (micro (po_lat1 d))) false = Some (x0, y0) ->
  (forall k, 0 <= k < n ->
    project pl def (plane x0 y0 (grid_step (negb (flag 1 (po_mode d))) (po_dx d)) (grid_step (flag 2 (po_mode d)) (po_dy d))
      (scan_ij (po_ni d) (po_nj d) (po_mode d) k)) true = Some (ll k)) ->
  exists it l, sub_latlons m lm (Some pl) fuel p = Ret (Ok it) /\ Run (points_iter m it) l End /\ zlen l = n /\
    forall k, 0 <= k < n -> nth_error l (Z.to_nat k) = Some (in_degrees (ll k)).
Proof. exact CoordsX.polar_octets. Qed.
Print Assumptions C76_polar_stereographic.
Definition ex_plane (t : Z) : list byte := P09_Grid.bytes
  ([0; 0; 0; 0; 4; 0; 0; 0; t] ++ [6] ++ repeat 0 15 ++ [0; 0; 0; 2; 0; 0; 0; 2] ++ repeat 0 17 ++ [0; 0; 3; 232; 0; 0; 7; 208; 0; 0] ++ repeat 0 8).
Example C76_plane_ex : grid_complete (ex_plane 20) /\ grid_complete (ex_plane 30) /\ field (ex_plane 20) 7 10 = 4 /\
  po_earth (polar_fields (ex_plane 20)) = MkEarth 6 0 0 0 0 0 0 /\ la_earth (lambert_fields (ex_plane 30)) = MkEarth 6 0 0 0 0 0 0 /\
  (forall t, t = 20 \/ t = 30 -> match sub_latlons Checked P09_Grid.lm0 (Some P09_Grid.flat) 9 (ex_plane t) with
     | Ret (Ok it) => collect 9 (points_iter Checked it) = Ret (map in_degrees (map (fun '(a, b) => (f64_of_Z a, f64_of_Z b)) [(0, 0); (1, 0); (0, -2); (1, -2)]))
     | _ => False end).
Proof. unfold grid_complete, reaches. split; [|split; [|split; [|split; [|split]]]]; [vm_compute; intuition congruence..|]. intros t [->| ->]; vm_compute; reflexivity. Qed.

(** C76: without the projection library. *)
Theorem C76_no_library : forall m lm fuel p, grid_complete p ->
  (grid_template p = 20 \/ grid_template p = 30 -> sub_latlons m lm None fuel p = Ret (Err NotSupported)) /\
  (grid_template p = 0 \/ grid_template p = 40 -> forall pl, sub_latlons m lm pl fuel p = sub_latlons m lm None fuel p).
Proof. exact CoordsX.no_library. Qed.
Print Assumptions C76_no_library.
Example C76_no_library_ex : sub_latlons Checked P09_Grid.lm0 None 9 (ex_plane 30) = Ret (Err NotSupported).
Proof. vm_compute. reflexivity. Qed.

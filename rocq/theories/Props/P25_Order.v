(** Property theorem C86: the order of the coordinates of latitude/longitude grids. *)
From Coq Require Import Lia Reals Floats.SpecFloat.
From Flocq Require Import Core.Core IEEE754.BinarySingleNaN.
From Verif Require Import Model.Base Model.Errors Model.F32 Model.Grid.
From Verif Require Import Spec.FloatS Spec.GridS Spec.CoordsS Spec.OrderS.
From Verif Require Proofs.OrderX.
Open Scope Z_scope.

(** C86: latitudes run in the direction flag 2 names from row to row, strictly if
    rows are 0.0003 degrees apart, and row 0 has the first latitude of the template
    (rounded to [f32] twice, as a [degrees] of it is); longitudes run in the direction
    flag 1 names from column to column, but for one jump of 360 degrees, and without
    any if going from the first to the last longitude does not cross a meridian of
    360 degrees.  All of it after rounding. *)
Theorem C86_order : forall m d r l, 2 <= ll_ni d < 2 ^ 32 -> 2 <= ll_nj d < 2 ^ 32 ->
  Z.abs (ll_lat1 d) <= 90000000 -> Z.abs (ll_lat2 d) <= 90000000 -> Z.abs (ll_lon1 d) <= 360000000 -> Z.abs (ll_lon2 d) <= 360000000 ->
  ll_lon1 d <> ll_lon2 d -> (crosses (ll_lon1 d) (ll_lon2 d) (ll_mode d) = true -> Z.abs (ll_lon1 d - ll_lon2 d) <= 359999800) ->
  latlon_latlons m d = Ret (Ok r) -> Run (regular_iter m r) l End ->
  exists t, 0 <= t <= ll_ni d /\ (crosses (ll_lon1 d) (ll_lon2 d) (ll_mode d) = false -> t = 0) /\
  forall k k' lat lon lat' lon', nth_error l k = Some (lat, lon) -> nth_error l k' = Some (lat', lon') ->
  let '(i, j) := scan_ij (ll_ni d) (ll_nj d) (ll_mode d) (Z.of_nat k) in
  let '(i', j') := scan_ij (ll_ni d) (ll_nj d) (ll_mode d) (Z.of_nat k') in
  (j <= j' -> ordered (flag 2 (ll_mode d)) lat lat') /\
  (j < j' -> 300 * (ll_nj d - 1) <= Z.abs (ll_lat2 d - ll_lat1 d) -> apart (flag 2 (ll_mode d)) lat lat') /\
  (j = 0 -> val lat = rnd32 (rnd32 (IZR (ll_lat1 d)) / 1000000)) /\
  (i <= i' -> i' < t \/ t <= i -> ordered (negb (flag 1 (ll_mode d))) lon lon').
Proof. exact OrderX.grid_order. Qed.
Print Assumptions C86_order.

Definition ex_points (d : latlon) : outcome (result (list (f32 * f32)) grib_error) :=
  match latlon_latlons Checked d with
  | Ret (Ok r) => match collect 60 (regular_iter Checked r) with Ret l => Ret (Ok l) | Panic => Panic | Diverge => Diverge end
  | Ret (Err e) => Ret (Err e)
  | Panic => Panic
  | Diverge => Diverge
  end.
Definition pick (x : outcome (result (list (f32 * f32)) grib_error)) (k : nat) : f32 * f32 :=
  match x with Ret (Ok l) => nth k l (f32_nan, f32_nan) | _ => (f32_nan, f32_nan) end.

(** Three columns from 350 E to 10 E, three rows from 60 N to 60 S: the columns are at
    350, 0 and 10 degrees, so the jump is at column 1. *)
Example C86_ex : let d := MkLatlon 3 3 60000000 350000000 (-60000000) 10000000 0 in
  crosses (ll_lon1 d) (ll_lon2 d) (ll_mode d) = true /\ Z.abs (ll_lon1 d - ll_lon2 d) <= 359999800 /\
  300 * (ll_nj d - 1) <= Z.abs (ll_lat2 d - ll_lat1 d) /\
  map (fun k => pick (ex_points d) k) [0%nat; 1%nat; 2%nat; 8%nat] =
    [(f32_of_Z 60, f32_of_Z 350); (f32_of_Z 60, f32_of_Z 0); (f32_of_Z 60, f32_of_Z 10); (f32_of_Z (-60), f32_of_Z 10)].
Proof. split; [reflexivity|]. split; [cbn; lia|]. split; [cbn; lia|]. vm_compute. reflexivity. Qed.

(** Finding: coordinates can leave the range the template names.  22 rows from pole to
    pole end beyond the north pole, at 90.00001525878906 degrees. *)
Example C86_beyond_the_pole : let d := MkLatlon 2 22 (-90000000) 0 90000000 10000000 0x40 in
  f32_ltb (f32_of_Z 90) (fst (pick (ex_points d) 43)) = true /\ f32_ltb (fst (pick (ex_points d) 0)) (fst (pick (ex_points d) 43)) = true.
Proof. vm_compute. split; reflexivity. Qed.

(** Finding: rows a microdegree apart are given the same latitude. *)
Example C86_coincide : let d := MkLatlon 2 3 80000002 0 80000000 10000000 0 in
  pick (ex_points d) 0 = pick (ex_points d) 2 /\ fst (pick (ex_points d) 0) = fst (pick (ex_points d) 4).
Proof. vm_compute. split; reflexivity. Qed.

(** Finding: if both longitudes are the same and columns run eastward, the columns of
    the grid are spaced over a whole turn, westward; if they run westward, all columns
    are the same. *)
Example C86_same_longitude :
  map (fun k => snd (pick (ex_points (MkLatlon 5 2 60000000 20000000 0 20000000 0)) k)) [0%nat; 1%nat; 2%nat; 3%nat; 4%nat] =
    map f32_of_Z [20; 290; 200; 110; 20] /\
  map (fun k => snd (pick (ex_points (MkLatlon 5 2 60000000 20000000 0 20000000 0x80)) k)) [0%nat; 1%nat; 2%nat; 3%nat; 4%nat] =
    map f32_of_Z [20; 20; 20; 20; 20].
Proof. vm_compute. split; reflexivity. Qed.

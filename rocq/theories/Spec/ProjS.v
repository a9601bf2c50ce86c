(** Projected grids and the figure of the Earth. *)
From Coq Require Import Reals Floats.SpecFloat.
From Verif Require Import Model.Base Model.Errors Model.F32 Model.F64 Model.Grid Model.Proj Spec.FloatS Spec.GridS.

(** Grid length [x] (10^-3 m) along an axis; flags 1 and 2 say which way the points scan. *)
Definition grid_step (forward : bool) (x : Z) : f64 :=
  if forward then milli x else if x =? 0 then f64_of_Z 0 else f64_neg (milli x).
(** Position on the plane of point [(i, j)], counted from the first point at [(x0, y0)]. *)
Definition plane (x0 y0 dx dy : f64) (ij : Z * Z) : f64 * f64 :=
  (f64_add x0 (f64_mul dx (f64_of_Z (fst ij))), f64_add y0 (f64_mul dy (f64_of_Z (snd ij)))).
(** From (longitude, latitude) in radians to (latitude, longitude) in degrees. *)
Definition in_degrees (lonlat : f64 * f64) : f32 * f32 :=
  (f64_to_f32 (f64_to_degrees (snd lonlat)), f64_to_f32 (f64_to_degrees (fst lonlat))).

(** The library converts an array as it converts single points. *)
Definition pointwise (pl : proj_lib) (def : proj_def) : Prop :=
  forall l r, (forall k, nth_error (map (fun x => project pl def x true) l) k = option_map Some (nth_error r k)) ->
  project_array pl def l true = Some r.

(** Code table 3.2, where the shape alone determines the Earth: axes in metres. *)
Definition wmo_earth (shape : Z) : option (R * R) :=
  match shape with
  | 0 => Some (6367470, 6367470)%R
  | 2 => Some (6378160, 6356775)%R
  | 4 => Some (6378137, 6356752314 / 1000)%R
  | 5 => Some (6378137, 63567523142 / 10000)%R
  | 6 => Some (6371229, 6371229)%R
  | 8 => Some (6371200, 6371200)%R
  | _ => None
  end.
(** A scaled value: [value * 10^-scale]. *)
Definition scaled_value (value scale : Z) : R := (IZR value / powerRZ 10 scale)%R.

(** Model of the coordinates of projected grids: /repo/src/grid/{earth,lambert,
    polar_stereographic}.rs and src/grid/helpers.rs:75-110 (Cargo feature
    gridpoints-proj).  The C library PROJ is a parameter about which nothing is assumed;
    the definition string handed to it is a record of its parts. *)
From Coq Require Import Floats.SpecFloat.
From Verif Require Import Model.Base Model.Helpers Model.Errors Model.F32 Model.F64 Model.Grid Model.Gaussian.

(** src/grid/earth.rs:15-47 [radii].  The decimal literals are binary64 constants:
    [q n d] is the binary64 number nearest to [n / d]. *)
Definition q (n d : Z) : f64 := f64_div (f64_of_Z n) (f64_of_Z d).
Definition scaled (lm : libm) (value scale : Z) : f64 :=
  f64_mul (f64_of_Z value) (powf lm (f64_of_Z 10) (f64_of_Z scale)).
Definition radii (lm : libm) (e : earth) : option (f64 * f64) :=
  let defined := (scaled lm (major_value e) (major_scale e), scaled lm (minor_value e) (minor_scale e)) in
  match shape e with
  | 0 => Some (f64_of_Z 6367470, f64_of_Z 6367470)
  | 1 => let r := scaled lm (radius_value e) (radius_scale e) in Some (r, r)
  | 2 => Some (f64_of_Z 6378160, f64_of_Z 6356775)
  | 3 => Some (f64_mul (fst defined) (f64_of_Z 1000), f64_mul (snd defined) (f64_of_Z 1000))
  | 4 => Some (f64_of_Z 6378137, q 6356752314 1000)
  | 5 => Some (f64_of_Z 6378137, q 63567523142 10000)
  | 6 => Some (f64_of_Z 6371229, f64_of_Z 6371229)
  | 7 => Some defined
  | 8 => Some (f64_of_Z 6371200, f64_of_Z 6371200)
  | _ => None
  end.

(** The definition strings of src/grid/lambert.rs:132-134 and
    src/grid/polar_stereographic.rs:142-143. *)
Inductive proj_def :=
| Lcc (a b lat_0 lon_0 lat_1 lat_2 : f64)
| Stere (a b lat_ts lat_0 lon_0 : f64).

(** [Proj::new] then [project] / [project_array] of the proj crate; [None] for an error.
    The last argument is [inverse]. *)
Record proj_lib := MkProj {
  project : proj_def -> f64 * f64 -> bool -> option (f64 * f64);
  project_array : proj_def -> list (f64 * f64) -> bool -> option (list (f64 * f64))
}.

(** src/grid/helpers.rs:75-110; [l] are the items of the index iterator. *)
Definition latlons_from_projection (pl : proj_lib) (def : proj_def) (lat lon dx dy : f64) (l : list (Z * Z))
  : result (list (f32 * f32)) grib_error :=
  match project pl def (f64_to_radians lon, f64_to_radians lat) false with
  | None => Err Unknown
  | Some (x0, y0) =>
      let xy := map (fun '(i, j) => (f64_add x0 (f64_mul dx (f64_of_Z i)), f64_add y0 (f64_mul dy (f64_of_Z j)))) l in
      match project_array pl def xy true with
      | None => Err Unknown
      | Some lonlat => Ok (map (fun '(lon, lat) => (f64_to_f32 (f64_to_degrees lat), f64_to_f32 (f64_to_degrees lon))) lonlat)
      end
  end.

(** [1e-6] and [1e-3]. *)
Definition micro (x : Z) : f64 := f64_mul (f64_of_Z x) (q 1 1000000).
Definition milli (x : Z) : f64 := f64_mul (f64_of_Z x) (q 1 1000).

(** src/grid/lambert.rs:136-147, src/grid/polar_stereographic.rs:145-156. *)
Definition signed_step (positive : bool) (x : Z) : f64 :=
  let d := milli x in
  if negb positive && f64_ltb (f64_of_Z 0) d then f64_neg d else d.

(** Collecting the index iterator; [fuel] bounds its length. *)
Definition all_ij (m : mode) (fuel : nat) (g : gpi) : outcome (list (Z * Z)) := collect fuel (gpi_iter m g).

(** src/grid/lambert.rs:121-158 [latlons]. *)
Definition lambert_latlons (m : mode) (lm : libm) (pl : proj_lib) (fuel : nat) (d : lambert) : outcome (result (list (f32 * f32)) grib_error) :=
  match radii lm (la_earth d) with
  | None => Ret (Err NotSupported)
  | Some (a, b) =>
      let def := Lcc a b (micro (la_lad d)) (micro (la_lov d)) (micro (la_latin1 d)) (micro (la_latin2 d)) in
      match ij_of (la_ni d) (la_nj d) (la_mode d) with
      | Err e => Ret (Err e)
      | Ok ij =>
          let! l := all_ij m fuel ij in
          Ret (latlons_from_projection pl def (micro (la_lat1 d)) (micro (la_lon1 d))
                 (signed_step (scans_positively_for_i (la_mode d)) (la_dx d))
                 (signed_step (scans_positively_for_j (la_mode d)) (la_dy d)) l)
      end
  end.

(** src/grid/polar_stereographic.rs:119-167 [latlons]. *)
Definition polar_latlons (m : mode) (lm : libm) (pl : proj_lib) (fuel : nat) (d : polar) : outcome (result (list (f32 * f32)) grib_error) :=
  match radii lm (po_earth d) with
  | None => Ret (Err NotSupported)
  | Some (a, b) =>
      if centre_has_unsupported_flags (po_centre d) then Ret (Err NotSupported)
      else
        let lat_origin := if contains_north_pole (po_centre d) then f64_of_Z 90 else f64_of_Z (-90) in
        let def := Stere a b (micro (po_lad d)) lat_origin (micro (po_lov d)) in
        match ij_of (po_ni d) (po_nj d) (po_mode d) with
        | Err e => Ret (Err e)
        | Ok ij =>
            let! l := all_ij m fuel ij in
            Ret (latlons_from_projection pl def (micro (po_lat1 d)) (micro (po_lon1 d))
                   (signed_step (scans_positively_for_i (po_mode d)) (po_dx d))
                   (signed_step (scans_positively_for_j (po_mode d)) (po_dy d)) l)
        end
  end.

(** src/grid.rs:19-40 [GridPointIterator]. *)
Inductive points := PLatLon (r : regular) | PVec (l : list (f32 * f32)).
Definition points_next (m : mode) (p : points) : outcome (option (f32 * f32) * points) :=
  match p with
  | PLatLon r => let! x := regular_next m r in let '(o, r') := x in Ret (o, PLatLon r')
  | PVec [] => Ret (None, PVec [])
  | PVec (a :: l) => Ret (Some a, PVec l)
  end.
Definition points_size (m : mode) (p : points) : outcome Z :=
  match p with PLatLon r => regular_size m r | PVec l => Ret (zlen l) end.
Definition points_iter (m : mode) (p : points) : iter (f32 * f32) := MkIter points p (points_next m).

(** src/datatypes/sections.rs:244-261 [latlons]; [pl = None]: built without the feature. *)
Definition grid_latlons (m : mode) (lm : libm) (pl : option proj_lib) (fuel : nat) (g : grid) : outcome (result points grib_error) :=
  match g, pl with
  | Template0 d, _ => try! r := latlon_latlons m d in Ret (Ok (PLatLon r))
  | Template20 d, Some pl => try! l := polar_latlons m lm pl fuel d in Ret (Ok (PVec l))
  | Template30 d, Some pl => try! l := lambert_latlons m lm pl fuel d in Ret (Ok (PVec l))
  | Template40 d, _ => try! r := gaussian_latlons m lm d in Ret (Ok (PLatLon r))
  | _, None => Ret (Err NotSupported)
  end.

(** src/context.rs:670-682 [SubMessage::latlons], on the payload of section 3. *)
Definition sub_latlons (m : mode) (lm : libm) (pl : option proj_lib) (fuel : nat) (p : list byte) : outcome (result points grib_error) :=
  let! num_defined := read_u32 p 1 in
  try! g := grid_of_payload m p in
  try! l := grid_latlons m lm pl fuel g in
  let! num_decoded := points_size m l in
  if num_defined =? num_decoded then Ret (Ok l) else Ret (Err InvalidValueError).

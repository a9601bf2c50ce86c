(** Model of the grid points of /repo/src/grid and /repo/src/context.rs on a target whose [usize] has
    another number of bits than 64 (Model/Grid.v, Gaussian.v and Proj.v with the type [u] of the
    target in the place of [usize]). *)
From Coq Require Import Floats.SpecFloat.
From Verif Require Import Model.Base Model.Helpers Model.Errors Model.F32 Model.F64 Model.Grid Model.Gaussian Model.Proj.

(** src/grid.rs:80-105 [next]. *)
Definition wgpi_next (u : ity) (m : mode) (g : gpi) : outcome (option (Z * Z) * gpi) :=
  if major_pos g =? major_len g then Ret (None, g)
  else
    let! minor :=
      if increments g then Ret (minor_pos g)
      else let! x := arith m u (minor_len g - minor_pos g) in arith m u (x - 1) in
    let major := major_pos g in
    let! mp := arith m u (minor_pos g + 1) in
    let! g' :=
      if mp =? minor_len g then
        let! jp := arith m u (major_pos g + 1) in
        Ret (MkGpi (major_len g) (minor_len g) (gmode g) jp 0
               (if scans_alternating_rows (gmode g) then negb (increments g) else increments g))
      else Ret (MkGpi (major_len g) (minor_len g) (gmode g) (major_pos g) mp (increments g)) in
    Ret (Some (if is_consecutive_for_i (gmode g) then (minor, major) else (major, minor)), g').
Definition wgpi_iter (u : ity) (m : mode) (g : gpi) : iter (Z * Z) := MkIter gpi g (wgpi_next u m).

(** src/grid.rs:107-110 [size_hint]. *)
Definition wgpi_size (u : ity) (m : mode) (g : gpi) : outcome Z :=
  let! a := arith m u (major_len g - major_pos g) in
  let! b := arith m u (a * minor_len g) in
  arith m u (b - minor_pos g).

(** src/grid/helpers.rs:48-73 [RegularGridIterator]. *)
Definition wregular_next (u : ity) (m : mode) (r : regular) : outcome (option (f32 * f32) * regular) :=
  let! x := wgpi_next u m (rg_ij r) in
  let '(o, g) := x in
  let r' := MkRegular (rg_lat r) (rg_lon r) g in
  match o with
  | None => Ret (None, r')
  | Some (i, j) =>
      let! lat := index (rg_lat r) j in
      let! lon := index (rg_lon r) i in
      Ret (Some (lat, lon), r')
  end.

(** src/grid/gaussian.rs:157-168 [legendre_roots_iterator].  [4 * i + 3], [4 * n + 2] and [2 * k - 1]
    are not checked here: exact for less than a quarter of the numbers of [u]. *)
Definition wlegendre_roots (u : ity) (m : mode) (lm : libm) (n : Z) : outcome (list (option f64)) :=
  let! a := arith m u (8 * n) in
  let! b := arith m u (a * n) in
  let! a' := arith m u (8 * n) in
  let! b' := arith m u (a' * n) in
  let! c := arith m u (b' * n) in
  let coeff := f64_add (f64_sub (f64_of_Z 1) (f64_div (f64_of_Z 1) (f64_of_Z b))) (f64_div (f64_of_Z 1) (f64_of_Z c)) in
  Ret (map (fun i => find_root (legendre_guess lm n coeff (Z.of_nat i)) (legendre_step f64_ops n)) (seq 0 (Z.to_nat n))).
(** src/grid/gaussian.rs:143-145 [compute_gaussian_latitudes] and 114-119
    [compute_gaussian_latitudes_in_degrees]. *)
Definition wgaussian_degrees (u : ity) (m : mode) (lm : libm) (div : Z) : outcome (option (list f64)) :=
  let! l := wlegendre_roots u m lm div in
  Ret (all_some (map (option_map f64_to_degrees) (map (option_map (asin lm)) l))).
(** src/grid/gaussian.rs:59-83 [GaussianGridDefinition::latlons]. *)
Definition wgaussian_latlons (u : ity) (m : mode) (lm : libm) (d : gaussian) : outcome (result regular grib_error) :=
  let! c := is_consistent_for_j m (ga_lat1 d) (ga_lat2 d) (ga_mode d) in
  if negb c then Ret (Err InvalidValueError)
  else
    match ij_of (ga_ni d) (ga_nj d) (ga_mode d) with
    | Err e => Ret (Err e)
    | Ok ij =>
        let! l := wgaussian_degrees u m lm (ga_nj d) in
        match l with
        | None => Ret (Err Unknown)
        | Some l =>
            let l := if scans_positively_for_j (ga_mode d) then rev l else l in
            let lat := map f64_to_f32 l in
            let! ni1 := arith m U32 (ga_ni d - 1) in
            let! lon := evenly_spaced_longitudes m (ga_lon1 d) (ga_lon2 d) ni1 (ga_mode d) in
            Ret (Ok (MkRegular lat lon ij))
        end
    end.

(** src/grid/lambert.rs:121-158 [latlons]. *)
Definition wlambert_latlons (u : ity) (m : mode) (lm : libm) (pl : proj_lib) (fuel : nat) (d : lambert) : outcome (result (list (f32 * f32)) grib_error) :=
  match radii lm (la_earth d) with
  | None => Ret (Err NotSupported)
  | Some (a, b) =>
      let def := Lcc a b (micro (la_lad d)) (micro (la_lov d)) (micro (la_latin1 d)) (micro (la_latin2 d)) in
      match ij_of (la_ni d) (la_nj d) (la_mode d) with
      | Err e => Ret (Err e)
      | Ok ij =>
          let! l := collect fuel (wgpi_iter u m ij) in
          Ret (latlons_from_projection pl def (micro (la_lat1 d)) (micro (la_lon1 d))
                 (signed_step (scans_positively_for_i (la_mode d)) (la_dx d))
                 (signed_step (scans_positively_for_j (la_mode d)) (la_dy d)) l)
      end
  end.

(** src/grid/polar_stereographic.rs:119-167 [latlons]. *)
Definition wpolar_latlons (u : ity) (m : mode) (lm : libm) (pl : proj_lib) (fuel : nat) (d : polar) : outcome (result (list (f32 * f32)) grib_error) :=
  match radii lm (po_earth d) with
  | None => Ret (Err NotSupported)
  | Some (a, b) =>
      if centre_has_unsupported_flags (po_centre d) then Ret (Err NotSupported)
      else
        let lat_origin := if contains_north_pole (po_centre d) then f64_of_Z 90 else f64_of_Z (-90) in
        let def := Stere a b (micro (po_lad d)) lat_origin (micro (po_lov d)) in
        match ij_of (po_ni d) (po_nj d) (po_mode d) with
        | Err e => Ret (Err e)
        | Ok ij =>
            let! l := collect fuel (wgpi_iter u m ij) in
            Ret (latlons_from_projection pl def (micro (po_lat1 d)) (micro (po_lon1 d))
                   (signed_step (scans_positively_for_i (po_mode d)) (po_dx d))
                   (signed_step (scans_positively_for_j (po_mode d)) (po_dy d)) l)
        end
  end.

(** src/grid.rs:19-40 [GridPointIterator]. *)
Definition wpoints_next (u : ity) (m : mode) (p : points) : outcome (option (f32 * f32) * points) :=
  match p with
  | PLatLon r => let! x := wregular_next u m r in let '(o, r') := x in Ret (o, PLatLon r')
  | PVec [] => Ret (None, PVec [])
  | PVec (a :: l) => Ret (Some a, PVec l)
  end.
Definition wpoints_size (u : ity) (m : mode) (p : points) : outcome Z :=
  match p with PLatLon r => wgpi_size u m (rg_ij r) | PVec l => Ret (zlen l) end.
Definition wpoints_iter (u : ity) (m : mode) (p : points) : iter (f32 * f32) := MkIter points p (wpoints_next u m).

(** src/datatypes/sections.rs:244-261 [latlons]. *)
Definition wgrid_latlons (u : ity) (m : mode) (lm : libm) (pl : option proj_lib) (fuel : nat) (g : grid) : outcome (result points grib_error) :=
  match g, pl with
  | Template0 d, _ => try! r := latlon_latlons m d in Ret (Ok (PLatLon r))
  | Template20 d, Some pl => try! l := wpolar_latlons u m lm pl fuel d in Ret (Ok (PVec l))
  | Template30 d, Some pl => try! l := wlambert_latlons u m lm pl fuel d in Ret (Ok (PVec l))
  | Template40 d, _ => try! r := wgaussian_latlons u m lm d in Ret (Ok (PLatLon r))
  | _, None => Ret (Err NotSupported)
  end.

(** src/context.rs:621-633 [SubMessage::ij], on the payload of section 3. *)
Definition wsub_ij (u : ity) (m : mode) (p : list byte) : outcome (result gpi grib_error) :=
  let! num_defined := read_u32 p 1 in
  try! g := grid_of_payload m p in
  match grid_ij g with
  | Err e => Ret (Err e)
  | Ok ij =>
      let! num_decoded := wgpi_size u m ij in
      if num_defined =? num_decoded then Ret (Ok ij) else Ret (Err InvalidValueError)
  end.

(** src/context.rs:670-682 [SubMessage::latlons], on the payload of section 3. *)
Definition wsub_latlons (u : ity) (m : mode) (lm : libm) (pl : option proj_lib) (fuel : nat) (p : list byte) : outcome (result points grib_error) :=
  let! num_defined := read_u32 p 1 in
  try! g := grid_of_payload m p in
  try! l := wgrid_latlons u m lm pl fuel g in
  let! num_decoded := wpoints_size u m l in
  if num_defined =? num_decoded then Ret (Ok l) else Ret (Err InvalidValueError).

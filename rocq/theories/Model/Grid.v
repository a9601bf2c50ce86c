(** Model of /repo/src/grid.rs and /repo/src/grid/{earth,helpers,latlon,gaussian,
    lambert,polar_stereographic}.rs, except for the Gaussian latitudes (Gaussian.v) and
    for the projections made by the C library PROJ (Proj.v). *)
From Coq Require Import Floats.SpecFloat.
From Verif Require Import Model.Base Model.Helpers Model.Errors Model.F32.

(** ** Scanning modes: src/grid.rs:114-173 *)
Definition scans_positively_for_i (mode : Z) : bool := Z.land mode 0x80 =? 0.
Definition scans_positively_for_j (mode : Z) : bool := negb (Z.land mode 0x40 =? 0).
Definition is_consecutive_for_i (mode : Z) : bool := Z.land mode 0x20 =? 0.
Definition scans_alternating_rows (mode : Z) : bool := negb (Z.land mode 0x10 =? 0).
Definition has_unsupported_flags (mode : Z) : bool := negb (Z.land mode 0x0f =? 0).

(** src/grid.rs:175-213 [ProjectionCentreFlag]. *)
Definition contains_north_pole (flag : Z) : bool := Z.land flag 0x80 =? 0.
Definition is_bipolar (flag : Z) : bool := negb (Z.land flag 0x40 =? 0).
Definition centre_has_unsupported_flags (flag : Z) : bool := negb (Z.land flag 0x3f =? 0).

(** ** GridPointIndexIterator *)

(** src/grid.rs:49-56. *)
Record gpi := MkGpi {
  major_len : Z; minor_len : Z; gmode : Z;
  major_pos : Z; minor_pos : Z; increments : bool
}.

(** src/grid.rs:59-74 [new]. *)
Definition gpi_new (i_len j_len mode : Z) : gpi :=
  if is_consecutive_for_i mode then MkGpi j_len i_len mode 0 0 true
  else MkGpi i_len j_len mode 0 0 true.

(** src/grid.rs:80-105 [next]. *)
Definition gpi_next (m : mode) (g : gpi) : outcome (option (Z * Z) * gpi) :=
  if major_pos g =? major_len g then Ret (None, g)
  else
    let! minor :=
      if increments g then Ret (minor_pos g)
      else let! x := arith m Usize (minor_len g - minor_pos g) in arith m Usize (x - 1) in
    let major := major_pos g in
    let! mp := arith m Usize (minor_pos g + 1) in
    let! g' :=
      if mp =? minor_len g then
        let! jp := arith m Usize (major_pos g + 1) in
        Ret (MkGpi (major_len g) (minor_len g) (gmode g) jp 0
               (if scans_alternating_rows (gmode g) then negb (increments g) else increments g))
      else Ret (MkGpi (major_len g) (minor_len g) (gmode g) (major_pos g) mp (increments g)) in
    Ret (Some (if is_consecutive_for_i (gmode g) then (minor, major) else (major, minor)), g').

(** src/grid.rs:107-110 [size_hint] (both bounds). *)
Definition gpi_size (m : mode) (g : gpi) : outcome Z :=
  let! a := arith m Usize (major_len g - major_pos g) in
  let! b := arith m Usize (a * minor_len g) in
  arith m Usize (b - minor_pos g).

Definition gpi_iter (m : mode) (g : gpi) : iter (Z * Z) := MkIter gpi g (gpi_next m).

(** ** Grid definitions *)

(** src/grid/earth.rs:3-12. *)
Record earth := MkEarth {
  shape : Z; radius_scale : Z; radius_value : Z;
  major_scale : Z; major_value : Z; minor_scale : Z; minor_value : Z
}.
(** src/grid/earth.rs:49-66 [from_buf]. *)
Definition earth_from_buf (buf : list byte) : outcome earth :=
  let! a := read_u8 buf 0 in
  let! b := read_u8 buf 1 in
  let! c := read_u32 buf 2 in
  let! d := read_u8 buf 6 in
  let! e := read_u32 buf 7 in
  let! f := read_u8 buf 11 in
  let! g := read_u32 buf 12 in
  Ret (MkEarth a b c d e f g).

(** src/grid/latlon.rs:10-19. *)
Record latlon := MkLatlon {
  ll_ni : Z; ll_nj : Z; ll_lat1 : Z; ll_lon1 : Z; ll_lat2 : Z; ll_lon2 : Z; ll_mode : Z
}.
(** src/grid/latlon.rs:143-160 [from_buf]. *)
Definition latlon_from_buf (m : mode) (buf : list byte) : outcome latlon :=
  let! ni := read_u32 buf 0 in
  let! nj := read_u32 buf 4 in
  let! a := read_i32 m buf 16 in
  let! b := read_i32 m buf 20 in
  let! c := read_i32 m buf 25 in
  let! d := read_i32 m buf 29 in
  let! s := read_u8 buf 41 in
  Ret (MkLatlon ni nj a b c d s).

(** src/grid/gaussian.rs:10-21. *)
Record gaussian := MkGaussian {
  ga_ni : Z; ga_nj : Z; ga_lat1 : Z; ga_lon1 : Z; ga_lat2 : Z; ga_lon2 : Z;
  ga_inc : Z; ga_n : Z; ga_mode : Z
}.
(** src/grid/gaussian.rs:90-111 [from_buf]. *)
Definition gaussian_from_buf (m : mode) (buf : list byte) : outcome gaussian :=
  let! ni := read_u32 buf 0 in
  let! nj := read_u32 buf 4 in
  let! a := read_i32 m buf 16 in
  let! b := read_i32 m buf 20 in
  let! c := read_i32 m buf 25 in
  let! d := read_i32 m buf 29 in
  let! inc := read_u32 buf 33 in
  let! n := read_u32 buf 37 in
  let! s := read_u8 buf 41 in
  Ret (MkGaussian ni nj a b c d inc n s).

(** src/grid/lambert.rs:7-21. *)
Record lambert := MkLambert {
  la_earth : earth; la_ni : Z; la_nj : Z; la_lat1 : Z; la_lon1 : Z; la_lad : Z; la_lov : Z;
  la_dx : Z; la_dy : Z; la_mode : Z; la_latin1 : Z; la_latin2 : Z
}.
(** src/grid/lambert.rs:160-187 [from_buf]. *)
Definition lambert_from_buf (m : mode) (buf : list byte) : outcome lambert :=
  let! e := earth_from_buf buf in
  let! ni := read_u32 buf 16 in
  let! nj := read_u32 buf 20 in
  let! a := read_i32 m buf 24 in
  let! b := read_i32 m buf 28 in
  let! lad := read_i32 m buf 33 in
  let! lov := read_i32 m buf 37 in
  let! dx := read_u32 buf 41 in
  let! dy := read_u32 buf 45 in
  let! s := read_u8 buf 50 in
  let! l1 := read_i32 m buf 51 in
  let! l2 := read_i32 m buf 55 in
  Ret (MkLambert e ni nj a b lad lov dx dy s l1 l2).

(** src/grid/polar_stereographic.rs:8-21. *)
Record polar := MkPolar {
  po_earth : earth; po_ni : Z; po_nj : Z; po_lat1 : Z; po_lon1 : Z; po_lad : Z; po_lov : Z;
  po_dx : Z; po_dy : Z; po_centre : Z; po_mode : Z
}.
(** src/grid/polar_stereographic.rs:169-194 [from_buf]. *)
Definition polar_from_buf (m : mode) (buf : list byte) : outcome polar :=
  let! e := earth_from_buf buf in
  let! ni := read_u32 buf 16 in
  let! nj := read_u32 buf 20 in
  let! a := read_i32 m buf 24 in
  let! b := read_i32 m buf 28 in
  let! lad := read_i32 m buf 33 in
  let! lov := read_i32 m buf 37 in
  let! dx := read_u32 buf 41 in
  let! dy := read_u32 buf 45 in
  let! c := read_u8 buf 49 in
  let! s := read_u8 buf 50 in
  Ret (MkPolar e ni nj a b lad lov dx dy c s).

(** src/datatypes/sections.rs:187-193 [GridDefinitionTemplateValues]. *)
Inductive grid :=
| Template0 (d : latlon)
| Template20 (d : polar)
| Template30 (d : lambert)
| Template40 (d : gaussian).

(** src/datatypes/sections.rs:264-307 [TryFrom<&GridDefinition>]. *)
Definition grid_of_payload (m : mode) (p : list byte) : outcome (result grid grib_error) :=
  let! num := read_u16 p 7 in
  match num with
  | 0 => if 67 <? zlen p then Ret (Err NotSupported)
         else let! b := slice_from p 25 in let! d := latlon_from_buf m b in Ret (Ok (Template0 d))
  | 20 => let! b := slice_from p 9 in let! d := polar_from_buf m b in Ret (Ok (Template20 d))
  | 30 => let! b := slice_from p 9 in let! d := lambert_from_buf m b in Ret (Ok (Template30 d))
  | 40 => if 67 <? zlen p then Ret (Err NotSupported)
          else let! b := slice_from p 25 in let! d := gaussian_from_buf m b in Ret (Ok (Template40 d))
  | _ => Ret (Err NotSupported)
  end.

(** [grid_shape] and scanning mode of each kind: src/grid/latlon.rs:40-42,
    src/grid/gaussian.rs:28-30, src/grid/lambert.rs:55-57,
    src/grid/polar_stereographic.rs:54-56, src/datatypes/sections.rs:198-205. *)
Definition grid_shape (g : grid) : Z * Z :=
  match g with
  | Template0 d => (ll_ni d, ll_nj d)
  | Template20 d => (po_ni d, po_nj d)
  | Template30 d => (la_ni d, la_nj d)
  | Template40 d => (ga_ni d, ga_nj d)
  end.
Definition grid_mode (g : grid) : Z :=
  match g with
  | Template0 d => ll_mode d
  | Template20 d => po_mode d
  | Template30 d => la_mode d
  | Template40 d => ga_mode d
  end.

(** [ij], the same code four times: src/grid/latlon.rs:75-84, gaussian.rs:42-51,
    lambert.rs:103-112, polar_stereographic.rs:101-110, dispatched by
    src/datatypes/sections.rs:229-236. *)
Definition ij_of (ni nj mode : Z) : result gpi grib_error :=
  if has_unsupported_flags mode then Err NotSupported else Ok (gpi_new ni nj mode).
Definition grid_ij (g : grid) : result gpi grib_error :=
  let '(ni, nj) := grid_shape g in ij_of ni nj (grid_mode g).

(** ** Regular grids *)

Definition f32_sub (x y : f32) : f32 := SFsub 24 128 x y.
Definition f32_ltb (x y : f32) : bool := SFltb x y.

(** src/grid/helpers.rs:37-46 [evenly_spaced_degrees]; [div as f32] and [x as f32]
    round to the nearest binary32. *)
Definition evenly_spaced_degrees (start stop : f32) (div : Z) : list f32 :=
  let delta := f32_div (f32_sub stop start) (f32_of_Z div) in
  map (fun x => f32_div (f32_add start (f32_mul (f32_of_Z (Z.of_nat x)) delta)) (f32_of_Z 1000000))
    (seq 0 (Z.to_nat (div + 1))).

(** src/grid/helpers.rs:8-35 [evenly_spaced_longitudes]. *)
Definition evenly_spaced_longitudes (m : mode) (start stop div mode : Z) : outcome (list f32) :=
  let! diff := arith m I32 (stop - start) in
  let consistent := negb (xorb (0 <? diff) (scans_positively_for_i mode)) in
  let s := f32_of_Z start in
  let e := f32_of_Z stop in
  let '(s, e) :=
    if consistent then (s, e)
    else if stop <? start then (s, f32_add e (f32_of_Z 360000000))
    else (f32_add s (f32_of_Z 360000000), e) in
  let lons := evenly_spaced_degrees s e div in
  Ret (if consistent then lons
       else map (fun x => if f32_ltb x (f32_of_Z 360) then x else f32_sub x (f32_of_Z 360)) lons).

(** src/grid/helpers.rs:48-73 [RegularGridIterator]; its [size_hint] is that of [ij]. *)
Record regular := MkRegular { rg_lat : list f32; rg_lon : list f32; rg_ij : gpi }.
Definition regular_next (m : mode) (r : regular) : outcome (option (f32 * f32) * regular) :=
  let! x := gpi_next m (rg_ij r) in
  let '(o, g) := x in
  let r' := MkRegular (rg_lat r) (rg_lon r) g in
  match o with
  | None => Ret (None, r')
  | Some (i, j) =>
      let! lat := index (rg_lat r) j in
      let! lon := index (rg_lon r) i in
      Ret (Some (lat, lon), r')
  end.
Definition regular_size (m : mode) (r : regular) : outcome Z := gpi_size m (rg_ij r).
Definition regular_iter (m : mode) (r : regular) : iter (f32 * f32) := MkIter regular r (regular_next m).

(** src/grid/latlon.rs:138-141 and gaussian.rs:85-88 [is_consistent_for_j]. *)
Definition is_consistent_for_j (m : mode) (lat1 lat2 mode : Z) : outcome bool :=
  let! diff := arith m I32 (lat2 - lat1) in
  Ret (negb (xorb (0 <? diff) (scans_positively_for_j mode))).

(** src/grid/latlon.rs:113-136 [LatLonGridDefinition::latlons].  [u32] arithmetic for
    [nj - 1], [ni - 1]. *)
Definition latlon_latlons (m : mode) (d : latlon) : outcome (result regular grib_error) :=
  let! c := is_consistent_for_j m (ll_lat1 d) (ll_lat2 d) (ll_mode d) in
  if negb c then Ret (Err InvalidValueError)
  else
    match ij_of (ll_ni d) (ll_nj d) (ll_mode d) with
    | Err e => Ret (Err e)
    | Ok ij =>
        let! nj1 := arith m U32 (ll_nj d - 1) in
        let lat := evenly_spaced_degrees (f32_of_Z (ll_lat1 d)) (f32_of_Z (ll_lat2 d)) nj1 in
        let! ni1 := arith m U32 (ll_ni d - 1) in
        let! lon := evenly_spaced_longitudes m (ll_lon1 d) (ll_lon2 d) ni1 (ll_mode d) in
        Ret (Ok (MkRegular lat lon ij))
    end.

(** ** The checks of src/context.rs *)

(** src/context.rs:578-582 [SubMessage::grid_shape], on the payload of section 3. *)
Definition sub_grid_shape (m : mode) (p : list byte) : outcome (result (Z * Z) grib_error) :=
  try! g := grid_of_payload m p in Ret (Ok (grid_shape g)).

(** src/context.rs:621-633 [SubMessage::ij], on the payload of section 3. *)
Definition sub_ij (m : mode) (p : list byte) : outcome (result gpi grib_error) :=
  let! num_defined := read_u32 p 1 in
  try! g := grid_of_payload m p in
  match grid_ij g with
  | Err e => Ret (Err e)
  | Ok ij =>
      let! num_decoded := gpi_size m ij in
      if num_defined =? num_decoded then Ret (Ok ij) else Ret (Err InvalidValueError)
  end.

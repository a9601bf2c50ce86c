(** Model of the accessors of sections 1, 3, 4, 5 (/repo/src/datatypes/sections.rs), of
    /repo/src/datatypes/product_attributes.rs, of the code tables they use, and of the
    accessors of src/context.rs. *)
From Coq Require Import Floats.SpecFloat.
From Verif Require Import Model.Base Model.Helpers Model.Errors Model.Sections Model.Parser Model.Context Model.F64.

(** [payload[i]] *)
Definition octet (p : list byte) (i : Z) : outcome Z := let! b := index p i in Ret (bz b).
(** [payload.get(i).copied()] *)
Definition get_octet (p : list byte) (i : Z) : option Z := option_map bz (get p i).

(** ** Section 1: src/datatypes/sections.rs:60-118 *)
Definition centre_id (p : list byte) : outcome Z := read_u16 p 0.
Definition subcentre_id (p : list byte) : outcome Z := read_u16 p 2.
Definition master_table_version (p : list byte) : outcome Z := octet p 4.
Definition local_table_version (p : list byte) : outcome Z := octet p 5.
Definition ref_time_significance (p : list byte) : outcome Z := octet p 6.
Definition prod_status (p : list byte) : outcome Z := octet p 14.
Definition data_type (p : list byte) : outcome Z := octet p 15.

(** [chrono::Utc.with_ymd_and_hms], of the chrono crate, by its documentation: "none" on an
    invalid date or time; the time of day has no leap second.  The result, an instant,
    is represented by its six components. *)
Record date_time := MkDateTime { dt_year : Z; dt_month : Z; dt_day : Z; dt_hour : Z; dt_minute : Z; dt_second : Z }.
Definition is_leap_year (y : Z) : bool := (y mod 4 =? 0) && (negb (y mod 100 =? 0) || (y mod 400 =? 0)).
Definition days_in_month (y m : Z) : Z :=
  match m with
  | 2 => if is_leap_year y then 29 else 28
  | 4 | 6 | 9 | 11 => 30
  | _ => 31
  end.
Definition with_ymd_and_hms (y mo d h mi s : Z) : option date_time :=
  if (1 <=? mo) && (mo <=? 12) && (1 <=? d) && (d <=? days_in_month y mo)
     && (h <? 24) && (mi <? 60) && (s <? 60)
  then Some (MkDateTime y mo d h mi s) else None.

(** src/datatypes/sections.rs:122-138 [create_date_time]. *)
Definition create_date_time (y mo d h mi s : Z) : result date_time grib_error :=
  match with_ymd_and_hms y mo d h mi s with Some t => Ok t | None => Err InvalidValueError end.
(** src/datatypes/sections.rs:94-104 [ref_time]. *)
Definition ref_time (p : list byte) : outcome (result date_time grib_error) :=
  let! y := read_u16 p 7 in
  let! mo := octet p 9 in
  let! d := octet p 10 in
  let! h := octet p 11 in
  let! mi := octet p 12 in
  let! s := octet p 13 in
  Ret (create_date_time y mo d h mi s).

(** ** Section 3: src/datatypes/sections.rs:174-179; section 5: 517-523 *)
Definition grid_num_points (p : list byte) : outcome Z := read_u32 p 1.
Definition repr_num_points (p : list byte) : outcome Z := read_u32 p 0.

(** ** Section 4 *)

(** src/datatypes/sections.rs:331-335 [num_coordinates]. *)
Definition num_coordinates (p : list byte) : outcome Z := read_u16 p 0.

(** src/codetables/old.rs:263-267 [SUPPORTED_PROD_DEF_TEMPLATE_NUMBERS]. *)
Definition SUPPORTED_PROD_DEF_TEMPLATE_NUMBERS : list Z :=
  [0; 1; 2; 3; 4; 5; 6; 7; 8; 9; 10; 11; 12; 13; 14; 15; 20; 30; 31; 32; 33; 34; 35; 40; 41; 42;
   43; 44; 45; 46; 47; 48; 49; 51; 53; 54; 55; 56; 57; 58; 59; 60; 61; 62; 63; 67; 68; 70; 71; 72;
   73; 76; 77; 78; 79; 80; 81; 82; 83; 84; 85; 86; 87; 88; 91; 254; 1000; 1001; 1002; 1100; 1101].
(** src/datatypes/sections.rs:347-349 [template_supported]. *)
Definition template_supported (p : list byte) : outcome bool :=
  let! t := prod_tmpl_num p in
  Ret (existsb (Z.eqb t) SUPPORTED_PROD_DEF_TEMPLATE_NUMBERS).

Definition START_OF_PROD_TEMPLATE : Z := 4.

(** src/datatypes/sections.rs:353-369 [parameter_category], [parameter_number]. *)
Definition if_supported {A} (p : list byte) (k : outcome (option A)) : outcome (option A) :=
  let! b := template_supported p in if b then k else Ret None.
Definition parameter_category (p : list byte) : outcome (option Z) :=
  if_supported p (Ret (get_octet p START_OF_PROD_TEMPLATE)).
Definition parameter_number (p : list byte) : outcome (option Z) :=
  if_supported p (Ret (get_octet p (START_OF_PROD_TEMPLATE + 1))).

(** [match t { a..=b => Some(i), ... , _ => None }] *)
Fixpoint range_match (t : Z) (l : list (Z * Z * Z)) : option Z :=
  match l with
  | [] => None
  | (a, b, i) :: l' => if (a <=? t) && (t <=? b) then Some i else range_match t l'
  end.

(** src/datatypes/sections.rs:373-405 [generating_process]. *)
Definition generating_index : list (Z * Z * Z) :=
  [(0, 39, 2); (40, 43, 4); (44, 46, 15); (47, 47, 2); (48, 49, 26); (51, 51, 2); (55, 56, 8);
   (59, 59, 8); (60, 61, 2); (62, 63, 8); (70, 73, 7); (76, 79, 5); (80, 81, 27); (82, 82, 16);
   (83, 83, 2); (84, 84, 16); (85, 85, 15); (86, 91, 2); (254, 254, 2); (1000, 1101, 2)].
Definition generating_process (p : list byte) : outcome (option Z) :=
  if_supported p (
    let! t := prod_tmpl_num p in
    match range_match t generating_index with
    | None => Ret None
    | Some i => Ret (get_octet p (START_OF_PROD_TEMPLATE + i))
    end).

(** src/codetables/grib2.rs:3-20 [Table4_4] with its discriminants, by the derived
    [TryFromPrimitive] of num_enum; src/codetables/core.rs:4-20 [Code]. *)
Inductive unit4_4 := Minute | Hour | Day | Month | Year | Decade | Normal | Century
| ThreeHours | SixHours | TwelveHours | Second | MissingUnit.
Definition unit_of_code (n : Z) : option unit4_4 :=
  match n with
  | 0 => Some Minute | 1 => Some Hour | 2 => Some Day | 3 => Some Month | 4 => Some Year
  | 5 => Some Decade | 6 => Some Normal | 7 => Some Century
  | 10 => Some ThreeHours | 11 => Some SixHours | 12 => Some TwelveHours | 13 => Some Second
  | 255 => Some MissingUnit
  | _ => None
  end.
Inductive code (E : Type) := Name (e : E) | Num (n : Z).
Arguments Name {E}. Arguments Num {E}.
Definition code_of {E} (f : Z -> option E) (n : Z) : code E :=
  match f n with Some e => Name e | None => Num n end.

(** src/datatypes/product_attributes.rs:87-102. *)
Record forecast := MkForecast { fc_unit : code unit4_4; fc_value : Z }.
Definition from_numbers (u v : Z) : forecast := MkForecast (code_of unit_of_code u) v.

(** src/datatypes/sections.rs:410-446 [forecast_time]: the four octets are sliced before
    the unit is looked at. *)
Definition forecast_index : list (Z * Z * Z) :=
  [(0, 15, 8); (32, 34, 8); (40, 43, 10); (44, 47, 21); (48, 49, 32); (51, 51, 8); (55, 56, 14);
   (59, 59, 14); (60, 61, 8); (62, 63, 14); (70, 73, 13); (76, 79, 11); (80, 81, 33); (82, 84, 22);
   (85, 85, 21); (86, 87, 8); (88, 88, 26); (91, 91, 8); (1000, 1101, 8)].
Definition forecast_time (p : list byte) : outcome (option forecast) :=
  if_supported p (
    let! t := prod_tmpl_num p in
    match range_match t forecast_index with
    | None => Ret None
    | Some i =>
        let u := START_OF_PROD_TEMPLATE + i in
        let! time := read_u32 p (u + 1) in
        Ret (match get_octet p u with Some c => Some (from_numbers c time) | None => None end)
    end).

(** src/datatypes/product_attributes.rs:132-148. *)
Record surface := MkSurface { surface_type : Z; scale_factor : Z; scaled_value : Z }.

(** src/datatypes/sections.rs:487-500 [read_surface_from]. *)
Definition read_surface_from (m : mode) (p : list byte) (i : Z) : outcome (option surface) :=
  let i := START_OF_PROD_TEMPLATE + i in
  let stype := get_octet p i in
  let! factor := match get_octet p (i + 1) with
                 | Some v => let! f := as_grib_int m U8 I8 v in Ret (Some f)
                 | None => Ret None
                 end in
  let! value := read_i32 m p (i + 2) in
  Ret (match stype, factor with Some t, Some f => Some (MkSurface t f value) | _, _ => None end).

(** src/datatypes/sections.rs:449-485 [fixed_surfaces]. *)
Definition surface_index : list (Z * Z * Z) :=
  [(0, 15, 13); (40, 43, 15); (44, 44, 24); (45, 47, 26); (48, 49, 37); (51, 51, 13); (55, 56, 19);
   (59, 59, 19); (60, 61, 13); (62, 63, 19); (70, 73, 18); (76, 79, 16); (80, 81, 38); (82, 84, 27);
   (85, 85, 26); (86, 87, 13); (88, 88, 5); (91, 91, 13); (1100, 1101, 13)].
Definition fixed_surfaces (m : mode) (p : list byte) : outcome (option (surface * surface)) :=
  if_supported p (
    let! t := prod_tmpl_num p in
    match range_match t surface_index with
    | None => Ret None
    | Some i =>
        let! a := read_surface_from m p i in
        let! b := read_surface_from m p (i + 6) in
        Ret (match a, b with Some a, Some b => Some (a, b) | _, _ => None end)
    end).

(** src/datatypes/product_attributes.rs:205-217: [i8::MIN + 1], [i32::MIN + 1]. *)
Definition scale_factor_is_nan (s : surface) : bool := scale_factor s =? - 2 ^ 7 + 1.
Definition value_is_nan (s : surface) : bool := scaled_value s =? - 2 ^ 31 + 1.
(** src/datatypes/product_attributes.rs:149-156 [value]. *)
Definition surface_value (s : surface) : f64 :=
  if value_is_nan s then S754_nan
  else f64_mul (f64_of_Z (scaled_value s)) (f64_powi (f64_of_Z 10) (- scale_factor s)).

(** ** Parameters *)

(** src/datatypes/product_attributes.rs:15-30. *)
Record parameter := MkParameter {
  discipline : Z; centre : Z; master_ver : Z; local_ver : Z; category : Z; pnum : Z
}.
(** src/datatypes/product_attributes.rs:82-84 [as_u32]; the shifts of a [u8] converted
    to [u32] lose nothing, the additions are overflow checked. *)
Definition as_u32 (m : mode) (x : parameter) : outcome Z :=
  let! a := shl m U32 (discipline x) 16 in
  let! b := shl m U32 (category x) 8 in
  let! c := arith m U32 (a + b) in
  arith m U32 (c + pnum x).

(** src/codetables/external.rs:5-24 [NCEP]. *)
Inductive ncep := PRES | PRMSL | HGT.
Definition ncep_of_code (n : Z) : option ncep :=
  match n with 768 => Some PRES | 769 => Some PRMSL | 773 => Some HGT | _ => None end.
Definition ncep_eqb (a b : ncep) : bool :=
  match a, b with PRES, PRES | PRMSL, PRMSL | HGT, HGT => true | _, _ => false end.
(** src/datatypes/product_attributes.rs:73-80 [is_identical_to] at [NCEP]. *)
Definition is_identical_to (m : mode) (x : parameter) (c : ncep) : outcome bool :=
  let! n := as_u32 m x in
  Ret (match ncep_of_code n with Some e => ncep_eqb e c | None => false end).

(** ** SubMessage: src/context.rs:436-474 *)
Definition v_indicator (v : view) : outcome Z :=
  match s_body (snd (u_0 v)) with Some (B0 d _) => Ret d | _ => Panic end.
Definition v_identification (v : view) : outcome (list byte) :=
  match s_body (snd (u_1 v)) with Some (B1 p) => Ret p | _ => Panic end.
Definition v_grid_def (v : view) : outcome (list byte) :=
  match s_body (snd (u_3 v)) with Some (B3 p) => Ret p | _ => Panic end.
Definition v_prod_def (v : view) : outcome (list byte) :=
  match s_body (snd (u_4 v)) with Some (B4 p) => Ret p | _ => Panic end.
Definition v_repr_def (v : view) : outcome (list byte) :=
  match s_body (snd (u_5 v)) with Some (B5 p) => Ret p | _ => Panic end.

(** src/context.rs:417-434 [parameter]. *)
Definition v_parameter (v : view) : outcome (option parameter) :=
  let! d := v_indicator v in
  let! i := v_identification v in
  let! c := centre_id i in
  let! mv := master_table_version i in
  let! lv := local_table_version i in
  let! p := v_prod_def v in
  let! cat := parameter_category p in
  match cat with
  | None => Ret None
  | Some cat =>
      let! n := parameter_number p in
      match n with
      | None => Ret None
      | Some n => Ret (Some (MkParameter d c mv lv cat n))
      end
  end.

(** Fields of sections, by the octet numbers of the WMO manual: octet 1 is the first octet
    of the section's header, octet 6 the first one of its payload [p]. *)
From Verif Require Import Model.Base Spec.Bits Spec.ReaderS.

Definition field (p : list byte) (first last : Z) : Z := be (octets p (first - 6) (last - first + 1)).
(** Sign and magnitude. *)
Definition sfield (p : list byte) (first last : Z) : Z :=
  sign_magnitude (last - first + 1) (field p first last).
(** The section reaches at least to octet [n]. *)
Definition reaches (p : list byte) (n : Z) : Prop := n <= zlen p + 5.

(** The same field in the file [d], for a section at [off]. *)
Definition file_field (d : list byte) (off first last : Z) : Z := be (octets d (off + first - 1) (last - first + 1)).

(** ** Product definition templates *)

(** Templates whose octets 10 and 11 are the parameter category and number. *)
Definition prod_templates : list Z :=
  [0; 1; 2; 3; 4; 5; 6; 7; 8; 9; 10; 11; 12; 13; 14; 15; 20; 30; 31; 32; 33; 34; 35; 40; 41; 42;
   43; 44; 45; 46; 47; 48; 49; 51; 53; 54; 55; 56; 57; 58; 59; 60; 61; 62; 63; 67; 68; 70; 71; 72;
   73; 76; 77; 78; 79; 80; 81; 82; 83; 84; 85; 86; 87; 88; 91; 254; 1000; 1001; 1002; 1100; 1101].

(** Most templates consist of the fields of template 4.0 with others inserted after the
    parameter number; so many octets, for template [t]. *)
Definition within (t a b : Z) : bool := (a <=? t) && (t <=? b).
Definition inserted (t : Z) : option Z :=
  if within t 0 15 then Some 0            (* point in time, ensembles, statistics *)
  else if within t 40 43 then Some 2      (* chemical constituents *)
  else if within t 44 47 then Some 13     (* aerosols *)
  else if within t 48 49 then Some 24     (* optical properties of aerosols *)
  else if within t 51 51 then Some 0      (* categorical forecasts *)
  else if within t 55 56 || within t 59 59 || within t 62 63 then Some 6 (* tiles *)
  else if within t 60 61 then Some 0      (* reforecasts *)
  else if within t 70 73 then Some 5      (* post-processing *)
  else if within t 76 79 then Some 3      (* chemical, source or sink *)
  else if within t 80 81 then Some 25     (* optical, source or sink *)
  else if within t 82 84 then Some 14     (* aerosols, source or sink *)
  else if within t 85 85 then Some 13     (* aerosols, ensemble, statistics *)
  else if within t 86 87 then Some 0      (* quantiles *)
  else if within t 91 91 then Some 0      (* categorical forecasts, statistics *)
  else None.

(** Octet of the type of generating process, in template 4.0 number 12.  Radar, satellite,
    local time, cross sections and Hovmoeller diagrams have it at the same place. *)
Definition generating_octet (t : Z) : option Z :=
  if (t =? 20) || within t 30 35 || (t =? 88) || within t 1000 1002 || within t 1100 1101 then Some 12
  else option_map (fun s => 12 + s) (inserted t).
(** Octet of the unit of the forecast time, in template 4.0 number 18; the forecast time
    is in the octets after it, four of them, but two in template 4.44. *)
Definition unit_octet (t : Z) : option Z :=
  if within t 32 34 || within t 1000 1002 || within t 1100 1101 then Some 18
  else if t =? 88 then Some 36
  else option_map (fun s => 18 + s) (inserted t).
(** First octet of the first of the two fixed surfaces, in template 4.0 number 23. *)
Definition surface_octet (t : Z) : option Z :=
  if within t 1100 1101 then Some 23
  else if t =? 88 then Some 15
  else if t =? 44 then Some 34
  else option_map (fun s => 23 + s) (inserted t).

(** ** The Gregorian calendar

    Years begin in March here, so that the leap day is the last day of its year: the
    cycle of 400 years has 146097 days, its centuries 36524 (the last one more), their
    periods of four years 1461 (the last one of a century less).  The [n]-th day of the
    calendar after 1 March of the year 0. *)
Definition civil (n : Z) : Z * Z * Z :=
  let era := n / 146097 in
  let doe := n mod 146097 in
  let century := Z.min 3 (doe / 36524) in
  let doc := doe - century * 36524 in
  let period := doc / 1461 in
  let dop := doc mod 1461 in
  let yop := Z.min 3 (dop / 365) in
  let doy := dop - yop * 365 in
  let y := era * 400 + century * 100 + period * 4 + yop in
  (* first day of each month, counted from 1 March *)
  let month_starts := [(3, 0); (4, 31); (5, 61); (6, 92); (7, 122); (8, 153); (9, 184); (10, 214); (11, 245); (12, 275); (1, 306); (2, 337)] in
  let '(m, s) := fold_left (fun best x => if snd x <=? doy then x else best) month_starts (3, 0) in
  ((if m <=? 2 then y + 1 else y), m, doy - s + 1).

(** What gribber's listings should look like: texts, columns and lines, in terms of the
    library's functions. *)
From Coq Require Import Strings.String Sorting.Sorted.
From Verif Require Import Model.Base Model.Errors Model.Sections Model.Parser Model.Context Model.Product Model.Grid Model.Tools Model.Tables Model.Cli.
From Verif Require Import Spec.ToolsS Spec.ParserS Spec.ContextS.

Notation text := list_byte_of_string.

(** ** Numbers, columns, lines *)

(** [t] is the number [n] in decimal, without superfluous zeros. *)
Definition written (n : Z) (t : list byte) : Prop := digits t /\ decimal t = n /\ forall t', t = x30 :: t' -> t' = [].
Definition written_signed (n : Z) (t : list byte) : Prop :=
  (0 <= n /\ written n t) \/ (n < 0 /\ exists t', written (- n) t' /\ t = text "-" ++ t').
(** Sixteen hexadecimal digits. *)
Definition hex_value (b : byte) : option Z :=
  if (48 <=? bz b) && (bz b <=? 57) then Some (bz b - 48)
  else if (97 <=? bz b) && (bz b <=? 102) then Some (bz b - 87) else None.
Definition hex16 (n : Z) (t : list byte) : Prop :=
  length t = 16%nat /\ exists ds, map hex_value t = map Some ds /\ fold_left (fun a x => 16 * a + x) ds 0 = n.

(** The number of characters of a text in UTF-8. *)
Definition width (t : list byte) : Z := zlen (filter (fun b => negb ((128 <=? bz b) && (bz b <=? 191))) t).
(** [c] is [t] with spaces before (after) it, so that it has [w] columns; a longer [t] is not
    cut. *)
Definition right (w : Z) (t c : list byte) : Prop := exists n, c = repeat x20 n ++ t /\ Z.of_nat n = Z.max 0 (w - width t).
Definition left (w : Z) (t c : list byte) : Prop := exists n, c = t ++ repeat x20 n /\ Z.of_nat n = Z.max 0 (w - width t).

(** Line feeds. *)
Definition line_feeds (t : list byte) : Z := Z.of_nat (count_occ Byte.byte_eq_dec t x0a).
(** The descriptions of the code tables, and the numbers that std prints, are single lines. *)
Definition single_lines (e : printer) : Prop :=
  (forall name v d, In (name, v) (pr_tables e) -> In d v -> ~ In x0a d) /\ forall f, ~ In x0a (pr_f64 e f).
(** Every constant that the library uses has been generated: otherwise it does not compile. *)
Definition compiles (e : printer) : Prop := forall t c, table_lookup (pr_tables e) t c <> None.

(** Bold (yellow) on a terminal. *)
Definition bold (on : bool) (t : list byte) : list byte := if on then [x1b] ++ text "[1m" ++ t ++ [x1b] ++ text "[0m" else t.
Definition bold_yellow (on : bool) (t : list byte) : list byte :=
  if on then [x1b] ++ text "[33m" ++ [x1b] ++ text "[1m" ++ t ++ [x1b] ++ text "[0m" else t.

(** Lines of a label in [w] columns and a text. *)
Definition labelled (w : Z) (rows : list (list byte * list byte)) (t : list byte) : Prop :=
  exists ls, Forall2 (fun row line => exists c, left w (fst row) c /\ line = c ++ snd row ++ [x0a]) rows ls /\ t = concat ls.

(** ** Fields of a submessage *)

(** The entry of code table [t] for [c]. *)
Definition looked_up (e : printer) (t : table_id) (c : Z) (s : list byte) : Prop :=
  exists r, table_lookup (pr_tables e) t c = Some r /\
  match r with Ok d => s = d | Err c' => exists w, written c' w /\ s = text "code '" ++ w ++ text "' is not implemented" end.

(** An optional field, empty if there is none. *)
Definition opt_text {A} (R : A -> list byte -> Prop) (o : option A) (t : list byte) : Prop :=
  match o with Some a => R a t | None => t = [] end.

Definition shows_id (v : view) (t : list byte) : Prop :=
  exists a b, written (u_mi v) a /\ written (u_si v) b /\ t = a ++ text "." ++ b.

Definition shows_category (e : printer) (v : view) (p : list byte) (t : list byte) : Prop :=
  exists o, parameter_category p = Ret o /\
  opt_text (fun c t => exists d, v_indicator v = Ret d /\ looked_up e (CodeTable4_1 d) c t) o t.
Definition shows_parameter (e : printer) (v : view) (p : list byte) (t : list byte) : Prop :=
  exists oc on, parameter_category p = Ret oc /\ parameter_number p = Ret on /\
  match oc, on with
  | Some c, Some n => exists d, v_indicator v = Ret d /\ looked_up e (CodeTable4_2 d c) n t
  | _, _ => t = []
  end.
Definition shows_process (e : printer) (p : list byte) (t : list byte) : Prop :=
  exists o, generating_process p = Ret o /\ opt_text (looked_up e CodeTable4_3) o t.

(** Code table 4.4: units of time, their abbreviations and names. *)
Definition time_units : list (Z * (list byte * list byte)) :=
  [(0, (text "m", text "Minute")); (1, (text "h", text "Hour")); (2, (text "D", text "Day")); (3, (text "M", text "Month"));
   (4, (text "Y", text "Year")); (5, (text "10Y", text "Decade")); (6, (text "30Y", text "Normal")); (7, (text "C", text "Century"));
   (10, (text "3h", text "ThreeHours")); (11, (text "6h", text "SixHours")); (12, (text "12h", text "TwelveHours"));
   (13, (text "s", text "Second"))].
(** A forecast time in short: 6 [h]. *)
Definition shows_time (f : forecast) (t : list byte) : Prop :=
  exists unit value w, f = from_numbers unit value /\ written value w /\
  ((exists s name, In (unit, (s, name)) time_units /\ t = w ++ text " [" ++ s ++ text "]") \/
   (unit = 255 /\ t = w) \/
   (unit <> 255 /\ ~ In unit (map fst time_units) /\ exists c, written unit c /\ t = w ++ text " [unit: " ++ c ++ text "]")).
Definition shows_time_unit (f : forecast) (t : list byte) : Prop :=
  exists unit value, f = from_numbers unit value /\
  ((exists s, In (unit, (s, t)) time_units) \/ (unit = 255 /\ t = text "Missing") \/
   (unit <> 255 /\ ~ In unit (map fst time_units) /\ exists c, written unit c /\ t = text "code " ++ c)).
Definition shows_forecast (p : list byte) (t : list byte) : Prop :=
  exists o, forecast_time p = Ret o /\ opt_text shows_time o t.

(** Code table 4.5: units of fixed surfaces. *)
Definition units_4_5 : list (list byte * list Z) :=
  [(text "m", [11; 12; 26; 27; 30; 102; 103; 106; 117; 160; 161]); (text "Pa", [18; 100; 108]); (text "K", [20; 107; 170]);
   (text "kg m-3", [21; 22; 169]); (text "Bq m-3", [23; 24]); (text "Numeric", [114; 151; 152; 168]); (text "%", [13]);
   (text "dBZ", [25]); (text """sigma"" value", [104]); (text "K m2 kg-1 s-1", [109]); (text "m2 s-1", [171])].
Definition shows_surface (e : printer) (s : surface) (t : list byte) : Prop :=
  (exists u codes, In (u, codes) units_4_5 /\ In (surface_type s) codes /\ t = pr_f64 e (surface_value s) ++ text " [" ++ u ++ text "]") \/
  ((forall u codes, In (u, codes) units_4_5 -> ~ In (surface_type s) codes) /\ t = pr_f64 e (surface_value s)).
Definition shows_surfaces (e : printer) (m : mode) (p : list byte) (t1 t2 : list byte) : Prop :=
  exists o, fixed_surfaces m p = Ret o /\
  match o with Some (a, b) => shows_surface e a t1 /\ shows_surface e b t2 | None => t1 = [] /\ t2 = [] end.
(** Type, scale factor and scaled value of a fixed surface. *)
Definition details_surface (e : printer) (s : surface) (ts : list byte * list byte * list byte) : Prop :=
  looked_up e CodeTable4_5 (surface_type s) (fst (fst ts)) /\
  (if scale_factor_is_nan s then snd (fst ts) = text "Missing" else written_signed (scale_factor s) (snd (fst ts))) /\
  (if value_is_nan s then snd ts = text "Missing" else written_signed (scaled_value s) (snd ts)).

(** The kind of grid, by its template number. *)
Definition grid_names : list (Z * list byte) :=
  [(0, text "regular_ll"); (20, text "polar_stereographic"); (30, text "lambert"); (40, text "regular_gg")].
Definition shows_grid (m : mode) (p3 : list byte) (t : list byte) : Prop :=
  exists n r, grid_tmpl_num p3 = Ret n /\ grid_of_payload m p3 = Ret r /\
  match r with
  | Ok _ => In (n, t) grid_names
  | Err _ => exists w, written n w /\ t = text "unknown (template " ++ w ++ text ")"
  end.

(** The number of grid points without a value, [n - k]: more values than points make a
    checked build panic, and are shown modulo 2^32 by another one. *)
Definition shows_points (m : mode) (n k : Z) (nan total : list byte) : Prop :=
  written n total /\ ((k <= n /\ written (n - k) nan) \/ (n < k /\ m = Wrapping /\ written (2 ^ 32 + n - k) nan)).

(** A template: 3.0. *)
Definition shows_template (c : Z * Z) (t : list byte) : Prop :=
  exists a b, written (fst c) a /\ written (snd c) b /\ t = a ++ text "." ++ b.
(** The code table for the templates of a section. *)
Definition template_tables : list (Z * table_id) := [(3, CodeTable3_1); (4, CodeTable4_0); (5, CodeTable5_0)].
(** The name of the template of a section. *)
Definition names_template (e : printer) (s : section) (t : list byte) : Prop :=
  exists c table, template_of s c /\ In (fst c, table) template_tables /\ looked_up e table (snd c) t.

(** ** gribber list *)

Definition bar : list byte := text " │ ".
Definition sp : list byte := text " ".

(** The heading. *)
Definition list_heading : list byte := text
  "      id │ Parameter                       Generating process  Forecast time                 1st fixed surface                 2nd fixed surface │   #points (nan/total) grid type".

(** The line for a submessage. *)
Definition list_line (e : printer) (m : mode) (v : view) (line : list byte) : Prop :=
  exists p p3 p5 n k, v_prod_def v = Ret p /\ v_grid_def v = Ret p3 /\ v_repr_def v = Ret p5 /\
    grid_num_points p3 = Ret n /\ repr_num_points p5 = Ret k /\
  exists id parameter process time s1 s2 nan total grid,
    shows_id v id /\ shows_parameter e v p parameter /\ shows_process e p process /\ shows_forecast p time /\
    shows_surfaces e m p s1 s2 /\ shows_points m n k nan total /\ shows_grid m p3 grid /\
  exists id' parameter' process' time' s1' s2' nan' total' grid',
    right 8 id id' /\ left 31 parameter parameter' /\ left 18 process process' /\ right 14 time time' /\
    right 33 s1 s1' /\ right 33 s2 s2' /\ right 10 nan nan' /\ right 10 total total' /\ left 21 grid grid' /\
    line = id' ++ bar ++ parameter' ++ sp ++ process' ++ sp ++ time' ++ sp ++ s1' ++ sp ++ s2' ++ bar ++ nan' ++ text "/" ++ total' ++ sp ++ grid' ++ [x0a].

(** [describe()] of a submessage: sixteen lines. *)
Definition description_of (e : printer) (m : mode) (v : view) (t : list byte) : Prop :=
  exists p p3 p5 n k, v_prod_def v = Ret p /\ v_grid_def v = Ret p3 /\ v_repr_def v = Ret p5 /\
    grid_num_points p3 = Ret n /\ repr_num_points p5 = Ret k /\
  exists grid points product category parameter process value unit s1 s2 representation values,
    names_template e (snd (u_3 v)) grid /\ written n points /\ names_template e (snd (u_4 v)) product /\
    shows_category e v p category /\ shows_parameter e v p parameter /\ shows_process e p process /\
    (exists o, forecast_time p = Ret o /\ opt_text (fun f => written (fc_value f)) o value /\ opt_text shows_time_unit o unit) /\
    (exists o, fixed_surfaces m p = Ret o /\
       match o with Some (a, b) => details_surface e a s1 /\ details_surface e b s2 | None => s1 = ([], [], []) /\ s2 = ([], [], []) end) /\
    names_template e (snd (u_5 v)) representation /\ written k values /\
    labelled 40
      [(text "Grid:", grid); (text "  Number of points:", points); (text "Product:", product);
       (text "  Parameter Category:", category); (text "  Parameter:", parameter); (text "  Generating Proceess:", process);
       (text "  Forecast Time:", value); (text "  Forecast Time Unit:", unit);
       (text "  1st Fixed Surface Type:", fst (fst s1)); (text "  1st Scale Factor:", snd (fst s1)); (text "  1st Scaled Value:", snd s1);
       (text "  2nd Fixed Surface Type:", fst (fst s2)); (text "  2nd Scale Factor:", snd (fst s2)); (text "  2nd Scaled Value:", snd s2);
       (text "Data Representation:", representation); (text "  Number of represented values:", values)] t.
(** The entry of a submessage in a dump: its number, its description, an empty line. *)
Definition dump_of (e : printer) (m : mode) (v : view) (t : list byte) : Prop :=
  exists id d, shows_id v id /\ description_of e m v d /\ t = id ++ [x0a] ++ d ++ [x0a].

(** ** gribber inspect *)

(** The line for section number [i]: where it starts, where it ends, its number. *)
Definition section_line (i : nat) (s : section) (line : list byte) : Prop :=
  exists n from to num n', written (Z.of_nat i) n /\ right 5 n n' /\ hex16 (s_offset s) from /\
    hex16 (s_offset s + s_size s) to /\ written (s_num s) num /\
    line = n' ++ bar ++ from ++ text " - " ++ to ++ text " │ Section " ++ num ++ [x0a].

Definition inspect_heading : list byte := text
  "      id │    S2    S3    S4    S5    S6    S7 │ Tmpl3   Tmpl4   Tmpl5".

(** The line for a submessage: the numbers of its sections, and its templates. *)
Definition submessage_line (l : list section) (u : submessage section) (line : list byte) : Prop :=
  let at_ (s : section) (c : list byte) := exists k n, nth_error l k = Some s /\ written (Z.of_nat k) n /\ right 5 n c in
  let template (s : section) (c : list byte) := exists x t, template_of s x /\ shows_template x t /\ left 7 t c in
  exists a b id c2 c3 c4 c5 c6 c7 t3 t4 t5,
    written (u_mi u) a /\ written (u_si u) b /\ right 8 (a ++ text "." ++ b) id /\
    match u_2 u with Some s => at_ s c2 | None => c2 = text "    -" end /\
    at_ (u_3 u) c3 /\ at_ (u_4 u) c4 /\ at_ (u_5 u) c5 /\ at_ (u_6 u) c6 /\ at_ (u_7 u) c7 /\
    template (u_3 u) t3 /\ template (u_4 u) t4 /\ template (u_5 u) t5 /\
    line = id ++ bar ++ c2 ++ sp ++ c3 ++ sp ++ c4 ++ sp ++ c5 ++ sp ++ c6 ++ sp ++ c7 ++ bar ++ t3 ++ sp ++ t4 ++ sp ++ t5 ++ [x0a].

(** The line for a template. *)
Definition template_line (e : printer) (c : Z * Z) (line : list byte) : Prop :=
  exists t d t' table, shows_template c t /\ In (fst c, table) template_tables /\ looked_up e table (snd c) d /\ left 8 t t' /\
    line = t' ++ text " - " ++ d ++ [x0a].

(** Texts one after another, with an empty line between them. *)
Fixpoint separated (ts : list (list byte)) : list byte :=
  match ts with [] => [] | [t] => t | t :: ts' => t ++ [x0a] ++ separated ts' end.

(** What there is to be seen of a file with the sections [l] and the submessages [us]. *)
Definition item_title (k : item_kind) : list byte :=
  match k with Sections => text "Sections:" | SubMessages => text "SubMessages:" | Templates => text "Templates:" end.
Definition shows_item (e : printer) (color : bool) (l : list section) (us : list (submessage section)) (k : item_kind) (t : list byte) : Prop :=
  match k with
  | Sections => exists ls, length ls = length l /\ t = concat ls /\
      forall i s line, nth_error l i = Some s -> nth_error ls i = Some line -> section_line i s line
  | SubMessages => exists ls, Forall2 (submessage_line l) us ls /\ t = bold color inspect_heading ++ [x0a] ++ concat ls
  | Templates => exists cs ls, StronglySorted tmpl_lt cs /\ (forall c, In c cs <-> exists s, In s l /\ template_of s c) /\
      Forall2 (template_line e) cs ls /\ t = concat ls
  end.
(** ... with a title if there is more than one thing to be seen. *)
Definition shows_part (e : printer) (color : bool) (l : list section) (us : list (submessage section)) (many : bool) (k : item_kind) (t : list byte) : Prop :=
  exists body, shows_item e color l us k body /\ t = (if many then bold_yellow color (item_title k) ++ [x0a] else []) ++ body.
(** Things asked for; everything, if nothing is. *)
Definition asked (sections submessages templates : bool) (k : item_kind) : bool :=
  match k with Sections => sections | SubMessages => submessages | Templates => templates end ||
  negb (sections || submessages || templates).

(** ** gribber info *)

Definition two_digits (n : Z) (t : list byte) : Prop := length t = 2%nat /\ digits t /\ decimal t = n.
(** 2016-08-22 02:00:00 UTC. *)
Definition shows_date_time (t : date_time) (s : list byte) : Prop :=
  exists y mo d h mi sec, digits y /\ decimal y = dt_year t /\
    (dt_year t <= 9999 -> length y = 4%nat) /\ (9999 < dt_year t -> written (dt_year t) y) /\
    two_digits (dt_month t) mo /\ two_digits (dt_day t) d /\ two_digits (dt_hour t) h /\ two_digits (dt_minute t) mi /\ two_digits (dt_second t) sec /\
    s = (if dt_year t <=? 9999 then [] else text "+") ++ y ++ text "-" ++ mo ++ text "-" ++ d ++ sp ++ h ++ text ":" ++ mi ++ text ":" ++ sec ++ text " UTC".

(** The block for message number [i], whose sections 0 and 1 are [s0] and [s1]. *)
Definition info_of (e : printer) (i : Z) (s0 s1 : section) (t : list byte) : Prop :=
  exists discipline total p time, s_body s0 = Some (B0 discipline total) /\ s_body s1 = Some (B1 p) /\ ref_time p = Ret (Ok time) /\
  exists centre subcentre master local significance status type,
    centre_id p = Ret centre /\ subcentre_id p = Ret subcentre /\ master_table_version p = Ret master /\
    local_table_version p = Ret local /\ ref_time_significance p = Ret significance /\ prod_status p = Ret status /\ data_type p = Ret type /\
  exists n t1 t2 t3 t4 t5 t5' t6 t6' t7 t8 t9 t10 lines,
    written i n /\ looked_up e CodeTable0_0 discipline t1 /\ written total t2 /\ looked_up e CommonCodeTable11 centre t3 /\ written subcentre t4 /\
    written master t5 /\ looked_up e CommonCodeTable00 master t5' /\ written local t6 /\ looked_up e CodeTable1_1 local t6' /\
    looked_up e CodeTable1_2 significance t7 /\ shows_date_time time t8 /\ looked_up e CodeTable1_3 status t9 /\ looked_up e CodeTable1_4 type t10 /\
    labelled 44
      [(text "    Discipline:", t1); (text "    Total Length:", t2); (text "    Originating/generating centre:", t3);
       (text "    Originating/generating sub-centre:", t4);
       (text "    GRIB Master Tables Version Number:", t5 ++ text " (" ++ t5' ++ text ")");
       (text "    GRIB Local Tables Version Number:", t6 ++ text " (" ++ t6' ++ text ")");
       (text "    Significance of Reference Time:", t7); (text "    Reference time of data:", t8);
       (text "    Production status of processed data:", t9); (text "    Type of processed data:", t10)] lines /\
    t = text "Message " ++ n ++ [x0a; x0a] ++ lines ++ [x0a].

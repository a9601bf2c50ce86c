(** Model of the text that gribber's commands [list], [inspect] and [info] print
    (/repo/cli/src/commands/*.rs), with the [describe] and [Display] functions of the library
    that it is made of.  Not modelled: the command line parser (clap), the pager itself. *)
From Coq Require Import Strings.String Floats.SpecFloat.
From Verif Require Import Model.Base Model.Helpers Model.Errors Model.F64 Model.Sections Model.Reader Model.Parser Model.Context Model.Product Model.Grid Model.Tools Model.Text Model.Tables.

Definition lf : list byte := [x0a].

(** What the text depends on besides the file: the generated code tables, and how std prints
    an [f64] (its shortest decimal representation, not modelled). *)
Record printer := MkPrinter { pr_tables : list (list byte * list (list byte)); pr_f64 : f64 -> list byte }.

(** [CodeTable.lookup(code).to_string()]; the library compiles, so the constant exists. *)
Definition table_text (e : printer) (t : table_id) (code : Z) : list byte :=
  match table_lookup (pr_tables e) t code with Some r => lookup_text r | None => [] end.

(** console::Style with the attributes [codes]; [on]: colours are enabled (cli/src/cli.rs:36-38).
    The escape sequences of ANSI terminals. *)
Definition styled (on : bool) (codes : list (list byte)) (s : list byte) : list byte :=
  if on then concat (map (fun c => [x1b; x5b] ++ c ++ [x6d]) codes) ++ s ++ [x1b; x5b; x30; x6d] else s.

(** ** describe and Display of the library *)

(** src/codetables/grib2.rs:22-38 [short_expr]. *)
Definition short_expr (u : unit4_4) : option (list byte) :=
  match u with
  | Minute => Some (str "m") | Hour => Some (str "h") | Day => Some (str "D") | Month => Some (str "M")
  | Year => Some (str "Y") | Decade => Some (str "10Y") | Normal => Some (str "30Y") | Century => Some (str "C")
  | ThreeHours => Some (str "3h") | SixHours => Some (str "6h") | TwelveHours => Some (str "12h")
  | Second => Some (str "s") | MissingUnit => None
  end.
(** [{unit:#?}]: the name of the variant (src/codetables/grib2.rs:5-19). *)
Definition unit_name (u : unit4_4) : list byte :=
  match u with
  | Minute => str "Minute" | Hour => str "Hour" | Day => str "Day" | Month => str "Month" | Year => str "Year"
  | Decade => str "Decade" | Normal => str "Normal" | Century => str "Century" | ThreeHours => str "ThreeHours"
  | SixHours => str "SixHours" | TwelveHours => str "TwelveHours" | Second => str "Second" | MissingUnit => str "Missing"
  end.
(** src/datatypes/product_attributes.rs:103-110 [ForecastTime::describe]. *)
Definition forecast_describe (f : forecast) : list byte * list byte :=
  (match fc_unit f with Name u => unit_name u | Num n => str "code " ++ show_uint n end, show_uint (fc_value f)).
(** src/datatypes/product_attributes.rs:113-130 [Display for ForecastTime]. *)
Definition forecast_text (f : forecast) : list byte :=
  show_uint (fc_value f) ++
  match fc_unit f with
  | Name u => match short_expr u with Some s => str " [" ++ s ++ str "]" | None => [] end
  | Num n => str " [unit: " ++ show_uint n ++ str "]"
  end.

(** src/datatypes/product_attributes.rs:165-203 [FixedSurface::unit]. *)
Definition surface_units : list (Z * list byte) :=
  [(11, str "m"); (12, str "m"); (13, str "%"); (18, str "Pa"); (20, str "K"); (21, str "kg m-3"); (22, str "kg m-3");
   (23, str "Bq m-3"); (24, str "Bq m-3"); (25, str "dBZ"); (26, str "m"); (27, str "m"); (30, str "m"); (100, str "Pa");
   (102, str "m"); (103, str "m"); (104, [x22] ++ str "sigma" ++ [x22] ++ str " value"); (106, str "m"); (107, str "K");
   (108, str "Pa"); (109, str "K m2 kg-1 s-1"); (114, str "Numeric"); (117, str "m"); (151, str "Numeric");
   (152, str "Numeric"); (160, str "m"); (161, str "m"); (168, str "Numeric"); (169, str "kg m-3"); (170, str "K");
   (171, str "m2 s-1")].
Definition surface_unit (s : surface) : option (list byte) := assoc Z.eqb (surface_type s) surface_units.
(** src/datatypes/product_attributes.rs:219-235 [FixedSurface::describe]. *)
Definition surface_describe (e : printer) (s : surface) : list byte * list byte * list byte :=
  (table_text e CodeTable4_5 (surface_type s),
   if scale_factor_is_nan s then str "Missing" else show_int (scale_factor s),
   if value_is_nan s then str "Missing" else show_int (scaled_value s)).

(** src/context.rs:71-78 [TemplateInfo::describe], 81-85 [Display]. *)
Definition template_describe (e : printer) (t : Z * Z) : option (list byte) :=
  match fst t with
  | 3 => Some (table_text e CodeTable3_1 (snd t))
  | 4 => Some (table_text e CodeTable4_0 (snd t))
  | 5 => Some (table_text e CodeTable5_0 (snd t))
  | _ => None
  end.
Definition template_text (t : Z * Z) : list byte := show_uint (fst t) ++ str "." ++ show_uint (snd t).
(** src/context.rs:699-701 [SubMessageSection::describe], with [unwrap_or_default]. *)
Definition section_describe (e : printer) (s : section) : outcome (list byte) :=
  let! c := get_tmpl_code s in
  Ret (match c with
       | Some t => match template_describe e t with Some d => d | None => [] end
       | None => []
       end).

(** The parameter of a submessage as text: src/context.rs:526-533 and cli/src/commands/list.rs:88-96. *)
Definition parameter_text (e : printer) (v : view) (p : list byte) : outcome (list byte) :=
  let! c := parameter_category p in
  let! n := parameter_number p in
  match c, n with
  | Some c, Some n => let! d := v_indicator v in Ret (table_text e (CodeTable4_2 d c) n)
  | _, _ => Ret []
  end.
(** src/context.rs:534-537 and cli/src/commands/list.rs:97-100. *)
Definition process_text (e : printer) (p : list byte) : outcome (list byte) :=
  let! g := generating_process p in
  Ret (match g with Some n => table_text e CodeTable4_3 n | None => [] end).

(** One line of [describe]: the label up to column 40, then the value. *)
Definition field (label : list byte) (value : list byte) : list byte := label ++ value ++ lf.

(** src/context.rs:476-550 [SubMessage::describe]. *)
Definition describe (e : printer) (m : mode) (v : view) : outcome (list byte) :=
  let! p := v_prod_def v in
  let! category := parameter_category p in
  let! ft := forecast_time p in
  let '(ft_unit, ft_value) := match ft with Some f => forecast_describe f | None => ([], []) end in
  let! fs := fixed_surfaces m p in
  let '(s1, s2) := match fs with
                   | Some (a, b) => (surface_describe e a, surface_describe e b)
                   | None => (([], [], []), ([], [], []))
                   end in
  let! grid_name := section_describe e (snd (u_3 v)) in
  let! p3 := v_grid_def v in
  let! points := grid_num_points p3 in
  let! prod_name := section_describe e (snd (u_4 v)) in
  let! category_text := match category with
                        | Some c => let! d := v_indicator v in Ret (table_text e (CodeTable4_1 d) c)
                        | None => Ret []
                        end in
  let! parameter := parameter_text e v p in
  let! process := process_text e p in
  let! repr_name := section_describe e (snd (u_5 v)) in
  let! p5 := v_repr_def v in
  let! values := repr_num_points p5 in
  Ret (field (str "Grid:                                   ") grid_name ++
       field (str "  Number of points:                     ") (show_uint points) ++
       field (str "Product:                                ") prod_name ++
       field (str "  Parameter Category:                   ") category_text ++
       field (str "  Parameter:                            ") parameter ++
       field (str "  Generating Proceess:                  ") process ++
       field (str "  Forecast Time:                        ") ft_value ++
       field (str "  Forecast Time Unit:                   ") ft_unit ++
       field (str "  1st Fixed Surface Type:               ") (fst (fst s1)) ++
       field (str "  1st Scale Factor:                     ") (snd (fst s1)) ++
       field (str "  1st Scaled Value:                     ") (snd s1) ++
       field (str "  2nd Fixed Surface Type:               ") (fst (fst s2)) ++
       field (str "  2nd Scale Factor:                     ") (snd (fst s2)) ++
       field (str "  2nd Scaled Value:                     ") (snd s2) ++
       field (str "Data Representation:                    ") repr_name ++
       field (str "  Number of represented values:         ") (show_uint values)).

(** src/grid/latlon.rs:45-47, gaussian.rs:33-35, lambert.rs:60-62, polar_stereographic.rs:59-61
    [short_name], src/datatypes/sections.rs:215-222. *)
Definition short_name (g : grid) : list byte :=
  match g with
  | Template0 _ => str "regular_ll" | Template20 _ => str "polar_stereographic"
  | Template30 _ => str "lambert" | Template40 _ => str "regular_gg"
  end.

(** ** for loops over submessages *)

(** [for (i, submessage) in iterator]: each submessage is dropped before the next one is
    asked for. *)
Fixpoint for_views {A} (fuel : nat) (g : grib2) (p : Z) (f : view -> outcome A) : outcome (list A) :=
  match fuel with
  | O => Diverge
  | S fuel' =>
      let! (v, p', _) := sub_iter_next g p false in
      match v with
      | None => Ret []
      | Some v => let! a := f v in let! l := for_views fuel' g p' f in Ret (a :: l)
      end
  end.
(** The number of turns is at most the number of submessages (proved). *)
Definition all_of {A} (g : grib2) (f : view -> outcome A) : outcome (list A) :=
  for_views (S (length (g_subs g))) g 0 f.

(** ** gribber list *)

(** [format!("{}.{}", i.0, i.1)], cli/src/commands/list.rs:86, 136, inspect.rs:235. *)
Definition id_text (v : view) : list byte := show_uint (u_mi v) ++ str "." ++ show_uint (u_si v).

(** cli/src/commands/list.rs:149-156 [format_surface]. *)
Definition format_surface (e : printer) (s : surface) : list byte :=
  pr_f64 e (surface_value s) ++ match surface_unit s with Some u => str " [" ++ u ++ str "]" | None => [] end.

(** cli/src/commands/list.rs:71-82: the header. *)
Definition list_header : list byte :=
  trim_end (pad_left 8 (str "id") ++ str " │ " ++ pad_right 31 (str "Parameter") ++ str " " ++
    pad_right 18 (str "Generating process") ++ str " " ++ pad_left 14 (str "Forecast time") ++ str " " ++
    pad_left 33 (str "1st fixed surface") ++ str " " ++ pad_left 33 (str "2nd fixed surface") ++ str " │ " ++
    pad_left 21 (str "#points (nan/total)") ++ str " " ++ pad_right 21 (str "grid type")).

(** cli/src/commands/list.rs:85-131: one line; [cli_list_points] are lines 109-111 and the
    subtraction of line 127. *)
Definition list_row (e : printer) (m : mode) (v : view) : outcome (list byte) :=
  let! p := v_prod_def v in
  let! parameter := parameter_text e v p in
  let! process := process_text e p in
  let! ft := forecast_time p in
  let ft := match ft with Some f => forecast_text f | None => [] end in
  let! fs := fixed_surfaces m p in
  let '(s1, s2) := match fs with Some (a, b) => (format_surface e a, format_surface e b) | None => ([], []) end in
  let! p3 := v_grid_def v in
  let! grid := grid_of_payload m p3 in
  let! grid_type := match grid with
                    | Ok g => Ret (short_name g)
                    | Err _ => let! t := grid_tmpl_num p3 in Ret (str "unknown (template " ++ show_uint t ++ str ")")
                    end in
  let! (nan, total) := cli_list_points m v in
  Ret (pad_left 8 (id_text v) ++ str " │ " ++ pad_right 31 parameter ++ str " " ++ pad_right 18 process ++ str " " ++
       pad_left 14 ft ++ str " " ++ pad_left 33 s1 ++ str " " ++ pad_left 33 s2 ++ str " │ " ++
       pad_left 10 (show_uint nan) ++ str "/" ++ pad_left 10 (show_uint total) ++ str " " ++ pad_right 21 grid_type ++ lf).

(** cli/src/commands/list.rs:133-138: dump mode. *)
Definition dump_entry (e : printer) (m : mode) (v : view) : outcome (list byte) :=
  let! d := describe e m v in Ret (id_text v ++ lf ++ d ++ lf).

(** cli/src/commands/list.rs:66-142 [Display for ListView]. *)
Definition list_text (e : printer) (m : mode) (color dump : bool) (g : grib2) : outcome (list byte) :=
  if dump then let! l := all_of g (dump_entry e m) in Ret (concat l)
  else let! l := all_of g (list_row e m) in Ret (styled color [str "1"] list_header ++ lf ++ concat l).

(** cli/src/commands/list.rs:49-64 [num_lines]. *)
Definition list_num_lines (m : mode) (dump : bool) (g : grib2) : outcome Z :=
  let! len := sub_iter_size m g 0 in
  if dump then let! n := arith m Usize (10 * len) in arith m Usize (n - 1)
  else arith m Usize (1 + len).

(** ** gribber inspect *)

(** cli/src/commands/inspect.rs:173-187: the sections. *)
Fixpoint section_rows (m : mode) (i : Z) (l : list section) : outcome (list (list byte)) :=
  match l with
  | [] => Ret []
  | s :: l' =>
      let! stop := arith m Usize (s_offset s + s_size s) in
      let! rest := section_rows m (i + 1) l' in
      Ret ((pad_left 5 (show_uint i) ++ str " │ " ++ show_hex16 (s_offset s) ++ str " - " ++ show_hex16 stop ++
            str " │ Section " ++ show_uint (s_num s) ++ lf) :: rest)
  end.

(** cli/src/commands/inspect.rs:206-224: cells of a submessage row. *)
Definition index_cell (i : Z) : list byte := pad_left 5 (show_uint i).
Definition optional_cell (o : option Z) : list byte :=
  pad_left 5 (match o with None => str "-" | Some i => show_uint i end).
Definition template_cell (s : section) : outcome (list byte) :=
  let! c := get_tmpl_code s in
  Ret (pad_right 7 (match c with None => str "-" | Some t => template_text t end)).
(** cli/src/commands/inspect.rs:226-230: the header. *)
Definition inspect_header : list byte :=
  trim_end (pad_left 8 (str "id") ++ str " │ " ++ pad_left 5 (str "S2") ++ str " " ++ pad_left 5 (str "S3") ++ str " " ++
    pad_left 5 (str "S4") ++ str " " ++ pad_left 5 (str "S5") ++ str " " ++ pad_left 5 (str "S6") ++ str " " ++
    pad_left 5 (str "S7") ++ str " │ " ++ pad_right 7 (str "Tmpl3") ++ str " " ++ pad_right 7 (str "Tmpl4") ++ str " " ++
    pad_right 7 (str "Tmpl5")).
(** cli/src/commands/inspect.rs:234-249: the row of a submessage. *)
Definition inspect_row (v : view) : outcome (list byte) :=
  let! t3 := template_cell (snd (u_3 v)) in
  let! t4 := template_cell (snd (u_4 v)) in
  let! t5 := template_cell (snd (u_5 v)) in
  Ret (pad_left 8 (id_text v) ++ str " │ " ++ optional_cell (option_map fst (u_2 v)) ++ str " " ++
       index_cell (fst (u_3 v)) ++ str " " ++ index_cell (fst (u_4 v)) ++ str " " ++ index_cell (fst (u_5 v)) ++ str " " ++
       index_cell (fst (u_6 v)) ++ str " " ++ index_cell (fst (u_7 v)) ++ str " │ " ++ t3 ++ str " " ++ t4 ++ str " " ++ t5 ++ lf).
(** cli/src/commands/inspect.rs:268-282: the templates. *)
Definition template_row (e : printer) (t : Z * Z) : list byte :=
  match template_describe e t with
  | Some d => pad_right 8 (template_text t) ++ str " - " ++ d ++ lf
  | None => template_text t ++ lf
  end.

(** cli/src/commands/inspect.rs:135-139 [InspectItem], 72-74 [InspectView]. *)
Inductive item_kind := Sections | SubMessages | Templates.
(** cli/src/commands/inspect.rs:42-66: the items for the three flags. *)
Definition inspect_items (sections submessages templates : bool) : list item_kind :=
  let l := (if sections then [Sections] else []) ++ (if submessages then [SubMessages] else []) ++
           (if templates then [Templates] else []) in
  match l with [] => [Sections; SubMessages; Templates] | _ => l end.
(** cli/src/commands/inspect.rs:142-148 [title]. *)
Definition title (k : item_kind) : list byte :=
  match k with Sections => str "Sections" | SubMessages => str "SubMessages" | Templates => str "Templates" end.
(** cli/src/commands/inspect.rs:150-156 [len]; [order]: see [get_templates]. *)
Definition item_len (m : mode) (order : list (Z * Z) -> list (Z * Z)) (g : grib2) (k : item_kind) : outcome Z :=
  match k with
  | Sections => Ret (zlen (g_sections g))
  | SubMessages => sub_iter_size m g 0
  | Templates => let! l := get_templates order (g_sections g) in Ret (zlen l)
  end.
(** [Display] of an item. *)
Definition item_text (e : printer) (m : mode) (order : list (Z * Z) -> list (Z * Z)) (color : bool) (g : grib2) (k : item_kind)
  : outcome (list byte) :=
  match k with
  | Sections => let! l := section_rows m 0 (g_sections g) in Ret (concat l)
  | SubMessages => let! l := all_of g inspect_row in Ret (styled color [str "1"] inspect_header ++ lf ++ concat l)
  | Templates => let! l := get_templates order (g_sections g) in Ret (concat (map (template_row e) l))
  end.
(** cli/src/commands/inspect.rs:85-87 [with_headers]. *)
Definition with_headers (items : list item_kind) : bool := 2 <=? zlen items.
(** cli/src/commands/inspect.rs:104-133 [Display for InspectView]: the loop. *)
Fixpoint inspect_loop (e : printer) (m : mode) (order : list (Z * Z) -> list (Z * Z)) (color headers : bool) (g : grib2)
    (items : list item_kind) : outcome (list byte) :=
  match items with
  | [] => Ret []
  | k :: items' =>
      let head := if headers then styled color [str "33"; str "1"] (title k ++ str ":") ++ lf else [] in
      let! body := item_text e m order color g k in
      let! rest := inspect_loop e m order color headers g items' in
      Ret (head ++ body ++ (match items' with [] => [] | _ => lf end) ++ rest)
  end.
Definition inspect_text (e : printer) (m : mode) order (color : bool) (g : grib2) (items : list item_kind) : outcome (list byte) :=
  inspect_loop e m order color (with_headers items) g items.
(** cli/src/commands/inspect.rs:90-102 [num_lines]. *)
Fixpoint count_loop (m : mode) (order : list (Z * Z) -> list (Z * Z)) (headers : bool) (g : grib2) (items : list item_kind) (count : Z)
  : outcome Z :=
  match items with
  | [] => Ret count
  | k :: items' =>
      let! count := if headers then arith m Usize (count + 1) else Ret count in
      let! n := item_len m order g k in
      let! count := arith m Usize (count + n) in
      count_loop m order headers g items' count
  end.
Definition inspect_num_lines (m : mode) order (g : grib2) (items : list item_kind) : outcome Z :=
  let! count := count_loop m order (with_headers items) g items 0 in
  let! n := arith m Usize (zlen items - 1) in
  arith m Usize (count + n).

(** cli/src/cli.rs:24-42 [display_in_pager]: whether a pager is started, for a terminal of
    [height] lines. *)
Definition starts_pager (height num_lines : Z) : bool := height <? num_lines.

(** ** gribber info *)

(** [{:02}]; [Display] of chrono's [DateTime<Utc>], by its documentation: [{:04}-..] for years
    up to 9999, a plus sign and five digits after that. *)
Definition show_zero (w : nat) (n : Z) : list byte := repeat x30 (w - length (show_uint n)) ++ show_uint n.
Definition date_time_text (t : date_time) : list byte :=
  (if dt_year t <=? 9999 then show_zero 4 (dt_year t) else str "+" ++ show_uint (dt_year t)) ++ str "-" ++
  show_zero 2 (dt_month t) ++ str "-" ++ show_zero 2 (dt_day t) ++ str " " ++
  show_zero 2 (dt_hour t) ++ str ":" ++ show_zero 2 (dt_minute t) ++ str ":" ++ show_zero 2 (dt_second t) ++ str " UTC".

(** cli/src/commands/info.rs:48-86 [InfoView]. *)
Definition info_block (e : printer) (index : Z) (discipline total : Z) (p : list byte) (t : date_time) : outcome (list byte) :=
  let! centre := centre_id p in
  let! sub := subcentre_id p in
  let! master := master_table_version p in
  let! local := local_table_version p in
  let! sig := ref_time_significance p in
  let! status := prod_status p in
  let! dtype := data_type p in
  Ret (str "Message " ++ show_uint index ++ lf ++ lf ++
       field (str "    Discipline:                             ") (table_text e CodeTable0_0 discipline) ++
       field (str "    Total Length:                           ") (show_uint total) ++
       field (str "    Originating/generating centre:          ") (table_text e CommonCodeTable11 centre) ++
       field (str "    Originating/generating sub-centre:      ") (show_uint sub) ++
       field (str "    GRIB Master Tables Version Number:      ") (show_uint master ++ str " (" ++ table_text e CommonCodeTable00 master ++ str ")") ++
       field (str "    GRIB Local Tables Version Number:       ") (show_uint local ++ str " (" ++ table_text e CodeTable1_1 local ++ str ")") ++
       field (str "    Significance of Reference Time:         ") (table_text e CodeTable1_2 sig) ++
       field (str "    Reference time of data:                 ") (date_time_text t) ++
       field (str "    Production status of processed data:    ") (table_text e CodeTable1_3 status) ++
       field (str "    Type of processed data:                 ") (table_text e CodeTable1_4 dtype) ++ lf).

(** cli/src/commands/info.rs:27-44: the loop; what is printed, and the error it ends with. *)
Fixpoint info_loop (e : printer) (fuel : nat) (g : grib2) (p : Z) : outcome (list byte * option grib_error) :=
  match fuel with
  | O => Diverge
  | S fuel' =>
      let! (v, p', _) := sub_iter_next g p false in
      match v with
      | None => Ret ([], None)
      | Some v =>
          if u_si v =? 0 then
            match s_body (snd (u_0 v)), s_body (snd (u_1 v)) with
            | Some (B0 discipline total), Some (B1 ident) =>
                let! t := ref_time ident in
                match t with
                | Err x => Ret ([], Some x)
                | Ok t =>
                    let! block := info_block e (u_mi v) discipline total ident t in
                    let! (rest, x) := info_loop e fuel' g p' in Ret (block ++ rest, x)
                end
            | _, _ => info_loop e fuel' g p'
            end
          else info_loop e fuel' g p'
      end
  end.
Definition info_text (e : printer) (g : grib2) : outcome (list byte * option grib_error) :=
  info_loop e (S (length (g_subs g))) g 0.

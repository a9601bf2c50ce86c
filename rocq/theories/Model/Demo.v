(** Model of the demo (demo/): the table of submessages it shows for a file, and the picture it
    draws for the row that is clicked.  The elements of the page, and the events of the browser,
    are not modelled: a row is the texts of its cells, a picture is its width, height and octets.
    The demo is compiled for wasm32, where usize has 32 bits; here, as in the whole model, it has
    64 (see Model/Word.v for reading with 32). *)
From Coq Require Import Strings.String Floats.SpecFloat.
From Verif Require Import Model.Base Model.Errors Model.F32 Model.F64 Model.Sections Model.Reader Model.Parser Model.Context Model.Product Model.Grid Model.Decoder Model.Tools Model.Text Model.Tables Model.Cli.

(** ** The table *)

(** demo/src/main.rs:205-212 [format_surface]. *)
Definition demo_surface (e : printer) (s : surface) : list byte :=
  pr_f64 e (surface_value s) ++ match surface_unit s with Some u => str " [" ++ u ++ str "]" | None => [] end.

(** demo/src/main.rs:67-99, 137-148: the cells of a row.  The subtraction is of numbers of 32
    bits. *)
Definition demo_row (e : printer) (m : mode) (v : view) : outcome (list (list byte)) :=
  let! p := v_prod_def v in
  let! category := parameter_text e v p in
  let! process := process_text e p in
  let! ft := forecast_time p in
  let time := match ft with Some f => forecast_text f | None => [] end in
  let! fs := fixed_surfaces m p in
  let '(s1, s2) := match fs with Some (a, b) => (demo_surface e a, demo_surface e b) | None => ([], []) end in
  let! p3 := v_grid_def v in
  let! total := grid_num_points p3 in
  let! p5 := v_repr_def v in
  let! represented := repr_num_points p5 in
  let! grid := grid_of_payload m p3 in
  let! grid_type := match grid with
                    | Ok g => Ret (short_name g)
                    | Err _ => let! t := grid_tmpl_num p3 in Ret (str "unknown (template " ++ show_uint t ++ str ")")
                    end in
  let! nan := arith m U32 (total - represented) in
  Ret [id_text v; category; process; time; s1; s2; show_uint nan; show_uint total; grid_type].
(** demo/src/main.rs:62-67, 149-154: the text above the table, and its rows. *)
Definition demo_table (e : printer) (m : mode) (g : grib2) : outcome (list byte * list (list (list byte))) :=
  let! len := sub_iter_size m g 0 in
  let! rows := all_of g (demo_row e m) in
  Ret (show_uint len ++ str " submessage(s)", rows).

(** ** The picture *)

(** The literal 273.15 (demo/src/palette.rs:17): the nearest binary32 number. *)
Definition zero_celsius : f32 := f32_of_bits 1133024051.
(** demo/src/palette.rs:16-18. *)
Definition degrees_celsius_to_kelvin (value : f32) : f32 := f32_add value zero_celsius.
(** demo/src/palette.rs:1-14: the arms of the match. *)
Definition palette_arms : list (f32 * list byte) :=
  map (fun a => (f32_of_Z (fst a), map zb (snd a)))
  [(35, [180; 0; 104; 255]); (30, [255; 40; 0; 255]); (25, [255; 153; 0; 255]); (20, [250; 245; 0; 255]); (15, [255; 255; 150; 255]);
   (10, [255; 255; 240; 255]); (5, [185; 235; 255; 255]); (0, [0; 150; 255; 255]); (-5, [0; 65; 255; 255])].
Definition jma_amedas_temperature (v : f32) : list byte :=
  match find (fun a => SFltb (degrees_celsius_to_kelvin (fst a)) v) palette_arms with
  | Some a => snd a
  | None => map zb [0; 32; 128; 255]
  end.

(** [ImageData::new_with_u8_clamped_array_and_sh] (web_sys), by the HTML standard: the number of
    octets is not 0, and that of so many pixels of 4 octets. *)
Record image := MkImage { im_width : Z; im_height : Z; im_data : list byte }.
Definition image_data (bytes : list byte) (sw sh : Z) : option image :=
  if (zlen bytes =? 0) || negb (zlen bytes mod 4 =? 0) then None
  else if (sw =? 0) || negb ((zlen bytes / 4) mod sw =? 0) then None
  else if sh =? zlen bytes / 4 / sw then Some (MkImage sw sh bytes) else None.

(** demo/src/main.rs:101-134: a click on row [index]; [s] is the reader of the file, in the state
    that the clicks before have left it in.  [fuel] bounds the number of values. *)
Definition demo_click (m : mode) (c : codecs) (fuel : nat) (g : grib2) (s : src) (index : Z) : outcome (option image * src) :=
  let! r := sub_iter_nth g index 0 false in
  match fst (fst r) with
  | None => Ret (None, s)
  | Some v =>
      let! p3 := v_grid_def v in
      let! sh := sub_grid_shape m p3 in
      match sh with
      | Err _ => Ret (None, s)
      | Ok (w, h) =>
          let! (r, s') := decoder_from m s v in
          match r with
          | Err _ => Panic
          | Ok d =>
              let! r := dispatch c m d in
              match r with
              | Err _ => Panic
              | Ok values =>
                  let! out := collect fuel values in
                  match image_data (flat_map jma_amedas_temperature out) (w mod 2 ^ 32) (h mod 2 ^ 32) with
                  | Some i => Ret (Some i, s')
                  | None => Panic
                  end
              end
          end
      end
  end.
(** Clicks one after the other. *)
Fixpoint demo_clicks (m : mode) (c : codecs) (fuel : nat) (g : grib2) (s : src) (l : list Z) : outcome (list (option image)) :=
  match l with
  | [] => Ret []
  | k :: l' => let! (i, s') := demo_click m c fuel g s k in let! is := demo_clicks m c fuel g s' l' in Ret (i :: is)
  end.

(** Model of the text that [gribber decode] writes (cli/src/commands/decode.rs). *)
From Coq Require Import Strings.String Floats.SpecFloat.
From Verif Require Import Model.Base Model.Errors Model.F32 Model.F64 Model.Sections Model.Reader Model.Context Model.Product Model.Grid Model.Gaussian Model.Proj Model.Decoder Model.Tools Model.Text Model.Cli.

(** std's [{:.6}] for [f32]: the exact value times 10^6, rounded to an integer, ties to even,
    with six digits after the point.  [round_scaled n e]: n * 2^e to the nearest integer. *)
Definition round_scaled (n e : Z) : Z :=
  if 0 <=? e then n * 2 ^ e
  else
    let d := 2 ^ (- e) in
    let q := n / d in
    let r := n mod d in
    if (2 * r <? d) || ((2 * r =? d) && Z.even q) then q else q + 1.
Definition show_fixed6 (x : f32) : list byte :=
  let sign (s : bool) := if s then str "-" else [] in
  match x with
  | S754_nan => str "NaN"
  | S754_infinity s => sign s ++ str "inf"
  | S754_zero s => sign s ++ str "0.000000"
  | S754_finite s m e =>
      let n := round_scaled (Zpos m * 10 ^ 6) e in
      sign s ++ show_uint (n / 10 ^ 6) ++ str "." ++ show_zero 6 (n mod 10 ^ 6)
  end.

(** cli/src/commands/decode.rs:127: the header. *)
Definition decode_header : list byte :=
  trim_end (pad_left 10 (str "Latitude") ++ str " " ++ pad_left 11 (str "Longitude") ++ str " " ++ pad_left 9 (str "Value")).

(** cli/src/commands/decode.rs:133-136: one line; [shortest] is std's [{}] for [f32], which is
    not modelled. *)
Definition decode_row (shortest : f32 -> list byte) (x : (f32 * f32) * f32) : list byte :=
  let '((lat, lon), value) := x in
  pad_left 10 (show_fixed6 lat) ++ str " " ++ pad_left 11 (show_fixed6 lon) ++ str " " ++ pad_left 9 (shortest value) ++ lf.

(** cli/src/commands/decode.rs:122-139 [Display for DecodeTextDisplay]. *)
Definition decode_lines (shortest : f32 -> list byte) (color : bool) (l : list ((f32 * f32) * f32)) : list byte :=
  styled color [str "1"] decode_header ++ lf ++ concat (map (decode_row shortest) l).

(** cli/src/commands/decode.rs:80-105 [LatLonIteratorWrapper]: its items and its size hint. *)
Definition wrapper_iter (m : mode) (w : points + list (f32 * f32)) : iter (f32 * f32) :=
  match w with inl pts => points_iter m pts | inr l => iter_of_list l end.
Definition wrapper_size (m : mode) (w : points + list (f32 * f32)) : outcome Z :=
  match w with inl pts => points_size m pts | inr l => Ret (zlen l) end.

(** cli/src/commands/decode.rs:109-117 [num_lines]: the lower bound that [Zip] gives is the
    smaller one of the two. *)
Definition decode_num_lines (m : mode) (w : points + list (f32 * f32)) (values : list f32) : outcome Z :=
  let! n := wrapper_size m w in arith m Usize (Z.min n (zlen values) + 1).

(** cli/src/commands/decode.rs:57-59, 67-76: from the submessage on, without an output file:
    the number of lines that the pager is started by, and the text. *)
Definition decode_view_text (m : mode) (lm : libm) (pl : option proj_lib) (c : codecs) (gfuel fuel : nat)
    (shortest : f32 -> list byte) (color : bool) (s : src) (v : view) : outcome (result (Z * list byte) cli_error) :=
  let! p3 := v_grid_def v in
  let! latlons := sub_latlons m lm pl gfuel p3 in
  let! r := decoder_from m s v in
  match r with
  | (Err e, _) => Ret (Err (Grib e))
  | (Ok d, _) =>
      let! r := dispatch c m d in
      match r with
      | Err e => Ret (Err (Grib e))
      | Ok values =>
          let! values := collect fuel values in
          let show w :=
            let! n := decode_num_lines m w values in
            let! l := zip_items fuel (wrapper_iter m w) values in
            Ret (Ok (n, decode_lines shortest color l)) in
          match latlons with
          | Ok pts => show (inl pts)
          | Err NotSupported => show (inr (repeat (f32_nan, f32_nan) (length values)))
          | Err e => Ret (Err (Unexpected e))
          end
      end
  end.

(** cli/src/commands/decode.rs:45-78 [exec], without an output file. *)
Definition decode_text (m : mode) (lm : libm) (pl : option proj_lib) (c : codecs) (rfuel gfuel fuel : nat)
    (shortest : f32 -> list byte) (color : bool) (s : src) (index : list byte) : outcome (result (Z * list byte) cli_error) :=
  try! g := cli_grib m rfuel s in
  try! i := cli_message_index index in
  let! o := cli_find rfuel g 0 i in
  match o with
  | None => Ret (Err NoSuchIndex)
  | Some v => decode_view_text m lm pl c gfuel fuel shortest color (g_src g) v
  end.

(** Model of the example programs (examples/).  Standard output of a run that does not panic;
    opening files and the arguments of the programs are not modelled. *)
From Coq Require Import Strings.String Floats.SpecFloat.
From Verif Require Import Model.Base Model.Errors Model.F32 Model.F64 Model.Sections Model.Reader Model.Parser Model.Context Model.Product Model.Grid Model.Gaussian Model.Proj Model.Decoder Model.Tools Model.Text Model.Tables Model.Cli.

(** ** examples/find_layers.rs *)

(** examples/find_layers.rs:31-40: one turn of the loop. *)
Definition find_layer (e : printer) (m : mode) (hours : Z) (v : view) : outcome (list byte) :=
  let! p := v_prod_def v in
  let! ft := forecast_time p in
  match ft with
  | Some f =>
      match fc_unit f with
      | Name Hour => if fc_value f =? hours then let! d := describe e m v in Ret (id_text v ++ lf ++ d ++ lf) else Ret []
      | _ => Ret []
      end
  | None => Ret []
  end.
(** examples/find_layers.rs:19-44. *)
Definition find_layers (e : printer) (m : mode) (fuel : nat) (s : src) (hours : Z) : outcome (result (list byte) grib_error) :=
  try! g := grib2_read m fuel s in
  let! l := all_of g (find_layer e m hours) in Ret (Ok (concat l)).

(** ** examples/list_layers.rs *)

(** [Option::unwrap] *)
Definition unwrap {A} (o : option A) : outcome A := match o with Some a => Ret a | None => Panic end.
(** examples/list_layers.rs:57-79: one turn of the loop.  [Display for ForecastTime]
    (src/datatypes/product_attributes.rs:113-130) does not look at the width it is asked for. *)
Definition list_layer (e : printer) (m : mode) (v : view) : outcome (list byte) :=
  let! discipline := v_indicator v in
  let! p := v_prod_def v in
  let! c := parameter_category p in
  let! category := unwrap c in
  let! n := parameter_number p in
  let! number := unwrap n in
  let parameter := table_text e (CodeTable4_2 discipline category) number in
  let! f := forecast_time p in
  let! ft := unwrap f in
  let! s := fixed_surfaces m p in
  let! s := unwrap s in
  let '(first, _) := s in
  let unit := match surface_unit first with Some u => str " [" ++ u ++ str "]" | None => [] end in
  Ret (pad_right 31 parameter ++ str " " ++ forecast_text ft ++ str " " ++ pad_left 17 (pr_f64 e (surface_value first)) ++ unit ++ lf).
(** examples/list_layers.rs:18-83. *)
Definition list_layers (e : printer) (m : mode) (fuel : nat) (s : src) : outcome (result (list byte) grib_error) :=
  try! g := grib2_read m fuel s in
  let! l := all_of g (list_layer e m) in Ret (Ok (concat l)).

(** ** examples/decode_layer.rs *)

(** The loop over [a.zip(b)]: [b] is asked for an item after [a] returned one. *)
Fixpoint zip_loop {A B} (fuel : nat) (a : iter A) (b : iter B) (f : A * B -> list byte) : outcome (list byte) :=
  match fuel with
  | O => Diverge
  | S fuel' =>
      let! (x, a') := next a in
      match x with
      | None => Ret []
      | Some x =>
          let! (y, b') := next b in
          match y with
          | None => Ret []
          | Some y => let! rest := zip_loop fuel' a' b' f in Ret (f (x, y) ++ rest)
          end
      end
  end.
(** examples/decode_layer.rs:50; [shortest] is std's [{}] for [f32]. *)
Definition layer_line (shortest : f32 -> list byte) (x : (f32 * f32) * f32) : list byte :=
  let '((lat, lon), value) := x in shortest lat ++ str " " ++ shortest lon ++ str " " ++ shortest value ++ lf.
(** examples/decode_layer.rs:36-51: from the submessage on. *)
Definition decode_layer_view (m : mode) (lm : libm) (pl : option proj_lib) (c : codecs) (gfuel fuel : nat) (shortest : f32 -> list byte)
    (s : src) (v : view) : outcome (result (list byte) cli_error) :=
  let! p3 := v_grid_def v in
  let! latlons := sub_latlons m lm pl gfuel p3 in
  match latlons with
  | Err e => Ret (Err (Grib e))
  | Ok pts =>
      let! r := decoder_from m s v in
      match r with
      | (Err e, _) => Ret (Err (Grib e))
      | (Ok d, _) =>
          let! r := dispatch c m d in
          match r with
          | Err e => Ret (Err (Grib e))
          | Ok values => let! t := zip_loop fuel (points_iter m pts) values (layer_line shortest) in Ret (Ok t)
          end
      end
  end.
(** examples/decode_layer.rs:20-54. *)
Definition decode_layer (m : mode) (lm : libm) (pl : option proj_lib) (c : codecs) (rfuel gfuel fuel : nat) (shortest : f32 -> list byte)
    (s : src) (index : Z * Z) : outcome (result (list byte) cli_error) :=
  let! r := grib2_read m rfuel s in
  match r with
  | Err e => Ret (Err (Grib e))
  | Ok g =>
      let! o := cli_find rfuel g 0 index in
      match o with
      | None => Ret (Err NoSuchIndex)
      | Some v => decode_layer_view m lm pl c gfuel fuel shortest (g_src g) v
      end
  end.

(** ** examples/check_decoding_of_files.rs *)

(** examples/check_decoding_of_files.rs:44-51: the loop; the decoders read from the one reader of
    the file.  [vfuel] bounds the number of values. *)
Fixpoint check_loop (m : mode) (c : codecs) (vfuel fuel : nat) (g : grib2) (s : src) (p : Z) : outcome (result unit cli_error) :=
  match fuel with
  | O => Diverge
  | S fuel' =>
      let! (v, p', _) := sub_iter_next g p false in
      match v with
      | None => Ret (Ok tt)
      | Some v =>
          let! (r, s') := decoder_from m s v in
          match r with
          | Err e => Ret (Err (Grib e))
          | Ok d =>
              let! r := dispatch c m d in
              match r with
              | Err e => Ret (Err (Grib e))
              | Ok values => let! _ := collect vfuel values in check_loop m c vfuel fuel' g s' p'
              end
          end
      end
  end.
(** examples/check_decoding_of_files.rs:29-54 [check_decoding_file]. *)
Definition check_decoding_file (m : mode) (c : codecs) (rfuel vfuel : nat) (s : src) : outcome (result unit cli_error) :=
  let! r := grib2_read m rfuel s in
  match r with
  | Err e => Ret (Err (Grib e))
  | Ok g => if g_is_empty g then Ret (Err EmptyData) else check_loop m c vfuel (S (length (g_subs g))) g (g_src g) 0
  end.
(** examples/check_decoding_of_files.rs:17-26: the arguments that are files. *)
Fixpoint check_decoding (m : mode) (c : codecs) (rfuel vfuel : nat) (files : list src) : outcome (result unit cli_error) :=
  match files with
  | [] => Ret (Ok tt)
  | s :: files' => try! _ := check_decoding_file m c rfuel vfuel s in check_decoding m c rfuel vfuel files'
  end.

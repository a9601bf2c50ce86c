(** Property theorems C73-C76: what gribber decode prints, error texts, the example programs, the
    demo. *)
From Coq Require Import Lia Strings.String Floats.SpecFloat Reals.
From Flocq Require Import Core.Core IEEE754.BinarySingleNaN.
From Verif Require Import Model.Base Model.Errors Model.F32 Model.F64 Model.Sections Model.Reader Model.Parser Model.Context Model.Product Model.Grid Model.Gaussian Model.Proj Model.Decoder Model.Tools Model.Text Model.Tables Model.Cli Model.CliDecode Model.ErrorText Model.Programs.
From Verif Require Import Spec.Bits Spec.BitmapS Spec.ReaderS Spec.ParserS Spec.ContextS Spec.FieldsS Spec.ProductS Spec.FloatS Spec.Layout Spec.DecodeS Spec.ToolsS Spec.TablesS Spec.CliS Spec.DecodeTextS Spec.ErrorS Spec.SessionS Spec.ProgramsS.
From Verif Require Proofs.DecodeTextX Proofs.ErrorX Proofs.ProgramsX.
From Verif Require Props.P10_Decode Props.P11_Tools Props.P14_Cli.
Local Open Scope Z_scope.

(** C73: the text of gribber decode: a heading, then a line for each value that has a point, in
    scanning order; its number of lines is what the pager is started by. *)
Theorem C73_text : forall m rfuel s g, grib2_read m rfuel s = Ret (Ok g) -> zlen (data s) < 2 ^ 63 -> 0 <= pos s <= zlen (data s) ->
  0 < g_len g < Z.of_nat rfuel ->
  forall index a b, index_string index a b -> decimal a < 2 ^ 64 -> decimal b < 2 ^ 64 ->
  forall w v, In w (g_subs g) -> make_view g w = Some v -> (u_mi v, u_si v) = (decimal a, decimal b) ->
  forall lm pl c gfuel fuel latlons dec s' it out,
  let p3 := octets (data s) (s_offset (snd (u_3 v)) + 5) (s_size (snd (u_3 v)) - 5) in
  sub_latlons m lm pl gfuel p3 = Ret latlons ->
  decoder_from m (g_src g) v = Ret (Ok dec, s') -> dispatch c m dec = Ret (Ok it) -> Run it out End ->
  (length out < fuel)%nat -> zlen out < 2 ^ 63 ->
  forall shortest color, (forall f, ~ In x0a (shortest f)) ->
  let shows l := exists t, decode_text m lm pl c rfuel gfuel fuel shortest color s index = Ret (Ok (zlen l + 1, t)) /\
      shows_points_of shortest color l t /\ line_feeds t = zlen l + 1 in
  match latlons with
  | Ok pts => 0 < field p3 7 10 -> exists ps, Run (points_iter m pts) ps End /\ zlen ps = field p3 7 10 /\ shows (combine ps out)
  | Err NotSupported => shows (map (fun x => ((f32_nan, f32_nan), x)) out)
  | Err e => decode_text m lm pl c rfuel gfuel fuel shortest color s index = Ret (Err (Unexpected e))
  end.
Proof. exact DecodeTextX.text_shown. Qed.
Print Assumptions C73_text.
(** Ten points, of which three are encoded; the decoder returns sixteen values. *)
Definition ex_latlon : list byte := x00 :: be_bytes 4 10 ++ [x00; x00; x00; x00] ++ [x06] ++ repeat x00 15 ++ be_bytes 4 5 ++ be_bytes 4 2 ++ repeat x00 8 ++
  be_bytes 4 43000000 ++ be_bytes 4 140000000 ++ [x00] ++ be_bytes 4 42900000 ++ be_bytes 4 141000000 ++ repeat x00 8 ++ [x00].
Definition ex_file : list byte :=
  file_bytes [([], one_field [x00; x00] 0 (repeat x00 16) ex_latlon (repeat x00 4) P10_Decode.ex_s5 P10_Decode.ex_s6 (pack 4 [7; 0; 15]))] [].
Example C73_ex : decode_text Checked P11_Tools.no_libm None P10_Decode.no_codecs 200 100 100 (fun x => if is_nan_SF x then text "NaN" else text "?") false (cursor ex_file) (text "0.0") =
  Ret (Ok (11, text "  Latitude   Longitude     Value
 43.000000  140.000000         ?
 43.000000  140.250000       NaN
 43.000000  140.500000       NaN
 43.000000  140.750000         ?
 43.000000  141.000000       NaN
 42.900002  140.000000       NaN
 42.900002  140.250000       NaN
 42.900002  140.500000       NaN
 42.900002  140.750000       NaN
 42.900002  141.000000         ?
")).
Proof. vm_compute. reflexivity. Qed.

(** C74: the texts of errors: which error it is, with its number in decimal ... *)
Theorem C74_text : forall io e, natural e -> error_says (io_eof io) (io_seek io) e (parse_error_text io e).
Proof. exact ErrorX.error_text. Qed.
Print Assumptions C74_text.
(** C74: ... which is a natural number for every error the reader returns, when the device has none ... *)
Theorem C74_natural : forall m d p fuel, zlen d < 2 ^ 63 -> 0 <= p <= zlen d -> zlen d < Z.of_nat fuel ->
  forall e, grib2_read m fuel (MkSrc d p []) = Ret (Err (EParse e)) -> library_error e /\ natural e.
Proof. exact ErrorX.read_natural. Qed.
Print Assumptions C74_natural.
(** C74: ... so two errors with the same text are the same error. *)
Theorem C74_unambiguous : forall io e e', io_distinct (io_eof io) (io_seek io) -> library_error e -> library_error e' -> natural e -> natural e' ->
  parse_error_text io e = parse_error_text io e' -> e = e'.
Proof. exact ErrorX.error_text_inj. Qed.
Print Assumptions C74_unambiguous.
(** C74: a command of gribber exits with 0 and writes no error, or with 1 and writes the text of
    its error ... *)
Theorem C74_reported : forall A color (r : outcome (result A cli_error)) text_of out status, report color text_of r = Ret (out, status) ->
  (status = 0 <-> exists a, r = Ret (Ok a)) /\ (status = 1 <-> exists e, r = Ret (Err e)) /\
  (forall e, r = Ret (Err e) -> out = (if color then [x1b] ++ text "[31merror" ++ [x1b] ++ text "[0m" else text "error") ++ text ": " ++ text_of e ++ [x0a]) /\
  (status = 0 -> out = []).
Proof. exact ErrorX.reported. Qed.
Print Assumptions C74_reported.
(** C74: ... as every command does with a file that cannot be read or that is empty. *)
Theorem C74_unreadable : forall m d p fuel, zlen d < 2 ^ 63 -> 0 <= p <= zlen d -> zlen d < Z.of_nat fuel ->
  forall A k io other id, let run := report false (cli_error_text io other id) (command (A := A) m fuel (MkSrc d p []) k) in
  (forall e, grib2_read m fuel (MkSrc d p []) = Ret (Err (EParse e)) ->
     exists t, error_says (io_eof io) (io_seek io) e t /\ run = Ret (text "error: " ++ t ++ [x0a], 1)) /\
  (forall g, grib2_read m fuel (MkSrc d p []) = Ret (Ok g) -> g_len g = 0 -> run = Ret (text "error: empty GRIB2 data" ++ [x0a], 1)).
Proof. exact ErrorX.unreadable_report. Qed.
Print Assumptions C74_unreadable.
(** C74: the text of an error of decoding: its name, with the names of what it contains, each on a
    line of its own, and the number of a level that is too large ... *)
Theorem C74_decode : forall io other id e, ~ In x0a (io_png io) -> natural_level e ->
  name_written 0 (decode_error_name (io_png io) e) (cli_error_text io other id (Grib (EDecode e))).
Proof. exact ErrorX.decode_error_reported. Qed.
Print Assumptions C74_decode.
(** C74: ... which is a natural number for every error decoding returns ... *)
Theorem C74_levels : forall c m d e, dispatch c m d = Ret (Err (EDecode e)) -> natural_level e.
Proof. exact ErrorX.dispatch_level. Qed.
Print Assumptions C74_levels.
(** C74: ... so two errors of decoding with the same text are the same error. *)
Theorem C74_decode_unambiguous : forall io other id e e', ~ In x0a (io_png io) -> natural_level e -> natural_level e' ->
  cli_error_text io other id (Grib (EDecode e)) = cli_error_text io other id (Grib (EDecode e')) -> e = e'.
Proof. exact ErrorX.decode_error_unambiguous. Qed.
Print Assumptions C74_decode_unambiguous.
(** The texts of std and of the PNG library. *)
Definition ex_io : io_texts := MkIoTexts (text "failed to fill whole buffer") (text "invalid seek to a negative or overflowing position") (text """unexpected EOF""").
Example C74_decode_ex : ~ In x0a (io_png ex_io) /\
  cli_error_text ex_io (fun _ => []) (0, 0) (Grib (EDecode TemplateNumberUnsupported)) = text "TemplateNumberUnsupported" /\
  cli_error_text ex_io (fun _ => []) (0, 0) (Grib (EDecode (RunLengthError (InvalidLevelValue 300)))) = text
"RunLengthEncodingDecodeError(
    InvalidLevelValue(
        300,
    ),
)" /\
  cli_error_text ex_io (fun _ => []) (0, 0) (Grib (EDecode PngError)) = text
"PngDecodeError(
    PngError(
        ""unexpected EOF"",
    ),
)".
Proof. split; [cbv; intuition discriminate|]. vm_compute. repeat split. Qed.
(** A file cut off after its first section; no octets. *)
Example C74_ex : io_distinct (io_eof ex_io) (io_seek ex_io) /\
  report false (cli_error_text ex_io (fun _ => []) (0, 0)) (command (A := unit) Checked 200 (MkSrc (firstn 16 ex_file) 0 []) (fun _ => Ret (Ok tt))) =
    Ret (text "error: Unexpected end of data at 0
", 1) /\
  report false (cli_error_text ex_io (fun _ => []) (0, 0)) (command (A := unit) Checked 200 (MkSrc [] 0 []) (fun _ => Ret (Ok tt))) =
    Ret (text "error: empty GRIB2 data
", 1) /\
  report false (cli_error_text ex_io (fun _ => []) (2, 0)) (decode_text Checked P11_Tools.no_libm None P10_Decode.no_codecs 200 100 100 (fun _ => []) false (cursor ex_file) (text "2.0")) =
    Ret (text "error: no such index: 2.0
", 1).
Proof.
  split; [split; [discriminate|intros w; split; discriminate]|]. vm_compute. repeat split.
Qed.

(** C75: the example find_layers prints the entries of the submessages whose forecast time is the
    given number of hours, in the order of the file. *)
Theorem C75_find_layers : forall m fuel s g, grib2_read m fuel s = Ret (Ok g) -> zlen (data s) < 2 ^ 63 -> 0 <= pos s <= zlen (data s) ->
  exists ms us vs, Forall wf_message ms /\ g_sections g = flat_map message_sections ms /\ submessages_of_all 0 ms us /\
    Forall2 (shows (g_sections g)) us vs /\ zlen vs = g_len g /\
    forall e hours, compiles e ->
    (forall t, find_layers e m fuel s hours = Ret (Ok t) <-> exists ls, Forall2 (found e m hours) vs ls /\ t = concat ls) /\
    (find_layers e m fuel s hours = Panic <->
       exists v p, In v vs /\ v_prod_def v = Ret p /\
         (forecast_time p = Panic \/ (forecast_time p = Ret (Some (from_numbers 1 hours)) /\ fixed_surfaces m p = Panic))) /\
    find_layers e m fuel s hours <> Diverge.
Proof. exact ProgramsX.found_all. Qed.
Print Assumptions C75_find_layers.
(** C75: the example list_layers prints a line per submessage; it panics iff one has none ... *)
Theorem C75_list_layers : forall m fuel s g, grib2_read m fuel s = Ret (Ok g) -> zlen (data s) < 2 ^ 63 -> 0 <= pos s <= zlen (data s) ->
  exists ms us vs, Forall wf_message ms /\ g_sections g = flat_map message_sections ms /\ submessages_of_all 0 ms us /\
    Forall2 (shows (g_sections g)) us vs /\ zlen vs = g_len g /\
    forall e, compiles e ->
    (forall t, list_layers e m fuel s = Ret (Ok t) <-> exists ls, Forall2 (layer e m) vs ls /\ t = concat ls) /\
    (list_layers e m fuel s = Panic <-> exists v, In v vs /\ forall line, ~ layer e m v line) /\
    list_layers e m fuel s <> Diverge.
Proof. exact ProgramsX.layers_all. Qed.
Print Assumptions C75_list_layers.
(** C75: ... that is, if its product definition template is none of those with a forecast time and
    fixed surfaces, or the section ends before them. *)
Theorem C75_no_layer : forall m fuel s g, grib2_read m fuel s = Ret (Ok g) -> zlen (data s) < 2 ^ 63 -> 0 <= pos s <= zlen (data s) ->
  forall w v, In w (g_subs g) -> make_view g w = Some v ->
  exists p, v_prod_def v = Ret p /\
  forall e t, compiles e -> prod_template p = t -> t <> 44 ->
    ((forall line, ~ layer e m v line) <->
     ~ (In t prod_templates /\ exists a b, unit_octet t = Some a /\ surface_octet t = Some b /\ reaches p (a + 4) /\ reaches p (b + 11))).
Proof. exact ProgramsX.no_layer. Qed.
Print Assumptions C75_no_layer.
(** C75: the example decode_layer prints a line for each value that has a point, in scanning order,
    or returns the error of the library. *)
Theorem C75_decode_layer : forall m rfuel s g, grib2_read m rfuel s = Ret (Ok g) -> zlen (data s) < 2 ^ 63 -> 0 <= pos s <= zlen (data s) ->
  g_len g < Z.of_nat rfuel -> forall w v, In w (g_subs g) -> make_view g w = Some v ->
  forall lm pl c gfuel fuel latlons,
  let p3 := octets (data s) (s_offset (snd (u_3 v)) + 5) (s_size (snd (u_3 v)) - 5) in
  sub_latlons m lm pl gfuel p3 = Ret latlons ->
  forall shortest, let run := decode_layer m lm pl c rfuel gfuel fuel shortest s (u_mi v, u_si v) in
  match latlons with
  | Err e => run = Ret (Err (Grib e))
  | Ok pts =>
      (forall e, decoding m c (data s) v (Err e) -> run = Ret (Err (Grib e))) /\
      (forall out, decoding m c (data s) v (Ok out) -> 0 < field p3 7 10 < Z.of_nat fuel ->
         exists ps, Run (points_iter m pts) ps End /\ zlen ps = field p3 7 10 /\ run = Ret (Ok (concat (map (point_text shortest) (combine ps out)))))
  end.
Proof. exact ProgramsX.layer_decoded. Qed.
Print Assumptions C75_decode_layer.
Theorem C75_decode_layer_missing : forall m rfuel s g, grib2_read m rfuel s = Ret (Ok g) -> zlen (data s) < 2 ^ 63 -> 0 <= pos s <= zlen (data s) ->
  g_len g < Z.of_nat rfuel ->
  forall index, (forall w v, In w (g_subs g) -> make_view g w = Some v -> (u_mi v, u_si v) <> index) ->
  forall lm pl c gfuel fuel shortest, decode_layer m lm pl c rfuel gfuel fuel shortest s index = Ret (Err NoSuchIndex).
Proof. exact ProgramsX.layer_missing. Qed.
Print Assumptions C75_decode_layer_missing.
(** C75: the example check_decoding_of_files succeeds for a file iff each of its submessages is
    decoded when it is decoded alone, and fails as the first one does that fails ... *)
Theorem C75_check_file : forall m fuel s g, grib2_read m fuel s = Ret (Ok g) -> zlen (data s) < 2 ^ 63 -> 0 <= pos s <= zlen (data s) -> 0 < g_len g ->
  exists ms us vs, Forall wf_message ms /\ g_sections g = flat_map message_sections ms /\ submessages_of_all 0 ms us /\
    Forall2 (shows (g_sections g)) us vs /\ zlen vs = g_len g /\
    forall c vfuel, enough m c (data s) vs vfuel ->
    let run := check_decoding_file m c fuel vfuel s in
    (run = Ret (Ok tt) <-> Forall (fun v => exists out, decoding m c (data s) v (Ok out)) vs) /\
    (forall e, run = Ret (Err e) <-> exists e', e = Grib e' /\ first_failure m c (data s) vs (fun v => decoding m c (data s) v (Err e'))) /\
    (run = Panic <-> first_failure m c (data s) vs (decoding_panics m c (data s))).
Proof. exact ProgramsX.checked. Qed.
Print Assumptions C75_check_file.
(** A hundred is enough for the example file. *)
Example C75_ex_check : match grib2_read Checked 200 (cursor ex_file) with
  | Ret (Ok g) => g_len g = 1 /\ match map (make_view g) (g_subs g) with
      | [Some v] => enough Checked P10_Decode.no_codecs ex_file [v] 100 /\ exists out, decoding Checked P10_Decode.no_codecs ex_file v (Ok out)
      | _ => False
      end
  | _ => False
  end.
Proof.
  destruct (grib2_read Checked 200 (cursor ex_file)) as [[g|]| |] eqn:E; [|vm_compute in E; discriminate..]. vm_compute in E. injection E as <-. split; [reflexivity|].
  match goal with |- match ?x with _ => _ end => let y := eval vm_compute in x in change x with y end. cbv beta iota. split.
  - apply ProgramsX.enough_run. constructor; [|constructor]. vm_compute. exact I.
  - match goal with |- exists out, decoding ?m ?c ?d ?v (Ok out) => apply (ProgramsX.one_ok m c 100 d [v]); [|left; reflexivity|vm_compute; reflexivity] end.
    apply ProgramsX.enough_run. constructor; [|constructor]. vm_compute. exact I.
Qed.
(** C75: ... and stops at the first file that fails. *)
Theorem C75_check_files : forall m c rfuel vfuel files r,
  check_decoding m c rfuel vfuel files = Ret r <->
  (r = Ok tt /\ Forall (fun s => check_decoding_file m c rfuel vfuel s = Ret (Ok tt)) files) \/
  exists pre s post e, files = pre ++ s :: post /\ Forall (fun s => check_decoding_file m c rfuel vfuel s = Ret (Ok tt)) pre /\
    check_decoding_file m c rfuel vfuel s = Ret (Err e) /\ r = Err e.
Proof. exact ProgramsX.checked_files. Qed.
Print Assumptions C75_check_files.
(** C75: each of the programs reports the error of a file that cannot be read; a file without
    submessages is an error for check_decoding_of_files. *)
Theorem C75_unreadable : forall m fuel s e, grib2_read m fuel s = Ret (Err e) ->
  (forall p hours, find_layers p m fuel s hours = Ret (Err e)) /\ (forall p, list_layers p m fuel s = Ret (Err e)) /\
  (forall lm pl c gfuel vfuel shortest index, decode_layer m lm pl c fuel gfuel vfuel shortest s index = Ret (Err (Grib e))) /\
  (forall c vfuel, check_decoding_file m c fuel vfuel s = Ret (Err (Grib e))).
Proof. exact ProgramsX.unreadable. Qed.
Print Assumptions C75_unreadable.
Theorem C75_check_empty : forall m fuel s g, grib2_read m fuel s = Ret (Ok g) -> g_len g = 0 ->
  forall c vfuel, check_decoding_file m c fuel vfuel s = Ret (Err EmptyData).
Proof. exact ProgramsX.empty_file. Qed.
Print Assumptions C75_check_empty.
Example C75_unreadable_ex :
  grib2_read Checked 200 (cursor (firstn 20 ex_file)) = Ret (Err (EParse ReadErrorEof)) /\
  match grib2_read Checked 200 (cursor [x00; x47]) with Ret (Ok g) => g_len g = 0 | _ => False end.
Proof. vm_compute. repeat split. Qed.
Example C75_ex :
  find_layers P14_Cli.ex_e Checked 300 (cursor P14_Cli.ex_one) 5 = Ret (Ok []) /\
  find_layers P14_Cli.ex_e Checked 300 (cursor P14_Cli.ex_one) 6 = (let! t := list_text P14_Cli.ex_e Checked false true P14_Cli.ex_1 in Ret (Ok t)) /\
  list_layers P14_Cli.ex_e Checked 300 (cursor P14_Cli.ex_one) = Ret (Ok (text "Temperature                     6 [h]               1.5 [Pa]
")) /\
  (* an empty product definition template *)
  list_layers P14_Cli.ex_e Checked 300 (cursor ex_file) = Panic /\
  decode_layer Checked P11_Tools.no_libm None P10_Decode.no_codecs 200 100 100 (fun x => if is_nan_SF x then text "NaN" else text "?") (cursor ex_file) (0, 0) =
  Ret (Ok (text "? ? ?
? ? NaN
? ? NaN
? ? ?
? ? NaN
? ? NaN
? ? NaN
? ? NaN
? ? NaN
? ? ?
")) /\
  check_decoding Checked P10_Decode.no_codecs 200 100 [cursor ex_file; cursor ex_file] = Ret (Ok tt) /\
  check_decoding Checked P10_Decode.no_codecs 200 100 [cursor ex_file; cursor []; cursor ex_file] = Ret (Err EmptyData).
Proof. vm_compute. repeat split. Qed.

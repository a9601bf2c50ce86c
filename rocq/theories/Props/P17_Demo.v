(** Property theorems C77: the demo. *)
From Coq Require Import Lia Strings.String Floats.SpecFloat Reals.
From Flocq Require Import Core.Core IEEE754.BinarySingleNaN.
From Verif Require Import Model.Base Model.Errors Model.F32 Model.F64 Model.Sections Model.Reader Model.Parser Model.Context Model.Product Model.Grid Model.Decoder Model.Tools Model.Text Model.Tables Model.Cli Model.Demo.
From Verif Require Import Spec.Bits Spec.BitmapS Spec.ReaderS Spec.ParserS Spec.ContextS Spec.FieldsS Spec.GridS Spec.ProductS Spec.FloatS Spec.Layout Spec.DecodeS Spec.ToolsS Spec.SessionS Spec.CliS Spec.ProgramsS Spec.DemoS.
From Verif Require Proofs.DemoX.
From Verif Require Props.P10_Decode Props.P11_Tools Props.P14_Cli Props.P15_Programs.
Local Open Scope Z_scope.

(** C77: the table has a row for each submessage, with what gribber list shows; it cannot be shown
    iff gribber list has no line for a submessage. *)
Theorem C77_table : forall m fuel s g, grib2_read m fuel s = Ret (Ok g) -> zlen (data s) < 2 ^ 63 -> 0 <= pos s <= zlen (data s) ->
  exists ms us vs, Forall wf_message ms /\ g_sections g = flat_map message_sections ms /\ submessages_of_all 0 ms us /\
    Forall2 (shows (g_sections g)) us vs /\ zlen vs = g_len g /\
    forall e m', compiles e ->
    (forall h rows, demo_table e m' g = Ret (h, rows) <->
       (exists w, written (zlen vs) w /\ h = w ++ text " submessage(s)") /\ Forall2 (demo_cells e m') vs rows) /\
    (demo_table e m' g = Panic <-> exists v, In v vs /\ forall line, ~ list_line e m' v line) /\
    demo_table e m' g <> Diverge.
Proof. exact DemoX.table_shown. Qed.
Print Assumptions C77_table.
(** C77: the colour of a value: of the first class whose limit it is above, opaque ... *)
Theorem C77_colour : forall v, number32 v -> coloured v (jma_amedas_temperature v).
Proof. exact DemoX.palette. Qed.
Print Assumptions C77_colour.
(** C77: ... where the limits are 1/163840 K below the temperatures they are meant to be ... *)
Theorem C77_limits : forall x, In x temperature_classes -> kelvin (fst x) = (IZR (fst x) + 27315 / 100 - 1 / 163840)%R.
Proof. exact DemoX.limits. Qed.
Print Assumptions C77_limits.
(** C77: ... and a point without a value has the colour of the coldest class. *)
Theorem C77_missing : map bz (jma_amedas_temperature f32_nan) = coldest ++ [255].
Proof. exact DemoX.palette_nan. Qed.
Print Assumptions C77_missing.
(** C77: whatever rows are clicked one after the other, each click shows the picture of its
    submessage; a click makes the demo panic iff the values of the submessage cannot be decoded or
    are not as many as the grid has points. *)
Theorem C77_pictures : forall m rfuel s g, grib2_read m rfuel s = Ret (Ok g) -> zlen (data s) < 2 ^ 63 -> 0 <= pos s <= zlen (data s) ->
  exists ms us vs, Forall wf_message ms /\ g_sections g = flat_map message_sections ms /\ submessages_of_all 0 ms us /\
    Forall2 (shows (g_sections g)) us vs /\ zlen vs = g_len g /\
    (forall c fuel clicks is, demo_clicks m c fuel g (g_src g) (map Z.of_nat clicks) = Ret is ->
       Forall2 (fun k i => match nth_error vs k with Some v => pictured m c (data s) v i | None => i = None end) clicks is) /\
    (forall c fuel s' k, data s' = data s -> enough m c (data s) vs fuel ->
       (demo_click m c fuel g s' (Z.of_nat k) = Panic <-> exists v, nth_error vs k = Some v /\ click_panics m c (data s) v)).
Proof. exact DemoX.clicked. Qed.
Print Assumptions C77_pictures.
(** C77: the value at position y * w + x of the file is that of the point (x, y) of the grid, counted
    from its first point, for all pixels of a picture iff the scanning mode has neither flag 3 nor
    flag 4; the demo does not look at the scanning mode. *)
Theorem C77_orientation : forall w h mode, 2 <= w -> 2 <= h ->
  ((forall x y, 0 <= x < w -> 0 <= y < h -> scan_ij w h mode (y * w + x) = (x, y)) <-> flag 3 mode = false /\ flag 4 mode = false).
Proof. exact DemoX.orientation. Qed.
Print Assumptions C77_orientation.
Example C77_orientation_ex : flag 3 64 = false /\ flag 4 64 = false /\ scan_ij 3 2 64 4 = (1, 1) /\ flag 4 16 = true /\ scan_ij 3 2 16 3 = (2, 1).
Proof. vm_compute. repeat split. Qed.
(** Two points of 270 and 285 K; the file of C73, whose decoder returns sixteen values for ten
    points. *)
Definition ex_3 : list byte := x00 :: be_bytes 4 2 ++ [x00; x00; x00; x00] ++ [x06] ++ repeat x00 15 ++ be_bytes 4 2 ++ be_bytes 4 1 ++ repeat x00 8 ++
  be_bytes 4 0 ++ be_bytes 4 0 ++ [x00] ++ be_bytes 4 0 ++ be_bytes 4 1000000 ++ repeat x00 8 ++ [x00].
Definition ex_5 : list byte := be_bytes 4 2 ++ [x00; x00] ++ be_bytes 4 1132920832 ++ [x00; x00; x00; x00; x04; x00].
Definition ex_two : list byte := file_bytes [([], one_field [x00; x00] 0 (repeat x00 16) ex_3 (repeat x00 4) ex_5 [xff] [x0f])] [].
Definition ex_run (d : list byte) (l : list Z) : outcome (list (option (Z * Z * list Z))) :=
  let! r := grib2_read Checked 300 (cursor d) in
  match r with
  | Ok g => let! is := demo_clicks Checked P10_Decode.no_codecs 100 g (g_src g) l in
            Ret (map (option_map (fun i => (im_width i, im_height i, map bz (im_data i)))) is)
  | Err _ => Panic
  end.
Example C77_ex :
  ex_run ex_two [0; 1; 0] = Ret [Some (2, 1, [0; 65; 255; 255; 255; 255; 240; 255]); None; Some (2, 1, [0; 65; 255; 255; 255; 255; 240; 255])] /\
  ex_run P15_Programs.ex_file [0] = Panic /\
  match grib2_read Checked 300 (cursor P14_Cli.ex_one) with
  | Ret (Ok g) => match demo_table P14_Cli.ex_e Checked g with
      | Ret (h, rows) => h = text "1 submessage(s)" /\ map (fun r => nth 0 r []) rows = [text "0.0"] /\ map (fun r => nth 8 r []) rows = [text "regular_ll"]
      | _ => False
      end
  | _ => False
  end.
Proof. vm_compute. repeat split. Qed.

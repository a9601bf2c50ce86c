(** What the demo shows: the table of a file, the pictures of its submessages. *)
From Coq Require Import Strings.String Floats.SpecFloat Reals.
From Flocq Require Import Core.Core IEEE754.BinarySingleNaN.
From Verif Require Import Model.Base Model.Errors Model.F32 Model.Sections Model.Reader Model.Context Model.Product Model.Grid Model.Decoder Model.Text Model.Tables Model.Cli Model.Demo.
From Verif Require Import Spec.ReaderS Spec.FloatS Spec.ToolsS Spec.SessionS Spec.ProgramsS Spec.CliS.

(** The cells of a row. *)
Definition demo_cells (e : printer) (m : mode) (v : view) (cells : list (list byte)) : Prop :=
  exists p p3 p5 n k, v_prod_def v = Ret p /\ v_grid_def v = Ret p3 /\ v_repr_def v = Ret p5 /\
    grid_num_points p3 = Ret n /\ repr_num_points p5 = Ret k /\
  exists id parameter process time s1 s2 nan total grid,
    shows_id v id /\ shows_parameter e v p parameter /\ shows_process e p process /\ shows_forecast p time /\
    shows_surfaces e m p s1 s2 /\ shows_points m n k nan total /\ shows_grid m p3 grid /\
    cells = [id; parameter; process; time; s1; s2; nan; total; grid].

(** ** Colours *)

(** Red, green, blue, from the hottest class on: temperatures above so many degrees Celsius. *)
Definition temperature_classes : list (Z * list Z) :=
  [(35, [180; 0; 104]); (30, [255; 40; 0]); (25, [255; 153; 0]); (20, [250; 245; 0]); (15, [255; 255; 150]);
   (10, [255; 255; 240]); (5, [185; 235; 255]); (0, [0; 150; 255]); (-5, [0; 65; 255])].
Definition coldest : list Z := [0; 32; 128].
(** The limit of a class in kelvin, in binary32 arithmetic. *)
Definition kelvin (c : Z) : R := rnd32 (IZR c + rnd32 (27315 / 100)).
Definition above (v : f32) (c : Z) : Prop := v = S754_infinity false \/ (finite v /\ (kelvin c < val v)%R).
(** [t] is the opaque colour of [v] kelvin: of the first class whose limit [v] is above. *)
Definition coloured (v : f32) (t : list byte) : Prop :=
  exists rgb, map bz t = rgb ++ [255] /\
  ((exists pre c post, temperature_classes = pre ++ (c, rgb) :: post /\ (forall x, In x pre -> ~ above v (fst x)) /\ above v c) \/
   ((forall x, In x temperature_classes -> ~ above v (fst x)) /\ rgb = coldest)).
(** Numbers of binary32. *)
Definition number32 (v : f32) : Prop := valid_binary 24 128 v = true.

(** ** Pictures *)

(** What a click shows for a submessage of the octets [d]: nothing if the shape of the grid is not
    known; otherwise a picture of that shape, the values from left to right and from top to
    bottom in the order of the file. *)
Definition pictured (m : mode) (c : codecs) (d : list byte) (v : view) (r : option image) : Prop :=
  exists p3 sh, v_grid_def v = Ret p3 /\ sub_grid_shape m p3 = Ret sh /\
  match sh with
  | Err _ => r = None
  | Ok (w, h) => exists out i, decoding m c d v (Ok out) /\ r = Some i /\ 0 < w /\ 0 < h /\ zlen out = w * h /\
      im_width i = w /\ im_height i = h /\ zlen (im_data i) = 4 * w * h /\
      forall x y, 0 <= x < w -> 0 <= y < h ->
        exists value, nth_error out (Z.to_nat (y * w + x)) = Some value /\ coloured value (octets (im_data i) (4 * (y * w + x)) 4)
  end.
(** When a click makes the demo panic: the grid definition is cut short, the values cannot be
    decoded, or they are not as many as the grid has points. *)
Definition click_panics (m : mode) (c : codecs) (d : list byte) (v : view) : Prop :=
  exists p3, v_grid_def v = Ret p3 /\
  (sub_grid_shape m p3 = Panic \/
   exists w h, sub_grid_shape m p3 = Ret (Ok (w, h)) /\
   (decoding_panics m c d v \/ (exists e, decoding m c d v (Err e)) \/ exists out, decoding m c d v (Ok out) /\ (zlen out <> w * h \/ out = []))).

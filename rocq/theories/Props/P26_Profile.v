(** Property theorems C87: builds with overflow checks (debug) and without (release). *)
From Coq Require Import Lia Strings.String.
From Verif Require Import Model.Base Model.Helpers Model.Errors Model.F32 Model.F64 Model.Sections Model.Reader Model.Parser Model.Context Model.Product Model.Decoder Model.Session Model.Opj.
From Verif Require Import Model.Grid Model.Gaussian Model.Proj Model.Tools Model.Text Model.Tables Model.Cli Model.CliDecode Model.Programs Model.Demo.
From Verif Require Import Spec.ProfileS.
From Verif Require Proofs.ProfileP Proofs.ProfileD Proofs.ProfileG Proofs.ProfileT.
From Verif Require Props.P07_Context Props.P09_Grid Props.P10_Decode Props.P14_Cli.
Import P07_Context(ex_g, ex_all).
Local Open Scope Z_scope.

(** C87: whatever a build with overflow checks does without panicking, the build without them
    does, too: reading a file ... *)
Theorem C87_read : forall fuel s, same_unless_panic (grib2_read Checked fuel s) (grib2_read Wrapping fuel s).
Proof. exact ProfileP.su_read. Qed.
Print Assumptions C87_read.
(** C87: ... or one section after the other, to whatever point ... *)
Theorem C87_sections : forall s, same_items (section_stream Checked s) (section_stream Wrapping s).
Proof. exact (fun s => ProfileP.alike_items _ _ (ProfileP.alike_mk _ _ _ ProfileP.su_section)). Qed.
Print Assumptions C87_sections.
(** C87: ... any sequence of calls of the API ... *)
Theorem C87_session : forall g ops s, same_unless_panic (se_run Checked g s ops) (se_run Wrapping g s ops).
Proof. exact ProfileD.su_run. Qed.
Print Assumptions C87_session.
(** C87: ... making a decoder and decoding, item by item ... *)
Theorem C87_decoder : forall s v, same_unless_panic (decoder_from Checked s v) (decoder_from Wrapping s v).
Proof. exact ProfileD.su_from. Qed.
Print Assumptions C87_decoder.
Theorem C87_values : forall c d, same_iter (dispatch c Checked d) (dispatch c Wrapping d).
Proof. exact (fun c d => ProfileD.oa_items _ _ (ProfileD.oa_dispatch c d)). Qed.
Print Assumptions C87_values.
(** C87: ... with what the JPEG 2000 library gets to see meanwhile ... *)
Theorem C87_library : forall lib buf,
  snd (opj_decode lib Checked buf) = Panic \/ opj_decode lib Wrapping buf = opj_decode lib Checked buf.
Proof. exact ProfileT.su_opj. Qed.
Print Assumptions C87_library.
(** C87: ... the grid, its points and their coordinates ... *)
Theorem C87_points : forall p,
  same_unless_panic (sub_grid_shape Checked p) (sub_grid_shape Wrapping p) /\
  same_unless_panic (sub_ij Checked p) (sub_ij Wrapping p) /\
  forall g, same_items (gpi_iter Checked g) (gpi_iter Wrapping g) /\ same_unless_panic (gpi_size Checked g) (gpi_size Wrapping g).
Proof. exact (fun p => conj (ProfileG.su_shape p) (conj (ProfileG.su_ij p) (fun g => conj (ProfileP.alike_items _ _ (ProfileG.alike_gpi g)) (ProfileG.su_gsize g)))). Qed.
Print Assumptions C87_points.
Theorem C87_coordinates : forall lm pl fuel p, same_unless_panic (sub_latlons Checked lm pl fuel p) (sub_latlons Wrapping lm pl fuel p) /\
  forall pts, same_items (points_iter Checked pts) (points_iter Wrapping pts) /\ same_unless_panic (points_size Checked pts) (points_size Wrapping pts).
Proof. exact (fun lm pl fuel p => conj (ProfileG.su_latlons lm pl fuel p) (fun pts => conj (ProfileP.alike_items _ _ (ProfileG.alike_points pts)) (ProfileG.su_psize pts))). Qed.
Print Assumptions C87_coordinates.
(** C87: ... the attributes of a product ... *)
Theorem C87_product : forall e v p x c,
  same_unless_panic (fixed_surfaces Checked p) (fixed_surfaces Wrapping p) /\
  same_unless_panic (describe e Checked v) (describe e Wrapping v) /\
  same_unless_panic (is_identical_to Checked x c) (is_identical_to Wrapping x c).
Proof. exact (fun e v p x c => conj (ProfileT.su_surfaces p) (conj (ProfileT.su_describe e v) (ProfileT.su_identical x c))). Qed.
Print Assumptions C87_product.
(** C87: ... the commands of gribber ... *)
Theorem C87_list : forall e color dump g,
  same_unless_panic (list_text e Checked color dump g) (list_text e Wrapping color dump g) /\
  same_unless_panic (list_num_lines Checked dump g) (list_num_lines Wrapping dump g).
Proof. exact (fun e color dump g => conj (ProfileT.su_list e color dump g) (ProfileT.su_lines dump g)). Qed.
Print Assumptions C87_list.
Theorem C87_inspect : forall e order color g items,
  same_unless_panic (inspect_text e Checked order color g items) (inspect_text e Wrapping order color g items) /\
  same_unless_panic (inspect_num_lines Checked order g items) (inspect_num_lines Wrapping order g items).
Proof. exact (fun e order color g items => conj (ProfileT.su_inspect e order color g items) (ProfileT.su_count order g items)). Qed.
Print Assumptions C87_inspect.
Theorem C87_decode : forall lm pl c rfuel gfuel fuel fmt s index,
  same_unless_panic (cli_decode Checked lm pl c rfuel gfuel fuel fmt s index) (cli_decode Wrapping lm pl c rfuel gfuel fuel fmt s index).
Proof. exact ProfileT.su_decode. Qed.
Print Assumptions C87_decode.
Theorem C87_decode_text : forall lm pl c rfuel gfuel fuel shortest color s index,
  same_unless_panic (decode_text Checked lm pl c rfuel gfuel fuel shortest color s index) (decode_text Wrapping lm pl c rfuel gfuel fuel shortest color s index).
Proof. exact ProfileT.su_dtext. Qed.
Print Assumptions C87_decode_text.
(** C87: ... the example programs ... *)
Theorem C87_examples : forall e lm pl c rfuel gfuel fuel shortest s index hours files,
  same_unless_panic (find_layers e Checked rfuel s hours) (find_layers e Wrapping rfuel s hours) /\
  same_unless_panic (list_layers e Checked rfuel s) (list_layers e Wrapping rfuel s) /\
  same_unless_panic (decode_layer Checked lm pl c rfuel gfuel fuel shortest s index) (decode_layer Wrapping lm pl c rfuel gfuel fuel shortest s index) /\
  same_unless_panic (check_decoding Checked c rfuel fuel files) (check_decoding Wrapping c rfuel fuel files).
Proof. exact (fun e lm pl c rfuel gfuel fuel shortest s index hours files => conj (ProfileT.su_finds e rfuel s hours) (conj (ProfileT.su_layers e rfuel s)
  (conj (ProfileT.su_dlayer lm pl c rfuel gfuel fuel shortest s index) (ProfileT.su_check c rfuel fuel files)))). Qed.
Print Assumptions C87_examples.
(** C87: ... the demo ... *)
Theorem C87_demo : forall e c fuel g s clicks,
  same_unless_panic (demo_table e Checked g) (demo_table e Wrapping g) /\
  same_unless_panic (demo_clicks Checked c fuel g s clicks) (demo_clicks Wrapping c fuel g s clicks).
Proof. exact (fun e c fuel g s clicks => conj (ProfileT.su_dtable e g) (ProfileT.su_clicks c fuel g clicks s)). Qed.
Print Assumptions C87_demo.
(** C87: ... and the build script. *)
Theorem C87_tables : forall ccts files,
  match build_tables Checked ccts files with
  | Some x => exists y, build_tables Wrapping ccts files = Some y /\ same_unless_panic x y
  | None => build_tables Wrapping ccts files = None
  end.
Proof. exact ProfileT.su_build. Qed.
Print Assumptions C87_tables.

(** A grid of one point whose latitudes are 4294.97 degrees apart. *)
Definition ex_wide : list byte := firstn 41 (P09_Grid.ex_grid 1 1 1 64) ++ [x7f; xff; xff; xff] ++ firstn 5 (skipn 45 (P09_Grid.ex_grid 1 1 1 64)) ++ [xff; xff; xff; xff] ++ skipn 54 (P09_Grid.ex_grid 1 1 1 64).
(** On correct input nothing panics and both builds agree; where the build with overflow checks
    panics, the other one may do anything: it returns a point for this grid, although its latitudes
    do not run in the direction its flags name, and a number of lines
    of nearly 2^64 for a dump of no submessages. *)
Example C87_ex :
  from_slice Checked 300 ex_all = Ret (Ok ex_g) /\ from_slice Wrapping 300 ex_all = Ret (Ok ex_g) /\
  P10_Decode.decode_all P10_Decode.no_codecs Checked P10_Decode.ex_d = P10_Decode.decode_all P10_Decode.no_codecs Wrapping P10_Decode.ex_d /\
  sub_latlons Checked P09_Grid.lm0 None 9 ex_wide = Panic /\
  match sub_latlons Wrapping P09_Grid.lm0 None 9 ex_wide with Ret (Ok pts) => points_size Wrapping pts = Ret 1 | _ => False end /\
  list_num_lines Checked true (MkGrib2 (cursor []) [] []) = Panic /\
  list_num_lines Wrapping true (MkGrib2 (cursor []) [] []) = Ret (2 ^ 64 - 1).
Proof. vm_compute. repeat split. Qed.

(** Model of the texts of parse errors (src/error.rs) and of how gribber reports errors
    (cli/src/main.rs). *)
From Coq Require Import Strings.String.
From Verif Require Import Model.Base Model.Errors Model.Reader Model.Context Model.Tools Model.Text Model.Cli.

(** The texts of std's I/O errors: of a read at the end of the data, of a seek to a place that does
    not exist; and the message of the png crate. *)
Record io_texts := MkIoTexts { io_eof : list byte; io_seek : list byte; io_png : list byte }.

(** src/error.rs:113-119 [Display for BuildError]. *)
Definition build_error_text (n : Z) : list byte := str "Section size is too small: " ++ show_uint n.

(** src/error.rs:73-97 [Display for ParseError]; [ReadError] carries the text of the error it was
    made of (src/error.rs:99-109). *)
Definition parse_error_text (io : io_texts) (e : parse_error) : list byte :=
  match e with
  | ReadErrorEof => str "Read error: " ++ io_eof io
  | ReadErrorSeek => str "Read error: " ++ io_seek io
  | ReadErrorTooSmall n => str "Read error: " ++ build_error_text n
  | NotGRIB => str "Not GRIB data"
  | GRIBVersionMismatch i => str "Not GRIB version 2: " ++ show_uint i
  | UnknownSectionNumber s => str "Unknown section number: " ++ show_uint s
  | EndSectionMismatch => str "Content of End Section is not valid"
  | UnexpectedEndOfData i => str "Unexpected end of data at " ++ show_uint i
  | InvalidSectionOrder i => str "GRIB2 sections wrongly ordered at " ++ show_uint i
  | NoGridDefinition i => str "Grid Definition Section not found at " ++ show_uint i
  | ReadErrorIo w => str "Read error: " ++ w
  end.

(** The derived [{:#?}] of a variant with one field: the field on a line of its own, four columns
    further right. *)
Definition indented (t : list byte) : list byte := str "    " ++ flat_map (fun b => if bz b =? 10 then b :: str "    " else [b]) t.
Definition debug_variant (name field : list byte) : list byte := name ++ str "(" ++ lf ++ indented (field ++ str ",") ++ lf ++ str ")".
(** The derived Debug of the enums of src/decoder/simple.rs:41-46, src/decoder/complex.rs:24-28,
    src/decoder/jpeg2000.rs:14-21, src/decoder/run_length.rs:7-13. *)
Definition simple_error_text (e : simple_error) : list byte :=
  match e with
  | SimpleNotSupported => str "NotSupported"
  | OriginalFieldValueTypeNotSupported => str "OriginalFieldValueTypeNotSupported"
  | SimpleLengthMismatch => str "LengthMismatch"
  end.
Definition complex_error_text (e : complex_error) : list byte :=
  match e with ComplexNotSupported => str "NotSupported" | ComplexLengthMismatch => str "LengthMismatch" end.
Definition j2k_error_text (e : j2k_error) : list byte :=
  match e with
  | J2kNotSupported => str "NotSupported" | DecoderSetupError => str "DecoderSetupError" | MainHeaderReadError => str "MainHeaderReadError"
  | BodyReadError => str "BodyReadError" | J2kLengthMismatch => str "LengthMismatch"
  end.
Definition rle_error_text (e : rle_error) : list byte :=
  match e with
  | RleNotSupported => str "NotSupported" | InvalidFirstValue => str "InvalidFirstValue" | RleLengthMismatch => str "LengthMismatch"
  | InvalidLevelValue l => debug_variant (str "InvalidLevelValue") (show_uint l)
  end.
(** src/decoder.rs:235-245, src/decoder/png.rs:10-14: [{:#?}] of [DecodeError]; [png]: the message
    of the png crate, in quotes. *)
Definition decode_error_text (png : list byte) (e : decode_error) : list byte :=
  match e with
  | TemplateNumberUnsupported => str "TemplateNumberUnsupported"
  | BitMapIndicatorUnsupported => str "BitMapIndicatorUnsupported"
  | SimplePackingError e => debug_variant (str "SimplePackingDecodeError") (simple_error_text e)
  | ComplexPackingError e => debug_variant (str "ComplexPackingDecodeError") (complex_error_text e)
  | Jpeg2000Error e => debug_variant (str "Jpeg2000CodeStreamDecodeError") (j2k_error_text e)
  | PngError => debug_variant (str "PngDecodeError") (debug_variant (str "PngError") png)
  | RunLengthError e => debug_variant (str "RunLengthEncodingDecodeError") (rle_error_text e)
  | LengthMismatch => str "LengthMismatch"
  end.

(** src/error.rs:37-48 [Display for GribError]; the texts [of other errors] contain strings that are
    not modelled. *)
Definition grib_error_text (io : io_texts) (other : grib_error -> list byte) (e : grib_error) : list byte :=
  match e with
  | EParse p => parse_error_text io p
  | EDecode d => decode_error_text (io_png io) d
  | InternalDataError => str "Something unexpected happend"
  | _ => other e
  end.

(** cli/src/cli.rs:18-20, 77-81, cli/src/commands/decode.rs:53, 72: the texts of the errors of the
    commands; [id]: the index that was asked for. *)
Definition cli_error_text (io : io_texts) (other : grib_error -> list byte) (id : Z * Z) (e : cli_error) : list byte :=
  match e with
  | Grib e => grib_error_text io other e
  | EmptyData => str "empty GRIB2 data"
  | BadIndex => str "message index must be specified as 'N.M' where N and M are both integers"
  | NoSuchIndex => str "no such index: " ++ show_uint (fst id) ++ str "." ++ show_uint (snd id)
  | Unexpected e => str "something unexpected happened:: " ++ grib_error_text io other e
  end.

(** cli/src/main.rs:19-25 [main]: what is written to standard error, and the exit status (101 is
    that of a Rust program that panicked). *)
Definition report {A} (color : bool) (error_text : cli_error -> list byte) (r : outcome (result A cli_error)) : outcome (list byte * Z) :=
  match r with
  | Ret (Ok _) => Ret ([], 0)
  | Ret (Err e) => Ret (styled color [str "31"] (str "error") ++ str ": " ++ error_text e ++ lf, 1)
  | Panic => Panic
  | Diverge => Diverge
  end.

(** cli/src/commands/list.rs:25, cli/src/commands/info.rs:26, cli/src/commands/inspect.rs:40,
    cli/src/commands/decode.rs:47: every command first reads the file. *)
Definition command {A} (m : mode) (fuel : nat) (s : src) (k : grib2 -> outcome (result A cli_error)) : outcome (result A cli_error) :=
  try! g := cli_grib m fuel s in k g.

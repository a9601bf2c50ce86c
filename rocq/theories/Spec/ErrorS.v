(** The texts of errors. *)
From Coq Require Import Strings.String.
From Verif Require Import Model.Base Model.Errors Spec.ToolsS Spec.CliS.

(** The errors of the first three kinds carry the text of another error. *)
Definition numbered (e : parse_error) : option (list byte * Z) :=
  match e with
  | ReadErrorTooSmall n => Some (text "Read error: Section size is too small: ", n)
  | GRIBVersionMismatch n => Some (text "Not GRIB version 2: ", n)
  | UnknownSectionNumber n => Some (text "Unknown section number: ", n)
  | UnexpectedEndOfData n => Some (text "Unexpected end of data at ", n)
  | InvalidSectionOrder n => Some (text "GRIB2 sections wrongly ordered at ", n)
  | NoGridDefinition n => Some (text "Grid Definition Section not found at ", n)
  | _ => None
  end.
(** The text of a parse error; [eof], [seek]: of std's I/O errors. *)
Definition error_says (eof seek : list byte) (e : parse_error) (t : list byte) : Prop :=
  match e with
  | ReadErrorEof => t = text "Read error: " ++ eof
  | ReadErrorSeek => t = text "Read error: " ++ seek
  | NotGRIB => t = text "Not GRIB data"
  | EndSectionMismatch => t = text "Content of End Section is not valid"
  | ReadErrorIo w => t = text "Read error: " ++ w
  | _ => exists s n w, numbered e = Some (s, n) /\ written n w /\ t = s ++ w
  end.
(** Its number is a natural number. *)
Definition natural (e : parse_error) : Prop := match numbered e with Some (_, n) => 0 <= n | None => True end.
(** It is not an error of the device, whose text can be anything. *)
Definition library_error (e : parse_error) : Prop := match e with ReadErrorIo _ => False | _ => True end.
(** std's texts differ, and none of them looks like the library's. *)
Definition io_distinct (eof seek : list byte) : Prop :=
  eof <> seek /\ forall w, eof <> text "Section size is too small: " ++ w /\ seek <> text "Section size is too small: " ++ w.

(** ** Errors of decoding *)

(** Names of the errors, as they appear in the source: a name, with the name or the number of what
    it contains. *)
Inductive error_name := Plain (name : list byte) | Holds (name : list byte) (inner : error_name) | Number (n : Z) | Quoted (t : list byte).
Definition decode_error_name (png : list byte) (e : decode_error) : error_name :=
  match e with
  | TemplateNumberUnsupported => Plain (text "TemplateNumberUnsupported")
  | BitMapIndicatorUnsupported => Plain (text "BitMapIndicatorUnsupported")
  | SimplePackingError e => Holds (text "SimplePackingDecodeError") (Plain
      match e with
      | SimpleNotSupported => text "NotSupported" | SimpleLengthMismatch => text "LengthMismatch"
      | OriginalFieldValueTypeNotSupported => text "OriginalFieldValueTypeNotSupported"
      end)
  | ComplexPackingError e => Holds (text "ComplexPackingDecodeError") (Plain
      match e with ComplexNotSupported => text "NotSupported" | ComplexLengthMismatch => text "LengthMismatch" end)
  | Jpeg2000Error e => Holds (text "Jpeg2000CodeStreamDecodeError") (Plain
      match e with
      | J2kNotSupported => text "NotSupported" | DecoderSetupError => text "DecoderSetupError" | BodyReadError => text "BodyReadError"
      | MainHeaderReadError => text "MainHeaderReadError" | J2kLengthMismatch => text "LengthMismatch"
      end)
  | PngError => Holds (text "PngDecodeError") (Holds (text "PngError") (Quoted png))
  | RunLengthError e => Holds (text "RunLengthEncodingDecodeError")
      match e with
      | RleNotSupported => Plain (text "NotSupported") | InvalidFirstValue => Plain (text "InvalidFirstValue")
      | RleLengthMismatch => Plain (text "LengthMismatch") | InvalidLevelValue l => Holds (text "InvalidLevelValue") (Number l)
      end
  | LengthMismatch => Plain (text "LengthMismatch")
  end.
(** How a name is written, [depth] levels further right: what it contains stands on a line of its
    own, in parentheses, followed by a comma. *)
Fixpoint name_written (depth : nat) (n : error_name) (t : list byte) : Prop :=
  match n with
  | Plain s => t = s
  | Quoted s => t = s
  | Number l => written l t
  | Holds s inner => exists u, name_written (S depth) inner u /\
      t = s ++ text "(" ++ [x0a] ++ repeat x20 (4 * S depth) ++ u ++ text "," ++ [x0a] ++ repeat x20 (4 * depth) ++ text ")"
  end.
(** Levels are natural numbers. *)
Definition natural_level (e : decode_error) : Prop := match e with RunLengthError (InvalidLevelValue l) => 0 <= l | _ => True end.

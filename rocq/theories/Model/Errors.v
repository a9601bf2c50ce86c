(** Model of /repo/src/error.rs and of the decoder error enums.
    Human-readable strings carried by errors are not modelled: each source of a
    string is one constructor. *)
From Verif Require Import Model.Base.

(** src/error.rs:50-65 [ParseError].  [ReadError(String)] is split by origin:
    an [io::Error] from a reader that ended early, an [io::Error] from a seek to a
    negative position, the [BuildError] of src/error.rs:108-111, and an error of the
    device that is read, with its text (Model/Device.v; a [src] has none). *)
Inductive parse_error :=
| ReadErrorEof                      (* "failed to fill whole buffer" *)
| ReadErrorSeek                     (* invalid seek to a negative or overflowing position *)
| ReadErrorTooSmall (n : Z)         (* BuildError::SectionSizeTooSmall *)
| NotGRIB
| GRIBVersionMismatch (v : Z)
| UnknownSectionNumber (n : Z)
| EndSectionMismatch
| UnexpectedEndOfData (pos : Z)
| InvalidSectionOrder (pos : Z)
| NoGridDefinition (pos : Z)
| ReadErrorIo (what : list byte).   (* any other io::Error: its text *)

(** src/decoder/simple.rs:41-45, src/decoder/complex.rs:25-28,
    src/decoder/run_length.rs:8-13, src/decoder/png.rs:11-14,
    src/decoder/jpeg2000.rs:15-21. *)
Inductive simple_error := SimpleNotSupported | OriginalFieldValueTypeNotSupported | SimpleLengthMismatch.
Inductive complex_error := ComplexNotSupported | ComplexLengthMismatch.
Inductive j2k_error := J2kNotSupported | DecoderSetupError | MainHeaderReadError | BodyReadError | J2kLengthMismatch.
Inductive rle_error := RleNotSupported | InvalidFirstValue | RleLengthMismatch | InvalidLevelValue (l : Z).

(** src/decoder.rs:235-245 [DecodeError]. *)
Inductive decode_error :=
| TemplateNumberUnsupported
| BitMapIndicatorUnsupported
| SimplePackingError (e : simple_error)
| ComplexPackingError (e : complex_error)
| Jpeg2000Error (e : j2k_error)
| PngError
| RunLengthError (e : rle_error)
| LengthMismatch.

(** src/error.rs:10-17 [GribError]. *)
Inductive grib_error :=
| InternalDataError
| EParse (e : parse_error)
| EDecode (e : decode_error)
| InvalidValueError
| NotSupported
| Unknown.

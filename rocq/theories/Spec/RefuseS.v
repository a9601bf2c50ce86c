(** Which packings the decoder refuses.  [p] is section 5 from octet 6, [t] its template. *)
From Verif Require Import Model.Base Model.Errors Model.Decoder Spec.ReaderS Spec.FieldsS.

(** Simple packing, complex packing, complex packing with spatial differencing, JPEG 2000,
    PNG, run-length packing. *)
Definition supported_templates : list Z := [0; 2; 3; 40; 41; 200].

(** The last octet of section 5 that the template has. *)
Definition sect5_end (p : list byte) (t : Z) : Z :=
  match t with
  | 0 | 40 | 41 => 21
  | 2 => 47
  | 3 => 49
  | 200 => 17 + 2 * field p 15 16
  | _ => 11
  end.

(** Octet 21: type of original field values, 0 = floating point.  Octet 22: group splitting
    method, 1 = general.  Octet 23: missing value management, 0 to 2.  Octet 48: order of
    spatial differencing.  Octet 49: number of octets of each extra descriptor. *)
Inductive refused (p : list byte) (t : Z) : grib_error -> Prop :=
| refused_template : ~ In t supported_templates -> refused p t (EDecode TemplateNumberUnsupported)
| refused_original : In t [0; 2; 3; 40; 41] -> field p 21 21 <> 0 ->
    refused p t (EDecode (SimplePackingError OriginalFieldValueTypeNotSupported))
| refused_groups : t = 2 \/ (t = 3 /\ In (field p 48 48) [1; 2]) -> field p 21 21 = 0 ->
    field p 22 22 <> 1 \/ 2 < field p 23 23 ->
    refused p t (EDecode (ComplexPackingError ComplexNotSupported))
| refused_order : t = 3 -> field p 21 21 = 0 -> field p 48 48 = 255 ->
    refused p t (EDecode (ComplexPackingError ComplexNotSupported))
| refused_order_unknown : t = 3 -> field p 21 21 = 0 -> ~ In (field p 48 48) [1; 2; 255] ->
    refused p t NotSupported
| refused_descriptors : t = 3 -> field p 21 21 = 0 -> In (field p 48 48) [1; 2] ->
    field p 49 49 = 0 \/ 4 < field p 49 49 ->
    refused p t (EDecode (ComplexPackingError ComplexNotSupported)).

(** Errors in the packed data itself. *)
Inductive data_error (t : Z) : grib_error -> Prop :=
| data_jpeg2000 : forall x, t = 40 -> data_error t (EDecode (Jpeg2000Error x))
| data_png : t = 41 -> data_error t (EDecode PngError)
| data_run_length : forall x, t = 200 -> data_error t (EDecode (RunLengthError x)).

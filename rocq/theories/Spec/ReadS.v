(** What comes next in the octets after the sections read so far. *)
From Verif Require Import Model.Base Model.Errors Model.Sections Model.Parser Spec.ReaderS.

(** [rest]: one more section, a defect, or the end of the data. *)
Definition comes (checked : Prop) (d : list byte) (endp cur : Z) (rest : list item) : Prop :=
  match rest with
  | [] => ends d endp cur
  | [Err e] => fails checked d endp cur e
  | [Ok s] => exists endp' cur', tiles checked d endp cur [s] endp' cur'
  | _ => False
  end.

(** Devices that fail: what is used to state C78. *)
From Coq Require Import Strings.String.
From Verif Require Import Model.Base Model.Errors Model.Sections Model.Reader Model.Parser Model.Context Model.Decoder Model.Device Spec.TablesS.

(** A call that succeeded, or was interrupted (and may be repeated). *)
Definition harmless (o : option fault) : Prop := match o with Some (Broken _) => False | _ => True end.

(** The error says what the device said; when the device could not even tell its position, it also
    says so. *)
Definition reports (f : fault) (e : parse_error) : Prop :=
  e = ReadErrorIo (fault_text f) \/ e = ReadErrorIo (text "resetting the initial position failed: " ++ fault_text f).

(** The file [g] as read from a source, now on a device with the plan [rest]. *)
Definition on_device (g : grib2) (rest : list (option fault)) : dev_grib2 :=
  MkDevGrib2 (MkDev (g_src g) rest) (g_sections g) (g_subs g).

(** A program that decodes one submessage after the other, whatever the answers. *)
Fixpoint attempts (m : mode) (d : dev) (vs : list view) : outcome (list (result decoder grib_error)) :=
  match vs with
  | [] => Ret []
  | v :: vs' => let! (r, d') := dev_decoder_from m d v in let! l := attempts m d' vs' in Ret (r :: l)
  end.

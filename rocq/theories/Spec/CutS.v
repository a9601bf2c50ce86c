(** Files that are cut off. *)
From Verif Require Import Model.Base Model.Errors Model.Sections Model.Parser Model.Context Spec.ReaderS Spec.ParserS.

(** The first [n] octets. *)
Definition cut (n : Z) (d : list byte) : list byte := firstn (Z.to_nat n) d.
(** The sections [l] are those of messages, and every one of them that begins before position [n] (its
    first sixteen octets do) also ends there. *)
Definition cuts_no_message (n : Z) (l : list section) : Prop :=
  forall ms x, l = flat_map message_sections ms -> Forall wf_message ms -> In x ms ->
    s_offset (ms0 x) + 16 <= n -> s_offset (ms8 x) + 4 <= n.

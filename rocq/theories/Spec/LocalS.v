(** Two files that differ only in packed data. *)
From Verif Require Import Model.Base Model.Sections Spec.ReaderS.

(** Octet [i] of [d] is one of the octets from 6 on of a section 7 in a section table from [p] on. *)
Definition packed (strict : Prop) (d : list byte) (p i : Z) : Prop :=
  exists l endp cur s, tiles strict d p p l endp cur /\ In s l /\ s_num s = 7 /\ s_offset s + 5 <= i < s_offset s + s_size s.
(** [d'] is [d] with other packed data. *)
Definition repacked (strict : Prop) (d d' : list byte) (p : Z) : Prop :=
  zlen d' = zlen d /\ forall i, 0 <= i -> octets d' i 1 <> octets d i 1 -> packed strict d p i.
(** The sections [x] of [d] and [x'] of [d'] have the same octets. *)
Definition same_section (d : list byte) (x : section) (d' : list byte) (x' : section) : Prop :=
  s_size x' = s_size x /\ octets d' (s_offset x') (s_size x') = octets d (s_offset x) (s_size x).

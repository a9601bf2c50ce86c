(** Memory for complex packing: what is used to state C88. *)
From Verif Require Import Model.Base Model.Sections Spec.Bits Spec.Layout Spec.ComplexS.

(** Which points come out when there is room for [left] items at a time: those of the groups before
    the first one that is longer. *)
Fixpoint points_before (left : Z) (lengths : list Z) : Z :=
  match lengths with
  | [] => 0
  | l :: ls => if l <=? left then l + points_before left ls else 0
  end.

(** A file that declares one point, packed with template 5.2 into one group of [n] points of width 0;
    nothing is packed, so that section 7 is empty. *)
Definition one_group (n : Z) : raw_message :=
  one_field [x00; x00] 0 (repeat x00 16) (x00 :: be_bytes 4 1 ++ repeat x00 60) (repeat x00 30)
    (sect5_complex 1 2 0 0 0 0 0 0 0 1 0 0 0 0 n 0 []) [xff] [].

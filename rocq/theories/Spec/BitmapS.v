(** Specification of bitmap application (GRIB2 section 6). *)
From Verif Require Import Model.Base Spec.Bits.

Section Place.
  Context {A : Type} (nan : A).
  (** One output item per bit: the missing marker for a 0 bit, the next packed
      value for a 1 bit; stops when a value is needed and none is left. *)
  Fixpoint place (bits : list bool) (vals : list A) : list A :=
    match bits with
    | [] => []
    | false :: bits' => nan :: place bits' vals
    | true :: bits' =>
        match vals with
        | [] => []
        | v :: vals' => v :: place bits' vals'
        end
    end.
End Place.

(** Number of 1 bits. *)
Definition ones (bits : list bool) : nat := length (filter (fun b => b) bits).

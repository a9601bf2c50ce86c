(** The order of coordinates: what is used to state C86. *)
From Coq Require Import Reals Floats.SpecFloat.
From Verif Require Import Model.Base Spec.FloatS.

(** Two numbers, in rising ([up]) or falling order; they may be equal. *)
Definition ordered (up : bool) (a b : spec_float) : Prop := finite a /\ finite b /\ (if up then val a <= val b else val b <= val a)%R.
Definition apart (up : bool) (a b : spec_float) : Prop := finite a /\ finite b /\ (if up then val a < val b else val b < val a)%R.

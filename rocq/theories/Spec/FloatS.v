(** Specification of binary32 arithmetic through the real numbers (Flocq). *)
From Coq Require Import Reals ZArith Bool Floats.SpecFloat.
From Flocq Require Import Core.Core IEEE754.BinarySingleNaN.

(** Rounding of a real number to the nearest binary32 value, ties to even, without
    an upper bound on the exponent. *)
Definition rnd32 (r : R) : R := round radix2 (FLT_exp (-149) 24) ZnearestE r.

(** The real number denoted by a finite float (0 for infinities and NaN). *)
Definition val (v : spec_float) : R := SF2R radix2 v.

Definition finite (v : spec_float) : Prop := is_finite_SF v = true.
Definition not_nan (v : spec_float) : Prop := is_nan_SF v = false.

(** The first real number too large for binary32. *)
Definition limit32 : R := bpow radix2 128.

(** IEEE comparison [x <= y] (false if one is NaN). *)
Definition fle (x y : spec_float) : Prop := SFleb x y = true.

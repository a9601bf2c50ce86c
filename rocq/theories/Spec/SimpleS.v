(** Specification of simple packing (data templates 5.0 / 7.0). *)
From Coq Require Import Reals ZArith.
From Flocq Require Import Core.Core.
From Verif Require Import Model.Base Model.F32 Model.Diff Spec.Bits Spec.FloatS.

(** Section 5 payload of template 5.0 (octets 6-21 of the section): number of points,
    template number, reference value, binary scale factor, decimal scale factor, bit
    width, type of original values (0 = floating point). *)
Definition sect5_simple (num_points refbits e d nbit : Z) : list byte :=
  be_bytes 4 num_points ++ be_bytes 2 0
  ++ be_bytes 4 refbits ++ sm_bytes 2 e ++ sm_bytes 2 d ++ be_bytes 1 nbit ++ be_bytes 1 0.

(** The reference value: IEEE 754 binary32 reading of four octets. *)
Definition ieee_sign (w : Z) : R := if Z.testbit w 31 then (-1)%R else 1%R.
Definition ieee_exponent (w : Z) : Z := (w / 2 ^ 23) mod 2 ^ 8.
Definition ieee_fraction (w : Z) : Z := w mod 2 ^ 23.
Definition ieee_finite (w : Z) : Prop := ieee_exponent w <> 255.
Definition ieee_value (w : Z) : R :=
  (ieee_sign w *
   (if ieee_exponent w =? 0
    then IZR (ieee_fraction w) * bpow radix2 (-149)
    else IZR (2 ^ 23 + ieee_fraction w) * bpow radix2 (ieee_exponent w - 150)))%R.

(** (R + x * 2^E) * 10^-D, one rounding to binary32 per operation. *)
Definition scaled (e x : Z) : R := rnd32 (rnd32 (IZR x) * bpow radix2 e).
Definition shifted (refv : R) (e x : Z) : R := rnd32 (refv + scaled e x).
Definition unpacked (refv : R) (e d x : Z) : R := rnd32 (shifted refv e x * rnd32 (powerRZ 10 (- d))).

(** No intermediate result leaves the range of binary32. *)
Definition no_overflow (refv : R) (e d x : Z) : Prop :=
  (Rabs (scaled e x) < limit32 /\ Rabs (shifted refv e x) < limit32
   /\ Rabs (unpacked refv e d x) < limit32)%R.

(** The exact value (R + x * 2^E) * 10^-D, and the size of its summands. *)
Definition ideal (refv : R) (e d x : Z) : R := ((refv + IZR x * bpow radix2 e) * powerRZ 10 (- d))%R.
Definition magnitude (refv : R) (e x : Z) : R := (Rabs refv + Rabs (IZR x) * bpow radix2 e)%R.

(** A decoded value is accurate: the error is at most 2^-20 of the summands, plus a
    few times the smallest positive binary32 value. *)
Definition accurate (refv : R) (e d x : Z) (v : f32) : Prop :=
  finite v /\
  (Rabs (val v - ideal refv e d x)
   <= bpow radix2 (-20) * (magnitude refv e x * powerRZ 10 (- d)) + bpow radix2 (-148) * (1 + powerRZ 10 (- d)))%R.
Definition in_reach (refv : R) (e d x : Z) : Prop :=
  (magnitude refv e x <= bpow radix2 126 /\ magnitude refv e x * powerRZ 10 (- d) <= bpow radix2 126)%R.

(** What the decoder must return for a decoded integer or missing point. *)
Definition point_value (refbits e d : Z) (pt : dv) (v : f32) : Prop :=
  match pt with
  | Normal x =>
      (-10 <= d <= 10 -> no_overflow (ieee_value refbits) e d x ->
       finite v /\ val v = unpacked (ieee_value refbits) e d x)
      /\ (in_reach (ieee_value refbits) e d x -> accurate (ieee_value refbits) e d x v)
  | _ => v = f32_nan
  end.

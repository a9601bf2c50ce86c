(** IEEE 754 binary32 and binary64 arithmetic, round to nearest even, as executable
    Gallina from Coq's standard library ([Coq.Floats.SpecFloat]).
    NaN payloads and signs are not distinguished. *)
From Coq Require Import Floats.SpecFloat.
From Verif Require Import Model.Base.

Definition f32 := spec_float.

Definition f32_nan : f32 := S754_nan.
Definition f32_add (x y : f32) : f32 := SFadd 24 128 x y.
Definition f32_mul (x y : f32) : f32 := SFmul 24 128 x y.
Definition f32_div (x y : f32) : f32 := SFdiv 24 128 x y.

(** [n as f32] for an integer. *)
Definition f32_of_Z (n : Z) : f32 := binary_normalize 24 128 n 0 false.

(** [f32::from_bits] of a 32-bit pattern (IEEE 754 interchange format). *)
Definition f32_of_bits (w : Z) : f32 :=
  let s := 2 ^ 31 <=? w in
  let e := (w / 2 ^ 23) mod 256 in
  let f := w mod 2 ^ 23 in
  if e =? 255 then (if f =? 0 then S754_infinity s else S754_nan)
  else if e =? 0 then
    match f with Zpos p => S754_finite s p (-149) | _ => S754_zero s end
  else
    match f + 2 ^ 23 with Zpos p => S754_finite s p (e - 150) | _ => S754_zero s end.

(** [f32::to_bits]; every NaN is written as the quiet NaN 0x7fc00000. *)
Definition f32_to_bits (x : f32) : Z :=
  let sgn (s : bool) := if s then 2 ^ 31 else 0 in
  match x with
  | S754_nan => 0x7fc00000
  | S754_infinity s => sgn s + 255 * 2 ^ 23
  | S754_zero s => sgn s
  | S754_finite s m e =>
      if Zpos m <? 2 ^ 23 then sgn s + Zpos m
      else sgn s + (e + 150) * 2 ^ 23 + (Zpos m - 2 ^ 23)
  end.

(** [f32::powi], as compiler-rt's [__powisf2]: square and multiply on |n|,
    reciprocal at the end for negative n.  The loop runs once per binary digit. *)
Fixpoint powi_loop (a r : f32) (p : positive) : f32 :=
  match p with
  | xH => f32_mul r a
  | xO p' => powi_loop (f32_mul a a) r p'
  | xI p' => powi_loop (f32_mul a a) (f32_mul r a) p'
  end.

Definition f32_powi (a : f32) (n : Z) : f32 :=
  match n with
  | Z0 => f32_of_Z 1
  | Zpos p => powi_loop a (f32_of_Z 1) p
  | Zneg p => f32_div (f32_of_Z 1) (powi_loop a (f32_of_Z 1) p)
  end.

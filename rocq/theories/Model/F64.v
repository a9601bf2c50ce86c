(** IEEE 754 binary64 arithmetic (see F32.v), and the functions of the platform's
    mathematical library used by the code, about which nothing is assumed. *)
From Coq Require Import Floats.SpecFloat.
From Verif Require Import Model.Base Model.F32.

Definition f64 := spec_float.

Definition f64_add (x y : f64) : f64 := SFadd 53 1024 x y.
Definition f64_sub (x y : f64) : f64 := SFsub 53 1024 x y.
Definition f64_mul (x y : f64) : f64 := SFmul 53 1024 x y.
Definition f64_div (x y : f64) : f64 := SFdiv 53 1024 x y.
Definition f64_ltb (x y : f64) : bool := SFltb x y.
Definition f64_abs (x : f64) : f64 := SFabs x.
Definition f64_neg (x : f64) : f64 := SFopp x.
Definition f64_of_Z (n : Z) : f64 := binary_normalize 53 1024 n 0 false.

(** [v as f32]. *)
Definition f64_to_f32 (x : f64) : f32 :=
  match x with
  | S754_finite s m e => binary_normalize 24 128 (cond_Zopp s (Zpos m)) e s
  | _ => x
  end.

(** [f64::powi], as compiler-rt's [__powidf2]. *)
Fixpoint powi64_loop (a r : f64) (p : positive) : f64 :=
  match p with
  | xH => f64_mul r a
  | xO p' => powi64_loop (f64_mul a a) r p'
  | xI p' => powi64_loop (f64_mul a a) (f64_mul r a) p'
  end.
Definition f64_powi (a : f64) (n : Z) : f64 :=
  match n with
  | Z0 => f64_of_Z 1
  | Zpos p => powi64_loop a (f64_of_Z 1) p
  | Zneg p => f64_div (f64_of_Z 1) (powi64_loop a (f64_of_Z 1) p)
  end.

(** [std::f64::consts::PI]. *)
Definition f64_pi : f64 := S754_finite false 7074237752028440 (-51).
(** [f64::EPSILON] = 2^-52. *)
Definition f64_epsilon : f64 := S754_finite false (2 ^ 52) (-104).
(** [f64::to_degrees] (library/core/src/num/f64.rs): one multiplication by [180 / PI]. *)
Definition f64_to_degrees (x : f64) : f64 := f64_mul x (f64_div (f64_of_Z 180) f64_pi).
(** [f64::to_radians]: one multiplication by [PI / 180]. *)
Definition f64_to_radians (x : f64) : f64 := f64_mul x (f64_div f64_pi (f64_of_Z 180)).

(** Library functions whose results the platform chooses. *)
Record libm := MkLibm { cos : f64 -> f64; asin : f64 -> f64; powf : f64 -> f64 -> f64 }.

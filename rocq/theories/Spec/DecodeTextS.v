(** The text of [gribber decode]. *)
From Coq Require Import Strings.String Reals Floats.SpecFloat.
From Flocq Require Import Core.Core.
From Verif Require Import Model.Base Model.F32 Model.Tools Spec.FloatS Spec.ToolsS Spec.CliS.

(** [x] with six decimals: the nearest multiple of 10^-6, the even one of two. *)
Definition negative (x : f32) : bool := match x with S754_zero s | S754_infinity s | S754_finite s _ _ => s | S754_nan => false end.
Definition six_decimals (x : f32) (t : list byte) : Prop :=
  finite x -> exists a b n, t = (if negative x then text "-" else []) ++ a ++ text "." ++ b /\
    written n a /\ length b = 6%nat /\ digits b /\
    10 ^ 6 * n + decimal b = ZnearestE (Rabs (val x) * 10 ^ 6)%R.
Definition shows_fixed (x : f32) (t : list byte) : Prop :=
  six_decimals x t /\ (x = S754_infinity false -> t = text "inf") /\ (x = S754_infinity true -> t = text "-inf") /\ (x = S754_nan -> t = text "NaN").

(** A line: latitude, longitude, value. *)
Definition point_line (shortest : f32 -> list byte) (x : (f32 * f32) * f32) (line : list byte) : Prop :=
  exists a b c c1 c2 c3, shows_fixed (fst (fst x)) a /\ shows_fixed (snd (fst x)) b /\ c = shortest (snd x) /\
    right 10 a c1 /\ right 11 b c2 /\ right 9 c c3 /\ line = c1 ++ sp ++ c2 ++ sp ++ c3 ++ [x0a].
Definition decode_heading : list byte := text "  Latitude   Longitude     Value".
Definition shows_points_of (shortest : f32 -> list byte) (color : bool) (l : list ((f32 * f32) * f32)) (t : list byte) : Prop :=
  exists lines, Forall2 (point_line shortest) l lines /\ t = bold color decode_heading ++ [x0a] ++ concat lines.

(** Coordinates of regular grids, in degrees. *)
From Coq Require Import Reals Floats.SpecFloat.
From Verif Require Import Model.Base Model.Grid Spec.FloatS Spec.GridS.

(** Step [k] of [steps] equal steps from [first] to [last], which are in units of 10^-6 degree. *)
Definition even (first last steps k : Z) : R :=
  ((IZR first + IZR k / IZR steps * (IZR last - IZR first)) / 1000000)%R.

(** The float [v] is a number within [e] of [r]. *)
Definition close (v : spec_float) (r e : R) : Prop := finite v /\ (Rabs (val v - r) <= e)%R.

(** Flag 1 off: points scan towards the east.  If the first and the last longitude
    are not in that order, the grid crosses the meridian where longitudes begin anew. *)
Definition crosses (first last mode : Z) : bool := eqb (first <? last) (flag 1 mode).
(** First and last longitude without the jump. *)
Definition unwrapped (first last mode : Z) : Z * Z :=
  if crosses first last mode then
    (if last <? first then (first, last + 360000000) else (first + 360000000, last))
  else (first, last).
(** Longitude of column [i]; beyond a jump, 360 degrees are subtracted. *)
Definition lon_ok (first last steps mode i : Z) (v : spec_float) : Prop :=
  let r := even (fst (unwrapped first last mode)) (snd (unwrapped first last mode)) steps i in
  if crosses first last mode then
    (close v r (1 / 1000) /\ (val v < 360)%R) \/ (close v (r - 360) (1 / 1000) /\ (0 <= val v)%R)
  else close v r (1 / 1000).

(** As above for any number [n] > 0 of rows or columns: NaN if there is only one. *)
Definition lat_any (first last n j : Z) (v : spec_float) : Prop :=
  if n =? 1 then v = S754_nan else close v (even first last (n - 1) j) (1 / 10000).
Definition lon_any (first last n mode i : Z) (v : spec_float) : Prop :=
  if n =? 1 then v = S754_nan else lon_ok first last (n - 1) mode i v.

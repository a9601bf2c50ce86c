(** Specification of run-length packing (data template 7.200). *)
From Verif Require Import Model.Base Model.F32 Spec.Bits.

(** A run: a level and the digits of its repeat count minus one, least significant
    first, in base [L]. *)
Definition run : Type := Z * list Z.

Fixpoint digits_value (L : Z) (ds : list Z) : Z :=
  match ds with [] => 0 | d :: ds' => d + L * digits_value L ds' end.

(** The points of a run: the level, repeated [1 + digits_value] times. *)
Definition expand (L : Z) (r : run) : list Z :=
  repeat (fst r) (S (Z.to_nat (digits_value L (snd r)))).

(** Codes of a run: the level itself, then each digit above the maximum value. *)
Definition run_codes (maxv : Z) (r : run) : list Z :=
  fst r :: map (fun d => maxv + 1 + d) (snd r).

(** Reading codes back: digits before the first level, then the runs. *)
Fixpoint split_runs (maxv : Z) (codes : list Z) : list Z * list run :=
  match codes with
  | [] => ([], [])
  | c :: cs =>
      let '(ds, rs) := split_runs maxv cs in
      if c <=? maxv then ([], (c, ds) :: rs) else (c - maxv - 1 :: ds, rs)
  end.

(** Base of the digits for [n]-bit codes. *)
Definition base (n maxv : Z) : Z := 2 ^ n - 1 - maxv.

(** Template 5.200: number of points, template number, bit width, maximum value,
    number of levels, decimal scale factor and the level values. *)
Definition sect5_rle (num_points nbit maxv scale : Z) (levels : list Z) (tail : list byte) : list byte :=
  be_bytes 4 num_points ++ be_bytes 2 200 ++ be_bytes 1 nbit ++ be_bytes 2 maxv
  ++ be_bytes 2 (zlen levels) ++ be_bytes 1 scale ++ flat_map (be_bytes 2) levels ++ tail.

(** Value of a level: 0 is missing, level k is the k-th table entry divided by
    10^scale (in binary32). *)
Definition level_value (scale : Z) (levels : list Z) (l : Z) : f32 :=
  if l =? 0 then f32_nan
  else f32_mul (f32_of_Z (nth (Z.to_nat (l - 1)) levels 0)) (f32_powi (f32_of_Z 10) (- scale)).

(** All complete [n]-bit codes of an input. *)
Definition codes_of (input : list byte) (n : Z) : list Z :=
  fields (bits_of_bytes input) 0 (Z.to_nat n) (Z.to_nat (8 * zlen input / n)).

(** The weights of the digits stay below 2^64. *)
Definition runs_ok (L : Z) (rs : list run) : Prop := Forall (fun r => L ^ zlen (snd r) < 2 ^ 64) rs.

(** A run an encoder may emit. *)
Definition run_ok (n maxv : Z) (r : run) : Prop :=
  0 <= fst r <= maxv /\ Forall (fun d => 0 <= d < base n maxv) (snd r) /\ base n maxv ^ zlen (snd r) < 2 ^ 64.

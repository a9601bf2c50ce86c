(** Model of /repo/src/decoder/complex/missing.rs and
    /repo/src/decoder/complex/diff.rs. *)
From Verif Require Import Model.Base Model.Helpers Model.Errors Model.F32.

(** src/decoder/complex/missing.rs:5-10 [DecodedValue<i32>]. *)
Inductive dv := Normal (v : Z) | Missing1 | Missing2.

(** src/decoder/complex/missing.rs:29-35 [to_f32] (never [None]). *)
Definition dv_to_f32 (d : dv) : f32 :=
  match d with
  | Normal v => f32_of_Z v
  | Missing1 | Missing2 => f32_nan
  end.

(** src/decoder/complex/diff.rs:7-30 [SpatialDifferencingExtraDescriptors::new]:
    the descriptor octets and the number of octets of each. *)
Record spdiff := SpDiff { sp_slice : list byte; sp_octets : Z }.

Definition spdiff_new (m : mode) (parent : list byte) (order num_octets : Z)
  : outcome (result spdiff grib_error) :=
  if (num_octets =? 0) || (4 <? num_octets)
  then Ret (Err (EDecode (ComplexPackingError ComplexNotSupported)))
  else
    let! o1 := arith m U8 (order + 1) in
    let! s := slice parent 0 (o1 * num_octets) in
    Ret (Ok (SpDiff s num_octets)).

(** src/decoder/complex/diff.rs:33-35, 47-49 *)
Definition spdiff_len (d : spdiff) : Z := zlen (sp_slice d).
Definition first_value_end_pos (m : mode) (d : spdiff) : outcome Z :=
  arith m Usize (spdiff_len d - sp_octets d).

(** src/decoder/complex/diff.rs:38-41 [minimum] *)
Definition spdiff_minimum (m : mode) (d : spdiff) : outcome Z :=
  let! e := first_value_end_pos m d in
  let! s := slice_from (sp_slice d) e in
  grib_int_from_bytes m s.

(** src/decoder/complex/diff.rs:66-80 [FirstValues::next]; state = [pos]. *)
Definition first_values_next (m : mode) (d : spdiff) (pos : Z) : outcome (option Z * Z) :=
  let! e := first_value_end_pos m d in
  if e <=? pos then Ret (None, pos)
  else
    let! s := slice (sp_slice d) pos (pos + sp_octets d) in
    let! v := grib_int_from_bytes m s in
    Ret (Some v, pos + sp_octets d).
Definition first_values (m : mode) (d : spdiff) : iter Z :=
  MkIter Z 0 (first_values_next m d).

Section DiffIter.
  (** The inner iterator [I] of decoded group values. *)
  Variable I : Type.
  Variable inner : I -> outcome (option dv * I).

  (** src/decoder/complex/diff.rs:102-145
      [FirstOrderSpatialDifferencingDecodeIterator]; [first_values] is a
      [vec::IntoIter<i32>], i.e. the list of values not yet taken. [count] only
      ever is 0 or 1. *)
  Record diff1_state := D1 { d1_iter : I; d1_first : list Z; d1_count : Z; d1_prev : Z }.

  Definition diff1_next (m : mode) (s : diff1_state) : outcome (option dv * diff1_state) :=
    let '(D1 it first count prev) := s in
    let! (o, it') := inner it in
    match o with
    | None => Ret (None, D1 it' first count prev)
    | Some (Normal v) =>
        if count =? 0 then
          match first with
          | [] => Panic
          | f :: first' => Ret (Some (Normal f), D1 it' first' (count + 1) f)
          end
        else
          let! v := arith m I32 (v + prev) in
          Ret (Some (Normal v), D1 it' first count v)
    | Some missing => Ret (Some missing, D1 it' first count prev)
    end.

  (** src/decoder/complex/diff.rs:147-198
      [SecondOrderSpatialDifferencingDecodeIterator]; [v + 2 * prev1 - prev2] is
      evaluated as [(v + (2 * prev1)) - prev2]. *)
  Record diff2_state := D2 {
    d2_iter : I; d2_first : list Z; d2_count : Z; d2_prev1 : Z; d2_prev2 : Z }.

  Definition diff2_next (m : mode) (s : diff2_state) : outcome (option dv * diff2_state) :=
    let '(D2 it first count prev1 prev2) := s in
    let! (o, it') := inner it in
    match o with
    | None => Ret (None, D2 it' first count prev1 prev2)
    | Some (Normal v) =>
        if count =? 0 then
          match first with
          | [] => Panic
          | f :: first' => Ret (Some (Normal f), D2 it' first' (count + 1) prev1 f)
          end
        else if count =? 1 then
          match first with
          | [] => Panic
          | f :: first' => Ret (Some (Normal f), D2 it' first' (count + 1) f prev2)
          end
        else
          let! t := arith m I32 (2 * prev1) in
          let! t := arith m I32 (v + t) in
          let! v := arith m I32 (t - prev2) in
          Ret (Some (Normal v), D2 it' first count v prev1)
    | Some missing => Ret (Some missing, D2 it' first count prev1 prev2)
    end.
End DiffIter.
Arguments D1 {I}. Arguments D2 {I}.

(** [FirstOrder...::new] / [SecondOrder...::new] (diff.rs:109-118, 155-165) and the
    dispatching wrapper (diff.rs:82-100). *)
Definition diff1_iter (m : mode) (it : iter dv) (first : list Z) : iter dv :=
  MkIter _ (D1 (icur it) first 0 0) (diff1_next (ist it) (istep it) m).
Definition diff2_iter (m : mode) (it : iter dv) (first : list Z) : iter dv :=
  MkIter _ (D2 (icur it) first 0 0 0) (diff2_next (ist it) (istep it) m).

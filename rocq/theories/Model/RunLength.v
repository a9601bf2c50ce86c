(** Model of /repo/src/decoder/run_length.rs. *)
From Verif Require Import Model.Base Model.Helpers Model.Errors Model.F32 Model.Stream.

(** Loop variables of [rleunpack] (src/decoder/run_length.rs:66-75). *)
Record rle_state := RLE { rle_out : list Z; rle_cached : option Z; rle_exp : Z }.

(** src/decoder/run_length.rs:78-88: one iteration of the loop body on an item
    ([value as u16] first). *)
Definition rle_body (m : mode) (rlbase lngu value : Z) (s : rle_state)
  : outcome (result rle_state rle_error) :=
  let value := wrap U16 value in
  if value <? rlbase then
    Ret (Ok (RLE (rle_out s ++ [value]) (Some value) 1))
  else
    match rle_cached s with
    | None => Ret (Err InvalidFirstValue)
    | Some prev =>
        let! length := arith m Usize ((value - rlbase) * rle_exp s) in
        let out := rle_out s ++ repeat prev (Z.to_nat length) in
        let! exp := arith m Usize (rle_exp s * lngu) in
        Ret (Ok (RLE out (Some prev) exp))
    end.

(** src/decoder/run_length.rs:77-89: [for value in iter]; [fuel] bounds the number
    of items, [Diverge] when exceeded. *)
Fixpoint rle_loop (fuel : nat) (m : mode) (rlbase lngu : Z) (it : nbit_state) (s : rle_state)
  : outcome (result rle_state rle_error) :=
  match fuel with
  | O => Diverge
  | S fuel' =>
      let! (o, it') := nbit_next m it in
      match o with
      | None => Ret (Ok s)
      | Some value =>
          try! s' := rle_body m rlbase lngu value s in
          rle_loop fuel' m rlbase lngu it' s'
      end
  end.

(** src/decoder/run_length.rs:60-98 [rleunpack]. *)
Definition rleunpack_fuel (fuel : nat) (m : mode) (input : list byte) (nbit maxv : Z) (expected_len : option Z)
  : outcome (result (list Z) rle_error) :=
  let! rlbase := arith m U16 (maxv + 1) in
  let! one := shl m U16 1 nbit in
  let! lngu := arith m U16 (one - rlbase) in
  try! s := rle_loop fuel m rlbase lngu (nbit_new input nbit) (RLE [] None 1) in
  match expected_len with
  | Some len => if len =? zlen (rle_out s) then Ret (Ok (rle_out s)) else Ret (Err RleLengthMismatch)
  | None => Ret (Ok (rle_out s))
  end.

(** Fuel sufficient for every bit width >= 1: one more than the number of bits. *)
Definition rle_fuel (input : list byte) : nat := S (8 * length input).
Definition rleunpack (m : mode) (input : list byte) (nbit maxv : Z) (expected_len : option Z) :=
  rleunpack_fuel (rle_fuel input) m input nbit maxv expected_len.

(** src/decoder/run_length.rs:28-35: the level table after the leading NaN;
    [n] iterations starting at octet [pos]. *)
Fixpoint level_values (n : nat) (sect5 : list byte) (pos num_digits : Z) : outcome (list f32) :=
  match n with
  | O => Ret []
  | S n' =>
      let! v := read_u16 sect5 pos in
      let factor := f32_powi (f32_of_Z 10) (- num_digits) in
      let! rest := level_values n' sect5 (pos + 2) num_digits in
      Ret (f32_mul (f32_of_Z v) factor :: rest)
  end.

(** src/decoder/run_length.rs:45-55: mapping levels to values, first failure wins. *)
Fixpoint map_levels (level_map : list f32) (levels : list Z) : result (list f32) grib_error :=
  match levels with
  | [] => Ok []
  | l :: ls =>
      match get level_map l with
      | None => Err (EDecode (RunLengthError (InvalidLevelValue l)))
      | Some v =>
          match map_levels level_map ls with
          | Ok vs => Ok (v :: vs)
          | Err e => Err e
          end
      end
  end.

(** src/decoder/run_length.rs:15-57 [decode]. *)
Definition rle_decode (m : mode) (sect5 sect7 : list byte) (num_points_encoded : Z)
  : outcome (result (list f32) grib_error) :=
  let! nbit := read_u8 sect5 6 in
  let! maxv := read_u16 sect5 7 in
  let! max_level := read_u16 sect5 9 in
  let! num_digits := read_u8 sect5 11 in
  let! levels := level_values (Z.to_nat max_level) sect5 12 num_digits in
  let level_map := f32_nan :: levels in
  let! r := rleunpack m sect7 nbit maxv (Some num_points_encoded) in
  match r with
  | Err e => Ret (Err (EDecode (RunLengthError e)))
  | Ok decoded => Ret (map_levels level_map decoded)
  end.

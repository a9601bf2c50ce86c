(** Model of /repo/src/decoder/simple.rs. *)
From Verif Require Import Model.Base Model.Helpers Model.Errors Model.F32 Model.Stream Model.Diff Model.Complex.

(** src/decoder/param.rs:37-39 [zero_bit_reference_value]; [-i32::from(i16)] cannot
    overflow. *)
Definition zero_bit_reference_value (p : simple_param) : f32 :=
  f32_mul (sp_ref p) (f32_powi (f32_of_Z 10) (- sp_dig p)).

(** src/decoder/simple.rs:90-98: the value of an encoded item already converted to
    [f32]. *)
Definition simple_value (p : simple_param) (encoded : f32) : f32 :=
  let diff := f32_mul encoded (f32_powi (f32_of_Z 2) (sp_exp p)) in
  let dig_factor := f32_powi (f32_of_Z 10) (- sp_dig p) in
  f32_mul (f32_add (sp_ref p) diff) dig_factor.

(** src/decoder/simple.rs:67-100 [SimplePackingDecodeIterator] over any iterator of
    items convertible by [to_f32]. *)
Definition simple_iter {N} (to_f32 : N -> f32) (p : simple_param) (it : iter N) : iter f32 :=
  imap (fun n => Ret (simple_value p (to_f32 n))) it.

(** src/decoder/simple.rs:48-65 [decode]. *)
Definition simple_decode (m : mode) (sect5 sect7 : list byte) (num_points_encoded : Z)
  : outcome (result (iter f32) grib_error) :=
  let! b := slice sect5 6 16 in
  try! p := simple_param_from_buf m b in
  if sp_nbit p =? 0
  then Ret (Ok (fixed_iter (zero_bit_reference_value p) num_points_encoded))
  else Ret (Ok (simple_iter f32_of_Z p (nbit_iter m (nbit_new sect7 (sp_nbit p))))).

(** src/decoder/complex.rs:30-54 [decode_7_2] and 56-109 [decode_7_3]: the decoded
    integers wrapped in [SimplePackingDecodeIterator]; a missing point converts to NaN
    (src/decoder/complex/missing.rs:29-35). *)
Definition decode_7_2 (m : mode) (sect5 sect7 : list byte) : outcome (result (iter f32) grib_error) :=
  try! (sp, it) := decode_7_2_ints m sect5 sect7 in
  Ret (Ok (simple_iter dv_to_f32 sp it)).

Definition decode_7_3 (m : mode) (sect5 sect7 : list byte) : outcome (result (iter f32) grib_error) :=
  try! (sp, it) := decode_7_3_ints m sect5 sect7 in
  Ret (Ok (simple_iter dv_to_f32 sp it)).

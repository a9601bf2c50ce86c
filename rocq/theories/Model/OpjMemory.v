(** Model of /repo/src/decoder/jpeg2000.rs:72-85: how much memory [from_raw_parts] is told to read. *)
From Verif Require Import Model.Base Model.Errors Model.Decoder.

(** src/decoder/jpeg2000.rs:72-85: [std::slice::from_raw_parts(comp_gray.data, (width * height) as usize)],
    which nothing compares with the number of samples that the component has. *)
Definition samples_claimed (m : mode) (i : j2k_image) : outcome Z :=
  let! width := j2k_width m i in
  let! height := j2k_height m i in
  let! width := value_for_discard_level m width (j_factor i) in
  let! height := value_for_discard_level m height (j_factor i) in
  arith m U32 (width * height).

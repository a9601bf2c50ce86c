(** Model of /repo/src/helpers.rs. *)
From Verif Require Import Model.Base.

(** src/helpers.rs:7-16 [GribInt::as_grib_int] at unsigned type [u] with
    destination [d].  [leading_zeros() == 0] is "top bit set";
    [self << 1 >> 1] shifts at type [u] (dropping the top bit); [as $ty_dst] is a
    wrapping cast; unary minus is overflow checked. *)
Definition as_grib_int (m : mode) (u d : ity) (x : Z) : outcome Z :=
  if 2 ^ (bits_of u - 1) <=? x then
    let! s := shl m u x 1 in
    let! s := shr m u s 1 in
    arith m d (- wrap d s)
  else Ret (wrap d x).

(** src/helpers.rs:27-32 [read_as!(uN, buf, start)], [n] = size in octets.
    [start + n] cannot overflow [usize] for the literal offsets used. *)
Definition read_be (n : Z) (buf : list byte) (start : Z) : outcome Z :=
  let! s := slice buf start (start + n) in Ret (be s).

Definition read_u8 (buf : list byte) (start : Z) : outcome Z := read_be 1 buf start.
Definition read_u16 (buf : list byte) (start : Z) : outcome Z := read_be 2 buf start.
Definition read_u32 (buf : list byte) (start : Z) : outcome Z := read_be 4 buf start.
Definition read_u64 (buf : list byte) (start : Z) : outcome Z := read_be 8 buf start.

(** [read_as!(uN, ...).as_grib_int()], the idiom used for signed fields. *)
Definition read_i8 m buf start := let! x := read_u8 buf start in as_grib_int m U8 I8 x.
Definition read_i16 m buf start := let! x := read_u16 buf start in as_grib_int m U16 I16 x.
Definition read_i32 m buf start := let! x := read_u32 buf start in as_grib_int m U32 I32 x.

(** src/helpers.rs:35-56 [grib_int_from_bytes]. *)
Definition grib_int_from_bytes (m : mode) (bytes : list byte) : outcome Z :=
  match length bytes with
  | 1%nat => read_i8 m bytes 0
  | 2%nat => read_i16 m bytes 0
  | 3%nat =>
      let! first := read_u8 bytes 0 in
      let positive := first <? 2 ^ 7 in
      let! rest := read_u16 bytes 1 in
      let! f := shl m U8 first 1 in
      let! f := shr m U8 f 1 in
      let! p := arith m I32 (f * 65536) in
      let! abs := arith m I32 (p + rest) in
      if positive then Ret abs else arith m I32 (- abs)
  | 4%nat => read_i32 m bytes 0
  | _ => Panic
  end.

(** Model of /repo/src/decoder/complex.rs and the parameter blocks of
    /repo/src/decoder/param.rs. *)
From Verif Require Import Model.Base Model.Helpers Model.Errors Model.F32 Model.Stream Model.Diff.

(** src/decoder/param.rs:6-35 [SimplePackingParam::from_buf]. *)
Record simple_param := SimpleParam { sp_ref : f32; sp_exp : Z; sp_dig : Z; sp_nbit : Z }.

Definition simple_param_from_buf (m : mode) (buf : list byte) : outcome (result simple_param grib_error) :=
  let! r := read_u32 buf 0 in
  let! exp := read_i16 m buf 4 in
  let! dig := read_i16 m buf 6 in
  let! nbit := read_u8 buf 8 in
  let! orig := read_u8 buf 9 in
  if negb (orig =? 0)
  then Ret (Err (EDecode (SimplePackingError OriginalFieldValueTypeNotSupported)))
  else Ret (Ok (SimpleParam (f32_of_bits r) exp dig nbit)).

(** src/decoder/param.rs:42-77 [ComplexPackingParam::from_buf]. *)
Record complex_param := ComplexParam {
  cp_split : Z; cp_missing : Z; cp_ngroup : Z;
  cp_width_ref : Z; cp_width_nbit : Z;
  cp_len_ref : Z; cp_len_inc : Z; cp_len_last : Z; cp_len_nbit : Z }.

Definition complex_param_from_buf (buf : list byte) : outcome complex_param :=
  let! split := read_u8 buf 0 in
  let! missing := read_u8 buf 1 in
  let! ngroup := read_u32 buf 10 in
  let! width_ref := read_u8 buf 14 in
  let! width_nbit := read_u8 buf 15 in
  let! len_ref := read_u32 buf 16 in
  let! len_inc := read_u8 buf 20 in
  let! len_last := read_u32 buf 21 in
  let! len_nbit := read_u8 buf 25 in
  Ret (ComplexParam split missing ngroup width_ref width_nbit len_ref len_inc len_last len_nbit).

(** src/decoder/complex.rs:118-122 [get_octet_length]. *)
Definition get_octet_length (m : mode) (nbit ngroup : Z) : outcome Z :=
  let! total_bit := arith m U32 (ngroup * nbit) in
  let! t := arith m U32 (total_bit + 7) in
  shr m U32 t 3.

(** src/decoder/complex.rs:223-238: a group of width 0. *)
Definition group_constant (m : mode) (mvm nbit z_min ref length : Z) : outcome (list dv) :=
  if max_of I32 <? ref then Panic (* to_i32().unwrap() *)
  else
    let! one := shl m I32 1 nbit in
    let! missing1 := arith m I32 (one - 1) in
    let! missing2 := arith m I32 (missing1 - 1) in
    if (0 <? mvm) && (ref =? missing1) then Ret (repeat Missing1 (Z.to_nat length))
    else if (mvm =? 2) && (ref =? missing2) then Ret (repeat Missing2 (Z.to_nat length))
    else
      let! v := arith m I32 (ref + z_min) in
      Ret (repeat (Normal v) (Z.to_nat length)).

(** src/decoder/complex.rs:254-262: the closure applied to each packed value. *)
Definition group_value (m : mode) (mvm z_min ref missing1 missing2 v : Z) : outcome dv :=
  if (0 <? mvm) && (v =? missing1) then Ret Missing1
  else if (mvm =? 2) && (v =? missing2) then Ret Missing2
  else
    let! a := as_grib_int m U32 I32 v in
    let! a := arith m I32 (a + ref) in
    let! a := arith m I32 (a + z_min) in
    Ret (Normal a).

(** src/decoder/complex.rs:239-267: a group with incremental data; returns its
    values and the new [pos], [start_offset_bits].  [width * length] is a [usize]
    product of two [u32] values and cannot overflow. *)
Definition group_packed (m : mode) (mvm z_min : Z) (data : list byte) (pos off ref width length : Z)
  : outcome (list dv * Z * Z) :=
  if max_of I32 <? ref then Panic
  else
    let bits := off + width * length in
    let pos_end := pos + bits / 8 in
    let offset_bits := bits mod 8 in
    let offset_byte := if 0 <? offset_bits then 1 else 0 in
    let! one := shl m U32 1 width in
    let! missing1 := arith m U32 (one - 1) in
    let! missing2 := arith m U32 (missing1 - 1) in
    let! d := slice data pos (pos_end + offset_byte) in
    let it := itake length (nbit_iter m (nbit_with_offset (nbit_new d width) off)) in
    let! vals := collect (S (Z.to_nat length)) (imap (group_value m mvm z_min ref missing1 missing2) it) in
    Ret (vals, pos_end, offset_bits).

Section Groups.
  Variables R W L : Type.
  Variable ref_next : R -> outcome (option Z * R).
  Variable width_next : W -> outcome (option Z * W).
  Variable len_next : L -> outcome (option Z * L).
  Variable m : mode.
  Variables mvm nbit z_min : Z.
  Variable data : list byte.

  (** src/decoder/complex.rs:169-180 [ComplexPackingValueDecodeIterator]: mutable part. *)
  Record groups_state := GS { gs_ref : R; gs_width : W; gs_len : L; gs_pos : Z; gs_off : Z }.

  (** src/decoder/complex.rs:217-270 [next]. *)
  Definition groups_next (s : groups_state) : outcome (option (list dv) * groups_state) :=
    let '(GS r w l pos off) := s in
    let! (oref, r') := ref_next r in
    let! (owidth, w') := width_next w in
    let! (olen, l') := len_next l in
    match oref, owidth, olen with
    | Some ref, Some width, Some length =>
        if width =? 0 then
          let! vs := group_constant m mvm nbit z_min ref length in
          Ret (Some vs, GS r' w' l' pos off)
        else
          let! (vs, pos', off') := group_packed m mvm z_min data pos off ref width length in
          Ret (Some vs, GS r' w' l' pos' off')
    | _, _, _ => Ret (None, GS r' w' l' pos off)
    end.

  (** [Iterator::flatten] over the groups: the front buffer and the fused outer
      iterator ([None] once it has ended).  The inner loop skips empty groups; it is
      bounded by [fuel] calls of the outer iterator ([Diverge] if exceeded). *)
  Definition flat_state : Type := list dv * option groups_state.

  Fixpoint flat_next (fuel : nat) (s : flat_state) : outcome (option dv * flat_state) :=
    match s with
    | (v :: front, outer) => Ret (Some v, (front, outer))
    | ([], None) => Ret (None, ([], None))
    | ([], Some g) =>
        match fuel with
        | O => Diverge
        | S fuel' =>
            let! (o, g') := groups_next g in
            match o with
            | None => Ret (None, ([], None))
            | Some vs => flat_next fuel' (vs, Some g')
            end
        end
    end.
End Groups.
Arguments GS {R W L}.

(** src/decoder/complex.rs:111-167 [decode_complex_packing].  The outer [outcome]
    is the eager part (slicing), the iterator the lazy part.  [fuel] of the flatten
    loop is one more than the number of groups, which is never exceeded. *)
Definition decode_complex_packing (m : mode) (p : complex_param) (sect7 : list byte)
    (sect7_offset nbit z_min : Z) : outcome (iter dv) :=
  let params_end := sect7_offset in
  let! l := get_octet_length m nbit (cp_ngroup p) in
  let refs_end := params_end + l in
  let! l := get_octet_length m (cp_width_nbit p) (cp_ngroup p) in
  let widths_end := refs_end + l in
  let! l := get_octet_length m (cp_len_nbit p) (cp_ngroup p) in
  let lens_end := widths_end + l in
  let! d := slice sect7 params_end refs_end in
  let refs := itake (cp_ngroup p) (bit_stream m d nbit (cp_ngroup p)) in
  let! d := slice sect7 refs_end widths_end in
  let widths :=
    imap (fun v => arith m U32 (cp_width_ref p + v))
      (itake (cp_ngroup p) (bit_stream m d (cp_width_nbit p) (cp_ngroup p))) in
  let! d := slice sect7 widths_end lens_end in
  let! n1 := arith m U32 (cp_ngroup p - 1) in
  let lens :=
    ichain_once
      (imap (fun v => let! t := arith m U32 (cp_len_inc p * v) in arith m U32 (cp_len_ref p + t))
        (itake n1 (bit_stream m d (cp_len_nbit p) n1)))
      (cp_len_last p) in
  let! data := slice_from sect7 lens_end in
  Ret (MkIter (flat_state (ist refs) (ist widths) (ist lens))
         ([], Some (GS (icur refs) (icur widths) (icur lens) 0 0))
         (flat_next _ _ _ (istep refs) (istep widths) (istep lens) m (cp_missing p) nbit z_min data
            (S (S (Z.to_nat (cp_ngroup p)))))).

(** src/codetables/grib2.rs:41-47 [Table5_6::try_from] ([None] = error). *)
Inductive table5_6 := FirstOrder | SecondOrder | Missing56.
Definition table5_6_of (n : Z) : option table5_6 :=
  if n =? 1 then Some FirstOrder
  else if n =? 2 then Some SecondOrder
  else if n =? 255 then Some Missing56
  else None.
Definition table5_6_code (t : table5_6) : Z :=
  match t with FirstOrder => 1 | SecondOrder => 2 | Missing56 => 255 end.

(** src/decoder/complex.rs:40-46, 72-79: supported parameter combinations. *)
Definition complex_unsupported (p : complex_param) : bool :=
  negb (cp_split p =? 1) || (2 <? cp_missing p).

(** src/decoder/complex.rs:30-54 [decode_7_2] up to the conversion to [f32]: the
    parameters and the iterator of decoded integers. *)
Definition decode_7_2_ints (m : mode) (sect5 sect7 : list byte)
  : outcome (result (simple_param * iter dv) grib_error) :=
  let! b := slice sect5 6 16 in
  try! sp := simple_param_from_buf m b in
  let! b := slice sect5 16 42 in
  let! cp := complex_param_from_buf b in
  if complex_unsupported cp
  then Ret (Err (EDecode (ComplexPackingError ComplexNotSupported)))
  else
    let! it := decode_complex_packing m cp sect7 0 (sp_nbit sp) 0 in
    Ret (Ok (sp, it)).

(** Collecting the first values (src/decoder/complex.rs:95-96): at most
    [order] <= 2 of them, so 300 steps of fuel are ample. *)
Definition collect_first_values (m : mode) (d : spdiff) : outcome (list Z) :=
  collect 300 (first_values m d).

(** src/decoder/complex.rs:56-109 [decode_7_3] up to the conversion to [f32].
    The [unreachable!()] arm is unreachable because [Missing56] returned earlier. *)
Definition decode_7_3_ints (m : mode) (sect5 sect7 : list byte)
  : outcome (result (simple_param * iter dv) grib_error) :=
  let! b := slice sect5 6 16 in
  try! sp := simple_param_from_buf m b in
  let! b := slice sect5 16 42 in
  let! cp := complex_param_from_buf b in
  let! order := read_u8 sect5 42 in
  match table5_6_of order with
  | None => Ret (Err NotSupported)
  | Some order =>
      let! octets := read_u8 sect5 43 in
      if complex_unsupported cp || match order with Missing56 => true | _ => false end
      then Ret (Err (EDecode (ComplexPackingError ComplexNotSupported)))
      else
        try! d := spdiff_new m sect7 (table5_6_code order) octets in
        let! z_min := spdiff_minimum m d in
        let! it := decode_complex_packing m cp sect7 (spdiff_len d) (sp_nbit sp) z_min in
        let! first := collect_first_values m d in
        match order with
        | FirstOrder => Ret (Ok (sp, diff1_iter m it first))
        | SecondOrder => Ret (Ok (sp, diff2_iter m it first))
        | Missing56 => Panic
        end
  end.

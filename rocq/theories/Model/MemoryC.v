(** Model of /repo/src/decoder/complex.rs where the vectors of decoded values have room for [left]
    items (of 8 octets: [DecodedValue<i32>]) only.

    Every function is that of Model/Complex.v, Model/Simple.v or Model/Decoder.v.  The groups are
    decoded one at a time, each into a vector of its own, and [flatten] drops the vector of a group
    before it asks for the next one, so that no two of them are alive together.  A vector that does
    not fit ends the process ([std::alloc::handle_alloc_error]): the call never returns.  The spare
    capacity of vectors that grow and the copy of section 7 made by [to_vec] are not counted, so that
    the code needs at least this much. *)
From Verif Require Import Model.Base Model.Helpers Model.Errors Model.F32 Model.Stream Model.Diff Model.Complex Model.Bitmap Model.Simple Model.Decoder.

(** src/decoder/complex.rs:254-262: [collect] pushes the items to a vector one by one. *)
Fixpoint mcollect {A} (left : Z) (fuel : nat) (it : iter A) : outcome (list A) :=
  match fuel with
  | O => Diverge
  | S fuel' =>
      let! r := next it in
      match r with
      | (None, _) => Ret []
      | (Some a, it') =>
          if left <=? 0 then Diverge
          else let! l := mcollect (left - 1) fuel' it' in Ret (a :: l)
      end
  end.

(** src/decoder/complex.rs:223-238: [vec![...; length]] takes room for all items at once, after the
    item has been computed. *)
Definition mgroup_constant (left : Z) (m : mode) (mvm nbit z_min ref length : Z) : outcome (list dv) :=
  let! vs := group_constant m mvm nbit z_min ref length in
  if length <=? left then Ret vs else Diverge.

(** src/decoder/complex.rs:239-267: a group with incremental data. *)
Definition mgroup_packed (left : Z) (m : mode) (mvm z_min : Z) (data : list byte) (pos off ref width length : Z)
  : outcome (list dv * Z * Z) :=
  if max_of I32 <? ref then Panic
  else
    let bits := off + width * length in
    let pos_end := pos + bits / 8 in
    let offset_bits := bits mod 8 in
    let offset_byte := if 0 <? offset_bits then 1 else 0 in
    let! one := shl m U32 1 width in
    let! missing1 := arith m U32 (one - 1) in
    let! missing2 := arith m U32 (missing1 - 1) in
    let! d := slice data pos (pos_end + offset_byte) in
    let it := itake length (nbit_iter m (nbit_with_offset (nbit_new d width) off)) in
    let! vals := mcollect left (S (Z.to_nat length)) (imap (group_value m mvm z_min ref missing1 missing2) it) in
    Ret (vals, pos_end, offset_bits).

Section Groups.
  Variables R W L : Type.
  Variable ref_next : R -> outcome (option Z * R).
  Variable width_next : W -> outcome (option Z * W).
  Variable len_next : L -> outcome (option Z * L).
  Variable left : Z.
  Variable m : mode.
  Variables mvm nbit z_min : Z.
  Variable data : list byte.

  (** src/decoder/complex.rs:217-270 [next]. *)
  Definition mgroups_next (s : groups_state R W L) : outcome (option (list dv) * groups_state R W L) :=
    let '(GS r w l pos off) := s in
    let! (oref, r') := ref_next r in
    let! (owidth, w') := width_next w in
    let! (olen, l') := len_next l in
    match oref, owidth, olen with
    | Some ref, Some width, Some length =>
        if width =? 0 then
          let! vs := mgroup_constant left m mvm nbit z_min ref length in
          Ret (Some vs, GS r' w' l' pos off)
        else
          let! (vs, pos', off') := mgroup_packed left m mvm z_min data pos off ref width length in
          Ret (Some vs, GS r' w' l' pos' off')
    | _, _, _ => Ret (None, GS r' w' l' pos off)
    end.

  (** [Iterator::flatten] over the groups (as [flat_next] in Model/Complex.v), used in
      src/decoder/complex.rs:157-166. *)
  Fixpoint mflat_next (fuel : nat) (s : flat_state R W L) : outcome (option dv * flat_state R W L) :=
    match s with
    | (v :: front, outer) => Ret (Some v, (front, outer))
    | ([], None) => Ret (None, ([], None))
    | ([], Some g) =>
        match fuel with
        | O => Diverge
        | S fuel' =>
            let! (o, g') := mgroups_next g in
            match o with
            | None => Ret (None, ([], None))
            | Some vs => mflat_next fuel' (vs, Some g')
            end
        end
    end.
End Groups.

(** src/decoder/complex.rs:111-167 [decode_complex_packing]. *)
Definition mem_complex_packing (left : Z) (m : mode) (p : complex_param) (sect7 : list byte)
    (sect7_offset nbit z_min : Z) : outcome (iter dv) :=
  let params_end := sect7_offset in
  let! l := get_octet_length m nbit (cp_ngroup p) in
  let refs_end := params_end + l in
  let! l := get_octet_length m (cp_width_nbit p) (cp_ngroup p) in
  let widths_end := refs_end + l in
  let! l := get_octet_length m (cp_len_nbit p) (cp_ngroup p) in
  let lens_end := widths_end + l in
  let! d := slice sect7 params_end refs_end in
  let refs := itake (cp_ngroup p) (bit_stream m d nbit (cp_ngroup p)) in
  let! d := slice sect7 refs_end widths_end in
  let widths :=
    imap (fun v => arith m U32 (cp_width_ref p + v))
      (itake (cp_ngroup p) (bit_stream m d (cp_width_nbit p) (cp_ngroup p))) in
  let! d := slice sect7 widths_end lens_end in
  let! n1 := arith m U32 (cp_ngroup p - 1) in
  let lens :=
    ichain_once
      (imap (fun v => let! t := arith m U32 (cp_len_inc p * v) in arith m U32 (cp_len_ref p + t))
        (itake n1 (bit_stream m d (cp_len_nbit p) n1)))
      (cp_len_last p) in
  let! data := slice_from sect7 lens_end in
  Ret (MkIter (flat_state (ist refs) (ist widths) (ist lens))
         ([], Some (GS (icur refs) (icur widths) (icur lens) 0 0))
         (mflat_next _ _ _ (istep refs) (istep widths) (istep lens) left m (cp_missing p) nbit z_min data
            (S (S (Z.to_nat (cp_ngroup p)))))).

(** src/decoder/complex.rs:30-54 [decode_7_2]. *)
Definition mem_decode_7_2 (left : Z) (m : mode) (sect5 sect7 : list byte) : outcome (result (iter f32) grib_error) :=
  let! b := slice sect5 6 16 in
  try! sp := simple_param_from_buf m b in
  let! b := slice sect5 16 42 in
  let! cp := complex_param_from_buf b in
  if complex_unsupported cp
  then Ret (Err (EDecode (ComplexPackingError ComplexNotSupported)))
  else
    let! it := mem_complex_packing left m cp sect7 0 (sp_nbit sp) 0 in
    Ret (Ok (simple_iter dv_to_f32 sp it)).

(** src/decoder/complex.rs:56-109 [decode_7_3]. *)
Definition mem_decode_7_3 (left : Z) (m : mode) (sect5 sect7 : list byte) : outcome (result (iter f32) grib_error) :=
  let! b := slice sect5 6 16 in
  try! sp := simple_param_from_buf m b in
  let! b := slice sect5 16 42 in
  let! cp := complex_param_from_buf b in
  let! order := read_u8 sect5 42 in
  match table5_6_of order with
  | None => Ret (Err NotSupported)
  | Some order =>
      let! octets := read_u8 sect5 43 in
      if complex_unsupported cp || match order with Missing56 => true | _ => false end
      then Ret (Err (EDecode (ComplexPackingError ComplexNotSupported)))
      else
        try! d := spdiff_new m sect7 (table5_6_code order) octets in
        let! z_min := spdiff_minimum m d in
        let! it := mem_complex_packing left m cp sect7 (spdiff_len d) (sp_nbit sp) z_min in
        let! first := collect_first_values m d in
        match order with
        | FirstOrder => Ret (Ok (simple_iter dv_to_f32 sp (diff1_iter m it first)))
        | SecondOrder => Ret (Ok (simple_iter dv_to_f32 sp (diff2_iter m it first)))
        | Missing56 => Panic
        end
  end.

(** src/decoder.rs:126-146 [dispatch]; the other templates as in Model/Decoder.v (for template 5.200
    see Model/Memory.v). *)
Definition mem_dispatch (left : Z) (c : codecs) (m : mode) (d : decoder) : outcome (result (iter f32) grib_error) :=
  try! values :=
    (if d_template d =? 2 then mem_decode_7_2 left m (d_sect5 d) (d_sect7 d)
     else if d_template d =? 3 then mem_decode_7_3 left m (d_sect5 d) (d_sect7 d)
     else template_values c m d) in
  match bitmap_iter f32_nan (d_bitmap d) values (d_total d) with
  | Some it => Ret (Ok it)
  | None => Ret (Err (EDecode LengthMismatch))
  end.

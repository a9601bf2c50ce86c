(** Model of /repo/src/reader.rs and of reading a file (/repo/src/context.rs) on a target whose
    [usize] has another number of bits than 64: the demo (demo/) is built for wasm32, where it has
    32.  Every function is that of Model/Reader.v, with the type [u] of the target in the place of
    [usize]; conversions to [usize] that cannot change a number of 64 bits do so here.  Decoders are
    only followed up to the payloads they start from. *)
From Verif Require Import Model.Base Model.Helpers Model.Errors Model.Sections Model.Reader Model.Parser Model.Context Model.Bitmap Model.Product Model.Decoder.

(** [vec![0; n]]: panics above [isize::MAX] octets. *)
Definition wvec_alloc (u : ity) (n : Z) : rd unit :=
  if n <=? max_of u / 2 then rret tt else rpure Panic.

(** src/reader.rs:339-343 [read_slice_without_offset_check]. *)
Definition wread_slice (u : ity) (size : Z) : rd (list byte) :=
  do! _ := wvec_alloc u size in read_exact size.

(** src/reader.rs:231-255 [read_sect0]: the position counted from the start of the search is a
    [usize]. *)
Fixpoint wread_sect0_loop (u : ity) (m : mode) (fuel : nat) (offset : Z) : rd (option (Z * body)) :=
  match fuel with
  | O => fun _ => Diverge
  | S fuel' =>
      do! buf := rread 4096 in
      let size := zlen buf in
      if size <? 16 then rret None
      else
        let next_offset := size - 16 + 1 in
        do! found := rpure (find_magic buf 0 (Z.to_nat next_offset)) in
        match found with
        | Some p =>
            do! _ := seek_current (p + 16 - size) in
            do! window := rpure (slice buf p (p + 16)) in
            do! ind := rres (indicator_from_slice window) in
            do! o := rpure (arith m u (offset + p)) in
            rret (Some (o, ind))
        | None =>
            do! _ := seek_current (next_offset - size) in
            do! o := rpure (arith m u (offset + next_offset)) in
            wread_sect0_loop u m fuel' o
        end
  end.
Definition wread_sect0 (u : ity) (m : mode) : rd (option (Z * body)) :=
  fun s => wread_sect0_loop u m (S (length (data s))) 0 s.

(** src/reader.rs:318-331 [read_sect6_payload]. *)
Definition wread_sect6_payload (u : ity) (m : mode) (body_size : Z) : rd body :=
  do! b := read_exact 1 in
  do! len_extra := rpure (arith m u (body_size - 1)) in
  do! _ := (if 0 <? len_extra then do! _ := wread_slice u len_extra in rret tt else rret tt) in
  do! ind := rpure (index b 0) in
  rret (B6 (bz ind)).

(** src/reader.rs:280-305 [read_sect_payload]; 333-337 [skip_sect7_payload] is that of
    Model/Reader.v. *)
Definition wread_sect_payload (u : ity) (m : mode) (header : Z * Z) : rd body :=
  let '(size, num) := header in
  do! body_size := rpure (arith m u (size - 5)) in
  if (1 <=? num) && (num <=? 5) then
    do! p := wread_slice u body_size in rres (Ret (from_payload num p))
  else if num =? 6 then wread_sect6_payload u m body_size
  else if num =? 7 then skip_sect7_payload body_size
  else rfail (UnknownSectionNumber num).

(** src/reader.rs:307-316 [read_sect_payload_as_slice]. *)
Definition wread_sect_payload_as_slice (u : ity) (m : mode) (sect : section) : rd (list byte) :=
  do! body_offset := rpure (arith m u (s_offset sect + 5)) in
  do! _ := seek_to body_offset in
  do! body_size := rpure (arith m u (s_size sect - 5)) in
  wread_slice u body_size.

(** src/reader.rs:78-108 [next_sect0], 110-114 [reset_pos]: [pos as usize],
    [indicator.total_length as usize]. *)
Definition wnext_sect0 (u : ity) (m : mode) (s : sstate)
  : outcome (option (result section parse_error) * sstate) :=
  let whole1 := if whole s =? 0 then wrap u (pos (st_src s)) else whole s in
  let! r := wread_sect0 u m (st_src s) in
  match r with
  | (Ok None, s') => Ret (None, MkSstate s' whole1 (rest s))
  | (Err e, s') => Ret (Some (Err e), MkSstate s' whole1 (rest s))
  | (Ok (Some (offset, ind)), s') =>
      let! w := arith m u (whole1 + offset) in
      let total := wrap u (match ind with B0 _ t => t | _ => 0 end) in
      let! w' := arith m u (w + total) in
      let! r' := arith m u (total - 16) in
      Ret (Some (Ok (MkSection 0 w 16 (Some ind))), MkSstate s' w' r')
  end.

(** src/reader.rs:117-129 [next_sect8]. *)
Definition wnext_sect8 (u : ity) (m : mode) (s : sstate)
  : outcome (option (result section parse_error) * sstate) :=
  let! r := read_sect8 (st_src s) in
  match r with
  | (Ok None, s') => Ret (None, MkSstate s' (whole s) (rest s))
  | (Err e, s') => Ret (Some (Err e), MkSstate s' (whole s) (rest s))
  | (Ok (Some _), s') =>
      let! off := arith m u (whole s - rest s) in
      let! r' := arith m u (rest s - 4) in
      Ret (Some (Ok (MkSection 8 off 4 None)), MkSstate s' (whole s) r')
  end.

(** src/reader.rs:132-154 [next_sect]. *)
Definition wnext_sect (u : ity) (m : mode) (s : sstate)
  : outcome (option (result section parse_error) * sstate) :=
  let! r := read_sect_header (st_src s) in
  match r with
  | (Ok None, s') => Ret (None, MkSstate s' (whole s) (rest s))
  | (Err e, s') => Ret (Some (Err e), MkSstate s' (whole s) (rest s))
  | (Ok (Some (size, num)), s') =>
      let! off := arith m u (whole s - rest s) in
      let! rb := wread_sect_payload u m (size, num) s' in
      match rb with
      | (Err e, s'') => Ret (Some (Err e), MkSstate s'' (whole s) (rest s))
      | (Ok b, s'') =>
          let! r' := arith m u (rest s - size) in
          Ret (Some (Ok (MkSection num off size (Some b))), MkSstate s'' (whole s) r')
      end
  end.

(** src/reader.rs:157-170 [Iterator::next]. *)
Definition wnext_section (u : ity) (m : mode) (s : sstate)
  : outcome (option (result section parse_error) * sstate) :=
  if rest s =? 0 then wnext_sect0 u m s
  else if rest s =? 4 then wnext_sect8 u m s
  else wnext_sect u m s.

(** src/context.rs:242 [parser.collect::<Result<Vec<_>, _>>()]. *)
Fixpoint wread_loop (u : ity) (m : mode) (fuel : nat) (b : isub) (acc : list (submessage Z))
  : outcome (result (list (submessage Z)) parse_error * isub) :=
  match fuel with
  | O => Diverge
  | S fuel' =>
      let! r := isub_next (wnext_section u m) b in
      match r with
      | (None, b') => Ret (Ok (rev acc), b')
      | (Some (Err e), b') => Ret (Err e, b')
      | (Some (Ok x), b') => wread_loop u m fuel' b' (x :: acc)
      end
  end.

(** src/context.rs:238-249 [Grib2::read] on a target whose [usize] is [u]. *)
Definition word_read (u : ity) (m : mode) (fuel : nat) (s : src) : outcome (result grib2 grib_error) :=
  let! r := wread_loop u m fuel (isub_new (MkSstate s 0 0)) [] in
  match r with
  | (Err e, _) => Ret (Err (EParse e))
  | (Ok subs, b) => Ret (Ok (MkGrib2 (st_src (v_src (is_v b))) (rev (is_log b)) subs))
  end.

(** [reader.read_sect_payload_as_slice(sect)?]. *)
Definition wreread (u : ity) (m : mode) (s : src) (sect : section) : outcome (result (list byte) grib_error * src) :=
  let! (r, s') := wread_sect_payload_as_slice u m sect s in
  Ret (match r with Ok l => Ok l | Err e => Err (EParse e) end, s').
(** src/decoder.rs:96-113: the bitmap. *)
Definition wdecoder_bitmap (u : ity) (m : mode) (s : src) (sect6 : section) (indicator num_points : Z)
  : outcome (result (list byte) grib_error * src) :=
  if indicator =? 0 then
    try_src (wreread u m s sect6) (fun l s' => let! b := slice_from l 1 in Ret (Ok b, s'))
  else if indicator =? 255 then Ret (Ok (create_bitmap_for_nonnullable_data num_points), s)
  else Ret (Err (EDecode BitMapIndicatorUnsupported), s).
(** src/decoder.rs:77-123 [from] on a target whose [usize] is [u]. *)
Definition word_decoder (u : ity) (m : mode) (s : src) (v : view) : outcome (result decoder grib_error * src) :=
  match s_body (snd (u_3 v)), s_body (snd (u_5 v)), s_body (snd (u_6 v)) with
  | Some (B3 p3), Some (B5 p5), Some (B6 indicator) =>
      let! total := grid_num_points p3 in
      try_src (wdecoder_bitmap u m s (snd (u_6 v)) indicator total) (fun bitmap s1 =>
      let! encoded := repr_num_points p5 in
      let! template := repr_tmpl_num p5 in
      try_src (wreread u m s1 (snd (u_5 v))) (fun sect5 s2 =>
      try_src (wreread u m s2 (snd (u_7 v))) (fun sect7 s3 =>
      Ret (Ok (MkDecoder total encoded template sect5 bitmap sect7), s3))))
  | _, _, _ => Ret (Err InternalDataError, s)
  end.

(** Model of /repo/src/reader.rs, of reading a file (/repo/src/context.rs) and of setting up a decoder
    (/repo/src/decoder.rs) where only [left] octets of memory are to be had for the contents of
    sections.  Every function is that of Model/Reader.v, Model/Context.v or Model/Decoder.v; the
    buffers [vec![0; n]] and the two bitmaps are taken from the octets left, and nothing is given
    back when a buffer is dropped, so that what is left never exceeds what a real allocator has left.
    A buffer that does not fit ends the process ([std::alloc::handle_alloc_error]): the call never
    returns.  The lists of sections and submessages themselves, a fixed number of octets for each,
    are not counted. *)
From Verif Require Import Model.Base Model.Helpers Model.Errors Model.F32 Model.Stream Model.RunLength Model.Sections Model.Reader Model.Parser Model.Context Model.Bitmap Model.Product Model.Decoder.

(** A computation on the source and the octets left. *)
Definition mem (A E : Type) := src * Z -> outcome (result A E * (src * Z)).
Definition mret {A E} (a : A) : mem A E := fun c => Ret (Ok a, c).
Definition mbind {A B E} (x : mem A E) (f : A -> mem B E) : mem B E :=
  fun c => let! r := x c in
           match r with
           | (Ok a, c') => f a c'
           | (Err e, c') => Ret (Err e, c')
           end.
(** A computation that needs no memory of this kind. *)
Definition lift {A} (x : rd A) : mem A parse_error :=
  fun c => let! r := x (fst c) in Ret (fst r, (snd r, snd c)).
Definition mpure {A E} (x : outcome A) : mem A E := fun c => let! a := x in Ret (Ok a, c).
Notation "'mem!' x ':=' e 'in' k" := (mbind e (fun x => k))
  (at level 200, x pattern, e at level 100, k at level 200, right associativity).

(** [n] octets from the allocator. *)
Definition take {E} (n : Z) : mem unit E :=
  fun c => if n <=? snd c then Ret (Ok tt, (fst c, snd c - n)) else Diverge.
(** [vec![0; n]]: panics above [isize::MAX] octets, before anything is allocated. *)
Definition mvec_alloc (n : Z) : mem unit parse_error :=
  mem! _ := lift (vec_alloc n) in take n.

(** src/reader.rs:339-343 [read_slice_without_offset_check]. *)
Definition mread_slice (size : Z) : mem (list byte) parse_error :=
  mem! _ := mvec_alloc size in lift (read_exact size).

(** src/reader.rs:318-331 [read_sect6_payload]. *)
Definition mread_sect6_payload (m : mode) (body_size : Z) : mem body parse_error :=
  mem! b := lift (read_exact 1) in
  mem! len_extra := mpure (arith m Usize (body_size - 1)) in
  mem! _ := (if 0 <? len_extra then mem! _ := mread_slice len_extra in mret tt else mret tt) in
  mem! ind := mpure (index b 0) in
  mret (B6 (bz ind)).

(** src/reader.rs:280-305 [read_sect_payload]. *)
Definition mread_sect_payload (m : mode) (header : Z * Z) : mem body parse_error :=
  let '(size, num) := header in
  mem! body_size := mpure (arith m Usize (size - 5)) in
  if (1 <=? num) && (num <=? 5) then
    mem! p := mread_slice body_size in lift (rres (Ret (from_payload num p)))
  else if num =? 6 then mread_sect6_payload m body_size
  else if num =? 7 then lift (skip_sect7_payload body_size)
  else lift (rfail (UnknownSectionNumber num)).

(** src/reader.rs:307-316 [read_sect_payload_as_slice]. *)
Definition mread_sect_payload_as_slice (m : mode) (sect : section) : mem (list byte) parse_error :=
  mem! body_offset := mpure (arith m Usize (s_offset sect + 5)) in
  mem! _ := lift (seek_to body_offset) in
  mem! body_size := mpure (arith m Usize (s_size sect - 5)) in
  mread_slice body_size.

(** src/reader.rs:39-43 [Grib2SectionStream], with the octets left. *)
Record mstate := MkMstate { mt_s : sstate; mt_left : Z }.

(** src/reader.rs:132-154 [next_sect]. *)
Definition mnext_sect (m : mode) (a : mstate)
  : outcome (option (result section parse_error) * mstate) :=
  let s := mt_s a in let b := mt_left a in
  let! r := read_sect_header (st_src s) in
  match r with
  | (Ok None, s') => Ret (None, MkMstate (MkSstate s' (whole s) (rest s)) b)
  | (Err e, s') => Ret (Some (Err e), MkMstate (MkSstate s' (whole s) (rest s)) b)
  | (Ok (Some (size, num)), s') =>
      let! off := arith m Usize (whole s - rest s) in
      let! rb := mread_sect_payload m (size, num) (s', b) in
      match rb with
      | (Err e, (s'', b')) => Ret (Some (Err e), MkMstate (MkSstate s'' (whole s) (rest s)) b')
      | (Ok bo, (s'', b')) =>
          let! r' := arith m Usize (rest s - size) in
          Ret (Some (Ok (MkSection num off size (Some bo))), MkMstate (MkSstate s'' (whole s) r') b')
      end
  end.

(** src/reader.rs:157-170 [Iterator::next]; 78-108 [next_sect0] and 117-129 [next_sect8] use buffers
    of a fixed size, which are not on the heap. *)
Definition mnext_section (m : mode) (a : mstate)
  : outcome (option (result section parse_error) * mstate) :=
  if rest (mt_s a) =? 0 then let! (r, s) := next_sect0 m (mt_s a) in Ret (r, MkMstate s (mt_left a))
  else if rest (mt_s a) =? 4 then let! (r, s) := next_sect8 m (mt_s a) in Ret (r, MkMstate s (mt_left a))
  else mnext_sect m a.

(** src/context.rs:242 [parser.collect::<Result<Vec<_>, _>>()]. *)
Fixpoint mread_loop (m : mode) (fuel : nat) (b : isub) (acc : list (submessage Z))
  : outcome (result (list (submessage Z)) parse_error * isub) :=
  match fuel with
  | O => Diverge
  | S fuel' =>
      let! r := isub_next (mnext_section m) b in
      match r with
      | (None, b') => Ret (Ok (rev acc), b')
      | (Some (Err e), b') => Ret (Err e, b')
      | (Some (Ok x), b') => mread_loop m fuel' b' (x :: acc)
      end
  end.

(** src/context.rs:238-249 [Grib2::read] with [left] octets of memory. *)
Definition mem_read (left : Z) (m : mode) (fuel : nat) (s : src) : outcome (result grib2 grib_error) :=
  let! r := mread_loop m fuel (isub_new (MkMstate (MkSstate s 0 0) left)) [] in
  match r with
  | (Err e, _) => Ret (Err (EParse e))
  | (Ok subs, b) => Ret (Ok (MkGrib2 (st_src (mt_s (v_src (is_v b)))) (rev (is_log b)) subs))
  end.

(** [reader.read_sect_payload_as_slice(sect)?]. *)
Definition mreread (m : mode) (sect : section) : mem (list byte) grib_error :=
  fun c => let! (r, c') := mread_sect_payload_as_slice m sect c in
           Ret (match r with Ok l => Ok l | Err e => Err (EParse e) end, c').
(** src/decoder.rs:96-113: the bitmap, a copy of the octets read ([into]) or, if there is none,
    src/decoder/bitmap.rs:70-77 a vector of one bit for each point. *)
Definition mdecoder_bitmap (m : mode) (sect6 : section) (indicator num_points : Z) : mem (list byte) grib_error :=
  if indicator =? 0 then
    mem! l := mreread m sect6 in
    mem! b := mpure (slice_from l 1) in
    mem! _ := take (zlen b) in
    mret b
  else if indicator =? 255 then
    let b := create_bitmap_for_nonnullable_data num_points in
    mem! _ := take (zlen b) in
    mret b
  else fun c => Ret (Err (EDecode BitMapIndicatorUnsupported), c).
(** src/decoder.rs:77-123 [from] with some octets of memory. *)
Definition mem_decoder (m : mode) (v : view) : mem decoder grib_error :=
  match s_body (snd (u_3 v)), s_body (snd (u_5 v)), s_body (snd (u_6 v)) with
  | Some (B3 p3), Some (B5 p5), Some (B6 indicator) =>
      mem! total := mpure (grid_num_points p3) in
      mem! bitmap := mdecoder_bitmap m (snd (u_6 v)) indicator total in
      mem! encoded := mpure (repr_num_points p5) in
      mem! template := mpure (repr_tmpl_num p5) in
      mem! sect5 := mreread m (snd (u_5 v)) in
      mem! sect7 := mreread m (snd (u_7 v)) in
      mret (MkDecoder total encoded template sect5 bitmap sect7)
  | _, _, _ => fun c => Ret (Err InternalDataError, c)
  end.

(** ** Run-length packing, with room for [left] items in the vectors

    Model/RunLength.v with unlimited memory: here a vector of the decoded levels with more than
    [left] items does not fit.  (The copy of each run that [vec![prev; length]] makes and the spare
    capacity of the vector are not counted, so that the code needs at least this much.) *)

(** src/decoder/run_length.rs:78-88: one iteration of the loop body. *)
Definition mrle_body (left : Z) (m : mode) (rlbase lngu value : Z) (s : rle_state)
  : outcome (result rle_state rle_error) :=
  let value := wrap U16 value in
  if value <? rlbase then
    if zlen (rle_out s) + 1 <=? left then Ret (Ok (RLE (rle_out s ++ [value]) (Some value) 1)) else Diverge
  else
    match rle_cached s with
    | None => Ret (Err InvalidFirstValue)
    | Some prev =>
        let! length := arith m Usize ((value - rlbase) * rle_exp s) in
        if zlen (rle_out s) + length <=? left then
          let! exp := arith m Usize (rle_exp s * lngu) in
          Ret (Ok (RLE (rle_out s ++ repeat prev (Z.to_nat length)) (Some prev) exp))
        else Diverge
    end.
(** src/decoder/run_length.rs:77-89: [for value in iter]. *)
Fixpoint mrle_loop (left : Z) (fuel : nat) (m : mode) (rlbase lngu : Z) (it : nbit_state) (s : rle_state)
  : outcome (result rle_state rle_error) :=
  match fuel with
  | O => Diverge
  | S fuel' =>
      let! (o, it') := nbit_next m it in
      match o with
      | None => Ret (Ok s)
      | Some value =>
          try! s' := mrle_body left m rlbase lngu value s in
          mrle_loop left fuel' m rlbase lngu it' s'
      end
  end.
(** src/decoder/run_length.rs:60-98 [rleunpack]: the number of items is compared with the expected
    one at the end. *)
Definition mem_rleunpack (left : Z) (m : mode) (input : list byte) (nbit maxv : Z) (expected_len : option Z)
  : outcome (result (list Z) rle_error) :=
  let! rlbase := arith m U16 (maxv + 1) in
  let! one := shl m U16 1 nbit in
  let! lngu := arith m U16 (one - rlbase) in
  try! s := mrle_loop left (rle_fuel input) m rlbase lngu (nbit_new input nbit) (RLE [] None 1) in
  match expected_len with
  | Some len => if len =? zlen (rle_out s) then Ret (Ok (rle_out s)) else Ret (Err RleLengthMismatch)
  | None => Ret (Ok (rle_out s))
  end.

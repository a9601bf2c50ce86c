(** Model of /repo/src/reader.rs, src/context.rs and src/decoder.rs over a device whose calls
    may fail: the functions of Model/Reader.v once more, with the [?] of every call of the
    device spelled out. *)
From Coq Require Import Strings.String.
From Verif Require Import Model.Base Model.Helpers Model.Errors Model.Sections Model.Reader Model.Parser Model.Context Model.Bitmap Model.Product Model.Decoder Model.Tools.

(** ** The device *)

(** An [io::Error], with its text: of kind [ErrorKind::Interrupted], or of any other kind. *)
Inductive fault := Interrupted (what : list byte) | Broken (what : list byte).
Definition fault_text (f : fault) : list byte := match f with Interrupted w | Broken w => w end.

(** A source as in Model/Reader.v, and for each of the next calls of [read] and [seek] whether it
    fails and how; calls beyond the end of the plan do not fail.  A call that fails transfers
    nothing and leaves the position alone. *)
Record dev := MkDev { d_src : src; d_plan : list (option fault) }.

Definition dd (A : Type) := dev -> outcome (result A parse_error * dev).
Definition dret {A} (a : A) : dd A := fun d => Ret (Ok a, d).
Definition dfail {A} (e : parse_error) : dd A := fun d => Ret (Err e, d).
Definition dpure {A} (x : outcome A) : dd A := fun d => let! a := x in Ret (Ok a, d).
Definition dres {A} (x : outcome (result A parse_error)) : dd A := fun d => let! a := x in Ret (a, d).
Definition dbind {A B} (x : dd A) (f : A -> dd B) : dd B :=
  fun d => let! r := x d in
           match r with
           | (Ok a, d') => f a d'
           | (Err e, d') => Ret (Err e, d')
           end.
Notation "'io!' x ':=' e 'in' k" := (dbind e (fun x => k))
  (at level 200, x pattern, e at level 100, k at level 200, right associativity).

(** A call of the device that does [x] unless it fails; src/error.rs:99-103 [From<io::Error>]. *)
Definition dcall {A} (x : rd A) : dd A :=
  fun d => match d_plan d with
           | Some f :: p => Ret (Err (ReadErrorIo (fault_text f)), MkDev (d_src d) p)
           | None :: p => let! (r, s) := x (d_src d) in Ret (r, MkDev s p)
           | [] => let! (r, s) := x (d_src d) in Ret (r, MkDev s [])
           end.

(** [Read::read], [Seek::seek] through src/reader.rs:199-213 [SeekableGrib2Reader]. *)
Definition dread (n : Z) : dd (list byte) := dcall (rread n).
Definition dseek_to (p : Z) : dd unit := dcall (seek_to p).
Definition dseek_current (k : Z) : dd unit := dcall (seek_current k).
(** [Seek::stream_position]: a [seek] by 0, which leaves the position alone and which only the device
    can refuse. *)
Definition dposition : dd Z := dcall (fun s => Ret (Ok (pos s), s)).

(** [read] as [Read::read_exact] calls it: again, when it was interrupted. *)
Fixpoint dread_again (n : Z) (s : src) (plan : list (option fault)) : outcome (result (list byte) parse_error * dev) :=
  match plan with
  | Some (Interrupted _) :: p => dread_again n s p
  | Some (Broken w) :: p => Ret (Err (ReadErrorIo w), MkDev s p)
  | None :: p => let! (r, s') := rread n s in Ret (r, MkDev s' p)
  | [] => let! (r, s') := rread n s in Ret (r, MkDev s' [])
  end.
(** [Read::read_exact] (std's default). *)
Fixpoint dread_exact_loop (fuel : nat) (n : Z) : dd (list byte) :=
  match fuel with
  | O => fun _ => Diverge
  | S fuel' =>
      if n <=? 0 then dret []
      else
        io! l := (fun d => dread_again n (d_src d) (d_plan d)) in
        match l with
        | [] => dfail ReadErrorEof
        | _ => io! l' := dread_exact_loop fuel' (n - zlen l) in dret (l ++ l')
        end
  end.
Definition dread_exact (n : Z) : dd (list byte) :=
  fun d => dread_exact_loop (S (S (length (data (d_src d))))) n d.

Definition dvec_alloc (n : Z) : dd unit :=
  if n <=? 2 ^ 63 - 1 then dret tt else dpure Panic.

(** ** SeekableGrib2Reader *)

(** src/reader.rs:231-255 [read_sect0]. *)
Fixpoint dread_sect0_loop (fuel : nat) (offset : Z) : dd (option (Z * body)) :=
  match fuel with
  | O => fun _ => Diverge
  | S fuel' =>
      io! buf := dread 4096 in
      let size := zlen buf in
      if size <? 16 then dret None
      else
        let next_offset := size - 16 + 1 in
        io! found := dpure (find_magic buf 0 (Z.to_nat next_offset)) in
        match found with
        | Some p =>
            io! _ := dseek_current (p + 16 - size) in
            io! window := dpure (slice buf p (p + 16)) in
            io! ind := dres (indicator_from_slice window) in
            dret (Some (offset + p, ind))
        | None =>
            io! _ := dseek_current (next_offset - size) in
            dread_sect0_loop fuel' (offset + next_offset)
        end
  end.
Definition dread_sect0 : dd (option (Z * body)) :=
  fun d => dread_sect0_loop (S (length (data (d_src d)))) 0 d.

(** src/reader.rs:215-228 [check_size!] with the [read] before it. *)
Definition dread_checked (n : Z) : dd (option (list byte)) :=
  io! buf := dread n in
  if zlen buf =? 0 then dret None
  else if zlen buf =? n then dret (Some buf)
  else dfail ReadErrorEof.

(** src/reader.rs:257-267 [read_sect8]. *)
Definition dread_sect8 : dd (option unit) :=
  io! r := dread_checked 4 in
  match r with
  | None => dret None
  | Some buf => if bytes_eqb buf end_magic then dret (Some tt) else dfail EndSectionMismatch
  end.

(** src/reader.rs:269-278 [read_sect_header]. *)
Definition dread_sect_header : dd (option (Z * Z)) :=
  io! r := dread_checked 5 in
  match r with
  | None => dret None
  | Some buf =>
      io! size := dpure (read_u32 buf 0) in
      io! num := dpure (index buf 4) in
      dret (Some (size, bz num))
  end.

(** src/reader.rs:339-343 [read_slice_without_offset_check]. *)
Definition dread_slice (size : Z) : dd (list byte) :=
  io! _ := dvec_alloc size in dread_exact size.

(** src/reader.rs:318-331 [read_sect6_payload]. *)
Definition dread_sect6_payload (m : mode) (body_size : Z) : dd body :=
  io! b := dread_exact 1 in
  io! len_extra := dpure (arith m Usize (body_size - 1)) in
  io! _ := (if 0 <? len_extra then io! _ := dread_slice len_extra in dret tt else dret tt) in
  io! ind := dpure (index b 0) in
  dret (B6 (bz ind)).

(** src/reader.rs:333-337 [skip_sect7_payload]. *)
Definition dskip_sect7_payload (body_size : Z) : dd body :=
  io! _ := dseek_current (wrap I64 body_size) in dret B7.

(** src/reader.rs:280-305 [read_sect_payload]. *)
Definition dread_sect_payload (m : mode) (header : Z * Z) : dd body :=
  let '(size, num) := header in
  io! body_size := dpure (arith m Usize (size - 5)) in
  if (1 <=? num) && (num <=? 5) then
    io! p := dread_slice body_size in dres (Ret (from_payload num p))
  else if num =? 6 then dread_sect6_payload m body_size
  else if num =? 7 then dskip_sect7_payload body_size
  else dfail (UnknownSectionNumber num).

(** src/reader.rs:307-316 [read_sect_payload_as_slice]. *)
Definition dread_sect_payload_as_slice (m : mode) (sect : section) : dd (list byte) :=
  io! body_offset := dpure (arith m Usize (s_offset sect + 5)) in
  io! _ := dseek_to body_offset in
  io! body_size := dpure (arith m Usize (s_size sect - 5)) in
  dread_slice body_size.

(** ** Grib2SectionStream (src/reader.rs:39-43) *)
Record dstate := MkDstate { dt_dev : dev; dt_whole : Z; dt_rest : Z }.

(** src/reader.rs:78-108 [next_sect0], 110-114 [reset_pos], whose error gets a text of its
    own. *)
Definition dnext_sect0 (m : mode) (s : dstate) : outcome (option (result section parse_error) * dstate) :=
  let! (at_, d0) := (if dt_whole s =? 0 then dposition (dt_dev s) else Ret (Ok (dt_whole s), dt_dev s)) in
  match at_ with
  | Err (ReadErrorIo w) => Ret (Some (Err (ReadErrorIo (str "resetting the initial position failed: " ++ w))), MkDstate d0 (dt_whole s) (dt_rest s))
  | Err e => Ret (Some (Err e), MkDstate d0 (dt_whole s) (dt_rest s))
  | Ok whole1 =>
      let! r := dread_sect0 d0 in
      match r with
      | (Ok None, d') => Ret (None, MkDstate d' whole1 (dt_rest s))
      | (Err e, d') => Ret (Some (Err e), MkDstate d' whole1 (dt_rest s))
      | (Ok (Some (offset, ind)), d') =>
          let! w := arith m Usize (whole1 + offset) in
          let total := match ind with B0 _ t => t | _ => 0 end in
          let! w' := arith m Usize (w + total) in
          let! r' := arith m Usize (total - 16) in
          Ret (Some (Ok (MkSection 0 w 16 (Some ind))), MkDstate d' w' r')
      end
  end.

(** src/reader.rs:117-129 [next_sect8]. *)
Definition dnext_sect8 (m : mode) (s : dstate) : outcome (option (result section parse_error) * dstate) :=
  let! r := dread_sect8 (dt_dev s) in
  match r with
  | (Ok None, d') => Ret (None, MkDstate d' (dt_whole s) (dt_rest s))
  | (Err e, d') => Ret (Some (Err e), MkDstate d' (dt_whole s) (dt_rest s))
  | (Ok (Some _), d') =>
      let! off := arith m Usize (dt_whole s - dt_rest s) in
      let! r' := arith m Usize (dt_rest s - 4) in
      Ret (Some (Ok (MkSection 8 off 4 None)), MkDstate d' (dt_whole s) r')
  end.

(** src/reader.rs:132-154 [next_sect]. *)
Definition dnext_sect (m : mode) (s : dstate) : outcome (option (result section parse_error) * dstate) :=
  let! r := dread_sect_header (dt_dev s) in
  match r with
  | (Ok None, d') => Ret (None, MkDstate d' (dt_whole s) (dt_rest s))
  | (Err e, d') => Ret (Some (Err e), MkDstate d' (dt_whole s) (dt_rest s))
  | (Ok (Some (size, num)), d') =>
      let! off := arith m Usize (dt_whole s - dt_rest s) in
      let! rb := dread_sect_payload m (size, num) d' in
      match rb with
      | (Err e, d'') => Ret (Some (Err e), MkDstate d'' (dt_whole s) (dt_rest s))
      | (Ok b, d'') =>
          let! r' := arith m Usize (dt_rest s - size) in
          Ret (Some (Ok (MkSection num off size (Some b))), MkDstate d'' (dt_whole s) r')
      end
  end.

(** src/reader.rs:157-170 [Iterator::next]. *)
Definition dnext_section (m : mode) (s : dstate) : outcome (option (result section parse_error) * dstate) :=
  if dt_rest s =? 0 then dnext_sect0 m s
  else if dt_rest s =? 4 then dnext_sect8 m s
  else dnext_sect m s.

(** src/reader.rs:60-66 [Grib2SectionStream::new] over a device. *)
Definition dev_sections (m : mode) (d : dev) : iter (result section parse_error) :=
  MkIter dstate (MkDstate d 0 0) (dnext_section m).

(** ** Grib2 *)

(** src/context.rs:138-142 [Grib2<R>] over a device. *)
Record dev_grib2 := MkDevGrib2 { dg_dev : dev; dg_sections : list section; dg_subs : list (submessage Z) }.

(** src/context.rs:242 [parser.collect::<Result<Vec<_>, _>>()]. *)
Fixpoint dread_loop (m : mode) (fuel : nat) (b : isub) (acc : list (submessage Z))
  : outcome (result (list (submessage Z)) parse_error * isub) :=
  match fuel with
  | O => Diverge
  | S fuel' =>
      let! r := isub_next (dnext_section m) b in
      match r with
      | (None, b') => Ret (Ok (rev acc), b')
      | (Some (Err e), b') => Ret (Err e, b')
      | (Some (Ok u), b') => dread_loop m fuel' b' (u :: acc)
      end
  end.

(** src/context.rs:238-249 [Grib2::read], 105-109 [from_reader]. *)
Definition dev_read (m : mode) (fuel : nat) (d : dev) : outcome (result dev_grib2 grib_error) :=
  let! r := dread_loop m fuel (isub_new (MkDstate d 0 0)) [] in
  match r with
  | (Err e, _) => Ret (Err (EParse e))
  | (Ok subs, b) => Ret (Ok (MkDevGrib2 (dt_dev (v_src (is_v b))) (rev (is_log b)) subs))
  end.

(** ** Grib2SubmessageDecoder *)

(** [reader.read_sect_payload_as_slice(sect)?]. *)
Definition dreread (m : mode) (d : dev) (sect : section) : outcome (result (list byte) grib_error * dev) :=
  let! (r, d') := dread_sect_payload_as_slice m sect d in
  Ret (match r with Ok l => Ok l | Err e => Err (EParse e) end, d').
Definition try_dev {A B E} (e : outcome (result A E * dev)) (k : A -> dev -> outcome (result B E * dev))
  : outcome (result B E * dev) :=
  let! (r, d) := e in
  match r with Ok a => k a d | Err x => Ret (Err x, d) end.

(** src/decoder.rs:96-113: the bitmap. *)
Definition dev_bitmap (m : mode) (d : dev) (sect6 : section) (indicator num_points : Z)
  : outcome (result (list byte) grib_error * dev) :=
  if indicator =? 0 then
    try_dev (dreread m d sect6) (fun l d' => let! b := slice_from l 1 in Ret (Ok b, d'))
  else if indicator =? 255 then Ret (Ok (create_bitmap_for_nonnullable_data num_points), d)
  else Ret (Err (EDecode BitMapIndicatorUnsupported), d).

(** src/decoder.rs:77-123 [from]. *)
Definition dev_decoder_from (m : mode) (d : dev) (v : view) : outcome (result decoder grib_error * dev) :=
  match s_body (snd (u_3 v)), s_body (snd (u_5 v)), s_body (snd (u_6 v)) with
  | Some (B3 p3), Some (B5 p5), Some (B6 indicator) =>
      let! total := grid_num_points p3 in
      try_dev (dev_bitmap m d (snd (u_6 v)) indicator total) (fun bitmap d1 =>
      let! encoded := repr_num_points p5 in
      let! template := repr_tmpl_num p5 in
      try_dev (dreread m d1 (snd (u_5 v))) (fun sect5 d2 =>
      try_dev (dreread m d2 (snd (u_7 v))) (fun sect7 d3 =>
      Ret (Ok (MkDecoder total encoded template sect5 bitmap sect7), d3))))
  | _, _, _ => Ret (Err InternalDataError, d)
  end.

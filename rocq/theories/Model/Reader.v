(** Model of /repo/src/reader.rs: the GRIB2 reader over a [Read + Seek] source and
    the section stream. *)
From Verif Require Import Model.Base Model.Helpers Model.Errors Model.Sections.

(** ** The source

    A [Read + Seek] source holding the bytes [data], at position [pos].  The list
    [sched] says how many octets the next calls of [read] are willing to return
    (each clamped to at least one octet and to what is left); when it is empty
    every call fills the buffer as far as the data go, as [io::Cursor] does.
    Errors of the device itself, [ErrorKind::Interrupted] among them, are in
    Model/Device.v. *)
Record src := MkSrc { data : list byte; pos : Z; sched : list Z }.

Definition cursor (d : list byte) : src := MkSrc d 0 [].

(** [Read::read] into a buffer of [n] octets: the octets obtained. *)
Definition read (n : Z) (s : src) : list byte * src :=
  let avail := Z.max 0 (Z.min n (zlen (data s) - pos s)) in
  let '(k, rest) := match sched s with
                    | [] => (avail, [])
                    | c :: cs => (Z.min avail (Z.max 1 c), cs)
                    end in
  (firstn (Z.to_nat k) (skipn (Z.to_nat (pos s)) (data s)),
   MkSrc (data s) (pos s + k) rest).

(** A computation on the source that may fail with an error or panic. *)
Definition rd (A : Type) := src -> outcome (result A parse_error * src).

Definition rret {A} (a : A) : rd A := fun s => Ret (Ok a, s).
Definition rfail {A} (e : parse_error) : rd A := fun s => Ret (Err e, s).
Definition rpure {A} (x : outcome A) : rd A := fun s => let! a := x in Ret (Ok a, s).
Definition rres {A} (x : outcome (result A parse_error)) : rd A :=
  fun s => let! a := x in Ret (a, s).
Definition rbind {A B} (x : rd A) (f : A -> rd B) : rd B :=
  fun s => let! r := x s in
           match r with
           | (Ok a, s') => f a s'
           | (Err e, s') => Ret (Err e, s')
           end.
Notation "'do!' x ':=' e 'in' k" := (rbind e (fun x => k))
  (at level 200, x pattern, e at level 100, k at level 200, right associativity).

Definition rread (n : Z) : rd (list byte) := fun s => let '(l, s') := read n s in Ret (Ok l, s').

(** [Read::read_exact] (std's default): repeats [read] until the buffer is full;
    a [read] returning nothing is "failed to fill whole buffer".  The std
    specialisation for [Cursor] obtains the same octets; the position after a
    failure (unspecified by std) is the end of the data here. *)
Fixpoint read_exact_loop (fuel : nat) (n : Z) : rd (list byte) :=
  match fuel with
  | O => fun _ => Diverge
  | S fuel' =>
      if n <=? 0 then rret []
      else
        do! l := rread n in
        match l with
        | [] => rfail ReadErrorEof
        | _ => do! l' := read_exact_loop fuel' (n - zlen l) in rret (l ++ l')
        end
  end.
Definition read_exact (n : Z) : rd (list byte) :=
  fun s => read_exact_loop (S (S (length (data s)))) n s.

(** [Seek::seek]: positions beyond the end are allowed, a negative position or one
    that does not fit 64 bits is an error that leaves the position alone. *)
Definition seek_to (p : Z) : rd unit :=
  fun s => if (0 <=? p) && (p <? 2 ^ 64)
           then Ret (Ok tt, MkSrc (data s) p (sched s))
           else Ret (Err ReadErrorSeek, s).
Definition seek_current (d : Z) : rd unit := fun s => seek_to (pos s + d) s.

(** [vec![0; n]]: panics ("capacity overflow") above [isize::MAX] octets.  Running
    out of memory below that is not modelled. *)
Definition vec_alloc (n : Z) : rd unit :=
  if n <=? 2 ^ 63 - 1 then rret tt else rpure Panic.

(** ** SeekableGrib2Reader *)

Definition grib_magic : list byte := [x47; x52; x49; x42].   (* "GRIB" *)
Definition end_magic : list byte := [x37; x37; x37; x37].    (* "7777" *)

Definition bytes_eqb (a b : list byte) : bool :=
  if list_eq_dec Byte.byte_eq_dec a b then true else false.

(** The [for pos in 0..next_offset] of src/reader.rs:241-251: first position [p]
    (counted from [from], at most [n] of them) with [buf[p..p+4] == "GRIB"]. *)
Fixpoint find_magic (buf : list byte) (from : Z) (n : nat) : outcome (option Z) :=
  match n with
  | O => Ret None
  | S n' =>
      let! w := slice buf from (from + 4) in
      if bytes_eqb w grib_magic then Ret (Some from) else find_magic buf (from + 1) n'
  end.

(** src/reader.rs:231-255 [read_sect0].  [buf] is the part of the 4096-octet buffer
    that was filled (the code never looks beyond it); [offset] cannot overflow. *)
Fixpoint read_sect0_loop (fuel : nat) (offset : Z) : rd (option (Z * body)) :=
  match fuel with
  | O => fun _ => Diverge
  | S fuel' =>
      do! buf := rread 4096 in
      let size := zlen buf in
      if size <? 16 then rret None
      else
        let next_offset := size - 16 + 1 in
        do! found := rpure (find_magic buf 0 (Z.to_nat next_offset)) in
        match found with
        | Some p =>
            do! _ := seek_current (p + 16 - size) in
            do! window := rpure (slice buf p (p + 16)) in
            do! ind := rres (indicator_from_slice window) in
            rret (Some (offset + p, ind))
        | None =>
            do! _ := seek_current (next_offset - size) in
            read_sect0_loop fuel' (offset + next_offset)
        end
  end.
Definition read_sect0 : rd (option (Z * body)) :=
  fun s => read_sect0_loop (S (length (data s))) 0 s.

(** src/reader.rs:215-228 [check_size!] together with the [read] before it: reads
    [n] octets with one call; nothing at all is end of data, fewer is an error. *)
Definition read_checked (n : Z) : rd (option (list byte)) :=
  do! buf := rread n in
  if zlen buf =? 0 then rret None
  else if zlen buf =? n then rret (Some buf)
  else rfail ReadErrorEof.

(** src/reader.rs:257-267 [read_sect8]. *)
Definition read_sect8 : rd (option unit) :=
  do! r := read_checked 4 in
  match r with
  | None => rret None
  | Some buf => if bytes_eqb buf end_magic then rret (Some tt) else rfail EndSectionMismatch
  end.

(** src/reader.rs:269-278 [read_sect_header]. *)
Definition read_sect_header : rd (option (Z * Z)) :=
  do! r := read_checked 5 in
  match r with
  | None => rret None
  | Some buf =>
      do! size := rpure (read_u32 buf 0) in
      do! num := rpure (index buf 4) in
      rret (Some (size, bz num))
  end.

(** src/reader.rs:339-343 [read_slice_without_offset_check]. *)
Definition read_slice (size : Z) : rd (list byte) :=
  do! _ := vec_alloc size in read_exact size.

(** src/reader.rs:318-331 [read_sect6_payload]. *)
Definition read_sect6_payload (m : mode) (body_size : Z) : rd body :=
  do! b := read_exact 1 in
  do! len_extra := rpure (arith m Usize (body_size - 1)) in
  do! _ := (if 0 <? len_extra then do! _ := read_slice len_extra in rret tt else rret tt) in
  do! ind := rpure (index b 0) in
  rret (B6 (bz ind)).

(** src/reader.rs:333-337 [skip_sect7_payload]; [as i64] wraps. *)
Definition skip_sect7_payload (body_size : Z) : rd body :=
  do! _ := seek_current (wrap I64 body_size) in rret B7.

(** src/reader.rs:280-305 [read_sect_payload]. *)
Definition read_sect_payload (m : mode) (header : Z * Z) : rd body :=
  let '(size, num) := header in
  do! body_size := rpure (arith m Usize (size - 5)) in
  if (1 <=? num) && (num <=? 5) then
    do! p := read_slice body_size in rres (Ret (from_payload num p))
  else if num =? 6 then read_sect6_payload m body_size
  else if num =? 7 then skip_sect7_payload body_size
  else rfail (UnknownSectionNumber num).

(** src/reader.rs:307-316 [read_sect_payload_as_slice]. *)
Definition read_sect_payload_as_slice (m : mode) (sect : section) : rd (list byte) :=
  do! body_offset := rpure (arith m Usize (s_offset sect + 5)) in
  do! _ := seek_to body_offset in
  do! body_size := rpure (arith m Usize (s_size sect - 5)) in
  read_slice body_size.

(** ** Grib2SectionStream (src/reader.rs:39-43) *)
Record sstate := MkSstate { st_src : src; whole : Z; rest : Z }.

(** src/reader.rs:78-108 [next_sect0], 110-114 [reset_pos] ([stream_position] is a
    seek by 0, which cannot fail at a valid position). *)
Definition next_sect0 (m : mode) (s : sstate)
  : outcome (option (result section parse_error) * sstate) :=
  let whole1 := if whole s =? 0 then pos (st_src s) else whole s in
  let! r := read_sect0 (st_src s) in
  match r with
  | (Ok None, s') => Ret (None, MkSstate s' whole1 (rest s))
  | (Err e, s') => Ret (Some (Err e), MkSstate s' whole1 (rest s))
  | (Ok (Some (offset, ind)), s') =>
      let! w := arith m Usize (whole1 + offset) in
      let total := match ind with B0 _ t => t | _ => 0 end in
      let! w' := arith m Usize (w + total) in
      let! r' := arith m Usize (total - 16) in
      Ret (Some (Ok (MkSection 0 w 16 (Some ind))), MkSstate s' w' r')
  end.

(** src/reader.rs:117-129 [next_sect8]. *)
Definition next_sect8 (m : mode) (s : sstate)
  : outcome (option (result section parse_error) * sstate) :=
  let! r := read_sect8 (st_src s) in
  match r with
  | (Ok None, s') => Ret (None, MkSstate s' (whole s) (rest s))
  | (Err e, s') => Ret (Some (Err e), MkSstate s' (whole s) (rest s))
  | (Ok (Some _), s') =>
      let! off := arith m Usize (whole s - rest s) in
      let! r' := arith m Usize (rest s - 4) in
      Ret (Some (Ok (MkSection 8 off 4 None)), MkSstate s' (whole s) r')
  end.

(** src/reader.rs:132-154 [next_sect]. *)
Definition next_sect (m : mode) (s : sstate)
  : outcome (option (result section parse_error) * sstate) :=
  let! r := read_sect_header (st_src s) in
  match r with
  | (Ok None, s') => Ret (None, MkSstate s' (whole s) (rest s))
  | (Err e, s') => Ret (Some (Err e), MkSstate s' (whole s) (rest s))
  | (Ok (Some (size, num)), s') =>
      let! off := arith m Usize (whole s - rest s) in
      let! rb := read_sect_payload m (size, num) s' in
      match rb with
      | (Err e, s'') => Ret (Some (Err e), MkSstate s'' (whole s) (rest s))
      | (Ok b, s'') =>
          let! r' := arith m Usize (rest s - size) in
          Ret (Some (Ok (MkSection num off size (Some b))), MkSstate s'' (whole s) r')
      end
  end.

(** src/reader.rs:157-170 [Iterator::next]. *)
Definition next_section (m : mode) (s : sstate)
  : outcome (option (result section parse_error) * sstate) :=
  if rest s =? 0 then next_sect0 m s
  else if rest s =? 4 then next_sect8 m s
  else next_sect m s.

(** src/reader.rs:60-66 [Grib2SectionStream::new] over a source. *)
Definition section_stream (m : mode) (s : src) : iter (result section parse_error) :=
  MkIter sstate (MkSstate s 0 0) (next_section m).

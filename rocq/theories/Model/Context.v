(** Model of /repo/src/context.rs: reading a whole file and iterating over its
    submessages. *)
From Verif Require Import Model.Base Model.Errors Model.Sections Model.Reader Model.Parser.

(** src/context.rs:138-142 [Grib2<R>]. *)
Record grib2 := MkGrib2 {
  g_src : src;
  g_sections : list section;
  g_subs : list (submessage Z)
}.

(** src/context.rs:242 [parser.collect::<Result<Vec<_>, _>>()]: stops at the first
    error.  Fuel bounds the number of submessages (proved sufficient). *)
Fixpoint read_loop (m : mode) (fuel : nat) (b : isub) (acc : list (submessage Z))
  : outcome (result (list (submessage Z)) parse_error * isub) :=
  match fuel with
  | O => Diverge
  | S fuel' =>
      let! r := isub_next (next_section m) b in
      match r with
      | (None, b') => Ret (Ok (rev acc), b')
      | (Some (Err e), b') => Ret (Err e, b')
      | (Some (Ok u), b') => read_loop m fuel' b' (u :: acc)
      end
  end.

(** src/context.rs:238-249 [Grib2::read]. *)
Definition grib2_read (m : mode) (fuel : nat) (s : src) : outcome (result grib2 grib_error) :=
  let! r := read_loop m fuel (isub_new (MkSstate s 0 0)) [] in
  match r with
  | (Err e, _) => Ret (Err (EParse e))
  | (Ok subs, b) => Ret (Ok (MkGrib2 (st_src (v_src (is_v b))) (rev (is_log b)) subs))
  end.

(** src/context.rs:133-136 [from_slice]; 105-109 [from_reader] is [grib2_read] on
    the given source. *)
Definition from_slice (m : mode) (fuel : nat) (bytes : list byte) := grib2_read m fuel (cursor bytes).

(** src/context.rs:161-163 [len], 167-169 [is_empty]. *)
Definition g_len (g : grib2) : Z := zlen (g_subs g).
Definition g_is_empty (g : grib2) : bool := g_len g =? 0.

(** ** list_templates *)

(** src/context.rs:68-69: [#[derive(PartialOrd, Ord)]] on [TemplateInfo(u8, u16)]. *)
Definition tmpl_leb (a b : Z * Z) : bool :=
  (fst a <? fst b) || ((fst a =? fst b) && (snd a <=? snd b)).

(** [Vec::sort_unstable] on a total order: insertion sort has the same result. *)
Fixpoint insert_tmpl (x : Z * Z) (l : list (Z * Z)) : list (Z * Z) :=
  match l with
  | [] => [x]
  | y :: l' => if tmpl_leb x y then x :: y :: l' else y :: insert_tmpl x l'
  end.
Definition sort_tmpl (l : list (Z * Z)) : list (Z * Z) := fold_right insert_tmpl [] l.

Fixpoint filter_map_out {A B} (f : A -> outcome (option B)) (l : list A) : outcome (list B) :=
  match l with
  | [] => Ret []
  | a :: l' => let! o := f a in
               let! bs := filter_map_out f l' in
               Ret (match o with Some b => b :: bs | None => bs end)
  end.

Definition pair_eq_dec : forall a b : Z * Z, {a = b} + {a <> b}.
Proof. decide equality; apply Z.eq_dec. Defined.

(** src/context.rs:271-276 [get_templates].  The iteration order of a [HashSet] is
    unspecified: [order] stands for it, and may be any permutation. *)
Definition get_templates (order : list (Z * Z) -> list (Z * Z)) (sects : list section)
  : outcome (list (Z * Z)) :=
  let! codes := filter_map_out get_tmpl_code sects in
  let uniq := nodup pair_eq_dec codes in
  Ret (sort_tmpl (order uniq)).

(** ** SubmessageIterator *)

(** src/context.rs:685-688 [SubMessageSection]: index and section. *)
Definition view := submessage (Z * section).

(** src/context.rs:295-300 [new_submessage_section]. *)
Definition view_section (g : grib2) (i : Z) : option (Z * section) :=
  match get (g_sections g) i with Some s => Some (i, s) | None => None end.

(** The sections of a submessage, [None] as soon as a mandatory one is missing
    (the [?]s of src/context.rs:310-323). *)
Definition make_view (g : grib2) (u : submessage Z) : option view :=
  let sec i k := match view_section g i with Some x => k x | None => None end in
  sec (u_0 u) (fun x0 => sec (u_1 u) (fun x1 =>
  let x2 := match u_2 u with Some i => view_section g i | None => None end in
  sec (u_3 u) (fun x3 => sec (u_4 u) (fun x4 => sec (u_5 u) (fun x5 =>
  sec (u_6 u) (fun x6 => sec (u_7 u) (fun x7 => sec (u_8 u) (fun x8 =>
    Some (MkSubmessage (u_mi u) (u_si u) x0 x1 x2 x3 x4 x5 x6 x7 x8))))))))).

(** Every view holds [RefMut] of the one reader: [alive] tells whether some view is
    alive, [borrow_mut] panics if so. *)

(** src/context.rs:306-327 [next] of an iterator at position [p]: result, new
    position, whether a view is alive afterwards. *)
Definition sub_iter_next (g : grib2) (p : Z) (alive : bool) : outcome (option view * Z * bool) :=
  match get (g_subs g) p with
  | None => Ret (None, p, alive)
  | Some u =>
      let p' := p + 1 in
      match make_view g u with
      | None => Ret (None, p', alive)
      | Some v => if alive then Panic else Ret (Some v, p', true)
      end
  end.

(** src/context.rs:329-332 [size_hint] (both bounds). *)
Definition sub_iter_size (m : mode) (g : grib2) (p : Z) : outcome Z :=
  arith m Usize (zlen (g_subs g) - p).

(** src/context.rs:334-337 [nth]. *)
Definition sub_iter_nth (g : grib2) (n : Z) (p : Z) (alive : bool) : outcome (option view * Z * bool) :=
  sub_iter_next g n alive.

(** A program using one file through one iterator: what is called on it, and when
    the views obtained are dropped. *)
Inductive call := CNext | CNth (n : Z) | CDrop.

(** The calls one after the other; the views obtained, in order. *)
Fixpoint run_calls (g : grib2) (p : Z) (alive : bool) (cs : list call) : outcome (list (option view)) :=
  match cs with
  | [] => Ret []
  | CNext :: cs' =>
      let! r := sub_iter_next g p alive in
      let '(v, p', alive') := r in
      let! vs := run_calls g p' alive' cs' in Ret (v :: vs)
  | CNth n :: cs' =>
      let! r := sub_iter_nth g n p alive in
      let '(v, p', alive') := r in
      let! vs := run_calls g p' alive' cs' in Ret (v :: vs)
  | CDrop :: cs' => run_calls g p false cs'
  end.

(** src/dump-like use: re-reading the payload of a section through the reader of the
    file (src/reader.rs:307-316), in any state of the reader. *)
Definition reread (m : mode) (s : src) (sect : section) : outcome (result (list byte) parse_error * src) :=
  read_sect_payload_as_slice m sect s.

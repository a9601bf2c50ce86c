(** Model of the tools around the library: /repo/cli/src (the gribber commands), /repo/gen/src
    (code table generation), src/codetables/old.rs (look-up) and
    /repo/codegen/src/param_codes.rs (parameter code enumerations).
    A [&str] is the list of its octets (UTF-8); every test made on strings here concerns
    ASCII octets, which never are part of another character. *)
From Coq Require Import Floats.SpecFloat Strings.String.
From Verif Require Import Model.Base Model.Helpers Model.Errors Model.F32 Model.F64 Model.Sections Model.Reader Model.Parser Model.Context Model.Product Model.Grid Model.Gaussian Model.Proj Model.Decoder.

(** A string literal of the source. *)
Definition str (s : string) : list byte := list_byte_of_string s.
Definition bytes_dec : forall a b : list byte, {a = b} + {a <> b} := list_eq_dec Byte.byte_eq_dec.

(** ** Numbers in strings *)

(** [u8::is_ascii_digit], [[0-9]] *)
Definition is_digit (b : byte) : bool := (48 <=? bz b) && (bz b <=? 57).
(** The longest prefix of digits, and what follows. *)
Fixpoint span_digits (s : list byte) : list byte * list byte :=
  match s with
  | b :: s' => if is_digit b then let '(d, r) := span_digits s' in (b :: d, r) else ([], s)
  | [] => ([], [])
  end.

(** The loop of std's [from_str_radix] for an unsigned type with maximum [max]; [None] for
    any of its errors. *)
Fixpoint parse_digits (max acc : Z) (s : list byte) : option Z :=
  match s with
  | [] => Some acc
  | b :: s' =>
      if is_digit b then
        let v := acc * 10 + (bz b - 48) in
        if v <=? max then parse_digits max v s' else None
      else None
  end.
(** std's [str::parse] at [usize] ([max = 2^64 - 1]), [u8], [u16]: a plus sign is allowed. *)
Definition parse_uint (max : Z) (s : list byte) : option Z :=
  match s with
  | [] => None
  | b :: s' =>
      if bz b =? 43 then match s' with [] => None | _ => parse_digits max 0 s' end
      else parse_digits max 0 s
  end.

(** ** The commands of gribber *)

Inductive cli_error := BadIndex | NoSuchIndex | EmptyData | Grib (e : grib_error) | Unexpected (e : grib_error).

(** cli/src/cli.rs:63-89 [CliMessageIndex::from_str].  The regular expression
    [^([0-9]+)\.([0-9]+)$] (the crate's [$] is the very end of the text) has at most one
    match; its groups are the digits before and after the point.  [unwrap] panics. *)
Definition cli_message_index (s : list byte) : outcome (result (Z * Z) cli_error) :=
  let '(d1, r1) := span_digits s in
  match d1, r1 with
  | _ :: _, dot :: r2 =>
      if bz dot =? 46 then
        match span_digits r2 with
        | ((_ :: _) as d2, []) =>
            match parse_uint (2 ^ 64 - 1) d1 with
            | None => Panic
            | Some mi =>
                match parse_uint (2 ^ 64 - 1) d2 with
                | None => Panic
                | Some si => Ret (Ok (mi, si))
                end
            end
        | _ => Ret (Err BadIndex)
        end
      else Ret (Err BadIndex)
  | _, _ => Ret (Err BadIndex)
  end.

(** cli/src/cli.rs:11-22 [grib]. *)
Definition cli_grib (m : mode) (fuel : nat) (s : src) : outcome (result grib2 cli_error) :=
  let! r := grib2_read m fuel s in
  match r with
  | Err e => Ret (Err (Grib e))
  | Ok g => if g_is_empty g then Ret (Err EmptyData) else Ret (Ok g)
  end.

(** cli/src/commands/decode.rs:53-56: [grib.iter().find(..)]; a submessage that does not
    match is dropped before the next one is asked for. *)
Fixpoint cli_find (fuel : nat) (g : grib2) (p : Z) (index : Z * Z) : outcome (option view) :=
  match fuel with
  | O => Diverge
  | S fuel' =>
      let! r := sub_iter_next g p false in
      match r with
      | (None, _, _) => Ret None
      | (Some v, p', _) =>
          if (u_mi v =? fst index) && (u_si v =? snd index) then Ret (Some v) else cli_find fuel' g p' index
      end
  end.

(** [f32::to_be_bytes], [f32::to_le_bytes] *)
Definition to_be_bytes (x : f32) : list byte :=
  let w := f32_to_bits x in [zb (w / 2 ^ 24); zb (w / 2 ^ 16); zb (w / 2 ^ 8); zb w].
Definition to_le_bytes (x : f32) : list byte := rev (to_be_bytes x).

(** cli/src/commands/decode.rs:33-43 [write_output], what is written to the file; [fuel]
    bounds the number of values.  I/O errors are not modelled. *)
Fixpoint write_values (fuel : nat) (to_bytes : f32 -> list byte) (it : iter f32) : outcome (list byte) :=
  match fuel with
  | O => Diverge
  | S fuel' =>
      let! (o, it') := next it in
      match o with
      | None => Ret []
      | Some x => let! rest := write_values fuel' to_bytes it' in Ret (to_bytes x ++ rest)
      end
  end.

Inductive out_format := BigEndian | LittleEndian | Text.
(** The octets of the output file, or the lines of the text (latitude, longitude, value);
    their decimal formatting: Model/CliDecode.v. *)
Inductive cli_output := Octets (l : list byte) | Lines (l : list ((f32 * f32) * f32)).

(** The items of [it.zip(l)]: the first iterator is asked first; nothing more is asked when
    one of the two ends. *)
Fixpoint zip_items {A B} (fuel : nat) (it : iter A) (l : list B) : outcome (list (A * B)) :=
  match fuel with
  | O => Diverge
  | S fuel' =>
      let! (o, it') := next it in
      match o, l with
      | Some a, b :: l' => let! rest := zip_items fuel' it' l' in Ret ((a, b) :: rest)
      | _, _ => Ret []
      end
  end.

(** cli/src/commands/decode.rs:57-77 [exec] from the submessage on.  [lm], [pl], [c]: the
    libraries that are not modelled; [fuel] bounds the number of values, [gfuel] the loops
    over the grid.  [latlons] is computed before the decoder is made, its error only looked
    at for text.  Sizes for the pager: Model/CliDecode.v. *)
Definition cli_decode_view (m : mode) (lm : libm) (pl : option proj_lib) (c : codecs) (gfuel fuel : nat) (fmt : out_format)
    (s : src) (v : view) : outcome (result cli_output cli_error) :=
  let! p3 := v_grid_def v in
  let! latlons := sub_latlons m lm pl gfuel p3 in
  let! r := decoder_from m s v in
  match r with
  | (Err e, _) => Ret (Err (Grib e))
  | (Ok d, _) =>
      let! r := dispatch c m d in
      match r with
      | Err e => Ret (Err (Grib e))
      | Ok values =>
          match fmt with
          | BigEndian => let! l := write_values fuel to_be_bytes values in Ret (Ok (Octets l))
          | LittleEndian => let! l := write_values fuel to_le_bytes values in Ret (Ok (Octets l))
          | Text =>
              let! values := collect fuel values in
              match latlons with
              | Ok pts => let! l := zip_items fuel (points_iter m pts) values in Ret (Ok (Lines l))
              | Err NotSupported =>
                  let! l := zip_items fuel (iter_of_list (repeat (f32_nan, f32_nan) (length values))) values in
                  Ret (Ok (Lines l))
              | Err e => Ret (Err (Unexpected e))
              end
          end
      end
  end.
(** cli/src/commands/decode.rs:45-78 [exec]; [rfuel] bounds the loops of reading the file and
    finding the submessage. *)
Definition cli_decode (m : mode) (lm : libm) (pl : option proj_lib) (c : codecs) (rfuel gfuel fuel : nat) (fmt : out_format)
    (s : src) (index : list byte) : outcome (result cli_output cli_error) :=
  try! g := cli_grib m rfuel s in
  try! i := cli_message_index index in
  let! o := cli_find rfuel g 0 i in
  match o with
  | None => Ret (Err NoSuchIndex)
  | Some v => cli_decode_view m lm pl c gfuel fuel fmt (g_src g) v
  end.

(** cli/src/commands/list.rs:120-131: the number of points without data and the number of
    points of a submessage ([u32] subtraction). *)
Definition cli_list_points (m : mode) (v : view) : outcome (Z * Z) :=
  let! p3 := v_grid_def v in
  let! n := grid_num_points p3 in
  let! p5 := v_repr_def v in
  let! k := repr_num_points p5 in
  let! d := arith m U32 (n - k) in
  Ret (d, n).

(** ** Code tables *)

(** gen/src/lib.rs:6-15 [CodeRange], [size]. *)
Record code_range := MkRange { r_start : Z; r_end : Z }.
Definition range_size (m : mode) (r : code_range) : outcome Z :=
  let! d := arith m Usize (r_end r - r_start r) in arith m Usize (d + 1).

(** gen/src/lib.rs:17-57 [CodeRange::from_str]; [None] for either error. *)
Definition parse_range (s : list byte) : option code_range :=
  let '(d1, r1) := span_digits s in
  match parse_uint (2 ^ 64 - 1) d1 with
  | None => None
  | Some start =>
      match r1 with
      | [] => Some (MkRange start start)
      | h :: r2 =>
          if bz h =? 45 then
            match parse_uint (2 ^ 64 - 1) (fst (span_digits r2)) with
            | None => None
            | Some e => Some (MkRange start e)
            end
          else None
      end
  end.

(** gen/src/lib.rs:97-106: descriptions that count as none. *)
Definition reserved : list (list byte) :=
  map str ["Future versions"; "Reserved"; "Reserved for local use"; "Reserved for other centres"; "Missing";
           "Missing value"; ")"]%string.
Definition described (s : list byte) : option (list byte) :=
  if in_dec bytes_dec s reserved then None else Some s.

(** gen/src/lib.rs:89-135 [CodeTable::to_vec]: [count], [empty_count] of the loop, [output]. *)
Fixpoint to_vec_loop (m : mode) (rows : list (list byte * list byte))
    (output : list (list byte)) (count empty : Z) : outcome (list (list byte)) :=
  match rows with
  | [] => Ret output
  | (id, s) :: rows' =>
      match parse_range id with
      | None => to_vec_loop m rows' output count empty
      | Some r =>
          match described s with
          | Some s =>
              let output := output ++ repeat [] (Z.to_nat empty) in
              let! count := arith m Usize (count + empty) in
              if negb (count =? r_start r) then Ret []
              else
                let! size := range_size m r in
                let output := output ++ (if size =? 1 then [s] else repeat s (Z.to_nat (r_end r - r_start r + 1))) in
                let! count := arith m Usize (count + size) in
                to_vec_loop m rows' output count 0
          | None =>
              let! size := range_size m r in
              let! empty := arith m Usize (empty + size) in
              to_vec_loop m rows' output count empty
          end
      end
  end.
Definition to_vec (m : mode) (rows : list (list byte * list byte)) : outcome (list (list byte)) :=
  to_vec_loop m rows [] 0 0.

(** src/codetables/old.rs:251-259 [lookup] on the generated array: the description, or the
    error [Unimplemented] with the code. *)
Definition lookup (table : list (list byte)) (code : Z) : result (list byte) Z :=
  match get table code with Some s => Ok s | None => Err code end.

(** ** Parameter codes *)

(** codegen/src/param_codes.rs:86-98 [Wgrib2TableEntry], the fields that are used. *)
Record wgrib2_entry := MkEntry { w_discipline : Z; w_category : Z; w_number : Z; w_name : list byte }.

(** [s.split(":")] *)
Fixpoint split_on (sep : Z) (s : list byte) : list (list byte) :=
  match s with
  | [] => [[]]
  | b :: s' =>
      if bz b =? sep then [] :: split_on sep s'
      else match split_on sep s' with
           | w :: ws => (b :: w) :: ws
           | [] => [[b]]
           end
  end.

(** codegen/src/param_codes.rs:108-133 [Wgrib2TableEntry::from_str_impl]; [None] for an
    error.  More than eleven words are allowed, the rest is ignored. *)
Definition parse_entry (line : list byte) : option wgrib2_entry :=
  match split_on 58 line with
  | a :: _ :: v1 :: v2 :: ce :: lv :: c :: n :: name :: _ :: _ :: _ =>
      match parse_uint 255 a, parse_uint 255 v1, parse_uint 255 v2, parse_uint 65535 ce, parse_uint 255 lv,
            parse_uint 255 c, parse_uint 255 n with
      | Some a, Some _, Some _, Some _, Some _, Some c, Some n => Some (MkEntry a c n name)
      | _, _, _, _, _, _, _ => None
      end
  | _ => None
  end.

(** codegen/src/param_codes.rs:167-171 [id]: [u32] sums of shifted [u8]s do not overflow. *)
Definition entry_id (e : wgrib2_entry) : Z := w_discipline e * 2 ^ 16 + w_category e * 2 ^ 8 + w_number e.

(** codegen/src/param_codes.rs:203-211 [normalize_name]. *)
Definition normalize_name (s : list byte) : list byte :=
  zb 95 :: map (fun b => if bz b =? 45 then zb 95 else b) s.

(** codegen/src/param_codes.rs:26-49: [remapper], from the code of an entry to the code of
    the first entry with the same normalized name.  A [HashMap] is the list of its pairs,
    latest insertion first. *)
Fixpoint assoc {K V} (eqb : K -> K -> bool) (k : K) (l : list (K * V)) : option V :=
  match l with [] => None | (k', v) :: l' => if eqb k k' then Some v else assoc eqb k l' end.
Definition name_eqb (a b : list byte) : bool := if bytes_dec a b then true else false.
Fixpoint remap_loop (codes : list wgrib2_entry) (table : list (list byte * Z)) (remapper : list (Z * Z)) : list (Z * Z) :=
  match codes with
  | [] => remapper
  | e :: codes' =>
      let key := normalize_name (w_name e) in
      match assoc name_eqb key table with
      | Some first => remap_loop codes' table ((entry_id e, first) :: remapper)
      | None => remap_loop codes' ((key, entry_id e) :: table) remapper
      end
  end.
Definition remapper_of (codes : list wgrib2_entry) : list (Z * Z) := remap_loop codes [] [].

(** codegen/src/param_codes.rs:51-82 [enum_variants]: the variants of the enumeration with
    their discriminants, and the arms of [try_from] (codegen/src/lib.rs:35-49), in order:
    of several arms for one code the first one applies. *)
Definition enum_variants (codes : list wgrib2_entry) : list (list byte * Z) :=
  map (fun e => (normalize_name (w_name e), entry_id e))
    (filter (fun e => match assoc Z.eqb (entry_id e) (remapper_of codes) with None => true | Some _ => false end) codes).
Definition enum_try_from (codes : list wgrib2_entry) (value : Z) : option (list byte) :=
  assoc Z.eqb value (map (fun e => (entry_id e, normalize_name (w_name e))) codes).

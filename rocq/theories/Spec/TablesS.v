(** Specifications for the table tools: numerals, lines, parameter tables, code table files. *)
From Coq Require Import Strings.String.
From Verif Require Import Model.Base Model.Tools Model.Tables Spec.ToolsS.

(** What Rust's [parse] takes for a number up to [max]: digits, possibly after a plus sign. *)
Definition numeral (max : Z) (w : list byte) (v : Z) : Prop :=
  exists d, digits d /\ (w = d \/ w = x2b :: d) /\ v = decimal d /\ v <= max.

(** ** Parameter tables *)

(** A line of a table: at least eleven words. *)
Definition table_line (l : list byte) (e : wgrib2_entry) : Prop :=
  exists a x v1 v2 ce lv c n name desc unit more y1 y2 y3 y4,
    l = join ([a; x; v1; v2; ce; lv; c; n; name; desc; unit] ++ more) /\
    Forall word ([a; x; v1; v2; ce; lv; c; n; name; desc; unit] ++ more) /\
    numeral 255 a (w_discipline e) /\ numeral 255 v1 y1 /\ numeral 255 v2 y2 /\ numeral 65535 ce y3 /\ numeral 255 lv y4 /\
    numeral 255 c (w_category e) /\ numeral 255 n (w_number e) /\ name = w_name e.

(** The lines of a text: each ends with a line feed, the last one with the text. *)
Inductive text_lines : list byte -> list (list byte) -> Prop :=
| lines_nil : text_lines [] []
| lines_last : forall l, l <> [] -> ~ In x0a l -> text_lines l [l]
| lines_cons : forall l rest ls, ~ In x0a l -> text_lines rest ls -> text_lines (l ++ [x0a] ++ rest) (l :: ls).

Definition white (b : byte) : Prop := In b [x20; x09; x0a; x0b; x0c; x0d].
(** [w] is [l] without white space at its end. *)
Definition trimmed (l w : list byte) : Prop :=
  exists sp, l = w ++ sp /\ Forall white sp /\ forall w' b, w = w' ++ [b] -> ~ white b.

(** The variant for a name: an underscore, then the name with underscores for hyphens. *)
Definition variant_of (name v : list byte) : Prop :=
  exists v', v = x5f :: v' /\ Forall2 (fun a b => (a = x2d /\ b = x5f) \/ (a <> x2d /\ b = a)) name v'.

(** ** Code table files *)
Notation text := list_byte_of_string.

(** Nothing follows, or a character that ends the number. *)
Definition ends (cs : list byte) (r : list byte) : Prop := r = [] \/ exists c r', r = c :: r' /\ In c cs.
(** There is a comma followed by a space in [s]. *)
Definition has_comma (s : list byte) : Prop := exists p q, s = p ++ [x2c; x20] ++ q.

(** What a subtitle says about the discipline and category that a table is for. *)
Inductive subtitle : list byte -> opt_arg -> Prop :=
| subtitle_none : subtitle [] ArgNone
| subtitle_discipline : forall n d r, numeral 255 n d -> ends [x20] r -> ~ has_comma r ->
    subtitle (text "Product discipline " ++ n ++ r) (ArgL1 d)
| subtitle_category : forall n d r k c r', numeral 255 n d -> ends [x20] r -> ~ has_comma r ->
    numeral 255 k c -> (ends [x20; x3a] r' \/ exists q, r' = [x2c; x20] ++ q) ->
    subtitle (text "Product discipline " ++ n ++ r ++ text ", parameter category " ++ k ++ r') (ArgL2 d c).

(** The name of the file of code table [s].[n]. *)
Definition file_name (stem : list byte) (s n : Z) : Prop :=
  exists ws wn r, stem = text "GRIB2_CodeFlag_" ++ ws ++ [x5f] ++ wn ++ r /\ numeral 255 ws s /\ numeral 255 wn n /\ ends [x5f] r.
(** The beginning of such names. *)
Definition codeflag_name (stem : list byte) : Prop :=
  exists ws wn r, stem = text "GRIB2_CodeFlag_" ++ ws ++ [x5f] ++ wn ++ r /\ ~ In x5f ws /\ ~ In x5f wn /\ ends [x5f] r.

Definition is_for (a : opt_arg) (r : csv_record) : Prop := subtitle (rec_subtitle r) a.

(** The last block of records for [a] in a file. *)
Definition last_block (a : opt_arg) (rs : list csv_record) (r : csv_record) (block : list csv_record) : Prop :=
  exists pre post, rs = pre ++ (r :: block) ++ post /\ Forall (is_for a) (r :: block) /\
    (forall pre' x, pre = pre' ++ [x] -> ~ is_for a x) /\ Forall (fun x => ~ is_for a x) post.

(** Its table: the title of its first record; codes and descriptions. *)
Definition block_table (r : csv_record) (block : list csv_record) : code_table :=
  MkTable (rec_title r) (map (fun x => (rec_code x, rec_desc x)) (r :: block)).

(** The table a code table of the library stands for; the discipline and the category are
    among those the library supports. *)
Definition wmo_table (t : table_id) : option (Z * Z * opt_arg) :=
  match t with
  | CommonCodeTable00 | CommonCodeTable11 => None
  | CodeTable0_0 => Some (0, 0, ArgNone)
  | CodeTable1_1 => Some (1, 1, ArgNone)
  | CodeTable1_2 => Some (1, 2, ArgNone)
  | CodeTable1_3 => Some (1, 3, ArgNone)
  | CodeTable1_4 => Some (1, 4, ArgNone)
  | CodeTable3_1 => Some (3, 1, ArgNone)
  | CodeTable4_0 => Some (4, 0, ArgNone)
  | CodeTable4_1 d => Some (4, 1, ArgL1 d)
  | CodeTable4_2 d c => Some (4, 2, ArgL2 d c)
  | CodeTable4_3 => Some (4, 3, ArgNone)
  | CodeTable4_4 => Some (4, 4, ArgNone)
  | CodeTable4_5 => Some (4, 5, ArgNone)
  | CodeTable5_0 => Some (5, 0, ArgNone)
  end.
Definition supported (t : table_id) : Prop :=
  match t with
  | CodeTable4_1 d => In d [0; 1; 2; 3; 4; 10; 20]
  | CodeTable4_2 d c =>
      d = 0 /\ (0 <= c <= 7 \/ 13 <= c <= 20 \/ 190 <= c <= 191) \/ d = 1 /\ 0 <= c <= 2 \/
      d = 2 /\ (c = 0 \/ 3 <= c <= 5) \/ d = 3 /\ 0 <= c <= 6 \/ d = 4 /\ 0 <= c <= 10 \/
      d = 10 /\ (0 <= c <= 4 \/ c = 191) \/ d = 20 /\ 0 <= c <= 2
  | _ => True
  end.

(** The table that a list of files provides for discipline and category [a] of table
    [s].[n]: the last block of records in the last file that has any. *)
Definition provides (files : list (list byte * list (option csv_record))) (s n : Z) (a : opt_arg) (t : code_table) : Prop :=
  exists before stem rs after r block, files = before ++ (stem, map Some rs) :: after /\ file_name stem s n /\
    last_block a rs r block /\ t = block_table r block /\
    forall stem' rs' x, In (stem', rs') after -> file_name stem' s n -> In (Some x) rs' -> ~ is_for a x.

(** Common code tables: the rows of the last file with that name. *)
Definition provides_cct (files : list (list byte * list (option row))) (stem : list byte) (rows : list row) : Prop :=
  exists before after, files = before ++ (stem, map Some rows) :: after /\ forall rs', ~ In (stem, rs') after.

(** The order of the code tables: by section, by number, and then by what the table is for: a
    table without subtitle, then those of the disciplines, then those of the categories. *)
Definition for_before (a b : opt_arg) : Prop :=
  match a, b with
  | ArgNone, ArgNone => False
  | ArgNone, _ => True
  | ArgL1 _, ArgNone => False
  | ArgL1 d, ArgL1 d' => d < d'
  | ArgL1 _, ArgL2 _ _ => True
  | ArgL2 d c, ArgL2 d' c' => d < d' \/ d = d' /\ c < c'
  | ArgL2 _ _, _ => False
  end.
Definition table_before (x y : Z * Z * opt_arg) : Prop :=
  let '(s, n, a) := x in let '(s', n', a') := y in
  s < s' \/ s = s' /\ (n < n' \/ n = n' /\ for_before a a').

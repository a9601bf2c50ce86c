(** Model of the section data types: /repo/src/context.rs:20-66 and the
    constructors of /repo/src/datatypes/sections.rs. *)
From Verif Require Import Model.Base Model.Helpers Model.Errors.

(** src/context.rs:44-54 [SectionBody], with src/datatypes/sections.rs:18-23
    [Indicator] and the one-field payload structs of the other sections inlined. *)
Inductive body :=
| B0 (discipline total_length : Z)
| B1 (payload : list byte)
| B2 (payload : list byte)
| B3 (payload : list byte)
| B4 (payload : list byte)
| B5 (payload : list byte)
| B6 (indicator : Z)
| B7.

(** src/context.rs:20-26 [SectionInfo]. *)
Record section := MkSection {
  s_num : Z;
  s_offset : Z;
  s_size : Z;
  s_body : option body
}.

(** src/context.rs:20 [#[derive(Default)]]. *)
Definition default_section : section := MkSection 0 0 0 None.

(** src/context.rs:34-41 [SectionInfo::new_8]. *)
Definition new_8 (offset : Z) : section := MkSection 8 offset 4 None.

(** src/datatypes/sections.rs:25-38 [Indicator::from_slice]. *)
Definition indicator_from_slice (s : list byte) : outcome (result body parse_error) :=
  let! discipline := index s 6 in
  let! version := index s 7 in
  if bz version =? 2 then
    let! total := read_u64 s 8 in
    Ret (Ok (B0 (bz discipline) total))
  else Ret (Err (GRIBVersionMismatch (bz version))).

(** src/datatypes/sections.rs:47-54 (section 1), 146-148 (section 2), 161-168
    (section 3), 317-324 (section 4), 504-511 (section 5): [from_payload].  The
    boxed slice is the payload itself. *)
Definition from_payload (num : Z) (p : list byte) : result body parse_error :=
  let need (n : Z) (b : body) :=
    if zlen p <? n then Err (ReadErrorTooSmall (zlen p)) else Ok b in
  match num with
  | 1 => need 16 (B1 p)
  | 2 => Ok (B2 p)
  | 3 => need 9 (B3 p)
  | 4 => need 4 (B4 p)
  | 5 => need 6 (B5 p)
  | _ => Err (UnknownSectionNumber num)
  end.

(** src/datatypes/sections.rs:181-184, 337-340, 526-529: template numbers. *)
Definition grid_tmpl_num (p : list byte) : outcome Z := read_u16 p 7.
Definition prod_tmpl_num (p : list byte) : outcome Z := read_u16 p 2.
Definition repr_tmpl_num (p : list byte) : outcome Z := read_u16 p 4.

(** src/context.rs:56-65 [SectionBody::get_tmpl_num] and 29-32
    [SectionInfo::get_tmpl_code]: [(section number, template number)]. *)
Definition get_tmpl_code (s : section) : outcome (option (Z * Z)) :=
  let code (x : outcome Z) := let! t := x in Ret (Some (s_num s, t)) in
  match s_body s with
  | Some (B3 p) => code (grid_tmpl_num p)
  | Some (B4 p) => code (prod_tmpl_num p)
  | Some (B5 p) => code (repr_tmpl_num p)
  | _ => Ret None
  end.

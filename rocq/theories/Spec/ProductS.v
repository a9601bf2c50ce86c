(** What the accessors of sections 3 and 4 should show of them. *)
From Verif Require Import Model.Base Model.Product Spec.FieldsS.

(** Product definition template number. *)
Definition prod_template (p : list byte) : Z := field p 8 9.
(** Octet [a], if the section reaches to it. *)
Definition octet_if (p : list byte) (a : Z) : option Z := if a <=? zlen p + 5 then Some (field p a a) else None.
(** A fixed surface whose first octet is [a]: type, scale factor, scaled value. *)
Definition surface_at (p : list byte) (a : Z) : surface :=
  MkSurface (field p a a) (sfield p (a + 1) (a + 1)) (sfield p (a + 2) (a + 5)).

(** WMO Code Table 4.4. *)
Definition unit_code (u : unit4_4) : Z :=
  match u with
  | Minute => 0 | Hour => 1 | Day => 2 | Month => 3 | Year => 4 | Decade => 5 | Normal => 6 | Century => 7
  | ThreeHours => 10 | SixHours => 11 | TwelveHours => 12 | Second => 13 | MissingUnit => 255
  end.

Definition is_octet (n : Z) : Prop := 0 <= n < 256.
(** Discipline, category and number that NCEP calls PRES, PRMSL, HGT (WMO Code Table 4.2-0-3). *)
Definition ncep_triple (c : ncep) : Z * Z * Z := match c with PRES => (0, 3, 0) | PRMSL => (0, 3, 1) | HGT => (0, 3, 5) end.

(** What the submessage iterator of a file should return. *)
From Coq Require Import Sorting.Sorted.
From Verif Require Import Model.Base Model.Errors Model.Sections Model.Parser Model.Context Spec.ReaderS Spec.ParserS.

(** The view [v] shows the submessage [u] of a file with the sections [l]. *)
Definition shows (l : list section) (u : submessage section) (v : view) : Prop :=
  u_mi v = u_mi u /\ u_si v = u_si u /\
  snd (u_0 v) = u_0 u /\ snd (u_1 v) = u_1 u /\ option_map snd (u_2 v) = u_2 u /\
  snd (u_3 v) = u_3 u /\ snd (u_4 v) = u_4 u /\ snd (u_5 v) = u_5 u /\ snd (u_6 v) = u_6 u /\ snd (u_7 v) = u_7 u /\
  (* the end section, or the first section of the file *)
  (snd (u_8 v) = u_8 u \/ (u_8 u = no_end_section /\ nth_error l 0 = Some (snd (u_8 v)))).

(** [n] times: ask for the next submessage, drop it. *)
Fixpoint next_drop (n : nat) : list call :=
  match n with O => [] | S n' => CNext :: CDrop :: next_drop n' end.

(** Every view is dropped before the next one is asked for ([held]: one is alive). *)
Fixpoint disciplined (held : bool) (cs : list call) : Prop :=
  match cs with
  | [] => True
  | CDrop :: cs' => disciplined false cs'
  | _ :: cs' => held = false /\ disciplined true cs'
  end.

(** What the calls [cs] return on an iterator over [vs] that stands at number [p], if a
    view is alive ([held]) or not; [None]: panic, two views at a time.  [nth(n)] moves to
    number [n] of all, and an iterator moved past the end stays there. *)
Fixpoint answers {A} (vs : list A) (p : nat) (held : bool) (cs : list call) : option (list (option A)) :=
  let item (n : nat) (cs' : list call) :=
    match nth_error vs n with
    | None => option_map (cons None) (answers vs n held cs')
    | Some v => if held then None else option_map (cons (Some v)) (answers vs (S n) true cs')
    end in
  match cs with
  | [] => Some []
  | CNext :: cs' => item p cs'
  | CNth n :: cs' => item (Z.to_nat n) cs'
  | CDrop :: cs' => answers vs p false cs'
  end.

(** Template numbers: the section number and the template number of a section 3, 4, 5. *)
Definition template_of (s : section) (c : Z * Z) : Prop :=
  exists p off, ((s_body s = Some (B3 p) /\ off = 7) \/ (s_body s = Some (B4 p) /\ off = 2) \/ (s_body s = Some (B5 p) /\ off = 4)) /\
    c = (s_num s, be (octets p off 2)).

(** The payload of a section 3, 4 or 5 reaches to its template number (always so for
    sections that have been read, see C38). *)
Definition has_template (s : section) : Prop :=
  match s_body s with
  | Some (B3 p) => 9 <= zlen p
  | Some (B4 p) => 4 <= zlen p
  | Some (B5 p) => 6 <= zlen p
  | _ => True
  end.

Definition tmpl_lt (a b : Z * Z) : Prop := fst a < fst b \/ (fst a = fst b /\ snd a < snd b).

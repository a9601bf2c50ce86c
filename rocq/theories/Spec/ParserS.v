(** The order of sections in GRIB2 data, and what the submessages of a section
    sequence are; independent of the parser (only the record types of sections and
    submessages are shared). *)
From Verif Require Import Model.Base Model.Errors Model.Sections Model.Parser.

(** ** Grammar: (0 1 ((2? 3)? 4 5 6 7)+ 8)*, the first group of a message having a
    section 3. *)
Record group := MkGroup {
  gr2 : option section; gr3 : option section;
  gr4 : section; gr5 : section; gr6 : section; gr7 : section
}.
Record message := MkMessage { ms0 : section; ms1 : section; groups : list group; ms8 : section }.

Definition opt_list {A} (o : option A) : list A := match o with Some a => [a] | None => [] end.

Definition group_sections (g : group) : list section :=
  opt_list (gr2 g) ++ opt_list (gr3 g) ++ [gr4 g; gr5 g; gr6 g; gr7 g].
Definition message_sections (m : message) : list section :=
  ms0 m :: ms1 m :: flat_map group_sections (groups m) ++ [ms8 m].

Definition opt_num (n : Z) (o : option section) : Prop :=
  match o with Some s => s_num s = n | None => True end.

Definition wf_group (g : group) : Prop :=
  opt_num 2 (gr2 g) /\ opt_num 3 (gr3 g) /\ (gr2 g <> None -> gr3 g <> None) /\
  s_num (gr4 g) = 4 /\ s_num (gr5 g) = 5 /\ s_num (gr6 g) = 6 /\ s_num (gr7 g) = 7.

Definition wf_message (m : message) : Prop :=
  s_num (ms0 m) = 0 /\ s_num (ms1 m) = 1 /\ s_num (ms8 m) = 8 /\
  Forall wf_group (groups m) /\
  exists g gs, groups m = g :: gs /\ gr3 g <> None.

(** ** The submessages *)

(** The most recent one present. *)
Fixpoint latest {A} (l : list (option A)) : option A :=
  match l with
  | [] => None
  | x :: l' => match latest l' with Some a => Some a | None => x end
  end.

(** The stand-in for the end section of a submessage that is not the last one of
    its message. *)
Definition no_end_section : section := MkSection 8 0 4 None.

(** [u] is submessage [k] (from 0) of message number [i], whose sections 0 and 1 are
    [s0], [s1], whose groups are [gs] and whose end section is [s8]. *)
Definition is_submessage (i : Z) (s0 s1 : section) (gs : list group) (s8 : section) (k : nat)
  (u : submessage section) : Prop :=
  u_mi u = i /\ u_si u = Z.of_nat k /\ u_0 u = s0 /\ u_1 u = s1 /\
  u_2 u = latest (map gr2 (firstn (S k) gs)) /\
  Some (u_3 u) = latest (map gr3 (firstn (S k) gs)) /\
  (exists g, nth_error gs k = Some g /\
     u_4 u = gr4 g /\ u_5 u = gr5 g /\ u_6 u = gr6 g /\ u_7 u = gr7 g) /\
  u_8 u = if (S k =? length gs)%nat then s8 else no_end_section.

(** [us] are the submessages of message number [i]. *)
Definition submessages_of (i : Z) (m : message) (us : list (submessage section)) : Prop :=
  length us = length (groups m) /\
  forall k u, nth_error us k = Some u -> is_submessage i (ms0 m) (ms1 m) (groups m) (ms8 m) k u.

(** [us] are the submessages of the messages [ms], numbered from [i]. *)
Inductive submessages_of_all : Z -> list message -> list (submessage section) -> Prop :=
| sub_all_nil : forall i, submessages_of_all i [] []
| sub_all_cons : forall i m ms us us',
    submessages_of i m us -> submessages_of_all (i + 1) ms us' ->
    submessages_of_all i (m :: ms) (us ++ us').

(** ** Where a sequence goes wrong *)

(** [pre] is the beginning of a well-formed message, not all of it. *)
Definition viable (pre : list section) : Prop :=
  exists m q, wf_message m /\ q <> [] /\ message_sections m = pre ++ q.

(** [s] may follow [pre]. *)
Definition may_follow (pre : list section) (s : section) : Prop :=
  exists m q, wf_message m /\ message_sections m = pre ++ s :: q.

(** [gs] are the complete groups of the unfinished message [pre]; [t] is what comes
    after them. *)
Definition unfinished (pre : list section) (s0 s1 : section) (gs : list group) (t : list section) : Prop :=
  pre = s0 :: s1 :: flat_map group_sections gs ++ t /\
  Forall wf_group gs /\
  exists g q, wf_group g /\ q <> [] /\ group_sections g = t ++ q.

(** What comes next ([rest]) cannot continue the well-formed beginning [pre]: the
    section is out of order, cannot be read, or is missing. *)
Definition broken (pre : list section) (rest : list item) : Prop :=
  match rest with
  | [] => pre <> []
  | Err _ :: _ => True
  | Ok s :: _ => ~ may_follow pre s
  end.

(** The error reported there, [n] sections having been read before. *)
Definition order_error (pre : list section) (n : Z) (rest : list item) (e : parse_error) : Prop :=
  match rest with
  | [] => e = UnexpectedEndOfData (n - 1)
  | Err e' :: _ => e = e'
  | Ok s :: _ =>
      (* a section 4 although the message has no section 3 yet *)
      (length pre = 2%nat /\ s_num s = 4 /\ e = NoGridDefinition n) \/
      ((length pre <> 2%nat \/ s_num s <> 4) /\ e = InvalidSectionOrder n)
  end.

(** Number of groups reported of an unfinished message: all complete ones, but the
    last one only if some readable section comes after its section 7. *)
Definition reported (gs : list group) (t : list section) (rest : list item) : nat :=
  match t, rest with
  | [], [] => pred (length gs)
  | [], Err _ :: _ => pred (length gs)
  | _, _ => length gs
  end.

(** [us] are the submessages reported of the unfinished message [pre], number [i]. *)
Inductive partial_submessages (i : Z) (pre : list section) (rest : list item)
  : list (submessage section) -> Prop :=
| partial_short : (length pre < 2)%nat -> partial_submessages i pre rest []
| partial_long : forall s0 s1 gs t us,
    unfinished pre s0 s1 gs t ->
    length us = reported gs t rest ->
    (forall k u, nth_error us k = Some u -> is_submessage i s0 s1 gs no_end_section k u) ->
    partial_submessages i pre rest us.

(** The next [n] calls of [next] all return [None]. *)
Fixpoint only_none {A} (n : nat) (it : iter A) : Prop :=
  match n with
  | O => True
  | S n' => exists it', next it = Ret (None, it') /\ only_none n' it'
  end.

(** ** Indices *)

(** Item number [p] of the source is the section [s]. *)
Definition points (it : iter item) (s : section) (p : Z) : Prop :=
  0 <= p /\ exists l it', Steps it l it' /\ nth_error l (Z.to_nat p) = Some (Ok s).

Definition opt_points (it : iter item) (o : option section) (q : option Z) : Prop :=
  match o, q with
  | None, None => True
  | Some s, Some p => points it s p
  | _, _ => False
  end.

(** The index submessage [w] points at the sections of the submessage [u]. *)
Definition same_submessage (it : iter item) (u : submessage section) (w : submessage Z) : Prop :=
  u_mi w = u_mi u /\ u_si w = u_si u /\
  points it (u_0 u) (u_0 w) /\ points it (u_1 u) (u_1 w) /\ opt_points it (u_2 u) (u_2 w) /\
  points it (u_3 u) (u_3 w) /\ points it (u_4 u) (u_4 w) /\ points it (u_5 u) (u_5 w) /\
  points it (u_6 u) (u_6 w) /\ points it (u_7 u) (u_7 w) /\
  (* the end section, if the submessage is the last one of its message *)
  (points it (u_8 u) (u_8 w) \/ (u_8 u = no_end_section /\ u_8 w = 0)).

Definition same_item (it : iter item) (x : result (submessage section) parse_error)
  (y : result (submessage Z) parse_error) : Prop :=
  match x, y with
  | Ok u, Ok w => same_submessage it u w
  | Err e, Err e' => e = e'
  | _, _ => False
  end.

(** The index submessage [w] points, in the list of all sections, at the sections of
    the submessage [u]. *)
Definition entry (l : list section) (s : section) (p : Z) : Prop :=
  0 <= p /\ nth_error l (Z.to_nat p) = Some s.
Definition opt_entry (l : list section) (o : option section) (q : option Z) : Prop :=
  match o, q with
  | None, None => True
  | Some s, Some p => entry l s p
  | _, _ => False
  end.
Definition indexes (l : list section) (u : submessage section) (w : submessage Z) : Prop :=
  u_mi w = u_mi u /\ u_si w = u_si u /\
  entry l (u_0 u) (u_0 w) /\ entry l (u_1 u) (u_1 w) /\ opt_entry l (u_2 u) (u_2 w) /\
  entry l (u_3 u) (u_3 w) /\ entry l (u_4 u) (u_4 w) /\ entry l (u_5 u) (u_5 w) /\
  entry l (u_6 u) (u_6 w) /\ entry l (u_7 u) (u_7 w) /\
  (* the end section, if the submessage is the last one of its message; otherwise
     the first section of the file *)
  (entry l (u_8 u) (u_8 w) \/ (u_8 u = no_end_section /\ u_8 w = 0)).

(** Two files, one after the other. *)
From Verif Require Import Model.Base Model.Errors Model.Sections Model.Parser Model.Context Spec.ReaderS.

(** The section [k] octets later. *)
Definition moved (k : Z) (x : section) : section := MkSection (s_num x) (s_offset x + k) (s_size x) (s_body x).
(** Where the last section ends. *)
Definition table_end (l : list section) : Z := match rev l with x :: _ => s_offset x + s_size x | [] => 0 end.
(** How many messages there are: each has one section 0. *)
Definition messages_in (l : list section) : Z := zlen (filter (fun x => s_num x =? 0) l).
(** The submessage after [a] more messages and [b] more sections; an end section that is the first section
    of the file (C29) stays there. *)
Definition renumbered (a b : Z) (w : submessage Z) : submessage Z :=
  MkSubmessage (u_mi w + a) (u_si w) (u_0 w + b) (u_1 w + b) (option_map (fun i => i + b) (u_2 w)) (u_3 w + b) (u_4 w + b) (u_5 w + b) (u_6 w + b) (u_7 w + b)
    (if u_8 w =? 0 then 0 else u_8 w + b).
(** A submessage [a] messages, [b] sections and [k] octets later; [e]: its end section. *)
Definition moved_view (a b k : Z) (e : Z * section) (v : view) : view :=
  let later (x : Z * section) := (fst x + b, moved k (snd x)) in
  MkSubmessage (u_mi v + a) (u_si v) (later (u_0 v)) (later (u_1 v)) (option_map later (u_2 v)) (later (u_3 v)) (later (u_4 v)) (later (u_5 v)) (later (u_6 v)) (later (u_7 v)) e.

(** Property theorems C23-C26, C29: section order and submessages.  [it] is any source
    of sections. *)
From Coq Require Import Lia.
From Verif Require Import Model.Base Model.Errors Model.Sections Model.Parser Spec.ParserS.
From Verif Require Proofs.ParserX.

(** For the examples: a message with three groups (the second one without sections 2, 3,
    the third one with a new section 3), and a message with one group. *)
Definition sec (n k : Z) : section := MkSection n (100 * k + n) 0 None.
Definition ex_m1 : message :=
  MkMessage (sec 0 0) (sec 1 0)
    [MkGroup (Some (sec 2 0)) (Some (sec 3 0)) (sec 4 0) (sec 5 0) (sec 6 0) (sec 7 0);
     MkGroup None None (sec 4 1) (sec 5 1) (sec 6 1) (sec 7 1);
     MkGroup None (Some (sec 3 2)) (sec 4 2) (sec 5 2) (sec 6 2) (sec 7 2)] (sec 8 0).
Definition ex_m2 : message :=
  MkMessage (sec 0 3) (sec 1 3) [MkGroup None (Some (sec 3 3)) (sec 4 3) (sec 5 3) (sec 6 3) (sec 7 3)] (sec 8 3).
Example ex_wf : Forall wf_message [ex_m1; ex_m2].
Proof.
  unfold ex_m1, ex_m2.
  constructor; [|constructor; [|constructor]].
  all: unfold wf_message; cbn [ms0 ms1 ms8 groups]; split; [reflexivity|]; split; [reflexivity|]; split; [reflexivity|].
  all: split; [|eexists _, _; split; [reflexivity|cbn [gr3]; intro; discriminate]].
  all: repeat apply Forall_cons; try apply Forall_nil; unfold wf_group; cbn [gr2 gr3 gr4 gr5 gr6 gr7 opt_num].
  all: unfold sec; cbn [s_num]; intuition congruence.
Qed.

(** C23: a source of sections is accepted, by either stream, iff its sections follow the
    grammar. *)
Theorem C23_accepts_grammar : forall it l, Run it l End ->
  (exists us, Run (submessage_stream it) (map Ok us) End) <->
  (exists ms, Forall wf_message ms /\ l = map Ok (flat_map message_sections ms)).
Proof. exact ParserX.value_iff. Qed.
Print Assumptions C23_accepts_grammar.
Theorem C23_index_accepts_grammar : forall it l, Run it l End ->
  (exists us, Run (submessage_index_stream it) (map Ok us) End) <->
  (exists ms, Forall wf_message ms /\ l = map Ok (flat_map message_sections ms)).
Proof. exact ParserX.index_iff. Qed.
Print Assumptions C23_index_accepts_grammar.
Example C23_ex :
  map s_num (flat_map message_sections [ex_m1; ex_m2]) = [0; 1; 2; 3; 4; 5; 6; 7; 4; 5; 6; 7; 3; 4; 5; 6; 7; 8; 0; 1; 3; 4; 5; 6; 7; 8].
Proof. reflexivity. Qed.

(** C24: the submessages of an accepted sequence. *)
Theorem C24_submessages : forall it ms, Run it (map Ok (flat_map message_sections ms)) End -> Forall wf_message ms ->
  exists us, Run (submessage_stream it) (map Ok us) End /\ submessages_of_all 0 ms us.
Proof. exact ParserX.value_wf. Qed.
Print Assumptions C24_submessages.
Example C24_ex :
  collect 10 (submessage_stream (iter_of_list (map Ok (flat_map message_sections [ex_m1; ex_m2])))) = Ret (map Ok
  [MkSubmessage 0 0 (sec 0 0) (sec 1 0) (Some (sec 2 0)) (sec 3 0) (sec 4 0) (sec 5 0) (sec 6 0) (sec 7 0) no_end_section;
   MkSubmessage 0 1 (sec 0 0) (sec 1 0) (Some (sec 2 0)) (sec 3 0) (sec 4 1) (sec 5 1) (sec 6 1) (sec 7 1) no_end_section;
   MkSubmessage 0 2 (sec 0 0) (sec 1 0) (Some (sec 2 0)) (sec 3 2) (sec 4 2) (sec 5 2) (sec 6 2) (sec 7 2) (sec 8 0);
   MkSubmessage 1 0 (sec 0 3) (sec 1 3) None (sec 3 3) (sec 4 3) (sec 5 3) (sec 6 3) (sec 7 3) (sec 8 3)]).
Proof. vm_compute. reflexivity. Qed.

(** C25: a sequence that breaks after the well-formed messages [ms] and the beginning
    [pre] of another one yields all submessages of [ms], those of [pre] that are known to
    be complete, one error for the offending place, and nothing more. *)
Theorem C25_error_ends : forall it ms pre rest, Run it (map Ok (flat_map message_sections ms ++ pre) ++ rest) End ->
  Forall wf_message ms -> viable pre -> broken pre rest ->
  exists us us' e it',
    submessages_of_all 0 ms us /\ partial_submessages (zlen ms) pre rest us' /\
    order_error pre (zlen (flat_map message_sections ms ++ pre)) rest e /\
    Steps (submessage_stream it) (map Ok us ++ map Ok us' ++ [Err e]) it' /\
    forall n, only_none n it'.
Proof. exact ParserX.value_broken. Qed.
Print Assumptions C25_error_ends.
(** C25: every sequence is of one of the two kinds. *)
Theorem C25_exhaustive : forall l : list item,
  (exists ms, Forall wf_message ms /\ l = map Ok (flat_map message_sections ms)) \/
  (exists ms pre rest, Forall wf_message ms /\ viable pre /\ broken pre rest /\
     l = map Ok (flat_map message_sections ms ++ pre) ++ rest).
Proof. exact ParserX.exhaustive. Qed.
Print Assumptions C25_exhaustive.
Example C25_ex :
  collect 10 (submessage_stream (iter_of_list (map Ok
    (message_sections ex_m2 ++ [sec 0 4; sec 1 4; sec 3 4; sec 4 4; sec 5 4; sec 6 4; sec 7 4; sec 5 4; sec 8 4])))) = Ret
  [Ok (MkSubmessage 0 0 (sec 0 3) (sec 1 3) None (sec 3 3) (sec 4 3) (sec 5 3) (sec 6 3) (sec 7 3) (sec 8 3));
   Ok (MkSubmessage 1 0 (sec 0 4) (sec 1 4) None (sec 3 4) (sec 4 4) (sec 5 4) (sec 6 4) (sec 7 4) no_end_section);
   Err (InvalidSectionOrder 15)].
Proof. vm_compute. reflexivity. Qed.

(** C26: whatever the source, the two streams yield corresponding items and end alike. *)
Theorem C26_index_follows : forall it l e, Run (submessage_stream it) l e ->
  exists l', Run (submessage_index_stream it) l' e /\ Forall2 (same_item it) l l'.
Proof. exact ParserX.streams_agree. Qed.
Print Assumptions C26_index_follows.
Theorem C26_value_follows : forall it l' e, Run (submessage_index_stream it) l' e ->
  exists l, Run (submessage_stream it) l e /\ Forall2 (same_item it) l l'.
Proof. exact ParserX.streams_agree'. Qed.
Print Assumptions C26_value_follows.
Example C26_ex :
  collect 10 (submessage_index_stream (iter_of_list (map Ok (flat_map message_sections [ex_m1; ex_m2])))) = Ret (map Ok
  [MkSubmessage 0 0 0 1 (Some 2) 3 4 5 6 7 0; MkSubmessage 0 1 0 1 (Some 2) 3 8 9 10 11 0;
   MkSubmessage 0 2 0 1 (Some 2) 12 13 14 15 16 17; MkSubmessage 1 0 18 19 None 20 21 22 23 24 25]).
Proof. vm_compute. reflexivity. Qed.

(** C29: of a message with several submessages only the last one refers to the end
    section, the others refer to section number 0 of the file.  (A file has no section 8
    at offset 0.) *)
Theorem C29_end_section : forall it ms, Run it (map Ok (flat_map message_sections ms)) End -> Forall wf_message ms ->
  (forall p, ~ points it no_end_section p) ->
  exists ws, Run (submessage_index_stream it) (map Ok ws) End /\
  forall w, In w ws -> exists m, nth_error ms (Z.to_nat (u_mi w)) = Some m /\
    if u_si w + 1 =? zlen (groups m) then points it (ms8 m) (u_8 w) else u_8 w = 0.
Proof. exact ParserX.index_end. Qed.
Print Assumptions C29_end_section.
(* C26_ex: submessages 0 and 1 of message 0 refer to section 0. *)
